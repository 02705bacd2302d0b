(** Specification vocabulary for the --alias options of the command line.  [ps] is what the image and
    the dump put into memory: pairs of an address and the bytes from there on. *)
From Coq Require Import String ZArith List.
From Verif Require Import Base CmdSpec.
Import ListNotations.
Open Scope Z_scope.

(** The numbers of the aliases in the order in which they are requested: address, size, redirect address. *)
Definition aliases (os : list opt) : list (Z * Z * Z) :=
  flat_map (fun o => match o with Alias b s r => [(strtou32 b, strtou32 s, strtou32 r)] | _ => [] end) os.

(** The little-endian number in the [n] bytes at address [a]. *)
Definition number_at (ps : list (Z * list Z)) (n a v : Z) : Prop :=
  exists base bs i, In (base, bs) ps /\ 0 <= i /\ i + n <= zlen bs /\ a = base + i /\ v = of_le (firstn (Z.to_nat n) (skipn (Z.to_nat i) bs)).

(** The part [p] contains the address [a]. *)
Definition contains (p : Z * list Z) (a : Z) : Prop := fst p <= a < fst p + zlen (snd p).

(** The [n] bytes at address [a] lie in the part [p]. *)
Definition within (p : Z * list Z) (n a : Z) : Prop := fst p <= a /\ a + n <= fst p + zlen (snd p).
(** They lie in no part. *)
Definition in_no_part (ps : list (Z * list Z)) (n a : Z) : Prop := forall p, In p ps -> ~ within p n a.

(** The alias leads an access of [n] bytes from [a] to [a']: the bytes at [a] lie within the requested
    size, and those at [a'], which is as far from the redirect address as [a] from the alias's address,
    still lie in the part that contains the redirect address. *)
Definition leads (ps : list (Z * list Z)) (al : Z * Z * Z) (n a a' : Z) : Prop :=
  let '(base, size, redirect) := al in
  base <= a /\ a + n <= base + size /\ a' = redirect + (a - base) /\ exists p, In p ps /\ contains p redirect /\ within p n a'.

(** The redirect address lies in a part. *)
Definition grounded (ps : list (Z * list Z)) (al : Z * Z * Z) : Prop :=
  let '(_, _, redirect) := al in exists p, In p ps /\ contains p redirect.

(** The error message about an alias that cannot be created. *)
Definition alias_message (al : Z * Z * Z) : list Z :=
  let '(base, size, redirect) := al in
  s2b "Failed to create alias of 0x" ++ fmt08X base ++ s2b " to 0x" ++ fmt08X redirect ++ s2b " of size " ++ fmtd size ++ s2b ".".
