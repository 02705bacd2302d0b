(** Where the bytes of an image go. *)
From Coq Require Import ZArith List Bool.
From Verif Require Import Base World MemSim MemSpec.
Import ListNotations.
Open Scope Z_scope.

(** The pieces in which an image is stored from an address: words while more than four bytes are left,
    then single bytes; addresses wrap. *)
Inductive pieces : Z -> list Z -> list (Z * list Z) -> Prop :=
| pc_end a : pieces a [] []
| pc_byte a b t l : (length t < 4)%nat -> pieces (W (a + 1)) t l -> pieces a (b :: t) ((a, [b]) :: l)
| pc_word a b0 b1 b2 b3 t l : t <> [] -> pieces (W (a + 4)) t l -> pieces a (b0 :: b1 :: b2 :: b3 :: t) ((a, [b0; b1; b2; b3]) :: l).

(** A piece is served by the bytes from [k] of the storage of region [j]. *)
Definition placed (rs : list region) (p : Z * list Z) (q : nat * Z * list Z) : Prop :=
  let '(j, k, bs) := q in bs = snd p /\ serves rs (fst p) (zlen bs) j k.
Definition unplaced (rs : list region) (p : Z * list Z) : Prop := forall j k, ~ serves rs (fst p) (zlen (snd p)) j k.

(** A byte of storage that held [v], after the given runs of bytes are stored one after the other. *)
Fixpoint cell_after (qs : list (nat * Z * list Z)) (j : nat) (k : Z) (v : option Z) : option Z :=
  match qs with
  | [] => v
  | (j0, k0, bs) :: t =>
      cell_after t j k (if (j =? j0)%nat && (k0 <=? k) && (k <? k0 + zlen bs) then nth_error bs (Z.to_nat (k - k0)) else v)
  end.
Definition stored (w w' : world) (qs : list (nat * Z * list Z)) : Prop :=
  forall j k, storage (regions w') j k = cell_after qs j k (storage (regions w) j k).
