(** Base definitions: bytes, machine words, C strings, printf conversions, strtoul.

    Bytes and machine words are [Z]; every wrap-around is explicit.  A C string is the list of
    its bytes before the terminating NUL (so the end of the list is the NUL). *)
From Coq Require Import String Ascii ZArith List Bool.
Import ListNotations.
Open Scope Z_scope.

(** ** 32-bit words *)

(** uint32_t conversion (C11 6.3.1.3): reduction modulo 2^32. *)
Definition W (x : Z) : Z := x mod 4294967296.

(** The range of a uint32_t value. *)
Definition u32 (x : Z) : Prop := 0 <= x < 4294967296.

(** The range of a uint8_t value. *)
Definition byte (x : Z) : Prop := 0 <= x < 256.

(** ** Lists indexed by Z *)

Definition zlen {A} (l : list A) : Z := Z.of_nat (length l).

(** [n] elements of [l] starting at offset [off]. *)
Definition slice {A} (l : list A) (off n : Z) : list A :=
  firstn (Z.to_nat n) (skipn (Z.to_nat off) l).

(** [l] with the elements starting at offset [off] overwritten by [bs]. *)
Definition splice {A} (l : list A) (off : Z) (bs : list A) : list A :=
  firstn (Z.to_nat off) l ++ bs ++ skipn (Z.to_nat off + length bs) l.

(** Replace the [i]-th element by [f] of it (no effect if [i] is out of range). *)
Fixpoint upd_nth {A} (i : nat) (f : A -> A) (l : list A) : list A :=
  match l, i with
  | [], _ => []
  | x :: t, O => f x :: t
  | x :: t, S j => x :: upd_nth j f t
  end.

(** ** Little-endian encoding.  Simplification: the host is little-endian (the code stores words
    through [uint32_t*] casts, MemorySim.c 577-605, and is only used on little-endian hosts). *)

Fixpoint le (n : nat) (v : Z) : list Z :=
  match n with
  | O => []
  | S k => v mod 256 :: le k (v / 256)
  end.

Fixpoint of_le (bs : list Z) : Z :=
  match bs with
  | [] => 0
  | b :: t => b + 256 * of_le t
  end.

(** ** Text *)

(** Bytes of a Coq string literal. *)
Fixpoint s2b (s : string) : list Z :=
  match s with
  | EmptyString => []
  | String a t => Z.of_nat (nat_of_ascii a) :: s2b t
  end.

(** Equality of byte lists. *)
Fixpoint bytes_eqb (a b : list Z) : bool :=
  match a, b with
  | [], [] => true
  | x :: s, y :: t => (x =? y) && bytes_eqb s t
  | _, _ => false
  end.

(** Upper-case digit of a value below 16 ("%X"). *)
Definition hexU (d : Z) : Z := if d <? 10 then 48 + d else 55 + d.
(** Lower-case digit of a value below 16. *)
Definition hexL (d : Z) : Z := if d <? 10 then 48 + d else 87 + d.

(** Digits of [v] in base [b], most significant first, without leading zeros ([v] = 0 gives [0]). *)
Fixpoint digits (fuel : nat) (b v : Z) : list Z :=
  match fuel with
  | O => [v mod b]
  | S k => if v <? b then [v] else digits k b (v / b) ++ [v mod b]
  end.

(** Exactly [n] digits, most significant first, with leading zeros. *)
Fixpoint digits_pad (n : nat) (b v : Z) : list Z :=
  match n with
  | O => []
  | S k => digits_pad k b (v / b) ++ [v mod b]
  end.

(** printf "%X" of an unsigned int. *)
Definition fmtX (v : Z) : list Z := map hexU (digits 8 16 v).
(** printf "%08X" of an unsigned int (at most 8 digits since it is 32 bits wide). *)
Definition fmt08X (v : Z) : list Z := map hexU (digits_pad 8 16 v).
(** printf "%u" / "%ld" of a non-negative value. *)
Definition fmtu (v : Z) : list Z := map (fun d => 48 + d) (digits 20 10 v).
(** printf "%d" of the int with the same bits as the 32-bit value [v]. *)
Definition fmtd (v : Z) : list Z :=
  if v <? 2147483648 then fmtu v else 45 :: fmtu (4294967296 - v).

(** ** <ctype.h> in the "C" locale.  Simplification: bytes above 127 are not spaces/digits (glibc);
    passing a negative char to isspace is formally undefined. *)
Definition isspace (c : Z) : bool := (c =? 32) || ((9 <=? c) && (c <=? 13)).

Definition isHexDigit (c : Z) : bool :=
  ((48 <=? c) && (c <=? 57)) || ((97 <=? c) && (c <=? 102)) || ((65 <=? c) && (c <=? 70)).

(** Value of a digit character in any base up to 36, if it is one. *)
Definition digit_val (c : Z) : option Z :=
  if (48 <=? c) && (c <=? 57) then Some (c - 48)
  else if (97 <=? c) && (c <=? 122) then Some (c - 87)
  else if (65 <=? c) && (c <=? 90) then Some (c - 55)
  else None.

Fixpoint skip_ws (l : list Z) : list Z :=
  match l with
  | c :: t => if isspace c then skip_ws t else l
  | [] => []
  end.

(** Accumulate digits valid in [base]; returns the value and the unread rest. *)
Fixpoint acc_digits (base acc : Z) (l : list Z) : Z * list Z :=
  match l with
  | c :: t =>
      match digit_val c with
      | Some d => if d <? base then acc_digits base (acc * base + d) t else (acc, l)
      | None => (acc, l)
      end
  | [] => (acc, [])
  end.

(** Largest unsigned long.  Simplification: 64-bit unsigned long (LP64 hosts). *)
Definition ULONG_MAX : Z := 18446744073709551615.

Definition strtoul_finish (neg : bool) (vr : Z * list Z) : Z * list Z :=
  let (v, rest) := vr in
  if ULONG_MAX <? v then (ULONG_MAX, rest)
  else if neg then ((- v) mod (ULONG_MAX + 1), rest) else (v, rest).

(** Digits of a strtoul subject after white space and sign, base prefix detected (base argument 0).
    [None] means no conversion could be performed. *)
Definition strtoul_body (l : list Z) : option (Z * list Z) :=
  match l with
  | 48 :: x :: d :: t =>
      if ((x =? 120) || (x =? 88)) && isHexDigit d then Some (acc_digits 16 0 (d :: t))
      else Some (acc_digits 8 0 l)
  | 48 :: _ => Some (acc_digits 8 0 l)
  | c :: _ => if (48 <=? c) && (c <=? 57) then Some (acc_digits 10 0 l) else None
  | [] => None
  end.

(** C11 7.22.1.4 strtoul(s, &end, 0): value and the text at [end]. *)
Definition strtoul0 (s : list Z) : Z * list Z :=
  let l1 := skip_ws s in
  let '(neg, l2) :=
    match l1 with
    | 45 :: t => (true, t)
    | 43 :: t => (false, t)
    | _ => (false, l1)
    end in
  match strtoul_body l2 with
  | Some vr => strtoul_finish neg vr
  | None => (0, s)
  end.

(** strtoul(s, NULL, 0) assigned to a uint32_t. *)
Definition strtou32 (s : list Z) : Z := W (fst (strtoul0 s)).

(** strcasecmp(a, b) == 0 in the "C" locale. *)
Definition tolower (c : Z) : Z := if (65 <=? c) && (c <=? 90) then c + 32 else c.
Definition strcaseeq (a b : list Z) : bool := bytes_eqb (map tolower a) (map tolower b).
