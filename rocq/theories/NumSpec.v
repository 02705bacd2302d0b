(** Specification vocabulary for numbers on the command line: decimal, octal and hexadecimal numerals
    as in C.  Nothing here refers to the functions that read them. *)
From Coq Require Import ZArith List.
From Verif Require Import Base DumpSpec CmdSpec.
Import ListNotations.
Open Scope Z_scope.

(** The character is the digit [d] in this base (at most 16; letters in either case). *)
Definition is_digit (base c d : Z) : Prop := hex_value c = Some d /\ d < base.

(** The digits, most significant first, have this value. *)
Inductive value_of (base : Z) : list Z -> Z -> Prop :=
| v_nil : value_of base [] 0
| v_snoc ds n c d : value_of base ds n -> is_digit base c d -> value_of base (ds ++ [c]) (base * n + d).

(** The text is a numeral for [n]: decimal digits that do not start with 0, octal digits after a 0, or
    hexadecimal digits after 0x or 0X. *)
Inductive numeral : list Z -> Z -> Prop :=
| n_decimal c ds n : c <> 48 -> value_of 10 (c :: ds) n -> numeral (c :: ds) n
| n_octal ds n : value_of 8 ds n -> numeral (48 :: ds) n
| n_hex x ds n : x = 120 \/ x = 88 -> ds <> [] -> value_of 16 ds n -> numeral (48 :: x :: ds) n.

(** Two texts for the same 32-bit number. *)
Definition same_number (t t' : list Z) : Prop := exists n, u32 n /\ numeral t n /\ numeral t' n.

(** The same option, with numbers perhaps written differently. *)
Inductive same_option : opt -> opt -> Prop :=
| so_elf f : same_option (Elf f) (Elf f)
| so_bin f a a' : same_number a a' -> same_option (Bin f a) (Bin f a')
| so_dump f : same_option (DumpFile f) (DumpFile f)
| so_alias b b' s s' r r' : same_number b b' -> same_number s s' -> same_number r r' -> same_option (Alias b s r) (Alias b' s' r').

(** What any text is taken for, number or not: after blanks and at most one sign, the longest numeral
    the rest starts with; 0 if it does not start with one.  (This is what the C standard says of
    strtoul with base 0, for a 64-bit unsigned long, and of the conversion to 32 bits.) *)
Definition sign_text (neg : bool) (t : list Z) : Prop := if neg then t = [45] else t = [] \/ t = [43].
Definition starts_with_numeral (t num rest : list Z) (neg : bool) (n : Z) : Prop :=
  exists gap sign, t = gap ++ sign ++ num ++ rest /\ Forall (fun c => c = 32 \/ 9 <= c <= 13) gap /\ sign_text neg sign /\ numeral num n /\
    forall more m rest', rest = more ++ rest' -> numeral (num ++ more) m -> more = [].
Inductive taken_for (t : list Z) : Z -> Prop :=
| tf_number num rest neg n : starts_with_numeral t num rest neg n -> n < 2 ^ 64 -> taken_for t ((if neg then - n else n) mod 2 ^ 32)
| tf_huge num rest neg n : starts_with_numeral t num rest neg n -> 2 ^ 64 <= n -> taken_for t (2 ^ 32 - 1)
| tf_none : (forall num rest neg n, ~ starts_with_numeral t num rest neg n) -> taken_for t 0.
