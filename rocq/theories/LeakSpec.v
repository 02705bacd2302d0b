(** What a start-up may leave allocated: specification. *)
From Coq Require Import ZArith List Bool.
From Verif Require Import Base World MemSim DumpSpec ElfSpec CmdSpec.
Import ListNotations.
Open Scope Z_scope.

(** The loadable entry [k] of an executable starts inside a loadable entry before it. *)
Definition starts_inside (b : list Z) (k : nat) : bool :=
  existsb (fun i => loadable b i && (seg_address b i <=? seg_address b k) && (seg_address b k <? seg_address b i + seg_filesize b i)) (seq 0 k).

(** The number of such entries. *)
Definition overlaps (b : list Z) : nat :=
  length (filter (fun k => loadable b k && starts_inside b k) (seq 0 (Z.to_nat (entry_count b)))).

(** Every executable that the command line may name is shorter than 2^32 - 65536 bytes and has at most [n]
    of them. *)
Definition overlaps_at_most (n : nat) (args : list (list Z)) (w : world) : Prop :=
  forall os f data, spells args os -> uses_elf os f -> file_is w f data -> zlen data < 4294901760 /\ (overlaps data <= n)%nat.
