(** Specification for C80: which files the program opens. *)
From Coq Require Import ZArith List.
From Verif Require Import Base World MemSpec CmdSpec.
Import ListNotations.
Open Scope Z_scope.

(** The files opened between two states (or that the program tried to open), the latest first. *)
Definition opened_since (w w' : world) (l : list (list Z)) : Prop :=
  fs_opened (w_files w') = l ++ fs_opened (w_files w).

(** A command line is in order, [f] is its image file and [g] its dump file. *)
Definition asks_for (args : list (list Z)) (f g : list Z) : Prop :=
  exists os, spells args os /\ complete os /\ uses_image os f /\ uses_dump os g.
