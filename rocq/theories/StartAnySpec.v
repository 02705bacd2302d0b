(** Specification for C79: which files can bring start-up down. *)
From Coq Require Import ZArith List.
From Verif Require Import Base World MemSpec DumpSpec ElfSpec CmdSpec.
Import ListNotations.
Open Scope Z_scope.

(** An executable that describes bytes no file can hold: one of its entries lies in the file, is to be
    loaded, and has contents that end at or beyond 2^32.  Or: an executable of nearly 4 gigabytes. *)
Definition hostile (data : list Z) : Prop :=
  (exists k, Z.of_nat k < entry_count data /\ entry_inside data k /\ loadable data k = true /\
     4294967296 <= seg_offset data k + seg_filesize data k) \/
  4294901760 <= zlen data.

(** The command line names a hostile executable. *)
Definition names_hostile (args : list (list Z)) (w : world) : Prop :=
  exists os f data, spells args os /\ uses_elf os f /\ file_is w f data /\ hostile data.

(** The exceptions of a start-up whose command line is in order. *)
Definition file_trouble (c : Z) : Prop :=
  c = fileException \/ c = outOfMemoryException \/ c = busErrorException \/ c = elfFormatException \/
  c = fileFormatException \/ c = stackOverflowException.
