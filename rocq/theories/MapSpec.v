(** What the host sees through the pointers that the memory simulator hands out, and what the memory
    map tells GDB about single regions. *)
From Coq Require Import String ZArith List Bool.
From Verif Require Import Base World MemSim MemSpec.
Import ListNotations.
Open Scope Z_scope.

(** The [n] bytes that a host pointer leads to; [None] unless they all lie inside one block of
    storage. *)
Definition host_bytes (w : world) (p : nat * Z) (n : Z) : option (list Z) :=
  match nth_error (regions w) (fst p) with
  | Some r => if (0 <=? snd p) && (snd p + n <=? zlen (r_data r)) then Some (slice (r_data r) (snd p) n) else None
  | None => None
  end.

(** The host stores bytes [i], [i]+1, ... behind a pointer. *)
Definition host_store (p : nat * Z) (i : Z) (bs : list Z) : M world unit := store_ptr (fst p, snd p + i) bs.

(** The state but for the exception state. *)
Definition same_but_exn (w w' : world) : Prop := w' = set_exn w (w_code w') (w_msg w').

(** A memory map with the given descriptions of regions. *)
Definition map_of (lines : list (list Z)) : list Z :=
  s2b "<?xml version=""1.0""?><!DOCTYPE memory-map PUBLIC ""+//IDN gnu.org//DTD GDB Memory Map V1.0//EN"" ""http://sourceware.org/gdb/gdb-memory-map.dtd""><memory-map>" ++
  concat lines ++ s2b "</memory-map>".

(** The way the description of a region in the memory map starts. *)
Definition flash_line (line : list Z) : Prop := exists rest, line = s2b "<memory type=""flash"" start=" ++ rest.
Definition ram_line (line : list Z) : Prop := exists rest, line = s2b "<memory type=""ram"" start=" ++ rest.

(** Nothing is simulated: every access, request for a host pointer or alias, and query is refused with
    a bus error and changes nothing. *)
Definition refused_bus {A} (m : M world A) (w : world) : Prop := api m w = Raised busErrorException (set_exn w busErrorException []).
Definition no_memory (w : world) : Prop :=
  (forall n a, refused_bus (readN n a) w) /\ (forall n a v, refused_bus (writeN n a v) w) /\
  (forall a n, refused_bus (MemorySim_MapForRead a n) w) /\ (forall a n, refused_bus (MemorySim_MapForWrite a n) w) /\
  (forall a, refused_bus (MemorySim_MakeRegionReadOnly a) w) /\ (forall a, refused_bus (MemorySim_GetFlashReadCount a) w) /\
  (forall a n t, refused_bus (MemorySim_SetHardwareWatchpoint a n t) w) /\ (forall a n t, refused_bus (MemorySim_ClearHardwareWatchpoint a n t) w) /\
  (forall a n, refused_bus (MemorySim_SetHardwareBreakpoint a n) w) /\ (forall a n, refused_bus (MemorySim_ClearHardwareBreakpoint a n) w).
