(** Specification vocabulary for a whole debugging session: program start with an image, a dump and
    perhaps aliases, up to the point where the debug monitor takes over. *)
From Coq Require Import ZArith List.
From Verif Require Import Base World Platform Comm CmdLine MemSpec DumpSpec CmdSpec PlatSpec.
Import ListNotations.
Open Scope Z_scope.
Open Scope m_scope.

(** [w] is the state at the start of a session of a program that was started with the options [os],
    whose image consists of the parts [ms], and whose dump has the memory [mem] and registers that
    satisfy [regs]. *)
Definition session_of (os : list opt) (ms mem : list (Z * list Z)) (regs : list Z -> Prop) (w : world) : Prop :=
  exists args f data w0 c w1,
    (* the surroundings: a sane heap, no I/O errors, files made of bytes *)
    heap_sane w0 /\ no_io_faults w0 /\ fs_open (w_files w0) = [] /\ files_fine w0 os /\
    (* the command line *)
    spells args os /\ complete os /\ direct_aliases os /\
    (* its files *)
    image_parts w0 os ms /\ uses_dump os f /\ file_is w0 f data /\ dump_means data mem regs /\ fit [] (ms ++ mem) /\
    (* start-up, and main's initialisation of the monitor *)
    api (CrashDebugCommandLine_Init args) w0 = Done c w1 /\ api (StandardIComm_Init ;;; mriPlatform_Init) w1 = Done tt w.

(** The monitor reads the number [v]: the call returns it and does not count as a failure. *)
Definition shows (w : world) (n a v : Z) : Prop :=
  refused (PRead n a) w = false /\ exists w', api (pcall_run (PRead n a)) w = Done [v] w'.
