(** main/main.c. *)
From Coq Require Import String ZArith List Bool.
From Verif Require Import Base World Context MemSim Dump GdbLog Elf CmdLine Platform Comm.
Import ListNotations.
Open Scope Z_scope.
Open Scope m_scope.

(** CrashDebugCommandLine.c 383-386; the argument is whether pMemory is non-NULL. *)
Definition CrashDebugCommandLine_Uninit (hasMemory : bool) : M world unit :=
  if hasMemory then MemorySim_Uninit else ret tt.

(** main/main.c 33-47: the __catch block. *)
Definition main_handler : M world unit :=
  c <- getExceptionCode;;
  if (c =? fileException) || (c =? elfFormatException) || (c =? invalidArgumentException)
  then ret tt
  else eprintf (s2b "Encountered unexpected error: " ++ fmtd c ++ [10]).

(** main/main.c 20-52.  The locals are whether commandLine.pMemory is non-NULL, and returnValue.
    [run] stands for mriPlatform_Run (mriPlatform.c 175-182), whose loop calls the debug monitor,
    which is not in /repo. *)
Definition main (run : M world unit) (args : list (list Z)) : M world Z :=
  l <- try_ (false, 0)
    (c <- lift (CrashDebugCommandLine_Init args);;
     setl (snd c, 0) ;;;
     lift (StandardIComm_Init ;;; mriPlatform_Init ;;; run))
    (fun l => main_handler ;;; ret (fst l, -1));;
  CrashDebugCommandLine_Uninit (fst l) ;;;
  ret (snd l).
