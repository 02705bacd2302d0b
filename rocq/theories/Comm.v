(** libCrashDebug/src/StandardIComm.c and the POSIX console of main/MockDefaults.c. *)
From Coq Require Import ZArith List Bool.
From Verif Require Import Base World.
Import ListNotations.
Open Scope Z_scope.
Open Scope m_scope.

(** MockDefaults.c 91-103: select() on stdin.  The oracle says what the k-th call finds. *)
Definition Console_HasStdInDataToRead : M world bool :=
  fun w =>
    let c := w_con w in
    let w' := set_con w (mkCon (S (c_polls c)) (c_reads c) (c_writes c) (c_connected c) (c_out c)) in
    match e_poll (w_env w) (c_polls c) with
    | PollErr => throw fileException w'
    | PollNo => Ret false w'
    | PollYes => Ret true w'
    end.

(** Conversion of a byte to a (signed) char and then int. *)
Definition schar (b : Z) : Z := if b <? 128 then b else b - 256.

(** MockDefaults.c 105-114: read() of one byte; at end of file [c] keeps its initial 0. *)
Definition Console_ReadStdIn : M world Z :=
  fun w =>
    let c := w_con w in
    let w' := set_con w (mkCon (c_polls c) (S (c_reads c)) (c_writes c) (c_connected c) (c_out c)) in
    match e_read (w_env w) (c_reads c) with
    | RdErr => throw fileException w'
    | RdEof => Ret 0 w'
    | RdByte b => Ret (schar b) w'
    end.

(** MockDefaults.c 116-124: write() of one byte.  Simplification: write() either writes the byte or
    returns -1; the code would take a result of 0 for success. *)
Definition Console_WriteStdOut (ch : Z) : M world unit :=
  fun w =>
    let c := w_con w in
    if e_write (w_env w) (c_writes c)
    then Ret tt (set_con w (mkCon (c_polls c) (c_reads c) (S (c_writes c)) (c_connected c) (c_out c ++ [ch mod 256])))
    else throw fileException
           (set_con w (mkCon (c_polls c) (c_reads c) (S (c_writes c)) (c_connected c) (c_out c))).

Definition set_connected (b : bool) : M world unit :=
  modw (fun w => let c := w_con w in set_con w (mkCon (c_polls c) (c_reads c) (c_writes c) b (c_out c))).

(** StandardIComm.c 38-43. *)
Definition StandardIComm_Init : M world unit := set_connected false.

(** StandardIComm.c 53-67; the local is [hasData]. *)
Definition hasReceiveData : M world bool :=
  try_ false (b <- lift Console_HasStdInDataToRead;; setl b)
             (fun _ => clearExceptionCode ;;; ret false).

(** StandardIComm.c 69-75. *)
Definition receiveChar : M world Z :=
  c <- Console_ReadStdIn;;
  set_connected true ;;;
  ret c.

(** StandardIComm.c 77-80. *)
Definition sendChar (ch : Z) : M world unit := Console_WriteStdOut ch.

(** StandardIComm.c 82-85. *)
Definition shouldStopRun : M world bool := ret false.

(** StandardIComm.c 87-91. *)
Definition isGdbConnected : M world bool :=
  w <- getw;;
  if c_connected (w_con w) then ret true else hasReceiveData.

(** mriPlatform.c 273-286. *)
Definition Platform_CommHasReceiveData : M world bool := hasReceiveData.
Definition Platform_CommReceiveChar : M world Z := receiveChar.
Definition Platform_CommSendChar (ch : Z) : M world unit := sendChar ch.

(** mriPlatform.c 311-314. *)
Definition Platform_CommIsWaitingForGdbToConnect : M world bool :=
  b <- isGdbConnected;; ret (negb b).

(** mriPlatform.c 175-182.  [monitor] stands for successive calls of __mriDebugException (mri, not in
    /repo), one element per iteration of the loop; the result is whether the loop has ended. *)
Fixpoint mriPlatform_Run (monitor : list (M world unit)) : M world bool :=
  match monitor with
  | [] => ret false
  | m :: t => m ;;; stop <- shouldStopRun;; if stop : bool then ret true else mriPlatform_Run t
  end.
