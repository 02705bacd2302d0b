(** The Windows console of main/MockDefaults.c and libCrashDebug/src/StandardIComm.c on top of it. *)
From Coq Require Import ZArith List Bool.
From Verif Require Import Base World Comm.
Import ListNotations.
Open Scope Z_scope.
Open Scope m_scope.

(** MockDefaults.c 49-56: PeekNamedPipe; if it fails, bytesAvailable keeps its initial 0.  initStdIo
    (41-47) only fetches the two handles and is left out. *)
Definition win_HasStdInDataToRead : M world bool :=
  fun w =>
    let c := w_con w in
    let w' := set_con w (mkCon (S (c_polls c)) (c_reads c) (c_writes c) (c_connected c) (c_out c)) in
    match e_poll (w_env w) (c_polls c) with
    | PollErr => Ret false w'
    | PollNo => Ret false w'
    | PollYes => Ret true w'
    end.

(** MockDefaults.c 58-71: ReadFile of one byte; at the end of the input it succeeds with no byte. *)
Definition win_ReadStdIn : M world Z :=
  fun w =>
    let c := w_con w in
    let w' := set_con w (mkCon (c_polls c) (S (c_reads c)) (c_writes c) (c_connected c) (c_out c)) in
    match e_read (w_env w) (c_reads c) with
    | RdErr => throw fileException w'
    | RdEof => throw fileException w'
    | RdByte b => Ret (schar b) w'
    end.

(** MockDefaults.c 73-83: WriteFile of one byte. *)
Definition win_WriteStdOut (ch : Z) : M world unit :=
  fun w =>
    let c := w_con w in
    if e_write (w_env w) (c_writes c)
    then Ret tt (set_con w (mkCon (c_polls c) (c_reads c) (S (c_writes c)) (c_connected c) (c_out c ++ [ch mod 256])))
    else throw fileException
           (set_con w (mkCon (c_polls c) (c_reads c) (S (c_writes c)) (c_connected c) (c_out c))).

(** StandardIComm.c 53-91. *)
Definition win_hasReceiveData : M world bool :=
  try_ false (b <- lift win_HasStdInDataToRead;; setl b)
             (fun _ => clearExceptionCode ;;; ret false).
Definition win_receiveChar : M world Z :=
  c <- win_ReadStdIn;;
  set_connected true ;;;
  ret c.
Definition win_sendChar (ch : Z) : M world unit := win_WriteStdOut ch.
Definition win_isGdbConnected : M world bool :=
  w <- getw;;
  if c_connected (w_con w) then ret true else win_hasReceiveData.
