(** The unit tests libCrashDebug/tests/StandardICommTests.cpp, libcommon/tests/GetFileSizeTest.cpp and
    libcommon/tests/try_catchTest.cpp, transcribed and run on the model.  Tests of the model, not proofs of
    properties. *)
From Coq Require Import String ZArith List Bool.
From Verif Require Import Base World MemSim MemSpec MemEx Comm CmdLine TestLib.
Import ListNotations.
Open Scope Z_scope.
Open Scope m_scope.

(** ** StandardICommTests.cpp *)

(** The console mock: what every poll and read finds, and whether writes succeed. *)
Definition console (p : poll) (r : rd) (wr : bool) : tstep :=
  fun w => let e := w_env w in Some (set_env w (mkEnv (e_malloc e) (e_fs e) (e_io e) (fun _ => p) (fun _ => r) (fun _ => wr))).
Definition says (m : M world bool) (b : bool) : tstep :=
  fun w => match api m w with Done x w' => if Bool.eqb x b then Some w' else None | _ => None end.
Definition captured (s : string) : tstep := fun w => if bytes_eqb (c_out (w_con w)) (s2b s) then Some w else None.
Definition comm (l : list tstep) : Prop := passes (ok StandardIComm_Init :: l).

Example Comm_ShouldStopRun_AlwaysReturnFALSE : comm [says shouldStopRun false].
Proof. vm_compute. reflexivity. Qed.
Example Comm_HasReceiveData_ThrowException_ShouldReturnFalse : comm [console PollErr RdEof true; says hasReceiveData false].
Proof. vm_compute. reflexivity. Qed.
Example Comm_HasReceiveData_Return1_ShouldReturnTrue : comm [console PollYes RdEof true; says hasReceiveData true].
Proof. vm_compute. reflexivity. Qed.
Example Comm_HasReceiveData_Return0_ShouldReturnFalse : comm [console PollNo RdEof true; says hasReceiveData false].
Proof. vm_compute. reflexivity. Qed.
Example Comm_ReceiveChar_ThrowException_VerifyExceptionThrown : comm [console PollNo RdErr true; throws receiveChar fileException].
Proof. vm_compute. reflexivity. Qed.
Example Comm_ReceiveChar_ReadSingleChar : comm [console PollNo (RdByte 97) true; gives receiveChar 97].
Proof. vm_compute. reflexivity. Qed.
Example Comm_SendChar_ThrowException_VerifyExceptionThrown : comm [console PollNo RdEof false; throws (sendChar 122) fileException].
Proof. vm_compute. reflexivity. Qed.
Example Comm_SendChar_VerifySuccessfullySentBytes : comm [ok (sendChar 120); ok (sendChar 121); ok (sendChar 122); captured "xyz"].
Proof. vm_compute. reflexivity. Qed.
Example Comm_IsGdbConnected_ShouldReturnFalse : comm [says isGdbConnected false].
Proof. vm_compute. reflexivity. Qed.
Example Comm_IsGdbConnected_ShouldReturnTrueOnceHasRecieveData :
  comm [says isGdbConnected false; console PollYes RdEof true; says isGdbConnected true].
Proof. vm_compute. reflexivity. Qed.
Example Comm_IsGdbConnected_ShouldReturnTrueOnceOneByteHasBeenRead :
  comm [says isGdbConnected false; console PollNo (RdByte 43) true; says isGdbConnected false; gives receiveChar 43; says isGdbConnected true].
Proof. vm_compute. reflexivity. Qed.

(** ** GetFileSizeTest.cpp *)

(** GetFileSize on the opened test file; on an exception the file is closed (teardown). *)
Definition file_size : M world Z :=
  h <- fopen test_file;;
  match h with
  | Some h => v <- try_ (-1) (v <- lift (GetFileSize h);; setl v) (fun l => fclose h ;;; rethrow);; fclose h ;;; ret v
  | None => throw fileException
  end.
Definition size_test (data : string) (l : list tstep) : Prop := passes_with (s2b data) deadbeef l.

Example Size_FailFSeek_ShouldThrow : size_test "" [fail_io 1; throws file_size fileException].
Proof. vm_compute. reflexivity. Qed.
Example Size_FailFTell_ShouldThrow : size_test "" [fail_io 2; throws file_size fileException].
Proof. vm_compute. reflexivity. Qed.
Example Size_FailSecondFSeek_ShouldThrow : size_test "" [fail_io 3; throws file_size fileException].
Proof. vm_compute. reflexivity. Qed.
Example Size_RunSuccessfullyOnZeroLengthFile : size_test "" [gives file_size 0].
Proof. vm_compute. reflexivity. Qed.
Example Size_RunSuccessfullyOn5ByteFile : size_test "12345" [gives file_size 5].
Proof. vm_compute. reflexivity. Qed.

(** ** try_catchTest.cpp *)

From Verif Require Import TryCatch.

(** The state of a test: m_exceptionThrown and the variable [value]. *)
Definition tst := (bool * Z)%type.
Definition flagExceptionHit : stmt tst := Do (fun s => (true, snd s)).
Definition throwNoException : stmt tst := Call (Do (fun s => s)).
Definition undefinedException := mriMaxException + 1.
Definition unpredictableException := mriMaxException + 2.
Definition throwUndefinedException : stmt tst := Call (Throw undefinedException).
Definition throwUnpredictableException : stmt tst := Call (Throw unpredictableException).
Definition throwUndefinedAndUnpredictableExceptions : stmt tst := Call (Try throwUndefinedException throwUnpredictableException).
Definition throwUnpredictableAndUndefinedExceptions : stmt tst := Call (Try throwUnpredictableException throwUndefinedException).
Definition rethrowUndefinedException : stmt tst := Call (Seq (Try throwUndefinedException Rethrow) (Throw unpredictableException)).
(** "value = f()": the assignment follows the call. *)
Definition assign (f : stmt tst) : stmt tst := Seq f (Do (fun s => (fst s, 0))).

Fixpoint run_for (n : nat) (x : machine tst) : option (machine tst) :=
  match n with
  | O => None
  | Datatypes.S k => match TryCatch.step x with Next y => run_for k y | Finished y => Some y | _ => None end
  end.
(** The program ends with this exception code, message, flag and value. *)
Definition ends (s : stmt tst) (code : Z) (msg : list Z) (thrown : bool) (value : Z) : Prop :=
  match run_for 100 (boot s (false, -2)) with
  | Some x => (m_code x =? code) && bytes_eqb (m_text x) msg && Bool.eqb (fst (m_state x)) thrown && (snd (m_state x) =? value) &&
              match m_top x with None => true | Some _ => false end
  | None => false
  end = true.

Example Try_NoException : ends (Try throwNoException flagExceptionHit) noException [] false (-2).
Proof. vm_compute. reflexivity. Qed.
Example Try_undefinedException : ends (Try throwUndefinedException flagExceptionHit) undefinedException [] true (-2).
Proof. vm_compute. reflexivity. Qed.
Example Try_EscalatingExceptions : ends (Try throwUndefinedAndUnpredictableExceptions flagExceptionHit) unpredictableException [] true (-2).
Proof. vm_compute. reflexivity. Qed.
Example Try_NonEscalatingExceptions : ends (Try throwUnpredictableAndUndefinedExceptions flagExceptionHit) unpredictableException [] true (-2).
Proof. vm_compute. reflexivity. Qed.
Example Try_CatchFirstThrow :
  ends (Try (Seq throwUndefinedException throwUnpredictableException) flagExceptionHit) undefinedException [] true (-2).
Proof. vm_compute. reflexivity. Qed.
Example Try_CatchSecondThrow :
  ends (Try (Seq throwNoException throwUnpredictableException) flagExceptionHit) unpredictableException [] true (-2).
Proof. vm_compute. reflexivity. Qed.
Example Try_ThrowAndSkipAssignment : ends (Try (assign throwUndefinedException) flagExceptionHit) undefinedException [] true (-2).
Proof. vm_compute. reflexivity. Qed.
Example Try_RethrowUndefinedException : ends (Try rethrowUndefinedException flagExceptionHit) undefinedException [] true (-2).
Proof. vm_compute. reflexivity. Qed.
Example Try_RethrowUndefinedExceptionAndSkipAssignment :
  ends (Try (assign rethrowUndefinedException) flagExceptionHit) undefinedException [] true (-2).
Proof. vm_compute. reflexivity. Qed.
Example Try_throwWithSimpleMessage :
  ends (Try (ThrowMsg undefinedException (s2b "throw message")) flagExceptionHit) undefinedException (s2b "throw message") true (-2).
Proof. vm_compute. reflexivity. Qed.
Example Try_throwWithFormattedMessage :
  ends (Try (ThrowMsg undefinedException (s2b "throw message #" ++ fmtd 1)) flagExceptionHit) undefinedException (s2b "throw message #1") true (-2).
Proof. vm_compute. reflexivity. Qed.
Example Try_throwWithLongestMessage :
  ends (Try (ThrowMsg undefinedException (repeat 95 1023)) flagExceptionHit) undefinedException (repeat 95 1023) true (-2).
Proof. vm_compute. reflexivity. Qed.
Example Try_throwWithTooLongMessageShoudTruncate :
  ends (Try (ThrowMsg undefinedException (repeat 95 1024)) flagExceptionHit) undefinedException (repeat 95 1023) true (-2).
Proof. vm_compute. reflexivity. Qed.
Example Try_subsequentTryClearsExceptionMessage :
  ends (Seq (Try (ThrowMsg undefinedException (s2b "throw message")) flagExceptionHit)
            (Seq (Do (fun s => (false, snd s))) (Try throwNoException flagExceptionHit))) noException [] false (-2).
Proof. vm_compute. reflexivity. Qed.
