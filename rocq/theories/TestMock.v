(** The unit tests libmocks/tests/MallocFailureInjectTest.cpp, FileFailureInjectTest.cpp and printfSpyTest.cpp,
    and libCrashDebug/tests/mockConsoleTests.cpp and mockICommTests.cpp, transcribed and run on the model.  Tests
    of the model, not proofs of properties. *)
From Coq Require Import String ZArith List Bool.
From Verif Require Import Base World Comm Mocks.
Import ListNotations.
Open Scope Z_scope.

(** ** MallocFailureInjectTest.cpp *)
Definition allocs (h : list malloc_call) : list bool :=
  snd (fold_left (fun '(s, rs) c => (malloc_step s c, match c with Allocate => rs ++ [fst (hook_alloc s)] | _ => rs end)) h (malloc_inject0, [])).
Example Malloc_FailFirstMalloc : allocs [FailAllocation 1; Allocate] = [false].
Proof. vm_compute. reflexivity. Qed.
Example Malloc_FailSecondMalloc : allocs [FailAllocation 2; Allocate; Allocate] = [true; false].
Proof. vm_compute. reflexivity. Qed.
Example Malloc_FailSecondReallocOutOfThree : allocs [FailAllocation 2; Allocate; Allocate; Allocate] = [true; false; true].
Proof. vm_compute. reflexivity. Qed.
Example Malloc_VerifyDefaultsSucceed : allocs [Allocate; Allocate] = [true; true].
Proof. vm_compute. reflexivity. Qed.

(** ** FileFailureInjectTest.cpp *)
Definition files (h : list file_call) : list file_result :=
  snd (fold_left (fun '(s, rs) c => (file_step s c, match c with Call f size => rs ++ [fst (file_hook f size s)] | _ => rs end)) h (file_inject0, [])).
Definition line (s : string) : file_result := Filled (s2b s ++ repeat 0 (16 - length (s2b s))).
Example File_SuccessfulFOpen : files [Call F_fopen 16] = [Passed].
Proof. vm_compute. reflexivity. Qed.
Example File_FailFOpen : files [FopenSetReturn 0; Call F_fopen 16; FopenRestore; Call F_fopen 16] = [Returned 0; Passed].
Proof. vm_compute. reflexivity. Qed.
Example File_IgnoreClose : files [FcloseIgnore; Call F_fclose 16; FcloseRestore] = [Returned 0].
Proof. vm_compute. reflexivity. Qed.
Example File_SuccessfulFSeek : files [Call F_fseek 16] = [Passed].
Proof. vm_compute. reflexivity. Qed.
Example File_FailFSeek : files [FseekSetReturn (-1); FseekSetCallsBeforeFailure 0; Call F_fseek 16; FseekRestore] = [Returned (-1)].
Proof. vm_compute. reflexivity. Qed.
Example File_FailSecondFSeek : files [FseekSetReturn (-1); FseekSetCallsBeforeFailure 1; Call F_fseek 16; Call F_fseek 16; FseekRestore] = [Passed; Returned (-1)].
Proof. vm_compute. reflexivity. Qed.
Example File_SuccessfulFTell : files [Call F_ftell 16] = [Passed].
Proof. vm_compute. reflexivity. Qed.
Example File_FailFTell : files [FtellFail (-1); Call F_ftell 16; FtellRestore] = [Returned (-1)].
Proof. vm_compute. reflexivity. Qed.
Example File_SuccessfulFWrite : files [Call F_fwrite 16] = [Passed].
Proof. vm_compute. reflexivity. Qed.
Example File_FailFWrite : files [FwriteFail 0; Call F_fwrite 16; FwriteRestore] = [Returned 0].
Proof. vm_compute. reflexivity. Qed.
Example File_SuccessfulFRead : files [Call F_fread 16] = [Passed].
Proof. vm_compute. reflexivity. Qed.
Example File_FailFRead : files [FreadFail 0; Call F_fread 16; FreadRestore] = [Returned 0].
Proof. vm_compute. reflexivity. Qed.
Example File_FailSecondOutOfThreeFReads : files [FreadFail 0; FreadToFail 2; Call F_fread 16; Call F_fread 16; Call F_fread 16; FreadRestore] = [Passed; Returned 0; Passed].
Proof. vm_compute. reflexivity. Qed.
Example File_SetFgetsData_OneLine : files [FgetsSetData [s2b "Line1"]; Call F_fgets 16; Call F_fgets 16] = [line "Line1"; Returned 0].
Proof. vm_compute. reflexivity. Qed.
Example File_SetFgetsData_TwoLines : files [FgetsSetData [s2b "Line1"; s2b "Line2"]; Call F_fgets 16; Call F_fgets 16; Call F_fgets 16] = [line "Line1"; line "Line2"; Returned 0].
Proof. vm_compute. reflexivity. Qed.
Example File_SetFgetsData_Rewinds : files [FgetsSetData [s2b "Line1"]; Call F_fgets 16; Call F_fgets 16; Call F_fgets 16] = [line "Line1"; Returned 0; line "Line1"].
Proof. vm_compute. reflexivity. Qed.

(** ** printfSpyTest.cpp *)
Definition hello : list Z := s2b "Hello World!" ++ [10].
Definition out (l : list spy_call) (n : nat) : option (option (list Z)) := match after_prints l with Some s => printfSpy_GetNthOutput n s | None => None end.
Definition err (l : list spy_call) (n : nat) : option (option (list Z)) := match after_prints l with Some s => printfSpy_GetNthErrorOutput n s | None => None end.
Definition count (l : list spy_call) : option Z := option_map printfSpy_GetCallCount (after_prints l).
Definition one (size : Z) (shown : list Z) : Prop :=
  (out [Hook size; Print Stdout hello] 1, out [Hook size; Print Stdout hello] 2, count [Hook size; Print Stdout hello]) = (Some (Some shown), Some None, Some 1)
  /\ match hook_fprintf Stdout hello true (printfSpy_Hook size spy0) with Printed n _ => n = 13 | _ => False end.
Example printfSpy_BufferSize0 : one 0 [].
Proof. split; vm_compute; reflexivity. Qed.
Example printfSpy_BufferSize1 : one 1 (s2b "H").
Proof. split; vm_compute; reflexivity. Qed.
Example printfSpy_BufferSizeMinus1 : one 12 (s2b "Hello World!").
Proof. split; vm_compute; reflexivity. Qed.
Example printfSpy_BufferSizeExact : one 13 hello.
Proof. split; vm_compute; reflexivity. Qed.
Example printfSpy_BufferSizePlus1 : one 14 hello.
Proof. split; vm_compute; reflexivity. Qed.
Example printfSpy_TwoCall : (count [Hook 10; Print Stdout (s2b "Line 1" ++ [13; 10]); Print Stdout (s2b "Line 2" ++ [13; 10])], out [Hook 10; Print Stdout (s2b "Line 1" ++ [13; 10]); Print Stdout (s2b "Line 2" ++ [13; 10])] 1, out [Hook 10; Print Stdout (s2b "Line 1" ++ [13; 10]); Print Stdout (s2b "Line 2" ++ [13; 10])] 2) = (Some 2, Some (Some (s2b "Line 2" ++ [13; 10])), Some (Some (s2b "Line 1" ++ [13; 10]))).
Proof. vm_compute. reflexivity. Qed.
Example printfSpy_SendFourLinesToStdOut : map (out [Hook 10; Print Stdout (s2b "Line 1" ++ [13; 10]); Print Stdout (s2b "Line 2" ++ [13; 10]); Print Stdout (s2b "Line 3" ++ [13; 10]); Print Stdout (s2b "Line 4" ++ [13; 10])]) [1; 2; 3; 4]%nat = [Some (Some (s2b "Line 4" ++ [13; 10])); Some (Some (s2b "Line 3" ++ [13; 10])); Some (Some (s2b "Line 2" ++ [13; 10])); Some (Some (s2b "Line 1" ++ [13; 10]))].
Proof. vm_compute. reflexivity. Qed.
Example printfSpy_SendOneLineToStdErr : (out [Hook 10; Print Stderr (s2b "Line 1" ++ [13; 10])] 1, err [Hook 10; Print Stderr (s2b "Line 1" ++ [13; 10])] 1, err [Hook 10; Print Stderr (s2b "Line 1" ++ [13; 10])] 2) = (Some None, Some (Some (s2b "Line 1" ++ [13; 10])), Some None).
Proof. vm_compute. reflexivity. Qed.
Example printfSpy_SendTwoLinesToStdErr : (out [Hook 10; Print Stderr (s2b "Line 1" ++ [13; 10]); Print Stderr (s2b "Line 2" ++ [13; 10])] 1, out [Hook 10; Print Stderr (s2b "Line 1" ++ [13; 10]); Print Stderr (s2b "Line 2" ++ [13; 10])] 2, err [Hook 10; Print Stderr (s2b "Line 1" ++ [13; 10]); Print Stderr (s2b "Line 2" ++ [13; 10])] 1, err [Hook 10; Print Stderr (s2b "Line 1" ++ [13; 10]); Print Stderr (s2b "Line 2" ++ [13; 10])] 2) = (Some None, Some None, Some (Some (s2b "Line 2" ++ [13; 10])), Some (Some (s2b "Line 1" ++ [13; 10]))).
Proof. vm_compute. reflexivity. Qed.
Example printfSpy_SendFourLinesToStdErr : map (err [Hook 10; Print Stderr (s2b "Line 1" ++ [13; 10]); Print Stderr (s2b "Line 2" ++ [13; 10]); Print Stderr (s2b "Line 3" ++ [13; 10]); Print Stderr (s2b "Line 4" ++ [13; 10])]) [1; 2; 3; 4]%nat = [Some (Some (s2b "Line 4" ++ [13; 10])); Some (Some (s2b "Line 3" ++ [13; 10])); Some (Some (s2b "Line 2" ++ [13; 10])); Some (Some (s2b "Line 1" ++ [13; 10]))].
Proof. vm_compute. reflexivity. Qed.

(** ** mockConsoleTests.cpp *)
Definition reading (h : list console_call) : list (Z + Z) :=
  snd (fold_left (fun '(s, rs) c => (console_step s c, match c with Read => rs ++ [fst (mock_ReadStdIn s)] | HasData => rs ++ [mock_HasStdInDataToRead s] | _ => rs end)) h (ConsoleMock_Uninit, [])).
Definition captures (h : list console_call) (s : string) : Prop := ConsoleMock_WriteStdOut_GetCapturedText (after_console h) = Some (s2b s).
Example Console_HasStdinDataToRead_SetToReturn0_Verify : reading [HasReturn 0; HasData] = [inl 0].
Proof. vm_compute. reflexivity. Qed.
Example Console_HasStdinDataToRead_SetToReturn1_Verify : reading [HasReturn 1; HasData] = [inl 1].
Proof. vm_compute. reflexivity. Qed.
Example Console_HasStdinDataToRead_SetToThrow_VerifyException : reading [HasException fileException; HasData] = [inr fileException].
Proof. vm_compute. reflexivity. Qed.
Example Console_ReadStdIn_ShouldDefaultToEmptyBufferAndReturnZero : reading [Read] = [inl 0].
Proof. vm_compute. reflexivity. Qed.
Example Console_ReadStdIn_SetToReturnOneChar_VerifyOneChar : reading [ReadBuffer (s2b "a"); Read] = [inl 97].
Proof. vm_compute. reflexivity. Qed.
Example Console_ReadStdIn_SetToReturnTwoChars_VerifyTwoChars : reading [ReadBuffer (s2b "az"); Read; Read] = [inl 97; inl 122].
Proof. vm_compute. reflexivity. Qed.
Example Console_ReadStdIn_SetToReturnOneChar_VerifyBufferOverrunReturnZero : reading [ReadBuffer (s2b "a"); Read; Read] = [inl 97; inl 0].
Proof. vm_compute. reflexivity. Qed.
Example Console_ReadStdIn_SetToThrow_VerifyException : reading [ReadException fileException; Read] = [inr fileException].
Proof. vm_compute. reflexivity. Qed.
Example Console_WriteStdOut_SetToThrow_VerifyException : fst (mock_WriteStdOut 97 (after_console [WriteException fileException])) = inr fileException.
Proof. vm_compute. reflexivity. Qed.
Example Console_WriteStdOut_CaptureOneCharToOneCharBuffer : captures [CaptureSize 1; Write 97] "a".
Proof. vm_compute. reflexivity. Qed.
Example Console_WriteStdOut_CaptureTwoCharsToTwoCharBuffer : captures [CaptureSize 2; Write 97; Write 122] "az".
Proof. vm_compute. reflexivity. Qed.
Example Console_WriteStdOut_AttemptToCaptureTwoCharsToOneCharBuffer : captures [CaptureSize 1; Write 122; Write 97] "z".
Proof. vm_compute. reflexivity. Qed.

(** ** mockICommTests.cpp *)
Definition polling (h : list comm_call) : list (bool + Z) :=
  snd (fold_left (fun '(s, rs) c => (comm_step 10 s c,
    match c, s with
    | HasReceive, Some s => rs ++ [inl (fst (mock_hasReceiveData s))]
    | Receive, Some s => match mock_receiveChar 10 s with Some (ch, _) => rs ++ [inr ch] | None => rs end
    | _, _ => rs end)) h (Some mock_icomm0, [])).
(** while (hasReceiveData) receiveChar: the text and the state after. *)
Fixpoint drain (n : nat) (s : mock_icomm) : list Z * mock_icomm :=
  match n with
  | O => ([], s)
  | S n => let (b, s) := mock_hasReceiveData s in
      if b then match mock_receiveChar 10 s with Some (c, s) => let (l, s) := drain n s in (c :: l, s) | None => ([], s) end else ([], s)
  end.
Definition drains (h : list comm_call) (t1 t2 : string) : Prop :=
  match after_comm 10 h with
  | Some s => let (l1, s) := drain 30 s in let (l2, s) := drain 30 s in l1 = s2b t1 /\ l2 = s2b t2 /\ fst (mock_hasReceiveData s) = false
  | None => False
  end.
Definition sends (h : list comm_call) (t : string) : Prop := option_map mockIComm_GetTransmittedData (after_comm 10 h) = Some (Some (s2b t)).
Example mockIComm_HasReceiveData_Empty : polling [InitReceive [] None; HasReceive] = [inl false].
Proof. vm_compute. reflexivity. Qed.
Example mockIComm_HasReceiveData_NotEmpty : polling [InitReceive (s2b "$") None; HasReceive] = [inl true].
Proof. vm_compute. reflexivity. Qed.
Example mockIComm_HasReceiveData_NotEmpty_ButDelayResponseByTwoCalls : polling [InitReceive (s2b "$") None; DelayReceive 2; HasReceive; HasReceive; HasReceive] = [inl false; inl false; inl true].
Proof. vm_compute. reflexivity. Qed.
Example mockIComm_ReceiveChar_NotEmpty : polling [InitReceive (s2b "$") None; Receive] = [inr 36].
Proof. vm_compute. reflexivity. Qed.
Example mockIComm_HasReceiveData_SwitchToEmptyGdbPacket : drains [InitReceive [] None] "" "$#00".
Proof. vm_compute. repeat split; reflexivity. Qed.
Example mockIComm_ReceiveChar_SwitchToEmptyGdbPacket : polling [InitReceive [] None; Receive; HasReceive; Receive; HasReceive; Receive; HasReceive; Receive; HasReceive] = [inr 36; inl true; inr 35; inl true; inr 48; inl true; inr 48; inl false].
Proof. vm_compute. reflexivity. Qed.
Example mockIComm_ReceiveEmptyGdbPacket : drains [InitReceive (s2b "$#00") None] "$#00" "$#00".
Proof. vm_compute. repeat split; reflexivity. Qed.
Example mockIComm_Receive_OneGdbPacketAndSwitchToEmptyPacket : drains [InitReceive (s2b "$packet1#00") None] "$packet1#00" "$#00".
Proof. vm_compute. repeat split; reflexivity. Qed.
Example mockIComm_Receive_TwoGdbPackets : drains [InitReceive (s2b "$packet1#00") (Some (s2b "$packet2#ff"))] "$packet1#00" "$packet2#ff".
Proof. vm_compute. repeat split; reflexivity. Qed.
Example mockIComm_Receive_OneGdbPacketsWithCalculatedCRC : drains [InitChecksummed (s2b "$packet1#") None] "$packet1#a9" "$#00".
Proof. vm_compute. repeat split; reflexivity. Qed.
Example mockIComm_Receive_TwoGdbPacketsWithCalculatedCRC : drains [InitChecksummed (s2b "$packet1#") (Some (s2b "$packet2#"))] "$packet1#a9" "$packet2#aa".
Proof. vm_compute. repeat split; reflexivity. Qed.
Example mockIComm_ChecksumEmptyPacketData : mockIComm_ChecksumData (s2b "$#") = Some (s2b "$#00").
Proof. vm_compute. reflexivity. Qed.
Example mockIComm_TransmitAndCapture1Byte : sends [InitTransmit 2; Send 45] "-".
Proof. vm_compute. reflexivity. Qed.
Example mockIComm_TransmitAndCapturePacketData : sends [InitTransmit 4; Send 36; Send 35; Send 48; Send 48] "$#00".
Proof. vm_compute. reflexivity. Qed.
Example mockIComm_TransmitAndCapture2BytesWithOverflow : sends [InitTransmit 2; Send 45; Send 43; Send 42] "-+".
Proof. vm_compute. reflexivity. Qed.
Example mockIComm_ShouldStopRun_SetToReturnFalse : option_map mock_shouldStopRun (after_comm 1 [SetStop false]) = Some false.
Proof. vm_compute. reflexivity. Qed.
Example mockIComm_ShouldStopRun_SetToReturnTrue : option_map mock_shouldStopRun (after_comm 1 [SetStop true]) = Some true.
Proof. vm_compute. reflexivity. Qed.
Example mockIComm_IsGdbConnected_ShouldDefaultToReturnTrue : option_map mock_isGdbConnected (after_comm 1 []) = Some true.
Proof. vm_compute. reflexivity. Qed.
Example mockIComm_IsGdbConnected_SetToReturnFalse : option_map mock_isGdbConnected (after_comm 1 [SetConnected false]) = Some false.
Proof. vm_compute. reflexivity. Qed.
Example mockIComm_IsGdbConnected_SetToReturnTrue : option_map mock_isGdbConnected (after_comm 1 [SetConnected true]) = Some true.
Proof. vm_compute. reflexivity. Qed.
