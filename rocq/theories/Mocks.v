(** The test doubles: libmocks/src (MallocFailureInject.c, FileFailureInject.c, printfSpy.c) and
    libCrashDebug/mocks (mockConsole.c, mockIComm.cpp), function by function.  Each has its own state,
    the static variables of its file.  What the C library does when a call is passed on to it is not
    modelled: such a call has the result [Passed]. *)
From Coq Require Import String ZArith List Bool.
From Verif Require Import Base World Comm.
Import ListNotations.
Open Scope Z_scope.

(** ** MallocFailureInject.c *)

(** 20-24: whether hook_malloc and hook_realloc point to the mocks, and g_allocationToFail (unsigned
    int).  hook_free never changes.  The two hooks are always set together. *)
Record malloc_inject := mkMI { mi_hooked : bool; mi_toFail : Z }.
Definition malloc_inject0 : malloc_inject := mkMI false 0.

(** 43-46. *)
Definition shouldThisAllocationBeFailed (s : malloc_inject) : bool * malloc_inject :=
  if mi_toFail s =? 0 then (false, s)
  else let n := W (mi_toFail s - 1) in (n =? 0, mkMI (mi_hooked s) n).

(** A call through hook_malloc or hook_realloc (28-36 and 48-62): [true] if it goes to the C library,
    [false] if it returns NULL. *)
Definition hook_alloc (s : malloc_inject) : bool * malloc_inject :=
  if mi_hooked s then
    let (fails, s') := shouldThisAllocationBeFailed s in (negb fails, s')
  else (true, s).

(** 68-73. *)
Definition MallocFailureInject_FailAllocation (n : Z) (s : malloc_inject) : malloc_inject := mkMI true (W n).
(** 75-79. *)
Definition MallocFailureInject_Restore (s : malloc_inject) : malloc_inject := mkMI false (mi_toFail s).

(** ** FileFailureInject.c *)

(** 21-39.  [Some v] for a hooked function with a return value to be returned. *)
Record file_inject := mkFI {
  fi_fopen : option Z;            (* hook_fopen, g_fopenFailureReturn *)
  fi_fclose : bool;               (* hook_fclose *)
  fi_fseek : bool;                (* hook_fseek *)
  fi_fseekReturn : Z;             (* g_fseekFailureReturn *)
  fi_fseekToPass : Z;             (* g_fseekCallsToPass *)
  fi_ftell : option Z;            (* hook_ftell, g_ftellFailureReturn *)
  fi_fwrite : option Z;           (* hook_fwrite, g_fwriteFailureReturn *)
  fi_fread : bool;                (* hook_fread *)
  fi_freadReturn : Z;             (* g_freadFailureReturn *)
  fi_freadToFail : Z;             (* g_freadToFail *)
  fi_fgets : bool;                (* hook_fgets *)
  fi_lines : list (list Z);       (* g_ppFgetsStart .. g_ppFgetsEnd *)
  fi_curr : nat                   (* g_ppFgetsCurr - g_ppFgetsStart *)
}.
Definition file_inject0 : file_inject := mkFI None false false 0 0 None None false 0 0 false [] 0.

(** The results of a call. *)
Inductive file_result :=
| Passed                          (* the C library's function was called *)
| Returned (v : Z)                (* the mock returned this *)
| Filled (buffer : list Z)        (* fgets returned its buffer, with these contents *)
| Outside.                        (* the mock wrote outside the buffer *)

Definition fopenSetReturn (v : Z) (s : file_inject) : file_inject := (* 45-49 *)
  mkFI (Some v) (fi_fclose s) (fi_fseek s) (fi_fseekReturn s) (fi_fseekToPass s) (fi_ftell s) (fi_fwrite s) (fi_fread s) (fi_freadReturn s) (fi_freadToFail s) (fi_fgets s) (fi_lines s) (fi_curr s).
Definition fopenRestore (s : file_inject) : file_inject := (* 57-60 *)
  mkFI None (fi_fclose s) (fi_fseek s) (fi_fseekReturn s) (fi_fseekToPass s) (fi_ftell s) (fi_fwrite s) (fi_fread s) (fi_freadReturn s) (fi_freadToFail s) (fi_fgets s) (fi_lines s) (fi_curr s).
Definition set_fclose (b : bool) (s : file_inject) : file_inject :=
  mkFI (fi_fopen s) b (fi_fseek s) (fi_fseekReturn s) (fi_fseekToPass s) (fi_ftell s) (fi_fwrite s) (fi_fread s) (fi_freadReturn s) (fi_freadToFail s) (fi_fgets s) (fi_lines s) (fi_curr s).
Definition fcloseIgnore : file_inject -> file_inject := set_fclose true. (* 64-67 *)
Definition fcloseRestore : file_inject -> file_inject := set_fclose false. (* 76-79 *)
Definition set_fseek (b : bool) (v n : Z) (s : file_inject) : file_inject :=
  mkFI (fi_fopen s) (fi_fclose s) b v n (fi_ftell s) (fi_fwrite s) (fi_fread s) (fi_freadReturn s) (fi_freadToFail s) (fi_fgets s) (fi_lines s) (fi_curr s).
Definition fseekSetReturn (v : Z) (s : file_inject) : file_inject := set_fseek true v (fi_fseekToPass s) s. (* 83-87 *)
Definition fseekSetCallsBeforeFailure (n : Z) (s : file_inject) : file_inject := set_fseek (fi_fseek s) (fi_fseekReturn s) n s. (* 101-104 *)
Definition fseekRestore (s : file_inject) : file_inject := set_fseek false (fi_fseekReturn s) (fi_fseekToPass s) s. (* 107-110 *)
Definition set_ftell (o : option Z) (s : file_inject) : file_inject :=
  mkFI (fi_fopen s) (fi_fclose s) (fi_fseek s) (fi_fseekReturn s) (fi_fseekToPass s) o (fi_fwrite s) (fi_fread s) (fi_freadReturn s) (fi_freadToFail s) (fi_fgets s) (fi_lines s) (fi_curr s).
Definition ftellFail (v : Z) : file_inject -> file_inject := set_ftell (Some v). (* 114-118 *)
Definition ftellRestore : file_inject -> file_inject := set_ftell None. (* 126-129 *)
Definition set_fwrite (o : option Z) (s : file_inject) : file_inject :=
  mkFI (fi_fopen s) (fi_fclose s) (fi_fseek s) (fi_fseekReturn s) (fi_fseekToPass s) (fi_ftell s) o (fi_fread s) (fi_freadReturn s) (fi_freadToFail s) (fi_fgets s) (fi_lines s) (fi_curr s).
Definition fwriteFail (v : Z) : file_inject -> file_inject := set_fwrite (Some v). (* 133-137 *)
Definition fwriteRestore : file_inject -> file_inject := set_fwrite None. (* 145-148 *)
Definition set_fread (b : bool) (v n : Z) (s : file_inject) : file_inject :=
  mkFI (fi_fopen s) (fi_fclose s) (fi_fseek s) (fi_fseekReturn s) (fi_fseekToPass s) (fi_ftell s) (fi_fwrite s) b v n (fi_fgets s) (fi_lines s) (fi_curr s).
Definition freadFail (v : Z) (s : file_inject) : file_inject := set_fread true v (-1) s. (* 152-157 *)
Definition freadToFail (n : Z) (s : file_inject) : file_inject := set_fread (fi_fread s) (fi_freadReturn s) n s. (* 174-177 *)
Definition freadRestore (s : file_inject) : file_inject := set_fread false (fi_freadReturn s) 0 s. (* 180-184 *)
Definition set_fgets (b : bool) (ls : list (list Z)) (k : nat) (s : file_inject) : file_inject :=
  mkFI (fi_fopen s) (fi_fclose s) (fi_fseek s) (fi_fseekReturn s) (fi_fseekToPass s) (fi_ftell s) (fi_fwrite s) (fi_fread s) (fi_freadReturn s) (fi_freadToFail s) b ls k.
Definition fgetsSetData (ls : list (list Z)) : file_inject -> file_inject := set_fgets true ls 0. (* 188-194 *)
Definition fgetsRestore : file_inject -> file_inject := set_fgets false [] 0. (* 211-217 *)

(** 51-54. *)
Definition hook_fopen (s : file_inject) : file_result * file_inject :=
  (match fi_fopen s with Some v => Returned v | None => Passed end, s).
(** 69-72. *)
Definition hook_fclose (s : file_inject) : file_result * file_inject :=
  (if fi_fclose s then Returned 0 else Passed, s).
(** 89-98. *)
Definition hook_fseek (s : file_inject) : file_result * file_inject :=
  if fi_fseek s then
    if 0 <? fi_fseekToPass s then (Passed, fseekSetCallsBeforeFailure (fi_fseekToPass s - 1) s)
    else (Returned (fi_fseekReturn s), s)
  else (Passed, s).
(** 120-123. *)
Definition hook_ftell (s : file_inject) : file_result * file_inject :=
  (match fi_ftell s with Some v => Returned v | None => Passed end, s).
(** 139-142. *)
Definition hook_fwrite (s : file_inject) : file_result * file_inject :=
  (match fi_fwrite s with Some v => Returned v | None => Passed end, s).
(** 159-171. *)
Definition hook_fread (s : file_inject) : file_result * file_inject :=
  if fi_fread s then
    if 0 <? fi_freadToFail s then
      let n := fi_freadToFail s - 1 in
      if n =? 0 then (Returned (fi_freadReturn s), freadRestore (freadToFail n s)) else (Passed, freadToFail n s)
    else (Returned (fi_freadReturn s), s)
  else (Passed, s).
(** strncpy(str, l, size) and the zero byte stored at str[size-1]: the contents of the buffer. *)
Definition copied (l : list Z) (size : Z) : list Z :=
  let t := firstn (Z.to_nat size - 1) (cstr l) in t ++ repeat 0 (Z.to_nat size - length t).
(** 196-209.  A [size] of 0 or less makes it write before the buffer (or far behind it). *)
Definition hook_fgets (size : Z) (s : file_inject) : file_result * file_inject :=
  if fi_fgets s then
    match nth_error (fi_lines s) (fi_curr s) with
    | None => (Returned 0, set_fgets true (fi_lines s) 0 s)
    | Some l => (if size <=? 0 then Outside else Filled (copied l size), set_fgets true (fi_lines s) (S (fi_curr s)) s)
    end
  else (Passed, s).

(** ** printfSpy.c *)

(** 21-27.  A buffer holds g_bufferSize bytes; its text is what matters.  Simplification: sizes and
    call counts stay below 2^64. *)
Record spy := mkSpy {
  spy_out : list (option (list Z));   (* g_stdoutBuffers *)
  spy_err : list (option (list Z));   (* g_stderrBuffers *)
  spy_size : Z;                       (* g_bufferSize *)
  spy_calls : Z;                      (* g_callCount *)
  spy_index : nat;                    (* g_bufferIndex *)
  spy_hooked : bool                   (* hook_printf, hook_fprintf *)
}.
Definition OUTPUT_COUNT : nat := 4.
Definition spy0 : spy := mkSpy (repeat None 4) (repeat None 4) 0 0 0 false.

(** A stream: stdout, stderr or another one. *)
Inductive stream := Stdout | Stderr | Other.

(** The result of a call to printf or fprintf. *)
Inductive print_result :=
| Printed (n : Z) (s : spy)      (* captured; the return value *)
| Through                        (* passed on to the C library *)
| Assertion.                     (* a failed assertion *)

Fixpoint set_nth {A} (l : list A) (n : nat) (x : A) : list A :=
  match l, n with
  | [], _ => []
  | _ :: t, O => x :: t
  | y :: t, S n => y :: set_nth t n x
  end.

(** 51-54 and 56-59 (unsigned arithmetic; the mask keeps the two lowest bits). *)
Definition nextIndex (s : spy) : nat := Nat.modulo (spy_index s + 1) OUTPUT_COUNT.
Definition prevIndex (s : spy) (n : nat) : nat := Nat.modulo (spy_index s + OUTPUT_COUNT - n) OUTPUT_COUNT.

(** 61-91: vsnprintf of [text]; [memory] says whether malloc succeeds if it is called.  vsnprintf
    leaves the buffer alone if its size is 0, which cannot happen while the hooks are set. *)
Definition mock_common (f : stream) (text : list Z) (memory : bool) (s : spy) : print_result :=
  let store bufs := set_nth bufs (spy_index s) (Some (firstn (Z.to_nat (spy_size s) - 1) text)) in
  let fresh bufs := match nth (spy_index s) bufs None with None => true | Some _ => false end in
  match f with
  | Stdout => if fresh (spy_out s) && negb memory then Assertion
              else Printed (zlen text) (mkSpy (store (spy_out s)) (spy_err s) (spy_size s) (spy_calls s + 1) (nextIndex s) (spy_hooked s))
  | Stderr => if fresh (spy_err s) && negb memory then Assertion
              else Printed (zlen text) (mkSpy (spy_out s) (store (spy_err s)) (spy_size s) (spy_calls s + 1) (nextIndex s) (spy_hooked s))
  | Other => Assertion
  end.

(** 93-105: fprintf(f, ...) through hook_fprintf; printf is the same with stdout. *)
Definition hook_fprintf (f : stream) (text : list Z) (memory : bool) (s : spy) : print_result :=
  if spy_hooked s then mock_common f text memory s else Through.

(** 37-49, 113-117 and 132-136. *)
Definition printfSpy_Unhook (s : spy) : spy := mkSpy (repeat None 4) (repeat None 4) 0 (spy_calls s) 0 false.
(** 31-35, 107-111 and 123-130. *)
Definition printfSpy_Hook (size : Z) (s : spy) : spy :=
  let s := printfSpy_Unhook s in mkSpy (spy_out s) (spy_err s) (size + 1) 0 0 true.

(** 138-142 and 154-158: [None] is a failed assertion, [Some None] a NULL pointer. *)
Definition printfSpy_GetNthOutput (n : nat) (s : spy) : option (option (list Z)) :=
  if Nat.leb n OUTPUT_COUNT then Some (nth (prevIndex s n) (spy_out s) None) else None.
Definition printfSpy_GetNthErrorOutput (n : nat) (s : spy) : option (option (list Z)) :=
  if Nat.leb n OUTPUT_COUNT then Some (nth (prevIndex s n) (spy_err s) None) else None.
(** 144-152 and 160-168. *)
Definition printfSpy_GetLastOutput := printfSpy_GetNthOutput 1.
Definition printfSpy_GetPreviousOutput := printfSpy_GetNthOutput 2.
Definition printfSpy_GetLastErrorOutput := printfSpy_GetNthErrorOutput 1.
Definition printfSpy_GetPreviousErrorOutput := printfSpy_GetNthErrorOutput 2.
(** 170-173. *)
Definition printfSpy_GetCallCount (s : spy) : Z := spy_calls s.

(** ** A capture buffer, as in mockConsole.c and mockIComm.cpp *)

(** Start, Curr and End pointers of a block of End - Start + 1 bytes: the bytes stored so far and
    the number of bytes that can be stored; [None] if the pointers are NULL. *)
Definition capture := option (list Z * Z).
(** mockConsole.c 69-74, mockIComm.cpp 262-264.  Simplification: malloc succeeds. *)
Definition capture_init (size : Z) : capture := Some ([], size).
(** mockConsole.c 105-106, mockIComm.cpp 149-150. *)
Definition capture_byte (b : Z) (c : capture) : capture :=
  match c with
  | None => None
  | Some (l, size) => if zlen l <? size then Some (l ++ [b mod 256], size) else c
  end.
(** mockConsole.c 76-80, mockIComm.cpp 267-271: stores a zero byte at Curr and returns the string at
    Start.  [None] is a write through NULL. *)
Definition capture_text (c : capture) : option (list Z) :=
  match c with
  | None => None
  | Some (l, _) => Some (cstr l)
  end.

(** ** mockConsole.c *)

(** 17-25. *)
Record mock_console := mkMC {
  mc_hasException : Z; mc_hasReturn : Z; mc_readException : Z; mc_read : list Z; mc_writeException : Z; mc_capture : capture
}.
(** 28-37; also the initial state. *)
Definition ConsoleMock_Uninit : mock_console := mkMC noException 0 noException [] noException None.

(** 40-74. *)
Definition ConsoleMock_HasStdInDataToRead_SetException (e : Z) (s : mock_console) : mock_console :=
  mkMC e (mc_hasReturn s) (mc_readException s) (mc_read s) (mc_writeException s) (mc_capture s).
Definition ConsoleMock_HasStdInDataToRead_SetReturn (v : Z) (s : mock_console) : mock_console :=
  mkMC (mc_hasException s) v (mc_readException s) (mc_read s) (mc_writeException s) (mc_capture s).
Definition ConsoleMock_ReadStdIn_SetException (e : Z) (s : mock_console) : mock_console :=
  mkMC (mc_hasException s) (mc_hasReturn s) e (mc_read s) (mc_writeException s) (mc_capture s).
Definition ConsoleMock_ReadStdIn_SetBuffer (l : list Z) (s : mock_console) : mock_console :=
  mkMC (mc_hasException s) (mc_hasReturn s) (mc_readException s) l (mc_writeException s) (mc_capture s).
Definition ConsoleMock_WriteStdOut_SetException (e : Z) (s : mock_console) : mock_console :=
  mkMC (mc_hasException s) (mc_hasReturn s) (mc_readException s) (mc_read s) e (mc_capture s).
Definition ConsoleMock_WriteStdOut_SetCaptureBufferSize (n : Z) (s : mock_console) : mock_console :=
  mkMC (mc_hasException s) (mc_hasReturn s) (mc_readException s) (mc_read s) (mc_writeException s) (capture_init n).
(** 76-80. *)
Definition ConsoleMock_WriteStdOut_GetCapturedText (s : mock_console) : option (list Z) := capture_text (mc_capture s).

(** The mock's versions of the console functions: a value, or the code that is thrown. *)
Definition thrown_or {A} (e : Z) (x : A) : A + Z := if e =? noException then inl x else inr e.
(** 84-89. *)
Definition mock_HasStdInDataToRead (s : mock_console) : Z + Z := thrown_or (mc_hasException s) (mc_hasReturn s).
(** 91-99. *)
Definition mock_ReadStdIn (s : mock_console) : (Z + Z) * mock_console :=
  if mc_readException s =? noException then
    match mc_read s with
    | [] => (inl 0, s)
    | b :: t => (inl (schar b), ConsoleMock_ReadStdIn_SetBuffer t s)
    end
  else (inr (mc_readException s), s).
(** 101-107. *)
Definition mock_WriteStdOut (ch : Z) (s : mock_console) : (unit + Z) * mock_console :=
  if mc_writeException s =? noException then
    (inl tt, mkMC (mc_hasException s) (mc_hasReturn s) (mc_readException s) (mc_read s) (mc_writeException s) (capture_byte ch (mc_capture s)))
  else (inr (mc_writeException s), s).

(** ** mockIComm.cpp *)

(** 22-26 and 228-252: the data with a checksum after each '#'.  [sum] is a char; only its lowest eight
    bits matter.  [l] is the string without its final zero byte. *)
Definition NibbleToHexChar (d : Z) : Z := nth (Z.to_nat d) (s2b "0123456789abcdef") 0.
Fixpoint copyChecksummedData (sum : Z) (l : list Z) : list Z :=
  match l with
  | [] => [0]
  | c :: t =>
      c :: (if c =? 36 then copyChecksummedData 0 t
            else if c =? 35 then NibbleToHexChar (sum mod 256 / 16) :: NibbleToHexChar (sum mod 16) :: copyChecksummedData sum t
            else copyChecksummedData (sum + c) t)
  end.
(** 217-226. *)
Fixpoint countPoundSigns (l : list Z) : Z :=
  match l with
  | [] => 0
  | c :: t => (if c =? 35 then 1 else 0) + countPoundSigns t
  end.
(** 209-215: [None] if it would write outside the block.  Simplification: malloc succeeds. *)
Definition allocateAndCopyChecksummedData (l : list Z) : option (list Z) :=
  let len := zlen (cstr l) + 2 * countPoundSigns (cstr l) + 1 in
  let text := copyChecksummedData 0 (cstr l) in
  if len <? zlen text then None else Some text.

(** 66-77: the two receive buffers (what is left of them), g_receiveIndex, g_delayReceiveCount, the
    transmit buffer and the two flags.  The allocations behind the receive buffers are not modelled. *)
Record mock_icomm := mkIC {
  ic_first : list Z; ic_second : list Z; ic_index : nat; ic_delay : Z; ic_transmit : capture; ic_stop : bool; ic_connected : bool
}.
Definition mock_icomm0 : mock_icomm := mkIC [] [] 0 0 None true true.
Definition emptyPacket : list Z := s2b "$#00".

(** 172-181; [init] takes the length of a string. *)
Definition mockIComm_InitReceiveData (d1 : list Z) (d2 : option (list Z)) (s : mock_icomm) : mock_icomm :=
  mkIC (cstr d1) (match d2 with Some d => cstr d | None => emptyPacket end) 0 0 (ic_transmit s) (ic_stop s) (ic_connected s).
(** 184-200. *)
Definition mockIComm_InitReceiveChecksummedData (d1 : list Z) (d2 : option (list Z)) (s : mock_icomm) : option mock_icomm :=
  match allocateAndCopyChecksummedData d1, match d2 with Some d => allocateAndCopyChecksummedData d | None => Some emptyPacket end with
  | Some t1, Some t2 => Some (mkIC (cstr t1) (cstr t2) 0 0 (ic_transmit s) (ic_stop s) (ic_connected s))
  | _, _ => None
  end.
(** 254-257. *)
Definition mockIComm_DelayReceiveData (n : Z) (s : mock_icomm) : mock_icomm :=
  mkIC (ic_first s) (ic_second s) (ic_index s) n (ic_transmit s) (ic_stop s) (ic_connected s).
(** 259-265. *)
Definition mockIComm_InitTransmitDataBuffer (n : Z) (s : mock_icomm) : mock_icomm :=
  mkIC (ic_first s) (ic_second s) (ic_index s) (ic_delay s) (capture_init n) (ic_stop s) (ic_connected s).
(** 267-271. *)
Definition mockIComm_GetTransmittedData (s : mock_icomm) : option (list Z) := capture_text (ic_transmit s).
(** 274-279. *)
Definition mockIComm_ChecksumData (l : list Z) : option (list Z) := option_map cstr (allocateAndCopyChecksummedData l).
(** 166-169 and 282-285. *)
Definition mockIComm_SetShouldStopRunFlag (b : bool) (s : mock_icomm) : mock_icomm :=
  mkIC (ic_first s) (ic_second s) (ic_index s) (ic_delay s) (ic_transmit s) b (ic_connected s).
Definition mockIComm_SetIsGdbConnectedFlag (b : bool) (s : mock_icomm) : mock_icomm :=
  mkIC (ic_first s) (ic_second s) (ic_index s) (ic_delay s) (ic_transmit s) (ic_stop s) b.
(** 288-308: the receive index, the delay and the stop flag stay. *)
Definition mockIComm_Uninit (s : mock_icomm) : mock_icomm := mkIC [] [] (ic_index s) (ic_delay s) None (ic_stop s) true.

(** 127-132. *)
Definition receiveBuffer (s : mock_icomm) : list Z :=
  match ic_index s with O => ic_first s | 1%nat => ic_second s | _ => [] end.
Definition isReceiveBufferEmpty (s : mock_icomm) : bool := match receiveBuffer s with [] => true | _ => false end.
(** 109-125. *)
Definition mock_hasReceiveData (s : mock_icomm) : bool * mock_icomm :=
  if 0 <? ic_delay s then (false, mockIComm_DelayReceiveData (ic_delay s - 1) s)
  else if isReceiveBufferEmpty s then
    (false, if Nat.ltb (ic_index s) 2 then mkIC (ic_first s) (ic_second s) (S (ic_index s)) (ic_delay s) (ic_transmit s) (ic_stop s) (ic_connected s) else s)
  else (true, s).
(** 140-145: polls until there is data; [None] if [fuel] polls are not enough. *)
Fixpoint waitForReceiveData (fuel : nat) (s : mock_icomm) : option mock_icomm :=
  match fuel with
  | O => None
  | S k => let (b, s') := mock_hasReceiveData s in if b then Some s' else waitForReceiveData k s'
  end.
(** 44-52: the next character of the current buffer. *)
Definition getNextChar (s : mock_icomm) : option (Z * mock_icomm) :=
  match ic_index s with
  | O => match ic_first s with [] => None | c :: t => Some (schar c, mkIC t (ic_second s) (ic_index s) (ic_delay s) (ic_transmit s) (ic_stop s) (ic_connected s)) end
  | 1%nat => match ic_second s with [] => None | c :: t => Some (schar c, mkIC (ic_first s) t (ic_index s) (ic_delay s) (ic_transmit s) (ic_stop s) (ic_connected s)) end
  | _ => None
  end.
(** 134-138: [None] if it does not return within [fuel] polls. *)
Definition mock_receiveChar (fuel : nat) (s : mock_icomm) : option (Z * mock_icomm) :=
  match waitForReceiveData fuel s with None => None | Some s' => getNextChar s' end.
(** 147-151. *)
Definition mock_sendChar (ch : Z) (s : mock_icomm) : mock_icomm :=
  mkIC (ic_first s) (ic_second s) (ic_index s) (ic_delay s) (capture_byte ch (ic_transmit s)) (ic_stop s) (ic_connected s).
(** 153-161. *)
Definition mock_shouldStopRun (s : mock_icomm) : bool := ic_stop s.
Definition mock_isGdbConnected (s : mock_icomm) : bool := ic_connected s.

(** ** Sequences of calls

    One constructor for each function a test or the code under test can call; the functions below
    apply a sequence of calls to the state, one after the other. *)
Inductive malloc_call := FailAllocation (n : Z) | RestoreAllocation | Allocate.
Definition malloc_step (s : malloc_inject) (c : malloc_call) : malloc_inject :=
  match c with
  | FailAllocation n => MallocFailureInject_FailAllocation n s
  | RestoreAllocation => MallocFailureInject_Restore s
  | Allocate => snd (hook_alloc s)
  end.
Definition after_mallocs (h : list malloc_call) : malloc_inject := fold_left malloc_step h malloc_inject0.

Inductive file_fn := F_fopen | F_fclose | F_fseek | F_ftell | F_fwrite | F_fread | F_fgets.
Inductive file_call :=
| FopenSetReturn (v : Z) | FopenRestore
| FcloseIgnore | FcloseRestore
| FseekSetReturn (v : Z) | FseekSetCallsBeforeFailure (n : Z) | FseekRestore
| FtellFail (v : Z) | FtellRestore
| FwriteFail (v : Z) | FwriteRestore
| FreadFail (v : Z) | FreadToFail (n : Z) | FreadRestore
| FgetsSetData (lines : list (list Z)) | FgetsRestore
| Call (f : file_fn) (size : Z).   (* the code under test calls f; [size] matters for fgets only *)
Definition file_hook (f : file_fn) (size : Z) : file_inject -> file_result * file_inject :=
  match f with
  | F_fopen => hook_fopen | F_fclose => hook_fclose | F_fseek => hook_fseek | F_ftell => hook_ftell
  | F_fwrite => hook_fwrite | F_fread => hook_fread | F_fgets => hook_fgets size
  end.
Definition file_step (s : file_inject) (c : file_call) : file_inject :=
  match c with
  | FopenSetReturn v => fopenSetReturn v s | FopenRestore => fopenRestore s
  | FcloseIgnore => fcloseIgnore s | FcloseRestore => fcloseRestore s
  | FseekSetReturn v => fseekSetReturn v s | FseekSetCallsBeforeFailure n => fseekSetCallsBeforeFailure n s | FseekRestore => fseekRestore s
  | FtellFail v => ftellFail v s | FtellRestore => ftellRestore s
  | FwriteFail v => fwriteFail v s | FwriteRestore => fwriteRestore s
  | FreadFail v => freadFail v s | FreadToFail n => freadToFail n s | FreadRestore => freadRestore s
  | FgetsSetData ls => fgetsSetData ls s | FgetsRestore => fgetsRestore s
  | Call f size => snd (file_hook f size s)
  end.
Definition after_files (h : list file_call) : file_inject := fold_left file_step h file_inject0.

Inductive spy_call := Hook (size : Z) | Unhook | Print (f : stream) (text : list Z).
(** Simplification: malloc succeeds.  [None] after a failed assertion. *)
Definition spy_step (s : option spy) (c : spy_call) : option spy :=
  match s, c with
  | None, _ => None
  | Some s, Hook size => Some (printfSpy_Hook size s)
  | Some s, Unhook => Some (printfSpy_Unhook s)
  | Some s, Print f text =>
      match hook_fprintf f text true s with
      | Printed _ s' => Some s'
      | Through => Some s
      | Assertion => None
      end
  end.
Definition after_prints (h : list spy_call) : option spy := fold_left spy_step h (Some spy0).

Inductive console_call :=
| HasException (e : Z) | HasReturn (v : Z) | ReadException (e : Z) | ReadBuffer (l : list Z)
| WriteException (e : Z) | CaptureSize (n : Z) | UninitConsole
| HasData | Read | Write (ch : Z).
Definition console_step (s : mock_console) (c : console_call) : mock_console :=
  match c with
  | HasException e => ConsoleMock_HasStdInDataToRead_SetException e s
  | HasReturn v => ConsoleMock_HasStdInDataToRead_SetReturn v s
  | ReadException e => ConsoleMock_ReadStdIn_SetException e s
  | ReadBuffer l => ConsoleMock_ReadStdIn_SetBuffer l s
  | WriteException e => ConsoleMock_WriteStdOut_SetException e s
  | CaptureSize n => ConsoleMock_WriteStdOut_SetCaptureBufferSize n s
  | UninitConsole => ConsoleMock_Uninit
  | HasData => s
  | Read => snd (mock_ReadStdIn s)
  | Write ch => snd (mock_WriteStdOut ch s)
  end.
Definition after_console (h : list console_call) : mock_console := fold_left console_step h ConsoleMock_Uninit.

Inductive comm_call :=
| InitReceive (d1 : list Z) (d2 : option (list Z)) | InitChecksummed (d1 : list Z) (d2 : option (list Z))
| DelayReceive (n : Z) | InitTransmit (n : Z) | SetStop (b : bool) | SetConnected (b : bool) | UninitComm
| HasReceive | Receive | Send (ch : Z).
(** [fuel] polls are enough for each receiveChar; [None] after a call that does not return or that
    writes outside a block. *)
Definition comm_step (fuel : nat) (s : option mock_icomm) (c : comm_call) : option mock_icomm :=
  match s with
  | None => None
  | Some s =>
      match c with
      | InitReceive d1 d2 => Some (mockIComm_InitReceiveData d1 d2 s)
      | InitChecksummed d1 d2 => mockIComm_InitReceiveChecksummedData d1 d2 s
      | DelayReceive n => Some (mockIComm_DelayReceiveData n s)
      | InitTransmit n => Some (mockIComm_InitTransmitDataBuffer n s)
      | SetStop b => Some (mockIComm_SetShouldStopRunFlag b s)
      | SetConnected b => Some (mockIComm_SetIsGdbConnectedFlag b s)
      | UninitComm => Some (mockIComm_Uninit s)
      | HasReceive => Some (snd (mock_hasReceiveData s))
      | Receive => option_map snd (mock_receiveChar fuel s)
      | Send ch => Some (mock_sendChar ch s)
      end
  end.
Definition after_comm (fuel : nat) (h : list comm_call) : option mock_icomm := fold_left (comm_step fuel) h (Some mock_icomm0).
