(** libCrashDebug/src/mriPlatform.c: the platform layer between the debug monitor and the
    simulated memory and register context.  The debug monitor itself (mri) is not in /repo; its
    packet buffer is the list of characters written to / still to be read from it. *)
From Coq Require Import String ZArith List Bool.
From Verif Require Import Base World Context MemSim.
Import ListNotations.
Open Scope Z_scope.
Open Scope m_scope.

(** mriPlatform.c 166-173, without the call of __mriInit (not in /repo). *)
Definition mriPlatform_Init : M world unit := modw (fun w => set_faults w 0).

(** g_memoryFaultEncountered++ (mriPlatform.c 225 and others): an int. *)
Definition countFault : M world unit :=
  fun w => if w_faults w <? 2147483647 then Ret tt (set_faults w (w_faults w + 1)) else Ub UbOverflow.

(** mriPlatform.c 219-247, by width in bytes; the local is [retVal].  The pointer argument is
    converted to 32 bits. *)
Definition Platform_MemRead (n a : Z) : M world Z :=
  try_ 0 (v <- lift (readN n (W a));; setl v)
         (fun retVal => countFault ;;; ret retVal).

(** mriPlatform.c 249-271, by width in bytes. *)
Definition Platform_MemWrite (n a v : Z) : M world unit :=
  try0 (writeN n (W a) v) countFault.

(** mriPlatform.c 575-580. *)
Definition Platform_WasMemoryFaultEncountered : M world Z :=
  fun w => Ret (w_faults w) (set_faults w 0).

(** mriPlatform.c 350-353. *)
Definition getCurrentlyExecutingExceptionNumber : M world Z :=
  psr <- ctx_word OFF_PSR;; ret (Z.land psr 255).

(** <signal.h> numbers on Linux x86-64. *)
Definition SIGINT := 2. Definition SIGILL := 4. Definition SIGTRAP := 5. Definition SIGBUS := 7.
Definition SIGSEGV := 11. Definition SIGSTOP := 19.

(** mriPlatform.c 320-348. *)
Definition Platform_DetermineCauseOfException : M world Z :=
  n <- getCurrentlyExecutingExceptionNumber;;
  ret (if n =? 2 then SIGINT
       else if n =? 3 then SIGSEGV
       else if n =? 4 then SIGSEGV
       else if n =? 5 then SIGBUS
       else if n =? 6 then SIGILL
       else if n =? 12 then SIGTRAP
       else SIGSTOP).

(** mriPlatform.c 137-140. *)
Definition CFSR := 3758157096.  (* 0xE000ED28 *)
Definition HFSR := 3758157100.  (* 0xE000ED2C *)
Definition MMFAR := 3758157108. (* 0xE000ED34 *)
Definition BFAR := 3758157112.  (* 0xE000ED38 *)

(** WriteStringToGdbConsole / WriteHexValueToGdbConsole are external (mri's gdb_console.h); their
    effect is recorded in [w_gdb].  Strings start on a new line, so each literal below is given
    without its leading newline and [say] adds it. *)
Definition say (s : string) : M world unit := modw (fun w => set_gdb w (GStr (10 :: s2b s) :: w_gdb w)).
Definition sayHex (v : Z) : M world unit := modw (fun w => set_gdb w (GHex v :: w_gdb w)).
Definition sayIf (v : Z) (bit : Z) (s : string) : M world unit :=
  if Z.testbit v bit then say s else ret tt.

(** The pattern "__try x = read; __catch return;": [None] means the function returns. *)
Definition try_read (m : M world Z) : M world (option Z) :=
  try_ None (v <- lift m;; setl (Some v)) (fun _ => ret None).

(** mriPlatform.c 434-445 and 482-493: the fault address part. *)
Definition displayFaultAddress (reg : Z) : M world unit :=
  try0 (a <- read32 reg;; say "    Fault Address: " ;;; sayHex a) (ret tt).

(** mriPlatform.c 412-456. *)
Definition displayMemFaultCauseToGdbConsole : M world unit :=
  s <- try_read (v <- read32 CFSR;; ret (Z.land v 255));;
  match s with
  | None => ret tt
  | Some s =>
      if s =? 0 then ret tt else
      say "**MPU Fault**" ;;;
      say "  Status Register: " ;;;
      sayHex s ;;;
      (if Z.testbit s 7 then displayFaultAddress MMFAR else ret tt) ;;;
      sayIf s 5 "    FP Lazy Preservation" ;;;
      sayIf s 4 "    Stacking Error" ;;;
      sayIf s 3 "    Unstacking Error" ;;;
      sayIf s 1 "    Data Access" ;;;
      sayIf s 0 "    Instruction Fetch"
  end.

(** mriPlatform.c 458-506. *)
Definition displayBusFaultCauseToGdbConsole : M world unit :=
  s <- try_read (v <- read32 CFSR;; ret (Z.land (Z.shiftr v 8) 255));;
  match s with
  | None => ret tt
  | Some s =>
      if s =? 0 then ret tt else
      say "**Bus Fault**" ;;;
      say "  Status Register: " ;;;
      sayHex s ;;;
      (if Z.testbit s 7 then displayFaultAddress BFAR else ret tt) ;;;
      sayIf s 5 "    FP Lazy Preservation" ;;;
      sayIf s 4 "    Stacking Error" ;;;
      sayIf s 3 "    Unstacking Error" ;;;
      sayIf s 2 "    Imprecise Data Access" ;;;
      sayIf s 1 "    Precise Data Access" ;;;
      sayIf s 0 "    Instruction Prefetch"
  end.

(** mriPlatform.c 508-542. *)
Definition displayUsageFaultCauseToGdbConsole : M world unit :=
  s <- try_read (v <- read32 CFSR;; ret (Z.land (Z.shiftr v 16) 65535));;
  match s with
  | None => ret tt
  | Some s =>
      if s =? 0 then ret tt else
      say "**Usage Fault**" ;;;
      say "  Status Register: " ;;;
      sayHex s ;;;
      sayIf s 9 "    Divide by Zero" ;;;
      sayIf s 8 "    Unaligned Access" ;;;
      sayIf s 3 "    Coprocessor Access" ;;;
      sayIf s 2 "    Invalid Exception Return State" ;;;
      sayIf s 1 "    Invalid State" ;;;
      sayIf s 0 "    Undefined Instruction"
  end.

(** mriPlatform.c 381-410. *)
Definition displayHardFaultCauseToGdbConsole : M world unit :=
  say "**Hard Fault**" ;;;
  s <- try_read (read32 HFSR);;
  match s with
  | None => ret tt
  | Some s =>
      say "  Status Register: " ;;;
      sayHex s ;;;
      sayIf s 31 "    Debug Event" ;;;
      sayIf s 1 "    Vector Table Read" ;;;
      (if Z.testbit s 30 then
         say "    Forced" ;;;
         displayMemFaultCauseToGdbConsole ;;;
         displayBusFaultCauseToGdbConsole ;;;
         displayUsageFaultCauseToGdbConsole
       else ret tt)
  end.

(** mriPlatform.c 355-379. *)
Definition Platform_DisplayFaultCauseToGdbConsole : M world unit :=
  n <- getCurrentlyExecutingExceptionNumber;;
  if n =? 3 then displayHardFaultCauseToGdbConsole ;;; say ""
  else if n =? 4 then displayMemFaultCauseToGdbConsole ;;; say ""
  else if n =? 5 then displayBusFaultCauseToGdbConsole ;;; say ""
  else if n =? 6 then displayUsageFaultCauseToGdbConsole ;;; say ""
  else ret tt.

(** Buffer_WriteByteAsHex (external): two lower-case hex digits. *)
Definition hexByte (b : Z) : list Z := [hexL (b / 16); hexL (b mod 16)].

(** mriPlatform.c 598-605. *)
Fixpoint writeBytesToBufferAsHex (bs : list Z) : list Z :=
  match bs with
  | [] => []
  | b :: t => hexByte b ++ writeBytesToBufferAsHex t
  end.

(** Bytes of the context. *)
Definition ctx_bytes (off n : Z) : M world (list Z) :=
  fun w => if (0 <=? off) && (off + n <=? zlen (w_ctx w))
           then Ret (slice (w_ctx w) off n) w
           else Ub UbContext.

(** mriPlatform.c 614-617. *)
Definition hasFPURegisters : M world bool :=
  f <- ctx_word OFF_FLAGS;;
  ret (negb (Z.land f CRASH_CATCHER_FLAGS_FLOATING_POINT =? 0)).

(** mriPlatform.c 590-596. *)
Definition sendRegisterForTResponse (reg : Z) (value : Z) : list Z :=
  hexByte reg ++ [58] ++ writeBytesToBufferAsHex (le 4 value) ++ [59].

(** mriPlatform.c 582-588: the text appended to the buffer. *)
Definition Platform_WriteTResponseRegistersToBuffer : M world (list Z) :=
  r12 <- ctx_word (OFF_R 12);;
  r13 <- ctx_word (OFF_R 13);;
  r14 <- ctx_word (OFF_R 14);;
  r15 <- ctx_word (OFF_R 15);;
  ret (sendRegisterForTResponse 12 r12 ++ sendRegisterForTResponse 13 r13 ++
       sendRegisterForTResponse 14 r14 ++ sendRegisterForTResponse 15 r15).

(** mriPlatform.c 607-612: the text appended to the buffer. *)
Definition Platform_CopyContextToBuffer : M world (list Z) :=
  r <- ctx_bytes (OFF_R 0) 76;;
  fp <- hasFPURegisters;;
  if fp : bool then
    f <- ctx_bytes (OFF_FPR 0) 132;;
    ret (writeBytesToBufferAsHex r ++ writeBytesToBufferAsHex f)
  else ret (writeBytesToBufferAsHex r).

(** Buffer_ReadByteAsHex (external): the byte and the unread text.  Running out of text or a
    character that is not a hex digit throws; only that it does not write the context is used. *)
Definition hexDigitValue (c : Z) : option Z :=
  if isHexDigit c then digit_val c else None.

(** mriPlatform.c 626-633: read [n] bytes into the context at [off]; the unread text. *)
Fixpoint readBytesFromBufferAsHex (n : nat) (off : Z) (buf : list Z) : M world (list Z) :=
  match n with
  | O => ret buf
  | S k =>
      match buf with
      | h :: l :: t =>
          match hexDigitValue h, hexDigitValue l with
          | Some a, Some b => ctx_put off [16 * a + b] ;;; readBytesFromBufferAsHex k (off + 1) t
          | _, _ => throw invalidArgumentException
          end
      | _ => throw bufferOverrunException
      end
  end.

(** mriPlatform.c 619-624. *)
Definition Platform_CopyContextFromBuffer (buf : list Z) : M world (list Z) :=
  rest <- readBytesFromBufferAsHex 76 (OFF_R 0) buf;;
  fp <- hasFPURegisters;;
  if fp : bool then readBytesFromBufferAsHex 132 (OFF_FPR 0) rest else ret rest.

(** mriPlatform.c 58-85 and 87-133. *)
Definition g_targetXML : list Z :=
   s2b "<?xml version=""1.0""?>" ++ [10] ++
   s2b "<!DOCTYPE feature SYSTEM ""gdb-target.dtd"">" ++ [10] ++
   s2b "<target>" ++ [10] ++
   s2b "<feature name=""org.gnu.gdb.arm.m-profile"">" ++ [10] ++
   s2b "<reg name=""r0"" bitsize=""32""/>" ++ [10] ++
   s2b "<reg name=""r1"" bitsize=""32""/>" ++ [10] ++
   s2b "<reg name=""r2"" bitsize=""32""/>" ++ [10] ++
   s2b "<reg name=""r3"" bitsize=""32""/>" ++ [10] ++
   s2b "<reg name=""r4"" bitsize=""32""/>" ++ [10] ++
   s2b "<reg name=""r5"" bitsize=""32""/>" ++ [10] ++
   s2b "<reg name=""r6"" bitsize=""32""/>" ++ [10] ++
   s2b "<reg name=""r7"" bitsize=""32""/>" ++ [10] ++
   s2b "<reg name=""r8"" bitsize=""32""/>" ++ [10] ++
   s2b "<reg name=""r9"" bitsize=""32""/>" ++ [10] ++
   s2b "<reg name=""r10"" bitsize=""32""/>" ++ [10] ++
   s2b "<reg name=""r11"" bitsize=""32""/>" ++ [10] ++
   s2b "<reg name=""r12"" bitsize=""32""/>" ++ [10] ++
   s2b "<reg name=""sp"" bitsize=""32"" type=""data_ptr""/>" ++ [10] ++
   s2b "<reg name=""lr"" bitsize=""32""/>" ++ [10] ++
   s2b "<reg name=""pc"" bitsize=""32"" type=""code_ptr""/>" ++ [10] ++
   s2b "<reg name=""xpsr"" bitsize=""32"" regnum=""25""/>" ++ [10] ++
   s2b "</feature>" ++ [10] ++
   s2b "<feature name=""org.gnu.gdb.arm.m-system"">" ++ [10] ++
   s2b "<reg name=""msp"" bitsize=""32"" regnum=""26""/>" ++ [10] ++
   s2b "<reg name=""psp"" bitsize=""32"" regnum=""27""/>" ++ [10] ++
   s2b "</feature>" ++ [10] ++
   s2b "</target>" ++ [10].
Definition g_targetFpuXML : list Z :=
   s2b "<?xml version=""1.0""?>" ++ [10] ++
   s2b "<!DOCTYPE feature SYSTEM ""gdb-target.dtd"">" ++ [10] ++
   s2b "<target>" ++ [10] ++
   s2b "<feature name=""org.gnu.gdb.arm.m-profile"">" ++ [10] ++
   s2b "<reg name=""r0"" bitsize=""32""/>" ++ [10] ++
   s2b "<reg name=""r1"" bitsize=""32""/>" ++ [10] ++
   s2b "<reg name=""r2"" bitsize=""32""/>" ++ [10] ++
   s2b "<reg name=""r3"" bitsize=""32""/>" ++ [10] ++
   s2b "<reg name=""r4"" bitsize=""32""/>" ++ [10] ++
   s2b "<reg name=""r5"" bitsize=""32""/>" ++ [10] ++
   s2b "<reg name=""r6"" bitsize=""32""/>" ++ [10] ++
   s2b "<reg name=""r7"" bitsize=""32""/>" ++ [10] ++
   s2b "<reg name=""r8"" bitsize=""32""/>" ++ [10] ++
   s2b "<reg name=""r9"" bitsize=""32""/>" ++ [10] ++
   s2b "<reg name=""r10"" bitsize=""32""/>" ++ [10] ++
   s2b "<reg name=""r11"" bitsize=""32""/>" ++ [10] ++
   s2b "<reg name=""r12"" bitsize=""32""/>" ++ [10] ++
   s2b "<reg name=""sp"" bitsize=""32"" type=""data_ptr""/>" ++ [10] ++
   s2b "<reg name=""lr"" bitsize=""32""/>" ++ [10] ++
   s2b "<reg name=""pc"" bitsize=""32"" type=""code_ptr""/>" ++ [10] ++
   s2b "<reg name=""xpsr"" bitsize=""32"" regnum=""25""/>" ++ [10] ++
   s2b "</feature>" ++ [10] ++
   s2b "<feature name=""org.gnu.gdb.arm.m-system"">" ++ [10] ++
   s2b "<reg name=""msp"" bitsize=""32"" regnum=""26""/>" ++ [10] ++
   s2b "<reg name=""psp"" bitsize=""32"" regnum=""27""/>" ++ [10] ++
   s2b "</feature>" ++ [10] ++
   s2b "<feature name=""org.gnu.gdb.arm.vfp"">" ++ [10] ++
   s2b "<reg name=""d0"" bitsize=""64"" type=""ieee_double""/>" ++ [10] ++
   s2b "<reg name=""d1"" bitsize=""64"" type=""ieee_double""/>" ++ [10] ++
   s2b "<reg name=""d2"" bitsize=""64"" type=""ieee_double""/>" ++ [10] ++
   s2b "<reg name=""d3"" bitsize=""64"" type=""ieee_double""/>" ++ [10] ++
   s2b "<reg name=""d4"" bitsize=""64"" type=""ieee_double""/>" ++ [10] ++
   s2b "<reg name=""d5"" bitsize=""64"" type=""ieee_double""/>" ++ [10] ++
   s2b "<reg name=""d6"" bitsize=""64"" type=""ieee_double""/>" ++ [10] ++
   s2b "<reg name=""d7"" bitsize=""64"" type=""ieee_double""/>" ++ [10] ++
   s2b "<reg name=""d8"" bitsize=""64"" type=""ieee_double""/>" ++ [10] ++
   s2b "<reg name=""d9"" bitsize=""64"" type=""ieee_double""/>" ++ [10] ++
   s2b "<reg name=""d10"" bitsize=""64"" type=""ieee_double""/>" ++ [10] ++
   s2b "<reg name=""d11"" bitsize=""64"" type=""ieee_double""/>" ++ [10] ++
   s2b "<reg name=""d12"" bitsize=""64"" type=""ieee_double""/>" ++ [10] ++
   s2b "<reg name=""d13"" bitsize=""64"" type=""ieee_double""/>" ++ [10] ++
   s2b "<reg name=""d14"" bitsize=""64"" type=""ieee_double""/>" ++ [10] ++
   s2b "<reg name=""d15"" bitsize=""64"" type=""ieee_double""/>" ++ [10] ++
   s2b "<reg name=""fpscr"" bitsize=""32"" type=""int"" group=""float""/>" ++ [10] ++
   s2b "</feature>" ++ [10] ++
   s2b "</target>" ++ [10].

(** mriPlatform.c 635-659.  sizeof - 1 is the length of the text. *)
Definition Platform_GetDeviceMemoryMapXmlSize : M world Z :=
  x <- MemorySim_GetMemoryMapXML;; ret (zlen x).
Definition Platform_GetDeviceMemoryMapXml : M world (list Z) := MemorySim_GetMemoryMapXML.
Definition Platform_GetTargetXmlSize : M world Z :=
  fp <- hasFPURegisters;; ret (if fp : bool then zlen g_targetFpuXML else zlen g_targetXML).
Definition Platform_GetTargetXml : M world (list Z) :=
  fp <- hasFPURegisters;; ret (if fp : bool then g_targetFpuXML else g_targetXML).

(** mriPlatform.c 205-208. *)
Definition Platform_GetPacketBufferSize : Z := 16384.

(** mriPlatform.c 196-198: the parameters of the monitor are not used. *)
Definition Platform_Init : M world unit := ret tt.

(** mriPlatform.c 544-573: there is nothing to step. *)
Definition Platform_EnableSingleStep : M world unit := ret tt.
Definition Platform_DisableSingleStep : M world unit := ret tt.
Definition Platform_IsSingleStepping : M world bool := ret false.
Definition Platform_SetProgramCounter (pc : Z) : M world unit := ret tt.
Definition Platform_AdvanceProgramCounterToNextInstruction : M world unit := ret tt.
Definition Platform_WasProgramCounterModifiedByUser : M world bool := ret true.

(** mriPlatform.c 210-217, 710-716. *)
Definition Platform_EnteringDebugger : M world unit := Platform_DisableSingleStep.
Definition Platform_LeavingDebugger : M world unit := ret tt.
Definition mriPlatform_EnteringDebuggerHook : M world unit := ret tt.
Definition mriPlatform_LeavingDebuggerHook : M world unit := ret tt.

(** mriPlatform.c 288-309, 316-318.  Simplification: [g_shouldWaitForGdbConnect] (line 148) is a
    constant; mriPlatform_setWaitForGdbConnect (188-191), which changes it, is called by unit tests
    only. *)
Definition Platform_CommCausedInterrupt : M world bool := ret false.
Definition Platform_CommClearInterrupt : M world unit := ret tt.
Definition Platform_CommShouldWaitForGdbConnect : M world bool := ret true.
Definition Platform_CommSharingWithApplication : M world bool := ret false.
Definition Platform_CommPrepareToWaitForGdbConnection : M world unit := ret tt.
Definition Platform_CommWaitForReceiveDataToStop : M world unit := ret tt.

(** mriPlatform.c 661-679: requests that are ignored. *)
Definition Platform_SetHardwareBreakpoint (a k : Z) : M world unit := ret tt.
Definition Platform_ClearHardwareBreakpoint (a k : Z) : M world unit := ret tt.
Definition Platform_SetHardwareWatchpoint (a n t : Z) : M world unit := ret tt.
Definition Platform_ClearHardwareWatchpoint (a n t : Z) : M world unit := ret tt.

(** mriPlatform.c 681-708.  The instruction types and the structure of semihost parameters are
    declared in the header of the monitor, which is not part of /repo; the type is represented by a
    name and the structure by its words, all 0 after memset. *)
Inductive instruction_type := MRI_PLATFORM_INSTRUCTION_MBED_SEMIHOST_CALL | MRI_PLATFORM_INSTRUCTION_NEWLIB_SEMIHOST_CALL
  | MRI_PLATFORM_INSTRUCTION_HARDCODED_BREAKPOINT | MRI_PLATFORM_INSTRUCTION_OTHER.
Definition Platform_TypeOfCurrentInstruction : M world instruction_type := ret MRI_PLATFORM_INSTRUCTION_OTHER.
Definition Platform_GetSemihostCallParameters : M world (list Z) := ret [0; 0; 0; 0].
Definition Platform_SetSemihostCallReturnAndErrnoValues (v e : Z) : M world unit := ret tt.
Definition Semihost_IsDebuggeeMakingSemihostCall : M world bool := ret false.
Definition Semihost_HandleSemihostRequest : M world bool := ret false.
