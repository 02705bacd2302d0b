(** Specification vocabulary for a debug session: the calls a debugger's monitor makes on the
    platform layer, the states in which it makes them, the register packet, the fault report and the
    console.  The functions of the platform layer occur only as calls; what they return is described
    without their helper functions. *)
From Coq Require Import String ZArith List Bool.
From Verif Require Import Base World Context MemSim Platform Comm CmdLine MemSpec DumpSpec CmdSpec.
Import ListNotations.
Open Scope Z_scope.
Open Scope m_scope.

(** ** Calls *)

(** The calls by which the monitor would control a running target. *)
Inductive control :=
| KInit                          (* Platform_Init *)
| KEnter | KLeave                (* Platform_EnteringDebugger, Platform_LeavingDebugger *)
| KEnterHook | KLeaveHook        (* __mriPlatform_EnteringDebuggerHook, ...LeavingDebuggerHook *)
| KStepOn | KStepOff             (* Platform_EnableSingleStep, Platform_DisableSingleStep *)
| KStepping                      (* Platform_IsSingleStepping *)
| KSetPC (pc : Z)                (* Platform_SetProgramCounter *)
| KAdvancePC                     (* Platform_AdvanceProgramCounterToNextInstruction *)
| KPCModified                    (* Platform_WasProgramCounterModifiedByUser *)
| KSetBreak (a kind : Z)         (* Platform_SetHardwareBreakpoint *)
| KClearBreak (a kind : Z)       (* Platform_ClearHardwareBreakpoint *)
| KSetWatch (a n type : Z)       (* Platform_SetHardwareWatchpoint *)
| KClearWatch (a n type : Z)     (* Platform_ClearHardwareWatchpoint *)
| KInstruction                   (* Platform_TypeOfCurrentInstruction *)
| KSemihostParams                (* Platform_GetSemihostCallParameters *)
| KSemihostReturn (v e : Z)      (* Platform_SetSemihostCallReturnAndErrnoValues *)
| KIsSemihost                    (* Semihost_IsDebuggeeMakingSemihostCall *)
| KHandleSemihost                (* Semihost_HandleSemihostRequest *)
| KInterrupted | KClearInterrupt (* Platform_CommCausedInterrupt, Platform_CommClearInterrupt *)
| KShouldWait                    (* Platform_CommShouldWaitForGdbConnect *)
| KSharing                       (* Platform_CommSharingWithApplication *)
| KPrepare                       (* Platform_CommPrepareToWaitForGdbConnection *)
| KWaitStop                      (* Platform_CommWaitForReceiveDataToStop *)
| KPacketSize.                   (* Platform_GetPacketBufferSize *)

(** The calls of the platform layer. *)
Inductive pcall :=
| PControl (c : control)
| PRead (n a : Z)                (* Platform_MemRead8/16/32 *)
| PWrite (n a v : Z)             (* Platform_MemWrite8/16/32 *)
| PFaults                        (* Platform_WasMemoryFaultEncountered *)
| PCause                         (* Platform_DetermineCauseOfException *)
| PReport                        (* Platform_DisplayFaultCauseToGdbConsole *)
| PGetRegs                       (* Platform_CopyContextToBuffer *)
| PSetRegs (packet : list Z)     (* Platform_CopyContextFromBuffer *)
| PTRegs                         (* Platform_WriteTResponseRegistersToBuffer *)
| PMap | PMapSize                (* Platform_GetDeviceMemoryMapXml, ...Size *)
| PTarget | PTargetSize          (* Platform_GetTargetXml, ...Size *)
| PHasData | PReceive | PSend (c : Z) | PWaiting.  (* Platform_Comm... *)

(** Widths of accesses. *)
Definition pcall_args (p : pcall) : Prop :=
  match p with
  | PRead n _ | PWrite n _ _ => width n
  | _ => True
  end.

Definition num {A} (f : A -> Z) (m : M world A) : M world (list Z) := x <- m;; ret [f x].
Definition nothing (m : M world unit) : M world (list Z) := m ;;; ret [].
(** Whether an instruction type is one that the monitor acts on. *)
Definition special_instruction (t : instruction_type) : Z := match t with MRI_PLATFORM_INSTRUCTION_OTHER => 0 | _ => 1 end.
Definition control_run (c : control) : M world (list Z) :=
  match c with
  | KInit => nothing Platform_Init
  | KEnter => nothing Platform_EnteringDebugger
  | KLeave => nothing Platform_LeavingDebugger
  | KEnterHook => nothing mriPlatform_EnteringDebuggerHook
  | KLeaveHook => nothing mriPlatform_LeavingDebuggerHook
  | KStepOn => nothing Platform_EnableSingleStep
  | KStepOff => nothing Platform_DisableSingleStep
  | KStepping => num Z.b2z Platform_IsSingleStepping
  | KSetPC pc => nothing (Platform_SetProgramCounter pc)
  | KAdvancePC => nothing Platform_AdvanceProgramCounterToNextInstruction
  | KPCModified => num Z.b2z Platform_WasProgramCounterModifiedByUser
  | KSetBreak a k => nothing (Platform_SetHardwareBreakpoint a k)
  | KClearBreak a k => nothing (Platform_ClearHardwareBreakpoint a k)
  | KSetWatch a n t => nothing (Platform_SetHardwareWatchpoint a n t)
  | KClearWatch a n t => nothing (Platform_ClearHardwareWatchpoint a n t)
  | KInstruction => num special_instruction Platform_TypeOfCurrentInstruction
  | KSemihostParams => Platform_GetSemihostCallParameters
  | KSemihostReturn v e => nothing (Platform_SetSemihostCallReturnAndErrnoValues v e)
  | KIsSemihost => num Z.b2z Semihost_IsDebuggeeMakingSemihostCall
  | KHandleSemihost => num Z.b2z Semihost_HandleSemihostRequest
  | KInterrupted => num Z.b2z Platform_CommCausedInterrupt
  | KClearInterrupt => nothing Platform_CommClearInterrupt
  | KShouldWait => num Z.b2z Platform_CommShouldWaitForGdbConnect
  | KSharing => num Z.b2z Platform_CommSharingWithApplication
  | KPrepare => nothing Platform_CommPrepareToWaitForGdbConnection
  | KWaitStop => nothing Platform_CommWaitForReceiveDataToStop
  | KPacketSize => ret [Platform_GetPacketBufferSize]
  end.
(** The call; a number is given as a list of one element. *)
Definition pcall_run (p : pcall) : M world (list Z) :=
  match p with
  | PControl c => control_run c
  | PRead n a => num (fun x => x) (Platform_MemRead n a)
  | PWrite n a v => nothing (Platform_MemWrite n a v)
  | PFaults => num (fun x => x) Platform_WasMemoryFaultEncountered
  | PCause => num (fun x => x) Platform_DetermineCauseOfException
  | PReport => nothing Platform_DisplayFaultCauseToGdbConsole
  | PGetRegs => Platform_CopyContextToBuffer
  | PSetRegs t => Platform_CopyContextFromBuffer t
  | PTRegs => Platform_WriteTResponseRegistersToBuffer
  | PMap => Platform_GetDeviceMemoryMapXml
  | PMapSize => num (fun x => x) Platform_GetDeviceMemoryMapXmlSize
  | PTarget => Platform_GetTargetXml
  | PTargetSize => num (fun x => x) Platform_GetTargetXmlSize
  | PHasData => num Z.b2z Platform_CommHasReceiveData
  | PReceive => num (fun x => x) Platform_CommReceiveChar
  | PSend c => nothing (Platform_CommSendChar c)
  | PWaiting => num Z.b2z Platform_CommIsWaitingForGdbToConnect
  end.

(** The state after a call, whether it returned or raised. *)
Definition pstep (p : pcall) (w : world) : option world :=
  match api (pcall_run p) w with Done _ w' => Some w' | Raised _ w' => Some w' | Crashed _ => None end.
Fixpoint prun (ps : list pcall) (w : world) : option world :=
  match ps with
  | [] => Some w
  | p :: t => match pstep p w with Some w' => prun t w' | None => None end
  end.

(** ** States of a session *)

(** No --alias option redirects to an address in the range of an --alias option before it. *)
Definition direct_aliases (os : list opt) : Prop :=
  forall before b s r middle b' s' r' after,
    os = before ++ Alias b s r :: middle ++ Alias b' s' r' :: after ->
    ~ (strtou32 b <= strtou32 r' < strtou32 b + strtou32 s).

(** The states in which the monitor makes its calls: after main's initialisation of the session - from
    the command line, or with any memory made by calls of the simulator and any 216 bytes of
    registers - and after any number of calls.  Raised exceptions are supposed to be caught by the
    monitor. *)
Inductive debug_state : world -> Prop :=
| ds_start args os w c w1 w' :
    heap_sane w -> fs_open (w_files w) = [] -> spells args os -> complete os -> files_fine w os -> direct_aliases os ->
    api (CrashDebugCommandLine_Init args) w = Done c w1 ->
    api (StandardIComm_Init ;;; mriPlatform_Init) w1 = Done tt w' -> debug_state w'
| ds_memory w1 w' :
    reachable w1 -> zlen (w_ctx w1) = 216 -> Forall byte (w_ctx w1) ->
    api (StandardIComm_Init ;;; mriPlatform_Init) w1 = Done tt w' -> debug_state w'
| ds_call w p w' : debug_state w -> pcall_args p -> pstep p w = Some w' -> debug_state w'.

(** ** Failing accesses *)

(** The access of the simulated memory that a call stands for. *)
Definition access (p : pcall) : option (M world unit) :=
  match p with
  | PRead n a => Some (drop (readN n (W a)))
  | PWrite n a v => Some (writeN n (W a) v)
  | _ => None
  end.
(** The call is a read or write that the simulated memory refuses. *)
Definition refused (p : pcall) (w : world) : bool :=
  match access p with
  | Some m => match api m w with Raised _ _ => true | _ => false end
  | None => false
  end.
(** How many calls of a sequence are refused reads or writes. *)
Fixpoint refused_calls (ps : list pcall) (w : world) : Z :=
  match ps with
  | [] => 0
  | p :: t => (if refused p w then 1 else 0) + match pstep p w with Some w' => refused_calls t w' | None => 0 end
  end.

(** ** The register packet *)

(** The word at an offset of the context: [flags] is at 0, the crash PSR at 80. *)
Definition word_at (ctx : list Z) (off : nat) : Z := of_le (firstn 4 (skipn off ctx)).
Definition has_fpu (ctx : list Z) : bool := Z.odd (word_at ctx 0).
(** The registers in the order GDB expects them: R0-R12, SP, LR, PC, XPSR, MSP, PSP, and D0-D15 and
    FPSCR if the context has floating-point registers. *)
Definition register_bytes (ctx : list Z) : list Z :=
  firstn 76 (skipn 4 ctx) ++ if has_fpu ctx then firstn 132 (skipn 84 ctx) else [].
(** The context with these bytes in place of [register_bytes]. *)
Definition with_registers (ctx bs : list Z) : list Z :=
  firstn 4 ctx ++ firstn 76 bs ++ firstn 4 (skipn 80 ctx) ++
  if has_fpu ctx then skipn 76 bs else skipn 84 ctx.

(** A byte as two hexadecimal digits. *)
Definition lower_digit (d : Z) : Z := nth (Z.to_nat d) (s2b "0123456789abcdef") 0.
Definition hex_text (bs : list Z) : list Z := flat_map (fun b => [lower_digit (b / 16); lower_digit (b mod 16)]) bs.
(** The text has two digits, in either case, for each byte. *)
Inductive is_hex_of : list Z -> list Z -> Prop :=
| hex_nil : is_hex_of [] []
| hex_cons b bs h l text : byte b -> hex_value h = Some (b / 16) -> hex_value l = Some (b mod 16) ->
    is_hex_of bs text -> is_hex_of (b :: bs) (h :: l :: text).

(** Upper-case letters become lower-case. *)
Definition lower_case (text : list Z) : list Z := map (fun c => if (65 <=? c) && (c <=? 90) then c + 32 else c) text.

(** What a target description declares: the texts between each [key] and the following quote. *)
Fixpoint strip (p l : list Z) : option (list Z) :=
  match p, l with
  | [], _ => Some l
  | x :: p', y :: l' => if x =? y then strip p' l' else None
  | _, [] => None
  end.
Fixpoint upto_quote (l : list Z) : list Z :=
  match l with
  | [] => []
  | c :: t => if c =? 34 then [] else c :: upto_quote t
  end.
Fixpoint attribute (key : list Z) (text : list Z) : list (list Z) :=
  match text with
  | [] => []
  | _ :: t => match strip key text with
              | Some l => upto_quote l :: attribute key t
              | None => attribute key t
              end
  end.
Definition reg_names (xml : list Z) : list (list Z) := attribute (s2b "<reg name=""") xml.
Definition reg_bits (xml : list Z) : list Z := map strtou32 (attribute (s2b " bitsize=""") xml).
Definition total (l : list Z) : Z := fold_right Z.add 0 l.

(** ** The signal *)

(** Cortex-M exception numbers and the (Linux) signals they are shown as. *)
Definition signal_for (exception_number : Z) : Z :=
  match exception_number with
  | 2 => 2       (* NMI: SIGINT *)
  | 3 | 4 => 11  (* HardFault and MemManage: SIGSEGV *)
  | 5 => 7       (* BusFault: SIGBUS *)
  | 6 => 4       (* UsageFault: SIGILL *)
  | 12 => 5      (* Debug Monitor: SIGTRAP *)
  | _ => 19      (* SIGSTOP *)
  end.

(** ** The fault report *)

(** A line of text, or a number shown in hexadecimal at the end of the current line. *)
Definition text (s : string) : gdbout := GStr (10 :: s2b s).

(** The bits of the status registers and what is said about them, in the order of the report. *)
Definition mem_bits : list (Z * string) :=
  [(5, "    FP Lazy Preservation"); (4, "    Stacking Error"); (3, "    Unstacking Error"); (1, "    Data Access"); (0, "    Instruction Fetch")]%string.
Definition bus_bits : list (Z * string) :=
  [(5, "    FP Lazy Preservation"); (4, "    Stacking Error"); (3, "    Unstacking Error"); (2, "    Imprecise Data Access");
   (1, "    Precise Data Access"); (0, "    Instruction Prefetch")]%string.
Definition usage_bits : list (Z * string) :=
  [(9, "    Divide by Zero"); (8, "    Unaligned Access"); (3, "    Coprocessor Access"); (2, "    Invalid Exception Return State");
   (1, "    Invalid State"); (0, "    Undefined Instruction")]%string.
Definition hard_bits : list (Z * string) := [(31, "    Debug Event"); (1, "    Vector Table Read")]%string.
Definition bit_lines (v : Z) (table : list (Z * string)) : list gdbout :=
  map (fun x => text (snd x)) (filter (fun x => Z.testbit v (fst x)) table).

(** The value of a fault register if the memory has it. *)
Definition fault_register (w : world) (a : Z) : option Z :=
  match api (readN 4 a) w with Done v _ => Some v | _ => None end.

(** The part about one status register: nothing if it is absent or 0. *)
Definition address_lines (valid : bool) (address : option Z) : list gdbout :=
  match valid, address with true, Some v => [text "    Fault Address: "; GHex v] | _, _ => [] end.
Definition status_part (header : string) (status : option Z) (address : option Z) (table : list (Z * string)) : list gdbout :=
  match status with
  | None => []
  | Some s => if s =? 0 then []
              else [text header; text "  Status Register: "; GHex s] ++ address_lines (Z.testbit s 7) address ++ bit_lines s table
  end.
(** CFSR is at 0xE000ED28 and holds the MMFSR, BFSR (one byte each) and UFSR (two bytes); HFSR, MMFAR
    and BFAR are at 0xE000ED2C, 0xE000ED34 and 0xE000ED38. *)
Definition mem_part (w : world) : list gdbout :=
  status_part "**MPU Fault**" (option_map (fun v => v mod 256) (fault_register w 0xE000ED28)) (fault_register w 0xE000ED34) mem_bits.
Definition bus_part (w : world) : list gdbout :=
  status_part "**Bus Fault**" (option_map (fun v => v / 256 mod 256) (fault_register w 0xE000ED28)) (fault_register w 0xE000ED38) bus_bits.
Definition usage_part (w : world) : list gdbout :=
  status_part "**Usage Fault**" (option_map (fun v => v / 65536 mod 65536) (fault_register w 0xE000ED28)) None usage_bits.
Definition hard_part (w : world) : list gdbout :=
  text "**Hard Fault**" ::
  match fault_register w 0xE000ED2C with
  | None => []
  | Some h => [text "  Status Register: "; GHex h] ++ bit_lines h hard_bits ++
              if Z.testbit h 30 then text "    Forced" :: mem_part w ++ bus_part w ++ usage_part w else []
  end.
(** The report for the exception the crash PSR names. *)
Definition fault_report (w : world) : list gdbout :=
  match word_at (w_ctx w) 80 mod 256 with
  | 3 => hard_part w ++ [text ""]
  | 4 => mem_part w ++ [text ""]
  | 5 => bus_part w ++ [text ""]
  | 6 => usage_part w ++ [text ""]
  | _ => []
  end.

(** These lines are what the report prints. *)
Definition prints (w : world) (ls : list gdbout) : Prop :=
  exists w', api (pcall_run PReport) w = Done [] w' /\ w_gdb w' = rev ls ++ w_gdb w.

(** ** The console *)

(** Calls on the communication channel. *)
Inductive ccall := CHasData | CReceive | CSend (c : Z) | CConnected.
Definition ccall_run (c : ccall) : M world (list Z) :=
  match c with
  | CHasData => num Z.b2z hasReceiveData
  | CReceive => num (fun x => x) receiveChar
  | CSend ch => nothing (sendChar ch)
  | CConnected => num Z.b2z isGdbConnected
  end.
(** The state after a sequence of calls. *)
Fixpoint crun (cs : list ccall) (w : world) : option world :=
  match cs with
  | [] => Some w
  | c :: t => match api (ccall_run c) w with Done _ w' => crun t w' | Raised _ w' => crun t w' | Crashed _ => None end
  end.
(** Some call to receive a character returned one. *)
Fixpoint received (cs : list ccall) (w : world) : Prop :=
  match cs with
  | [] => False
  | c :: t =>
      match api (ccall_run c) w with
      | Done _ w' => c = CReceive \/ received t w'
      | Raised _ w' => received t w'
      | Crashed _ => False
      end
  end.
(** The bytes given to calls to send that returned. *)
Fixpoint sent (cs : list ccall) (w : world) : list Z :=
  match cs with
  | [] => []
  | c :: t =>
      match api (ccall_run c) w with
      | Done _ w' => (match c with CSend ch => [ch mod 256] | _ => [] end) ++ sent t w'
      | Raised _ w' => sent t w'
      | Crashed _ => []
      end
  end.
(** The results of calls to receive that returned. *)
Fixpoint got (cs : list ccall) (w : world) : list Z :=
  match cs with
  | [] => []
  | c :: t =>
      match api (ccall_run c) w with
      | Done x w' => (match c with CReceive => x | _ => [] end) ++ got t w'
      | Raised _ w' => got t w'
      | Crashed _ => []
      end
  end.
(** What the console delivers to reads number [k], [k+1], ... ([n] of them); a char is signed. *)
Definition delivered (e : env) (k n : nat) : list Z :=
  flat_map (fun i => match e_read e i with RdErr => [] | RdEof => [0] | RdByte b => [if b <? 128 then b else b - 256] end) (seq k n).
Definition receive_calls (cs : list ccall) : nat := length (filter (fun c => match c with CReceive => true | _ => false end) cs).
(** What the next poll of the console will find. *)
Definition input_waiting (w : world) : Prop := e_poll (w_env w) (c_polls (w_con w)) = PollYes.

(** ** The monitor *)

(** A debug monitor: it ends, raises an exception, or makes a call and goes on depending on the
    result or the exception. *)
Inductive monitor :=
| MDone
| MRaise (code : Z)
| MCall (p : pcall) (returned : list Z -> monitor) (raised : Z -> monitor).
Fixpoint monitor_run (m : monitor) : M world unit :=
  match m with
  | MDone => ret tt
  | MRaise c => throw c
  | MCall p k h => fun w => match api (pcall_run p) w with
                            | Done v w' => monitor_run (k v) w'
                            | Raised c w' => monitor_run (h c) w'
                            | Crashed u => Ub u
                            end
  end.
(** The monitor uses access widths that exist, and raises exceptions with codes other than 0. *)
Fixpoint monitor_ok (m : monitor) : Prop :=
  match m with
  | MDone => True
  | MRaise c => 0 < c
  | MCall p k h => pcall_args p /\ (forall v, monitor_ok (k v)) /\ (forall c, monitor_ok (h c))
  end.

(** ** A target that does not run *)

(** The answers of a target that is halted for good: not stepping, no special instruction, no
    semihost call, no interrupt, nobody else on the line.  "The program counter was modified" keeps
    the monitor from looking for a hard-coded breakpoint. *)
Definition frozen_answer (c : control) : list Z :=
  match c with
  | KStepping | KInstruction | KIsSemihost | KHandleSemihost | KInterrupted | KSharing => [0]
  | KPCModified | KShouldWait => [1]
  | KSemihostParams => [0; 0; 0; 0]
  | KPacketSize => [16384]
  | _ => []
  end.

(** The calls by which a debugger asks for memory or registers to be changed. *)
Definition changes (p : pcall) : bool := match p with PWrite _ _ _ | PSetRegs _ => true | _ => false end.
(** The calls whose result describes the crashed program (and not the debugger's own history: the
    count of failed accesses, or the console). *)
Definition describes (p : pcall) : bool :=
  match p with PControl _ | PRead _ _ | PCause | PGetRegs | PTRegs | PMap | PMapSize | PTarget | PTargetSize => true | _ => false end.
