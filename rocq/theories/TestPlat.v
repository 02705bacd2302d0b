(** The unit tests of the platform layer, libCrashDebug/tests/mriPlatformExceptionTest.cpp, registerTest.cpp,
    memoryTest.cpp and queryTest.cpp, transcribed and run on the model.  The tests talk to the debug monitor
    (not in /repo); here its calls of the platform layer are made directly.  Left out:
    SetExceptionCodeToHardFault_..._WithGdbWaitVerifyNoOutput, which is about the monitor only.
    Tests of the model, not proofs of properties. *)
From Coq Require Import String ZArith List Bool.
From Verif Require Import Base World MemSim MemSpec MemEx Context Platform PlatSpec TestLib.
Import ListNotations.
Open Scope Z_scope.

(** Words of the register context. *)
Definition put_words (off : nat) (l : list Z) : tstep :=
  fun w => let bs := flat_map (le 4) l in Some (set_ctx w (firstn off (w_ctx w) ++ bs ++ skipn (off + length bs) (w_ctx w))).
Definition words_are (off : nat) (l : list Z) : tstep :=
  fun w => let bs := flat_map (le 4) l in if bytes_eqb (firstn (length bs) (skipn off (w_ctx w))) bs then Some w else None.
Definition when (b : bool) : tstep := fun w => if b then Some w else None.

(** mriPlatformBase::setup *)
Definition platform : tstep :=
  fun w => run_steps [ok (MemorySim_CreateRegionsFromFlashImage (le 4 0x10008000 ++ le 4 0x10004001) 8); ok mriPlatform_Init;
                      put_words 4 ([0; 0x11111111; 0x22222222; 0x33333333; 0x44444444; 0x55555555; 0x66666666; 0x77777777; 0x88888888;
                                    0x99999999; 0xAAAAAAAA; 0xBBBBBBBB; 0xCCCCCCCC; 0x10008000; 0; 0x10004000; 0x01000000; 0xA5A5A5A5; 0x5A5A5A5A;
                                    0x01000000] ++ repeat 0 33)] (set_ctx w (repeat 0 216)).
(** setIPSR *)
Definition ipsr (n : Z) : tstep := put_words 80 [0x01000000 + n].
(** setFaultRegister *)
Definition fault_register_is (a v : Z) : tstep := fun w => run_steps [ok (MemorySim_CreateRegion a 4); ok (write32 a v)] w.
Definition pc_is (v : Z) : tstep := words_are 64 [v].
(** A call of the platform layer and its result. *)
Definition call (p : pcall) (x : list Z) : tstep :=
  fun w => match api (pcall_run p) w with Done y w' => if bytes_eqb x y then Some w' else None | _ => None end.
(** The console output of the fault report, in order. *)
Definition gdbout_eqb (x y : gdbout) : bool :=
  match x, y with GStr a, GStr b => bytes_eqb a b | GHex a, GHex b => a =? b | _, _ => false end.
Fixpoint gdb_eqb (l l' : list gdbout) : bool :=
  match l, l' with [], [] => true | x :: t, y :: t' => gdbout_eqb x y && gdb_eqb t t' | _, _ => false end.
Definition line (s : string) : gdbout := GStr (10 :: s2b s).
Definition reports (l : list gdbout) : tstep :=
  fun w => match api (pcall_run PReport) w with
           | Done _ w' => if gdb_eqb (rev l ++ w_gdb w) (w_gdb w') then Some (set_exn w' noException []) else None
           | _ => None
           end.
(** The registers of a T packet. *)
Definition t_text (l : list Z) : list Z :=
  flat_map (fun p => s2b (fst p) ++ hex_text (le 4 (snd p)) ++ s2b ";") (combine ["0c:"; "0d:"; "0e:"; "0f:"]%string l).

Example Exception_SetExceptionCodeToNMI_ShouldReturn_SIGINT_TPacket :
  passes [platform;
   ipsr 2;
   reports [];
   call PCause [SIGINT];
   call PTRegs (t_text [0xCCCCCCCC; 0x10008000; 0; 0x10004000]);
   pc_is 0x10004000].
Proof. vm_compute. reflexivity. Qed.

Example Exception_SetExceptionCodeToHardFault_ShouldReturn_SIGSEGV_TPacket :
  passes [platform;
   ipsr 3;
   reports [line "**Hard Fault**"; line ""];
   call PCause [SIGSEGV];
   call PTRegs (t_text [0xCCCCCCCC; 0x10008000; 0; 0x10004000]);
   pc_is 0x10004000].
Proof. vm_compute. reflexivity. Qed.

Example Exception_SetExceptionCodeToHardFault_StatusRegisterSetTo0_VerifyOutput :
  passes [platform;
   ipsr 3;
   fault_register_is HFSR 0;
   reports [line "**Hard Fault**"; line "  Status Register: "; GHex 0; line ""];
   call PCause [SIGSEGV];
   call PTRegs (t_text [0xCCCCCCCC; 0x10008000; 0; 0x10004000]);
   pc_is 0x10004000].
Proof. vm_compute. reflexivity. Qed.

Example Exception_SetExceptionCodeToHardFault_DebugEvent_VerifyOutput :
  passes [platform;
   ipsr 3;
   fault_register_is HFSR 0x80000000;
   reports [line "**Hard Fault**"; line "  Status Register: "; GHex 0x80000000; line "    Debug Event"; line ""];
   call PCause [SIGSEGV];
   call PTRegs (t_text [0xCCCCCCCC; 0x10008000; 0; 0x10004000]);
   pc_is 0x10004000].
Proof. vm_compute. reflexivity. Qed.

Example Exception_SetExceptionCodeToHardFault_VectorTableReadError_VerifyOutput :
  passes [platform;
   ipsr 3;
   fault_register_is HFSR 2;
   reports [line "**Hard Fault**"; line "  Status Register: "; GHex 2; line "    Vector Table Read"; line ""];
   call PCause [SIGSEGV];
   call PTRegs (t_text [0xCCCCCCCC; 0x10008000; 0; 0x10004000]);
   pc_is 0x10004000].
Proof. vm_compute. reflexivity. Qed.

Example Exception_SetExceptionCodeToMemManageFault_ShouldReturn_SIGSEGV_TPacket :
  passes [platform;
   ipsr 4;
   reports [line ""];
   call PCause [SIGSEGV];
   call PTRegs (t_text [0xCCCCCCCC; 0x10008000; 0; 0x10004000]);
   pc_is 0x10004000].
Proof. vm_compute. reflexivity. Qed.

Example Exception_SetExceptionCodeToMemManageFault_StatusTo0_VerifyOutput :
  passes [platform;
   ipsr 4;
   fault_register_is CFSR 0;
   reports [line ""];
   call PCause [SIGSEGV];
   call PTRegs (t_text [0xCCCCCCCC; 0x10008000; 0; 0x10004000]);
   pc_is 0x10004000].
Proof. vm_compute. reflexivity. Qed.

Example Exception_SetExceptionCodeToMemManageFault_MMARValid_VerifyOutput :
  passes [platform;
   ipsr 4;
   fault_register_is CFSR 0x00000080;
   fault_register_is MMFAR 0xBAADFEED;
   reports [line "**MPU Fault**"; line "  Status Register: "; GHex 0x00000080; line "    Fault Address: "; GHex 0xBAADFEED; line ""];
   call PCause [SIGSEGV];
   call PTRegs (t_text [0xCCCCCCCC; 0x10008000; 0; 0x10004000]);
   pc_is 0x10004000].
Proof. vm_compute. reflexivity. Qed.

Example Exception_SetExceptionCodeToMemManageFault_MMARValidButMMFARAccessThrows_VerifyOutput :
  passes [platform;
   ipsr 4;
   fault_register_is CFSR 0x00000080;
   reports [line "**MPU Fault**"; line "  Status Register: "; GHex 0x00000080; line ""];
   call PCause [SIGSEGV];
   call PTRegs (t_text [0xCCCCCCCC; 0x10008000; 0; 0x10004000]);
   pc_is 0x10004000].
Proof. vm_compute. reflexivity. Qed.

Example Exception_SetExceptionCodeToMemManageFault_FPLazyStatePreservation_VerifyOutput :
  passes [platform;
   ipsr 4;
   fault_register_is CFSR 0x00000020;
   reports [line "**MPU Fault**"; line "  Status Register: "; GHex 0x00000020; line "    FP Lazy Preservation"; line ""];
   call PCause [SIGSEGV];
   call PTRegs (t_text [0xCCCCCCCC; 0x10008000; 0; 0x10004000]);
   pc_is 0x10004000].
Proof. vm_compute. reflexivity. Qed.

Example Exception_SetExceptionCodeToMemManageFault_StackingError_VerifyOutput :
  passes [platform;
   ipsr 4;
   fault_register_is CFSR 0x00000010;
   reports [line "**MPU Fault**"; line "  Status Register: "; GHex 0x00000010; line "    Stacking Error"; line ""];
   call PCause [SIGSEGV];
   call PTRegs (t_text [0xCCCCCCCC; 0x10008000; 0; 0x10004000]);
   pc_is 0x10004000].
Proof. vm_compute. reflexivity. Qed.

Example Exception_SetExceptionCodeToMemManageFault_UnstackingError_VerifyOutput :
  passes [platform;
   ipsr 4;
   fault_register_is CFSR 8;
   reports [line "**MPU Fault**"; line "  Status Register: "; GHex 8; line "    Unstacking Error"; line ""];
   call PCause [SIGSEGV];
   call PTRegs (t_text [0xCCCCCCCC; 0x10008000; 0; 0x10004000]);
   pc_is 0x10004000].
Proof. vm_compute. reflexivity. Qed.

Example Exception_SetExceptionCodeToMemManageFault_DataAccess_VerifyOutput :
  passes [platform;
   ipsr 4;
   fault_register_is CFSR 2;
   reports [line "**MPU Fault**"; line "  Status Register: "; GHex 2; line "    Data Access"; line ""];
   call PCause [SIGSEGV];
   call PTRegs (t_text [0xCCCCCCCC; 0x10008000; 0; 0x10004000]);
   pc_is 0x10004000].
Proof. vm_compute. reflexivity. Qed.

Example Exception_SetExceptionCodeToMemManageFault_InstructionFetch_VerifyOutput :
  passes [platform;
   ipsr 4;
   fault_register_is CFSR 1;
   reports [line "**MPU Fault**"; line "  Status Register: "; GHex 1; line "    Instruction Fetch"; line ""];
   call PCause [SIGSEGV];
   call PTRegs (t_text [0xCCCCCCCC; 0x10008000; 0; 0x10004000]);
   pc_is 0x10004000].
Proof. vm_compute. reflexivity. Qed.

Example Exception_SetExceptionCodeToHardFault_ForceToMemManageFault_StackingError_VerifyOutput :
  passes [platform;
   ipsr 3;
   fault_register_is HFSR 0x40000000;
   fault_register_is CFSR 0x00000010;
   reports [line "**Hard Fault**"; line "  Status Register: "; GHex 0x40000000; line "    Forced"; line "**MPU Fault**"; line "  Status Register: "; GHex 0x00000010; line "    Stacking Error"; line ""];
   call PCause [SIGSEGV];
   call PTRegs (t_text [0xCCCCCCCC; 0x10008000; 0; 0x10004000]);
   pc_is 0x10004000].
Proof. vm_compute. reflexivity. Qed.

Example Exception_SetExceptionCodeToBusFault_ShouldReturn_SIGBUS_TPacket :
  passes [platform;
   ipsr 5;
   reports [line ""];
   call PCause [SIGBUS];
   call PTRegs (t_text [0xCCCCCCCC; 0x10008000; 0; 0x10004000]);
   pc_is 0x10004000].
Proof. vm_compute. reflexivity. Qed.

Example Exception_SetExceptionCodeToBusFault_StatusTo0_VerifyOutput :
  passes [platform;
   ipsr 5;
   fault_register_is CFSR 0;
   reports [line ""];
   call PCause [SIGBUS];
   call PTRegs (t_text [0xCCCCCCCC; 0x10008000; 0; 0x10004000]);
   pc_is 0x10004000].
Proof. vm_compute. reflexivity. Qed.

Example Exception_SetExceptionCodeToBusFault_BFARValid_VerifyOutput :
  passes [platform;
   ipsr 5;
   fault_register_is CFSR 0x00008000;
   fault_register_is BFAR 0xBAADFEED;
   reports [line "**Bus Fault**"; line "  Status Register: "; GHex 0x00000080; line "    Fault Address: "; GHex 0xBAADFEED; line ""];
   call PCause [SIGBUS];
   call PTRegs (t_text [0xCCCCCCCC; 0x10008000; 0; 0x10004000]);
   pc_is 0x10004000].
Proof. vm_compute. reflexivity. Qed.

Example Exception_SetExceptionCodeToBusFault_BARValidButBFARAccessThrows_VerifyOutput :
  passes [platform;
   ipsr 5;
   fault_register_is CFSR 0x00008000;
   reports [line "**Bus Fault**"; line "  Status Register: "; GHex 0x00000080; line ""];
   call PCause [SIGBUS];
   call PTRegs (t_text [0xCCCCCCCC; 0x10008000; 0; 0x10004000]);
   pc_is 0x10004000].
Proof. vm_compute. reflexivity. Qed.

Example Exception_SetExceptionCodeToBusFault_FPLazyStatePreservation_VerifyOutput :
  passes [platform;
   ipsr 5;
   fault_register_is CFSR 0x00002000;
   reports [line "**Bus Fault**"; line "  Status Register: "; GHex 0x00000020; line "    FP Lazy Preservation"; line ""];
   call PCause [SIGBUS];
   call PTRegs (t_text [0xCCCCCCCC; 0x10008000; 0; 0x10004000]);
   pc_is 0x10004000].
Proof. vm_compute. reflexivity. Qed.

Example Exception_SetExceptionCodeToBusFault_StackingError_VerifyOutput :
  passes [platform;
   ipsr 5;
   fault_register_is CFSR 0x00001000;
   reports [line "**Bus Fault**"; line "  Status Register: "; GHex 0x00000010; line "    Stacking Error"; line ""];
   call PCause [SIGBUS];
   call PTRegs (t_text [0xCCCCCCCC; 0x10008000; 0; 0x10004000]);
   pc_is 0x10004000].
Proof. vm_compute. reflexivity. Qed.

Example Exception_SetExceptionCodeToBusFault_UnstackingError_VerifyOutput :
  passes [platform;
   ipsr 5;
   fault_register_is CFSR 0x00000800;
   reports [line "**Bus Fault**"; line "  Status Register: "; GHex 8; line "    Unstacking Error"; line ""];
   call PCause [SIGBUS];
   call PTRegs (t_text [0xCCCCCCCC; 0x10008000; 0; 0x10004000]);
   pc_is 0x10004000].
Proof. vm_compute. reflexivity. Qed.

Example Exception_SetExceptionCodeToBusFault_ImpreciseAccess_VerifyOutput :
  passes [platform;
   ipsr 5;
   fault_register_is CFSR 0x00000400;
   reports [line "**Bus Fault**"; line "  Status Register: "; GHex 4; line "    Imprecise Data Access"; line ""];
   call PCause [SIGBUS];
   call PTRegs (t_text [0xCCCCCCCC; 0x10008000; 0; 0x10004000]);
   pc_is 0x10004000].
Proof. vm_compute. reflexivity. Qed.

Example Exception_SetExceptionCodeToBusFault_PreciseAccess_VerifyOutput :
  passes [platform;
   ipsr 5;
   fault_register_is CFSR 0x00000200;
   reports [line "**Bus Fault**"; line "  Status Register: "; GHex 2; line "    Precise Data Access"; line ""];
   call PCause [SIGBUS];
   call PTRegs (t_text [0xCCCCCCCC; 0x10008000; 0; 0x10004000]);
   pc_is 0x10004000].
Proof. vm_compute. reflexivity. Qed.

Example Exception_SetExceptionCodeToBusFault_InstructionPrefetch_VerifyOutput :
  passes [platform;
   ipsr 5;
   fault_register_is CFSR 0x00000100;
   reports [line "**Bus Fault**"; line "  Status Register: "; GHex 1; line "    Instruction Prefetch"; line ""];
   call PCause [SIGBUS];
   call PTRegs (t_text [0xCCCCCCCC; 0x10008000; 0; 0x10004000]);
   pc_is 0x10004000].
Proof. vm_compute. reflexivity. Qed.

Example Exception_SetExceptionCodeToHardFault_ForceToBusFault_StackingError_VerifyOutput :
  passes [platform;
   ipsr 3;
   fault_register_is HFSR 0x40000000;
   fault_register_is CFSR 0x00001000;
   reports [line "**Hard Fault**"; line "  Status Register: "; GHex 0x40000000; line "    Forced"; line "**Bus Fault**"; line "  Status Register: "; GHex 0x00000010; line "    Stacking Error"; line ""];
   call PCause [SIGSEGV];
   call PTRegs (t_text [0xCCCCCCCC; 0x10008000; 0; 0x10004000]);
   pc_is 0x10004000].
Proof. vm_compute. reflexivity. Qed.

Example Exception_SetExceptionCodeToUsageFault_ShouldReturn_SIGILL_TPacket :
  passes [platform;
   ipsr 6;
   reports [line ""];
   call PCause [SIGILL];
   call PTRegs (t_text [0xCCCCCCCC; 0x10008000; 0; 0x10004000]);
   pc_is 0x10004000].
Proof. vm_compute. reflexivity. Qed.

Example Exception_SetExceptionCodeToUsageFault_StatusTo0_VerifyOutput :
  passes [platform;
   ipsr 6;
   fault_register_is CFSR 0;
   reports [line ""];
   call PCause [SIGILL];
   call PTRegs (t_text [0xCCCCCCCC; 0x10008000; 0; 0x10004000]);
   pc_is 0x10004000].
Proof. vm_compute. reflexivity. Qed.

Example Exception_SetExceptionCodeToUsageFault_DivideByZero_VerifyOutput :
  passes [platform;
   ipsr 6;
   fault_register_is CFSR 0x02000000;
   reports [line "**Usage Fault**"; line "  Status Register: "; GHex 0x00000200; line "    Divide by Zero"; line ""];
   call PCause [SIGILL];
   call PTRegs (t_text [0xCCCCCCCC; 0x10008000; 0; 0x10004000]);
   pc_is 0x10004000].
Proof. vm_compute. reflexivity. Qed.

Example Exception_SetExceptionCodeToUsageFault_Unaligned_VerifyOutput :
  passes [platform;
   ipsr 6;
   fault_register_is CFSR 0x01000000;
   reports [line "**Usage Fault**"; line "  Status Register: "; GHex 0x00000100; line "    Unaligned Access"; line ""];
   call PCause [SIGILL];
   call PTRegs (t_text [0xCCCCCCCC; 0x10008000; 0; 0x10004000]);
   pc_is 0x10004000].
Proof. vm_compute. reflexivity. Qed.

Example Exception_SetExceptionCodeToUsageFault_CoprocessorAccess_VerifyOutput :
  passes [platform;
   ipsr 6;
   fault_register_is CFSR 0x00080000;
   reports [line "**Usage Fault**"; line "  Status Register: "; GHex 8; line "    Coprocessor Access"; line ""];
   call PCause [SIGILL];
   call PTRegs (t_text [0xCCCCCCCC; 0x10008000; 0; 0x10004000]);
   pc_is 0x10004000].
Proof. vm_compute. reflexivity. Qed.

Example Exception_SetExceptionCodeToUsageFault_InvalidPC_VerifyOutput :
  passes [platform;
   ipsr 6;
   fault_register_is CFSR 0x00040000;
   reports [line "**Usage Fault**"; line "  Status Register: "; GHex 4; line "    Invalid Exception Return State"; line ""];
   call PCause [SIGILL];
   call PTRegs (t_text [0xCCCCCCCC; 0x10008000; 0; 0x10004000]);
   pc_is 0x10004000].
Proof. vm_compute. reflexivity. Qed.

Example Exception_SetExceptionCodeToUsageFault_InvalidState_VerifyOutput :
  passes [platform;
   ipsr 6;
   fault_register_is CFSR 0x00020000;
   reports [line "**Usage Fault**"; line "  Status Register: "; GHex 2; line "    Invalid State"; line ""];
   call PCause [SIGILL];
   call PTRegs (t_text [0xCCCCCCCC; 0x10008000; 0; 0x10004000]);
   pc_is 0x10004000].
Proof. vm_compute. reflexivity. Qed.

Example Exception_SetExceptionCodeToUsageFault_UndefinedInstruction_VerifyOutput :
  passes [platform;
   ipsr 6;
   fault_register_is CFSR 0x00010000;
   reports [line "**Usage Fault**"; line "  Status Register: "; GHex 1; line "    Undefined Instruction"; line ""];
   call PCause [SIGILL];
   call PTRegs (t_text [0xCCCCCCCC; 0x10008000; 0; 0x10004000]);
   pc_is 0x10004000].
Proof. vm_compute. reflexivity. Qed.

Example Exception_SetExceptionCodeToHardFault_ForceToUsageFault_UnalignedAccess_VerifyOutput :
  passes [platform;
   ipsr 3;
   fault_register_is HFSR 0x40000000;
   fault_register_is CFSR 0x01000000;
   reports [line "**Hard Fault**"; line "  Status Register: "; GHex 0x40000000; line "    Forced"; line "**Usage Fault**"; line "  Status Register: "; GHex 0x00000100; line "    Unaligned Access"; line ""];
   call PCause [SIGSEGV];
   call PTRegs (t_text [0xCCCCCCCC; 0x10008000; 0; 0x10004000]);
   pc_is 0x10004000].
Proof. vm_compute. reflexivity. Qed.

Example Exception_SetExceptionCodeToDebugMonitorTrap_ShouldReturn_SIGTRAP_TPacket :
  passes [platform;
   ipsr 12;
   reports [];
   call PCause [SIGTRAP];
   call PTRegs (t_text [0xCCCCCCCC; 0x10008000; 0; 0x10004000]);
   pc_is 0x10004000].
Proof. vm_compute. reflexivity. Qed.

Example Register_ReadRegisters :
  passes [platform;
   ipsr 12;
   put_words 4 [0x11111111 * 0; 0x11111111 * 1; 0x11111111 * 2; 0x11111111 * 3; 0x11111111 * 4; 0x11111111 * 5; 0x11111111 * 6; 0x11111111 * 7; 0x11111111 * 8; 0x11111111 * 9; 0x11111111 * 10; 0x11111111 * 11; 0x11111111 * 12; 0x11111111 * 13; 0x11111111 * 14; 0xFFFFFFFE];
   call PCause [SIGTRAP];
   call PTRegs (t_text [0xCCCCCCCC; 0xDDDDDDDD; 0xEEEEEEEE; 0xFFFFFFFE]);
   call PGetRegs (s2b "00000000111111112222222233333333444444445555555566666666777777778888888899999999aaaaaaaabbbbbbbbccccccccddddddddeeeeeeeefeffffff00000001a5a5a5a55a5a5a5a")].
Proof. vm_compute. reflexivity. Qed.

Example Register_ReadIntegerAndFloatRegisters :
  passes [platform;
   ipsr 12;
   put_words 0 [1];
   put_words 4 [0x11111111 * 0; 0x11111111 * 1; 0x11111111 * 2; 0x11111111 * 3; 0x11111111 * 4; 0x11111111 * 5; 0x11111111 * 6; 0x11111111 * 7; 0x11111111 * 8; 0x11111111 * 9; 0x11111111 * 10; 0x11111111 * 11; 0x11111111 * 12; 0x11111111 * 13; 0x11111111 * 14; 0xFFFFFFFE];
   put_words 84 ([0; 1; 2; 3; 4; 5; 6; 7; 8; 9; 10; 11; 12; 13; 14; 15; 16; 17; 18; 19; 20; 21; 22; 23; 24; 25; 26; 27; 28; 29; 30] ++ [0; 0xBAADF00D]);
   call PCause [SIGTRAP];
   call PTRegs (t_text [0xCCCCCCCC; 0xDDDDDDDD; 0xEEEEEEEE; 0xFFFFFFFE]);
   call PGetRegs (s2b "00000000111111112222222233333333444444445555555566666666777777778888888899999999aaaaaaaabbbbbbbbccccccccddddddddeeeeeeeefeffffff00000001a5a5a5a55a5a5a5a000000000100000002000000030000000400000005000000060000000700000008000000090000000a0000000b0000000c0000000d0000000e0000000f000000100000001100000012000000130000001400000015000000160000001700000018000000190000001a0000001b0000001c0000001d0000001e000000000000000df0adba")].
Proof. vm_compute. reflexivity. Qed.

Example Register_WriteRegisters :
  passes [platform;
   ipsr 12;
   put_words 4 (repeat 0xA5A5A5A5 16);
   call PCause [SIGTRAP];
   call PTRegs (t_text [0xA5A5A5A5; 0xA5A5A5A5; 0xA5A5A5A5; 0xA5A5A5A5]);
   call (PSetRegs (s2b "00000000111111112222222233333333444444445555555566666666777777778888888899999999aaaaaaaabbbbbbbbccccccccddddddddeeeeeeeefeffffffffffffff4545454554545454")) [];
   words_are 4 ([0x11111111 * 0; 0x11111111 * 1; 0x11111111 * 2; 0x11111111 * 3; 0x11111111 * 4; 0x11111111 * 5; 0x11111111 * 6; 0x11111111 * 7; 0x11111111 * 8; 0x11111111 * 9; 0x11111111 * 10; 0x11111111 * 11; 0x11111111 * 12; 0x11111111 * 13; 0x11111111 * 14; 0xFFFFFFFE] ++ [0xFFFFFFFF; 0x45454545; 0x54545454])].
Proof. vm_compute. reflexivity. Qed.

Example Register_WriteIntegerAndFloatRegisters :
  passes [platform;
   ipsr 12;
   put_words 0 [1];
   put_words 4 (repeat 0xA5A5A5A5 16);
   call PCause [SIGTRAP];
   call PTRegs (t_text [0xA5A5A5A5; 0xA5A5A5A5; 0xA5A5A5A5; 0xA5A5A5A5]);
   call (PSetRegs (s2b "00000000111111112222222233333333444444445555555566666666777777778888888899999999aaaaaaaabbbbbbbbccccccccddddddddeeeeeeeefeffffffffffffff4545454554545454000000000100000002000000030000000400000005000000060000000700000008000000090000000a0000000b0000000c0000000d0000000e0000000f000000100000001100000012000000130000001400000015000000160000001700000018000000190000001a0000001b0000001c0000001d0000001e000000000000000df0adba")) [];
   words_are 4 ([0x11111111 * 0; 0x11111111 * 1; 0x11111111 * 2; 0x11111111 * 3; 0x11111111 * 4; 0x11111111 * 5; 0x11111111 * 6; 0x11111111 * 7; 0x11111111 * 8; 0x11111111 * 9; 0x11111111 * 10; 0x11111111 * 11; 0x11111111 * 12; 0x11111111 * 13; 0x11111111 * 14; 0xFFFFFFFE] ++ [0xFFFFFFFF; 0x45454545; 0x54545454]);
   words_are 84 [0; 1; 2; 3; 4; 5; 6; 7; 8; 9; 10; 11; 12; 13; 14];
   words_are 212 [0xBAADF00D]].
Proof. vm_compute. reflexivity. Qed.

Example Memory_ReadByte :
  passes [platform;
   ipsr 12;
   ok (write8 0x10007FFF 0x5a);
   call PFaults [0];
   call PCause [SIGTRAP];
   call PTRegs (t_text [0xCCCCCCCC; 0x10008000; 0; 0x10004000]);
   call (PRead 1 0x10007FFF) [0x0000005A];
   call PFaults [0]].
Proof. vm_compute. reflexivity. Qed.

Example Memory_ReadHalfWord :
  passes [platform;
   ipsr 12;
   ok (write16 0x10007FFE 0xF00D);
   call PFaults [0];
   call PCause [SIGTRAP];
   call PTRegs (t_text [0xCCCCCCCC; 0x10008000; 0; 0x10004000]);
   call (PRead 2 0x10007FFE) [0x0000F00D];
   call PFaults [0]].
Proof. vm_compute. reflexivity. Qed.

Example Memory_ReadWord :
  passes [platform;
   ipsr 12;
   ok (write32 0x10007FFC 0xBAADF00D);
   call PFaults [0];
   call PCause [SIGTRAP];
   call PTRegs (t_text [0xCCCCCCCC; 0x10008000; 0; 0x10004000]);
   call (PRead 4 0x10007FFC) [0xBAADF00D];
   call PFaults [0]].
Proof. vm_compute. reflexivity. Qed.

Example Memory_WriteByte :
  passes [platform;
   ipsr 12;
   call PFaults [0];
   call PCause [SIGTRAP];
   call PTRegs (t_text [0xCCCCCCCC; 0x10008000; 0; 0x10004000]);
   call (PWrite 1 0x10007FFF 0x0000005A) [];
   call PFaults [0];
   gives (read8 0x10007FFF) 0x5A].
Proof. vm_compute. reflexivity. Qed.

Example Memory_WriteHalfWord :
  passes [platform;
   ipsr 12;
   call PFaults [0];
   call PCause [SIGTRAP];
   call PTRegs (t_text [0xCCCCCCCC; 0x10008000; 0; 0x10004000]);
   call (PWrite 2 0x10007FFE 0x0000F00D) [];
   call PFaults [0];
   gives (read16 0x10007FFE) 0xF00D].
Proof. vm_compute. reflexivity. Qed.

Example Memory_WriteWord :
  passes [platform;
   ipsr 12;
   call PFaults [0];
   call PCause [SIGTRAP];
   call PTRegs (t_text [0xCCCCCCCC; 0x10008000; 0; 0x10004000]);
   call (PWrite 4 0x10007FFC 0xBAADF00D) [];
   call PFaults [0];
   gives (read32 0x10007FFC) 0xBAADF00D].
Proof. vm_compute. reflexivity. Qed.

Example Memory_ReadByte_InvalidAddress_ShouldSendErrorBack :
  passes [platform;
   ipsr 12;
   call PFaults [0];
   call PCause [SIGTRAP];
   call PTRegs (t_text [0xCCCCCCCC; 0x10008000; 0; 0x10004000]);
   call (PRead 1 0x10008000) [0];
   call PFaults [1]].
Proof. vm_compute. reflexivity. Qed.

Example Memory_ReadHalfWord_InvalidAddress_ShouldSendErrorBack :
  passes [platform;
   ipsr 12;
   call PFaults [0];
   call PCause [SIGTRAP];
   call PTRegs (t_text [0xCCCCCCCC; 0x10008000; 0; 0x10004000]);
   call (PRead 2 0x10008000) [0];
   call PFaults [1]].
Proof. vm_compute. reflexivity. Qed.

Example Memory_ReadWord_InvalidAddress_ShouldSendErrorBack :
  passes [platform;
   ipsr 12;
   call PFaults [0];
   call PCause [SIGTRAP];
   call PTRegs (t_text [0xCCCCCCCC; 0x10008000; 0; 0x10004000]);
   call (PRead 4 0x10008000) [0];
   call PFaults [1]].
Proof. vm_compute. reflexivity. Qed.

Example Memory_ReadBytes_InvalidAddressForLastByte_ShouldSendPartialDataBack :
  passes [platform;
   ipsr 12;
   call PFaults [0];
   call PCause [SIGTRAP];
   call PTRegs (t_text [0xCCCCCCCC; 0x10008000; 0; 0x10004000]);
   call (PRead 1 0x10007FF9) [0];
   call PFaults [0];
   call (PRead 1 0x10007FFA) [0];
   call PFaults [0];
   call (PRead 1 0x10007FFB) [0];
   call PFaults [0];
   call (PRead 1 0x10007FFC) [0];
   call PFaults [0];
   call (PRead 1 0x10007FFD) [0];
   call PFaults [0];
   call (PRead 1 0x10007FFE) [0];
   call PFaults [0];
   call (PRead 1 0x10007FFF) [0];
   call PFaults [0];
   call (PRead 1 0x10008000) [0];
   call PFaults [1]].
Proof. vm_compute. reflexivity. Qed.

Example Memory_WriteByte_InvalidAddress_ShouldSendErrorBack :
  passes [platform;
   ipsr 12;
   call PFaults [0];
   call PCause [SIGTRAP];
   call PTRegs (t_text [0xCCCCCCCC; 0x10008000; 0; 0x10004000]);
   call (PWrite 1 0x10008000 0x0000005A) [];
   call PFaults [1]].
Proof. vm_compute. reflexivity. Qed.

Example Memory_WriteHalfWord_InvalidAddress_ShouldSendErrorBack :
  passes [platform;
   ipsr 12;
   call PFaults [0];
   call PCause [SIGTRAP];
   call PTRegs (t_text [0xCCCCCCCC; 0x10008000; 0; 0x10004000]);
   call (PWrite 2 0x10008000 0x0000ADBA) [];
   call PFaults [1]].
Proof. vm_compute. reflexivity. Qed.

Example Memory_WriteWord_InvalidAddress_ShouldSendErrorBack :
  passes [platform;
   ipsr 12;
   call PFaults [0];
   call PCause [SIGTRAP];
   call PTRegs (t_text [0xCCCCCCCC; 0x10008000; 0; 0x10004000]);
   call (PWrite 4 0x10008000 0x0DF0ADBA) [];
   call PFaults [1]].
Proof. vm_compute. reflexivity. Qed.

Example Query_qSupported_ReturnsExpectedOptionsAndCorrectPacketSizeOf16k :
  passes [platform;
   ipsr 12;
   call PCause [SIGTRAP];
   call PTRegs (t_text [0xCCCCCCCC; 0x10008000; 0; 0x10004000]);
   when (Platform_GetPacketBufferSize =? 0x4000)].
Proof. vm_compute. reflexivity. Qed.

Example Query_qXfer_TargetXML_ReturnsExpectedOutputForCortexM0 :
  passes [platform;
   ipsr 12;
   call PCause [SIGTRAP];
   call PTRegs (t_text [0xCCCCCCCC; 0x10008000; 0; 0x10004000]);
   call PTarget (s2b "<?xml version=""1.0""?>" ++ 10 :: s2b "<!DOCTYPE feature SYSTEM ""gdb-target.dtd"">" ++ 10 :: s2b "<target>" ++ 10 :: s2b "<feature name=""org.gnu.gdb.arm.m-profile"">" ++ 10 :: s2b "<reg name=""r0"" bitsize=""32""/>" ++ 10 :: s2b "<reg name=""r1"" bitsize=""32""/>" ++ 10 :: s2b "<reg name=""r2"" bitsize=""32""/>" ++ 10 :: s2b "<reg name=""r3"" bitsize=""32""/>" ++ 10 :: s2b "<reg name=""r4"" bitsize=""32""/>" ++ 10 :: s2b "<reg name=""r5"" bitsize=""32""/>" ++ 10 :: s2b "<reg name=""r6"" bitsize=""32""/>" ++ 10 :: s2b "<reg name=""r7"" bitsize=""32""/>" ++ 10 :: s2b "<reg name=""r8"" bitsize=""32""/>" ++ 10 :: s2b "<reg name=""r9"" bitsize=""32""/>" ++ 10 :: s2b "<reg name=""r10"" bitsize=""32""/>" ++ 10 :: s2b "<reg name=""r11"" bitsize=""32""/>" ++ 10 :: s2b "<reg name=""r12"" bitsize=""32""/>" ++ 10 :: s2b "<reg name=""sp"" bitsize=""32"" type=""data_ptr""/>" ++ 10 :: s2b "<reg name=""lr"" bitsize=""32""/>" ++ 10 :: s2b "<reg name=""pc"" bitsize=""32"" type=""code_ptr""/>" ++ 10 :: s2b "<reg name=""xpsr"" bitsize=""32"" regnum=""25""/>" ++ 10 :: s2b "</feature>" ++ 10 :: s2b "<feature name=""org.gnu.gdb.arm.m-system"">" ++ 10 :: s2b "<reg name=""msp"" bitsize=""32"" regnum=""26""/>" ++ 10 :: s2b "<reg name=""psp"" bitsize=""32"" regnum=""27""/>" ++ 10 :: s2b "</feature>" ++ 10 :: s2b "</target>" ++ 10 :: s2b "");
   call PTargetSize [zlen (s2b "<?xml version=""1.0""?>" ++ 10 :: s2b "<!DOCTYPE feature SYSTEM ""gdb-target.dtd"">" ++ 10 :: s2b "<target>" ++ 10 :: s2b "<feature name=""org.gnu.gdb.arm.m-profile"">" ++ 10 :: s2b "<reg name=""r0"" bitsize=""32""/>" ++ 10 :: s2b "<reg name=""r1"" bitsize=""32""/>" ++ 10 :: s2b "<reg name=""r2"" bitsize=""32""/>" ++ 10 :: s2b "<reg name=""r3"" bitsize=""32""/>" ++ 10 :: s2b "<reg name=""r4"" bitsize=""32""/>" ++ 10 :: s2b "<reg name=""r5"" bitsize=""32""/>" ++ 10 :: s2b "<reg name=""r6"" bitsize=""32""/>" ++ 10 :: s2b "<reg name=""r7"" bitsize=""32""/>" ++ 10 :: s2b "<reg name=""r8"" bitsize=""32""/>" ++ 10 :: s2b "<reg name=""r9"" bitsize=""32""/>" ++ 10 :: s2b "<reg name=""r10"" bitsize=""32""/>" ++ 10 :: s2b "<reg name=""r11"" bitsize=""32""/>" ++ 10 :: s2b "<reg name=""r12"" bitsize=""32""/>" ++ 10 :: s2b "<reg name=""sp"" bitsize=""32"" type=""data_ptr""/>" ++ 10 :: s2b "<reg name=""lr"" bitsize=""32""/>" ++ 10 :: s2b "<reg name=""pc"" bitsize=""32"" type=""code_ptr""/>" ++ 10 :: s2b "<reg name=""xpsr"" bitsize=""32"" regnum=""25""/>" ++ 10 :: s2b "</feature>" ++ 10 :: s2b "<feature name=""org.gnu.gdb.arm.m-system"">" ++ 10 :: s2b "<reg name=""msp"" bitsize=""32"" regnum=""26""/>" ++ 10 :: s2b "<reg name=""psp"" bitsize=""32"" regnum=""27""/>" ++ 10 :: s2b "</feature>" ++ 10 :: s2b "</target>" ++ 10 :: s2b "")]].
Proof. vm_compute. reflexivity. Qed.

Example Query_qXfer_TargetXML_FPUFlagSet_ReturnsExpectedOutputForCortexM4F :
  passes [platform;
   ipsr 12;
   put_words 0 [1];
   call PCause [SIGTRAP];
   call PTRegs (t_text [0xCCCCCCCC; 0x10008000; 0; 0x10004000]);
   call PTarget (s2b "<?xml version=""1.0""?>" ++ 10 :: s2b "<!DOCTYPE feature SYSTEM ""gdb-target.dtd"">" ++ 10 :: s2b "<target>" ++ 10 :: s2b "<feature name=""org.gnu.gdb.arm.m-profile"">" ++ 10 :: s2b "<reg name=""r0"" bitsize=""32""/>" ++ 10 :: s2b "<reg name=""r1"" bitsize=""32""/>" ++ 10 :: s2b "<reg name=""r2"" bitsize=""32""/>" ++ 10 :: s2b "<reg name=""r3"" bitsize=""32""/>" ++ 10 :: s2b "<reg name=""r4"" bitsize=""32""/>" ++ 10 :: s2b "<reg name=""r5"" bitsize=""32""/>" ++ 10 :: s2b "<reg name=""r6"" bitsize=""32""/>" ++ 10 :: s2b "<reg name=""r7"" bitsize=""32""/>" ++ 10 :: s2b "<reg name=""r8"" bitsize=""32""/>" ++ 10 :: s2b "<reg name=""r9"" bitsize=""32""/>" ++ 10 :: s2b "<reg name=""r10"" bitsize=""32""/>" ++ 10 :: s2b "<reg name=""r11"" bitsize=""32""/>" ++ 10 :: s2b "<reg name=""r12"" bitsize=""32""/>" ++ 10 :: s2b "<reg name=""sp"" bitsize=""32"" type=""data_ptr""/>" ++ 10 :: s2b "<reg name=""lr"" bitsize=""32""/>" ++ 10 :: s2b "<reg name=""pc"" bitsize=""32"" type=""code_ptr""/>" ++ 10 :: s2b "<reg name=""xpsr"" bitsize=""32"" regnum=""25""/>" ++ 10 :: s2b "</feature>" ++ 10 :: s2b "<feature name=""org.gnu.gdb.arm.m-system"">" ++ 10 :: s2b "<reg name=""msp"" bitsize=""32"" regnum=""26""/>" ++ 10 :: s2b "<reg name=""psp"" bitsize=""32"" regnum=""27""/>" ++ 10 :: s2b "</feature>" ++ 10 :: s2b "<feature name=""org.gnu.gdb.arm.vfp"">" ++ 10 :: s2b "<reg name=""d0"" bitsize=""64"" type=""ieee_double""/>" ++ 10 :: s2b "<reg name=""d1"" bitsize=""64"" type=""ieee_double""/>" ++ 10 :: s2b "<reg name=""d2"" bitsize=""64"" type=""ieee_double""/>" ++ 10 :: s2b "<reg name=""d3"" bitsize=""64"" type=""ieee_double""/>" ++ 10 :: s2b "<reg name=""d4"" bitsize=""64"" type=""ieee_double""/>" ++ 10 :: s2b "<reg name=""d5"" bitsize=""64"" type=""ieee_double""/>" ++ 10 :: s2b "<reg name=""d6"" bitsize=""64"" type=""ieee_double""/>" ++ 10 :: s2b "<reg name=""d7"" bitsize=""64"" type=""ieee_double""/>" ++ 10 :: s2b "<reg name=""d8"" bitsize=""64"" type=""ieee_double""/>" ++ 10 :: s2b "<reg name=""d9"" bitsize=""64"" type=""ieee_double""/>" ++ 10 :: s2b "<reg name=""d10"" bitsize=""64"" type=""ieee_double""/>" ++ 10 :: s2b "<reg name=""d11"" bitsize=""64"" type=""ieee_double""/>" ++ 10 :: s2b "<reg name=""d12"" bitsize=""64"" type=""ieee_double""/>" ++ 10 :: s2b "<reg name=""d13"" bitsize=""64"" type=""ieee_double""/>" ++ 10 :: s2b "<reg name=""d14"" bitsize=""64"" type=""ieee_double""/>" ++ 10 :: s2b "<reg name=""d15"" bitsize=""64"" type=""ieee_double""/>" ++ 10 :: s2b "<reg name=""fpscr"" bitsize=""32"" type=""int"" group=""float""/>" ++ 10 :: s2b "</feature>" ++ 10 :: s2b "</target>" ++ 10 :: s2b "");
   call PTargetSize [zlen (s2b "<?xml version=""1.0""?>" ++ 10 :: s2b "<!DOCTYPE feature SYSTEM ""gdb-target.dtd"">" ++ 10 :: s2b "<target>" ++ 10 :: s2b "<feature name=""org.gnu.gdb.arm.m-profile"">" ++ 10 :: s2b "<reg name=""r0"" bitsize=""32""/>" ++ 10 :: s2b "<reg name=""r1"" bitsize=""32""/>" ++ 10 :: s2b "<reg name=""r2"" bitsize=""32""/>" ++ 10 :: s2b "<reg name=""r3"" bitsize=""32""/>" ++ 10 :: s2b "<reg name=""r4"" bitsize=""32""/>" ++ 10 :: s2b "<reg name=""r5"" bitsize=""32""/>" ++ 10 :: s2b "<reg name=""r6"" bitsize=""32""/>" ++ 10 :: s2b "<reg name=""r7"" bitsize=""32""/>" ++ 10 :: s2b "<reg name=""r8"" bitsize=""32""/>" ++ 10 :: s2b "<reg name=""r9"" bitsize=""32""/>" ++ 10 :: s2b "<reg name=""r10"" bitsize=""32""/>" ++ 10 :: s2b "<reg name=""r11"" bitsize=""32""/>" ++ 10 :: s2b "<reg name=""r12"" bitsize=""32""/>" ++ 10 :: s2b "<reg name=""sp"" bitsize=""32"" type=""data_ptr""/>" ++ 10 :: s2b "<reg name=""lr"" bitsize=""32""/>" ++ 10 :: s2b "<reg name=""pc"" bitsize=""32"" type=""code_ptr""/>" ++ 10 :: s2b "<reg name=""xpsr"" bitsize=""32"" regnum=""25""/>" ++ 10 :: s2b "</feature>" ++ 10 :: s2b "<feature name=""org.gnu.gdb.arm.m-system"">" ++ 10 :: s2b "<reg name=""msp"" bitsize=""32"" regnum=""26""/>" ++ 10 :: s2b "<reg name=""psp"" bitsize=""32"" regnum=""27""/>" ++ 10 :: s2b "</feature>" ++ 10 :: s2b "<feature name=""org.gnu.gdb.arm.vfp"">" ++ 10 :: s2b "<reg name=""d0"" bitsize=""64"" type=""ieee_double""/>" ++ 10 :: s2b "<reg name=""d1"" bitsize=""64"" type=""ieee_double""/>" ++ 10 :: s2b "<reg name=""d2"" bitsize=""64"" type=""ieee_double""/>" ++ 10 :: s2b "<reg name=""d3"" bitsize=""64"" type=""ieee_double""/>" ++ 10 :: s2b "<reg name=""d4"" bitsize=""64"" type=""ieee_double""/>" ++ 10 :: s2b "<reg name=""d5"" bitsize=""64"" type=""ieee_double""/>" ++ 10 :: s2b "<reg name=""d6"" bitsize=""64"" type=""ieee_double""/>" ++ 10 :: s2b "<reg name=""d7"" bitsize=""64"" type=""ieee_double""/>" ++ 10 :: s2b "<reg name=""d8"" bitsize=""64"" type=""ieee_double""/>" ++ 10 :: s2b "<reg name=""d9"" bitsize=""64"" type=""ieee_double""/>" ++ 10 :: s2b "<reg name=""d10"" bitsize=""64"" type=""ieee_double""/>" ++ 10 :: s2b "<reg name=""d11"" bitsize=""64"" type=""ieee_double""/>" ++ 10 :: s2b "<reg name=""d12"" bitsize=""64"" type=""ieee_double""/>" ++ 10 :: s2b "<reg name=""d13"" bitsize=""64"" type=""ieee_double""/>" ++ 10 :: s2b "<reg name=""d14"" bitsize=""64"" type=""ieee_double""/>" ++ 10 :: s2b "<reg name=""d15"" bitsize=""64"" type=""ieee_double""/>" ++ 10 :: s2b "<reg name=""fpscr"" bitsize=""32"" type=""int"" group=""float""/>" ++ 10 :: s2b "</feature>" ++ 10 :: s2b "</target>" ++ 10 :: s2b "")]].
Proof. vm_compute. reflexivity. Qed.

Example Query_qXfer_MemoryMap_ReturnsTwoRegions :
  passes [platform;
   ipsr 12;
   call PCause [SIGTRAP];
   call PTRegs (t_text [0xCCCCCCCC; 0x10008000; 0; 0x10004000]);
   call PMap (s2b "<?xml version=""1.0""?><!DOCTYPE memory-map PUBLIC ""+//IDN gnu.org//DTD GDB Memory Map V1.0//EN"" ""http://sourceware.org/gdb/gdb-memory-map.dtd""><memory-map><memory type=""flash"" start=""0x0"" length=""0x8""> <property name=""blocksize"">1</property></memory><memory type=""ram"" start=""0x10000000"" length=""0x8000""></memory></memory-map>");
   call PMapSize [zlen (s2b "<?xml version=""1.0""?><!DOCTYPE memory-map PUBLIC ""+//IDN gnu.org//DTD GDB Memory Map V1.0//EN"" ""http://sourceware.org/gdb/gdb-memory-map.dtd""><memory-map><memory type=""flash"" start=""0x0"" length=""0x8""> <property name=""blocksize"">1</property></memory><memory type=""ram"" start=""0x10000000"" length=""0x8000""></memory></memory-map>")]].
Proof. vm_compute. reflexivity. Qed.
