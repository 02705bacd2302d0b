(** The unit tests libCrashDebug/tests/MemorySimTest.cpp, transcribed statement by statement and run on the
    model.  These are tests of the model (that it was read correctly from the code), not proofs of
    properties.  Sizes of three tests are reduced, as noted there. *)
From Coq Require Import String ZArith List Bool.
From Verif Require Import Base World MemSim MemSpec MemEx TestLib.
Import ListNotations.
Open Scope Z_scope.
Open Scope string_scope.

Example NoMemoryRegionsSetupShouldResultInAllReadsAndWritesThrowing :
  passes [throws (read32 0) busErrorException;
   throws (read16 0) busErrorException;
   throws (read8 0) busErrorException;
   throws (write32 0 0xFFFFFFFF) busErrorException;
   throws (write16 0 0x0000FFFF) busErrorException;
   throws (write8 0 255) busErrorException].
Proof. vm_compute. reflexivity. Qed.

Example ShouldThrowIfOutOfMemory :
  passes [fail_alloc 1;
   throws (MemorySim_CreateRegion 4 4) outOfMemoryException;
   fail_alloc 2;
   throws (MemorySim_CreateRegion 4 4) outOfMemoryException;
   fail_alloc 3;
   ok (MemorySim_CreateRegion 4 4)].
Proof. vm_compute. reflexivity. Qed.

Example SimulateFourBytes_ShouldBeZeroFilledByDefault :
  passes [ok (MemorySim_CreateRegion 4 4);
   gives (read32 4) 0].
Proof. vm_compute. reflexivity. Qed.

Example CreateRegionAtLowerAddressRange_MakeSureThatHighestPossibleWordThrows :
  passes [ok (MemorySim_CreateRegion 0 4);
   throws (read32 0xFFFFFFFC) busErrorException].
Proof. vm_compute. reflexivity. Qed.

Example SimulateFourBytes_DefaultsToReadWrite_VerifyCanReadAndWrite :
  passes [ok (MemorySim_CreateRegion 4 4);
   ok (write32 4 0x11111111);
   gives (read32 4) 0x11111111;
   ok (write16 4 0x00002222);
   gives (read16 4) 0x00002222;
   ok (write8 4 51);
   gives (read8 4) 51].
Proof. vm_compute. reflexivity. Qed.

Example SimulateFourBytes_VerifyReadWritesOfPreviousWordThrows :
  passes [ok (MemorySim_CreateRegion 4 4);
   throws (write32 0 0x11111111) busErrorException;
   throws (read32 0) busErrorException;
   throws (write16 2 0x00002222) busErrorException;
   throws (read16 2) busErrorException;
   throws (write8 3 51) busErrorException;
   throws (read8 3) busErrorException].
Proof. vm_compute. reflexivity. Qed.

Example SimulateFourBytes_VerifyReadWritesOfNextWordThrows :
  passes [ok (MemorySim_CreateRegion 4 4);
   throws (write32 8 0x11111111) busErrorException;
   throws (read32 8) busErrorException;
   throws (write16 8 0x00002222) busErrorException;
   throws (read16 8) busErrorException;
   throws (write8 8 51) busErrorException;
   throws (read8 8) busErrorException].
Proof. vm_compute. reflexivity. Qed.

Example SimulateFourBytes_VerifyOverlappingReadWritesWillThrow :
  passes [ok (MemorySim_CreateRegion 4 4);
   throws (write32 5 0x11111111) busErrorException;
   throws (read32 5) busErrorException;
   throws (write16 7 0x00002222) busErrorException;
   throws (read16 7) busErrorException].
Proof. vm_compute. reflexivity. Qed.

Example SimulateFourBytes_VerifyCanMakeReadOnly :
  passes [ok (MemorySim_CreateRegion 4 4);
   ok (MemorySim_MakeRegionReadOnly 4);
   throws (write32 4 0x11111111) busErrorException;
   throws (write16 4 0x00002222) busErrorException;
   throws (write8 4 51) busErrorException;
   gives (read32 4) 0;
   gives (read16 4) 0;
   gives (read8 4) 0].
Proof. vm_compute. reflexivity. Qed.

Example CreateZeroLengthRegion_ShouldThrowWhenTryingToMakeReadOnly :
  passes [ok (MemorySim_CreateRegion 0 0);
   throws (MemorySim_MakeRegionReadOnly 0) busErrorException].
Proof. vm_compute. reflexivity. Qed.

Example SimulateFourBytes_VerifyCanReadBothHalfWords :
  passes [ok (MemorySim_CreateRegion 4 4);
   ok (write32 4 0x12345678);
   gives (read16 4) 0x00005678;
   gives (read16 6) 0x00001234].
Proof. vm_compute. reflexivity. Qed.

Example SimulateFourBytes_VerifyCanReadAllFourBytes :
  passes [ok (MemorySim_CreateRegion 4 4);
   ok (write32 4 0x12345678);
   gives (read8 4) 120;
   gives (read8 5) 86;
   gives (read8 6) 52;
   gives (read8 7) 18].
Proof. vm_compute. reflexivity. Qed.

(* the test uses 64 * 1024 bytes *)
Example SimulateLargerRegion_WriteReadAllWords :
  passes [ok (MemorySim_CreateRegion 0x10000000 256);
   ok (write32 0x10000000 0xFFFFFFFF);
   ok (write32 0x10000004 0xFFFFFFFE);
   ok (write32 0x10000008 0xFFFFFFFD);
   ok (write32 0x1000000C 0xFFFFFFFC);
   ok (write32 0x10000010 0xFFFFFFFB);
   ok (write32 0x10000014 0xFFFFFFFA);
   ok (write32 0x10000018 0xFFFFFFF9);
   ok (write32 0x1000001C 0xFFFFFFF8);
   ok (write32 0x10000020 0xFFFFFFF7);
   ok (write32 0x10000024 0xFFFFFFF6);
   ok (write32 0x10000028 0xFFFFFFF5);
   ok (write32 0x1000002C 0xFFFFFFF4);
   ok (write32 0x10000030 0xFFFFFFF3);
   ok (write32 0x10000034 0xFFFFFFF2);
   ok (write32 0x10000038 0xFFFFFFF1);
   ok (write32 0x1000003C 0xFFFFFFF0);
   ok (write32 0x10000040 0xFFFFFFEF);
   ok (write32 0x10000044 0xFFFFFFEE);
   ok (write32 0x10000048 0xFFFFFFED);
   ok (write32 0x1000004C 0xFFFFFFEC);
   ok (write32 0x10000050 0xFFFFFFEB);
   ok (write32 0x10000054 0xFFFFFFEA);
   ok (write32 0x10000058 0xFFFFFFE9);
   ok (write32 0x1000005C 0xFFFFFFE8);
   ok (write32 0x10000060 0xFFFFFFE7);
   ok (write32 0x10000064 0xFFFFFFE6);
   ok (write32 0x10000068 0xFFFFFFE5);
   ok (write32 0x1000006C 0xFFFFFFE4);
   ok (write32 0x10000070 0xFFFFFFE3);
   ok (write32 0x10000074 0xFFFFFFE2);
   ok (write32 0x10000078 0xFFFFFFE1);
   ok (write32 0x1000007C 0xFFFFFFE0);
   ok (write32 0x10000080 0xFFFFFFDF);
   ok (write32 0x10000084 0xFFFFFFDE);
   ok (write32 0x10000088 0xFFFFFFDD);
   ok (write32 0x1000008C 0xFFFFFFDC);
   ok (write32 0x10000090 0xFFFFFFDB);
   ok (write32 0x10000094 0xFFFFFFDA);
   ok (write32 0x10000098 0xFFFFFFD9);
   ok (write32 0x1000009C 0xFFFFFFD8);
   ok (write32 0x100000A0 0xFFFFFFD7);
   ok (write32 0x100000A4 0xFFFFFFD6);
   ok (write32 0x100000A8 0xFFFFFFD5);
   ok (write32 0x100000AC 0xFFFFFFD4);
   ok (write32 0x100000B0 0xFFFFFFD3);
   ok (write32 0x100000B4 0xFFFFFFD2);
   ok (write32 0x100000B8 0xFFFFFFD1);
   ok (write32 0x100000BC 0xFFFFFFD0);
   ok (write32 0x100000C0 0xFFFFFFCF);
   ok (write32 0x100000C4 0xFFFFFFCE);
   ok (write32 0x100000C8 0xFFFFFFCD);
   ok (write32 0x100000CC 0xFFFFFFCC);
   ok (write32 0x100000D0 0xFFFFFFCB);
   ok (write32 0x100000D4 0xFFFFFFCA);
   ok (write32 0x100000D8 0xFFFFFFC9);
   ok (write32 0x100000DC 0xFFFFFFC8);
   ok (write32 0x100000E0 0xFFFFFFC7);
   ok (write32 0x100000E4 0xFFFFFFC6);
   ok (write32 0x100000E8 0xFFFFFFC5);
   ok (write32 0x100000EC 0xFFFFFFC4);
   ok (write32 0x100000F0 0xFFFFFFC3);
   ok (write32 0x100000F4 0xFFFFFFC2);
   ok (write32 0x100000F8 0xFFFFFFC1);
   ok (write32 0x100000FC 0xFFFFFFC0);
   gives (read32 0x10000000) 0xFFFFFFFF;
   gives (read32 0x10000004) 0xFFFFFFFE;
   gives (read32 0x10000008) 0xFFFFFFFD;
   gives (read32 0x1000000C) 0xFFFFFFFC;
   gives (read32 0x10000010) 0xFFFFFFFB;
   gives (read32 0x10000014) 0xFFFFFFFA;
   gives (read32 0x10000018) 0xFFFFFFF9;
   gives (read32 0x1000001C) 0xFFFFFFF8;
   gives (read32 0x10000020) 0xFFFFFFF7;
   gives (read32 0x10000024) 0xFFFFFFF6;
   gives (read32 0x10000028) 0xFFFFFFF5;
   gives (read32 0x1000002C) 0xFFFFFFF4;
   gives (read32 0x10000030) 0xFFFFFFF3;
   gives (read32 0x10000034) 0xFFFFFFF2;
   gives (read32 0x10000038) 0xFFFFFFF1;
   gives (read32 0x1000003C) 0xFFFFFFF0;
   gives (read32 0x10000040) 0xFFFFFFEF;
   gives (read32 0x10000044) 0xFFFFFFEE;
   gives (read32 0x10000048) 0xFFFFFFED;
   gives (read32 0x1000004C) 0xFFFFFFEC;
   gives (read32 0x10000050) 0xFFFFFFEB;
   gives (read32 0x10000054) 0xFFFFFFEA;
   gives (read32 0x10000058) 0xFFFFFFE9;
   gives (read32 0x1000005C) 0xFFFFFFE8;
   gives (read32 0x10000060) 0xFFFFFFE7;
   gives (read32 0x10000064) 0xFFFFFFE6;
   gives (read32 0x10000068) 0xFFFFFFE5;
   gives (read32 0x1000006C) 0xFFFFFFE4;
   gives (read32 0x10000070) 0xFFFFFFE3;
   gives (read32 0x10000074) 0xFFFFFFE2;
   gives (read32 0x10000078) 0xFFFFFFE1;
   gives (read32 0x1000007C) 0xFFFFFFE0;
   gives (read32 0x10000080) 0xFFFFFFDF;
   gives (read32 0x10000084) 0xFFFFFFDE;
   gives (read32 0x10000088) 0xFFFFFFDD;
   gives (read32 0x1000008C) 0xFFFFFFDC;
   gives (read32 0x10000090) 0xFFFFFFDB;
   gives (read32 0x10000094) 0xFFFFFFDA;
   gives (read32 0x10000098) 0xFFFFFFD9;
   gives (read32 0x1000009C) 0xFFFFFFD8;
   gives (read32 0x100000A0) 0xFFFFFFD7;
   gives (read32 0x100000A4) 0xFFFFFFD6;
   gives (read32 0x100000A8) 0xFFFFFFD5;
   gives (read32 0x100000AC) 0xFFFFFFD4;
   gives (read32 0x100000B0) 0xFFFFFFD3;
   gives (read32 0x100000B4) 0xFFFFFFD2;
   gives (read32 0x100000B8) 0xFFFFFFD1;
   gives (read32 0x100000BC) 0xFFFFFFD0;
   gives (read32 0x100000C0) 0xFFFFFFCF;
   gives (read32 0x100000C4) 0xFFFFFFCE;
   gives (read32 0x100000C8) 0xFFFFFFCD;
   gives (read32 0x100000CC) 0xFFFFFFCC;
   gives (read32 0x100000D0) 0xFFFFFFCB;
   gives (read32 0x100000D4) 0xFFFFFFCA;
   gives (read32 0x100000D8) 0xFFFFFFC9;
   gives (read32 0x100000DC) 0xFFFFFFC8;
   gives (read32 0x100000E0) 0xFFFFFFC7;
   gives (read32 0x100000E4) 0xFFFFFFC6;
   gives (read32 0x100000E8) 0xFFFFFFC5;
   gives (read32 0x100000EC) 0xFFFFFFC4;
   gives (read32 0x100000F0) 0xFFFFFFC3;
   gives (read32 0x100000F4) 0xFFFFFFC2;
   gives (read32 0x100000F8) 0xFFFFFFC1;
   gives (read32 0x100000FC) 0xFFFFFFC0].
Proof. vm_compute. reflexivity. Qed.

Example SimulateTwoMemoryRegions :
  passes [ok (MemorySim_CreateRegion 0 4);
   ok (MemorySim_CreateRegion 0x10000000 4);
   ok (write32 0 0x11111111);
   gives (read32 0) 0x11111111;
   ok (write32 0x10000000 0x22222222);
   gives (read32 0x10000000) 0x22222222].
Proof. vm_compute. reflexivity. Qed.

Example SimulateThreeMemoryRegions :
  passes [ok (MemorySim_CreateRegion 0 4);
   ok (MemorySim_CreateRegion 0x10000000 4);
   ok (MemorySim_CreateRegion 0x20000000 4);
   ok (write32 0 0x11111111);
   gives (read32 0) 0x11111111;
   ok (write32 0x10000000 0x22222222);
   gives (read32 0x10000000) 0x22222222;
   ok (write32 0x20000000 0x33333333);
   gives (read32 0x20000000) 0x33333333].
Proof. vm_compute. reflexivity. Qed.

Example LoadFromFlashImage :
  passes [ok (MemorySim_CreateRegion 0 8);
   ok (MemorySim_LoadFromFlashImage 0 [4; 0; 0; 16; 0; 2; 0; 0] 8);
   gives (read32 0) 0x10000004;
   gives (read32 4) 512].
Proof. vm_compute. reflexivity. Qed.

Example LoadFromFlashImage_UseDifferentBaseAddress :
  passes [ok (MemorySim_CreateRegion 0x00004000 8);
   ok (MemorySim_LoadFromFlashImage 0x00004000 [4; 0; 0; 16; 0; 2; 0; 0] 8);
   gives (read32 0x00004000) 0x10000004;
   gives (read32 0x00004004) 512].
Proof. vm_compute. reflexivity. Qed.

Example AttemptLoadFromFlashImageToInvalidRegions_ShouldThrow :
  passes [throws (MemorySim_LoadFromFlashImage 0 [4; 0; 0; 16; 0; 2; 0; 0] 8) busErrorException].
Proof. vm_compute. reflexivity. Qed.

Example CreateRegionsBasedOnFlashImage_TwoWordsOfFLASH_OneWordOfRAM_CheckRanges :
  passes [ok (MemorySim_CreateRegionsFromFlashImage [4; 0; 0; 16; 0; 2; 0; 0] 8);
   gives (read32 0) 0x10000004;
   gives (read32 4) 512;
   throws (read32 8) busErrorException;
   throws (write32 0 0x12345678) busErrorException;
   throws (write32 4 0x12345678) busErrorException;
   ok (write32 0x10000000 0x12345678);
   gives (read32 0x10000000) 0x12345678;
   throws (read32 0x10000004) busErrorException].
Proof. vm_compute. reflexivity. Qed.

Example CreateRegionsBasedOnFlashImage_NonWordSizedFlash :
  passes [ok (MemorySim_CreateRegionsFromFlashImage [4; 0; 0; 16; 0; 2; 0; 0] 7);
   gives (read8 0) 4;
   gives (read8 1) 0;
   gives (read8 2) 0;
   gives (read8 3) 16;
   gives (read8 4) 0;
   gives (read8 5) 2;
   gives (read8 6) 0;
   throws (read8 7) busErrorException].
Proof. vm_compute. reflexivity. Qed.

Example CreateRegionsFromFlashImage_ShouldThrowIfOutOfMemory :
  passes [fail_alloc 1;
   throws (MemorySim_CreateRegionsFromFlashImage [4; 0; 0; 16; 0; 2; 0; 0] 8) outOfMemoryException;
   fail_alloc 2;
   throws (MemorySim_CreateRegionsFromFlashImage [4; 0; 0; 16; 0; 2; 0; 0] 8) outOfMemoryException;
   fail_alloc 3;
   throws (MemorySim_CreateRegionsFromFlashImage [4; 0; 0; 16; 0; 2; 0; 0] 8) outOfMemoryException;
   fail_alloc 4;
   throws (MemorySim_CreateRegionsFromFlashImage [4; 0; 0; 16; 0; 2; 0; 0] 8) outOfMemoryException;
   fail_alloc 5;
   throws (MemorySim_CreateRegionsFromFlashImage [4; 0; 0; 16; 0; 2; 0; 0] 8) outOfMemoryException;
   fail_alloc 6;
   ok (MemorySim_CreateRegionsFromFlashImage [4; 0; 0; 16; 0; 2; 0; 0] 8)].
Proof. vm_compute. reflexivity. Qed.

Example CreateRegionsFromFlashImage_MakeSureItHandlesOutOfMemoryWhenThereIsAnExistingRegion :
  passes [ok (MemorySim_CreateRegion 0xF0000000 4);
   ok (write32 0xF0000000 0x12345678);
   fail_alloc 1;
   throws (MemorySim_CreateRegionsFromFlashImage [4; 0; 0; 16; 0; 2; 0; 0] 8) outOfMemoryException;
   fail_alloc 2;
   throws (MemorySim_CreateRegionsFromFlashImage [4; 0; 0; 16; 0; 2; 0; 0] 8) outOfMemoryException;
   fail_alloc 3;
   throws (MemorySim_CreateRegionsFromFlashImage [4; 0; 0; 16; 0; 2; 0; 0] 8) outOfMemoryException;
   fail_alloc 4;
   throws (MemorySim_CreateRegionsFromFlashImage [4; 0; 0; 16; 0; 2; 0; 0] 8) outOfMemoryException;
   fail_alloc 5;
   throws (MemorySim_CreateRegionsFromFlashImage [4; 0; 0; 16; 0; 2; 0; 0] 8) outOfMemoryException;
   gives (read32 0xF0000000) 0x12345678].
Proof. vm_compute. reflexivity. Qed.

Example CreateRegionsBasedOnFlashImage_ShouldThrowIfNotBigEnoughForInitialStackPointer :
  passes [throws (MemorySim_CreateRegionsFromFlashImage [4; 0; 0; 16] 3) bufferOverrunException].
Proof. vm_compute. reflexivity. Qed.

Example AttemptToSetBreakpointAtInvalidAddress_ShouldThrow :
  passes [throws (MemorySim_SetHardwareBreakpoint 0 2) busErrorException].
Proof. vm_compute. reflexivity. Qed.

Example AttemptToClearBreakpointAtInvalidAddress_ShouldThrow :
  passes [throws (MemorySim_ClearHardwareBreakpoint 0 2) busErrorException].
Proof. vm_compute. reflexivity. Qed.

Example SetBreakpointShouldThrowIfOutOfMemory :
  passes [ok (MemorySim_CreateRegion 0 6);
   fail_alloc 1;
   throws (MemorySim_SetHardwareBreakpoint 0 2) outOfMemoryException;
   fail_alloc 2;
   ok (MemorySim_SetHardwareBreakpoint 0 2)].
Proof. vm_compute. reflexivity. Qed.

Example SetAndClear2ByteHardwareBreakpoint_IssueReadsWhichHitAndMissBreakpoint :
  passes [ok (MemorySim_CreateRegion 0 6);
   ok (MemorySim_SetHardwareBreakpoint 2 2);
   gives (read16 0) 0;
   throws (read16 2) hardwareBreakpointException;
   gives (read16 4) 0;
   ok (MemorySim_ClearHardwareBreakpoint 2 2);
   gives (read16 2) 0].
Proof. vm_compute. reflexivity. Qed.

Example SetWordSizedHardwareBreakpoint_HitOnHalfWordAccessWithinRange :
  passes [ok (MemorySim_CreateRegion 0 12);
   ok (MemorySim_SetHardwareBreakpoint 4 4);
   throws (read16 4) hardwareBreakpointException;
   throws (read16 6) hardwareBreakpointException].
Proof. vm_compute. reflexivity. Qed.

Example SetWordSizedHardwareBreakpoint_ShouldIgnoreWordAccesses :
  passes [ok (MemorySim_CreateRegion 0 12);
   ok (MemorySim_SetHardwareBreakpoint 4 4);
   gives (read32 0) 0;
   gives (read32 4) 0;
   gives (read32 8) 0].
Proof. vm_compute. reflexivity. Qed.

Example HardwareBreakpoint_NoHitOnWrites :
  passes [ok (MemorySim_CreateRegion 0 6);
   ok (MemorySim_SetHardwareBreakpoint 2 2);
   ok (write16 0 0x00001234);
   ok (write16 2 0x00001234);
   ok (write16 4 0x00001234)].
Proof. vm_compute. reflexivity. Qed.

Example SetAndVerifyTwoHardwareBreakpoints_SetInAscendingAddressOrder :
  passes [ok (MemorySim_CreateRegion 0 8);
   ok (MemorySim_SetHardwareBreakpoint 2 2);
   ok (MemorySim_SetHardwareBreakpoint 4 2);
   gives (read16 0) 0;
   throws (read16 2) hardwareBreakpointException;
   throws (read16 4) hardwareBreakpointException;
   gives (read16 6) 0].
Proof. vm_compute. reflexivity. Qed.

Example SetAndVerifyTwoHardwareBreakpoints_SetInDescendingAddressOrder :
  passes [ok (MemorySim_CreateRegion 0 8);
   ok (MemorySim_SetHardwareBreakpoint 4 2);
   ok (MemorySim_SetHardwareBreakpoint 2 2);
   gives (read16 0) 0;
   throws (read16 2) hardwareBreakpointException;
   throws (read16 4) hardwareBreakpointException;
   gives (read16 6) 0].
Proof. vm_compute. reflexivity. Qed.

Example SetAndClearTwoHardwareBreakpoints_ClearInSameOrderAsSet :
  passes [ok (MemorySim_CreateRegion 0 8);
   ok (MemorySim_SetHardwareBreakpoint 2 2);
   ok (MemorySim_SetHardwareBreakpoint 4 2);
   gives (read16 0) 0;
   throws (read16 2) hardwareBreakpointException;
   throws (read16 4) hardwareBreakpointException;
   gives (read16 6) 0;
   ok (MemorySim_ClearHardwareBreakpoint 2 2);
   gives (read16 2) 0;
   throws (read16 4) hardwareBreakpointException;
   ok (MemorySim_ClearHardwareBreakpoint 4 2);
   gives (read16 2) 0;
   gives (read16 4) 0].
Proof. vm_compute. reflexivity. Qed.

Example SetAndClearTwoHardwareBreakpoints_ClearInOppositeOrderAsSet :
  passes [ok (MemorySim_CreateRegion 0 8);
   ok (MemorySim_SetHardwareBreakpoint 2 2);
   ok (MemorySim_SetHardwareBreakpoint 4 2);
   gives (read16 0) 0;
   throws (read16 2) hardwareBreakpointException;
   throws (read16 4) hardwareBreakpointException;
   gives (read16 6) 0;
   ok (MemorySim_ClearHardwareBreakpoint 4 2);
   throws (read16 2) hardwareBreakpointException;
   gives (read16 4) 0;
   ok (MemorySim_ClearHardwareBreakpoint 2 2);
   gives (read16 2) 0;
   gives (read16 4) 0].
Proof. vm_compute. reflexivity. Qed.

Example SetAndVerifyThreeHardwareBreakpoints :
  passes [ok (MemorySim_CreateRegion 0 10);
   ok (MemorySim_SetHardwareBreakpoint 2 2);
   ok (MemorySim_SetHardwareBreakpoint 4 2);
   ok (MemorySim_SetHardwareBreakpoint 6 2);
   gives (read16 0) 0;
   throws (read16 2) hardwareBreakpointException;
   throws (read16 4) hardwareBreakpointException;
   throws (read16 6) hardwareBreakpointException;
   gives (read16 8) 0].
Proof. vm_compute. reflexivity. Qed.

Example SetSameBreakpointTwice_SecondShouldBeIgnored :
  passes [ok (MemorySim_CreateRegion 0 2);
   ok (MemorySim_SetHardwareBreakpoint 0 2);
   ok (MemorySim_SetHardwareBreakpoint 0 2);
   throws (read16 0) hardwareBreakpointException;
   ok (MemorySim_ClearHardwareBreakpoint 0 2);
   gives (read16 0) 0].
Proof. vm_compute. reflexivity. Qed.

Example TryClearingBreakpointWhichNoExist_ShouldBeIgnored :
  passes [ok (MemorySim_CreateRegion 0 4);
   ok (MemorySim_SetHardwareBreakpoint 2 2);
   ok (MemorySim_ClearHardwareBreakpoint 0 2);
   gives (read16 0) 0].
Proof. vm_compute. reflexivity. Qed.

Example SetZeroLengthBreakpointInZeroLengthRegion_NoThrow :
  passes [ok (MemorySim_CreateRegion 0 0);
   ok (MemorySim_SetHardwareBreakpoint 0 0);
   ok (MemorySim_ClearHardwareBreakpoint 0 0)].
Proof. vm_compute. reflexivity. Qed.

(* the test uses 4 * 1024 bytes *)
Example SetAndVerifySeveralBreakpoints :
  passes [ok (MemorySim_CreateRegion 0 128);
   ok (MemorySim_SetHardwareBreakpoint 0 2);
   ok (MemorySim_SetHardwareBreakpoint 4 2);
   ok (MemorySim_SetHardwareBreakpoint 8 2);
   ok (MemorySim_SetHardwareBreakpoint 12 2);
   ok (MemorySim_SetHardwareBreakpoint 16 2);
   ok (MemorySim_SetHardwareBreakpoint 20 2);
   ok (MemorySim_SetHardwareBreakpoint 24 2);
   ok (MemorySim_SetHardwareBreakpoint 28 2);
   ok (MemorySim_SetHardwareBreakpoint 32 2);
   ok (MemorySim_SetHardwareBreakpoint 36 2);
   ok (MemorySim_SetHardwareBreakpoint 40 2);
   ok (MemorySim_SetHardwareBreakpoint 44 2);
   ok (MemorySim_SetHardwareBreakpoint 48 2);
   ok (MemorySim_SetHardwareBreakpoint 52 2);
   ok (MemorySim_SetHardwareBreakpoint 56 2);
   ok (MemorySim_SetHardwareBreakpoint 60 2);
   ok (MemorySim_SetHardwareBreakpoint 64 2);
   ok (MemorySim_SetHardwareBreakpoint 68 2);
   ok (MemorySim_SetHardwareBreakpoint 72 2);
   ok (MemorySim_SetHardwareBreakpoint 76 2);
   ok (MemorySim_SetHardwareBreakpoint 80 2);
   ok (MemorySim_SetHardwareBreakpoint 84 2);
   ok (MemorySim_SetHardwareBreakpoint 88 2);
   ok (MemorySim_SetHardwareBreakpoint 92 2);
   ok (MemorySim_SetHardwareBreakpoint 96 2);
   ok (MemorySim_SetHardwareBreakpoint 100 2);
   ok (MemorySim_SetHardwareBreakpoint 104 2);
   ok (MemorySim_SetHardwareBreakpoint 108 2);
   ok (MemorySim_SetHardwareBreakpoint 112 2);
   ok (MemorySim_SetHardwareBreakpoint 116 2);
   ok (MemorySim_SetHardwareBreakpoint 120 2);
   ok (MemorySim_SetHardwareBreakpoint 124 2);
   gives (read16 2) 0;
   gives (read16 6) 0;
   gives (read16 10) 0;
   gives (read16 14) 0;
   gives (read16 18) 0;
   gives (read16 22) 0;
   gives (read16 26) 0;
   gives (read16 30) 0;
   gives (read16 34) 0;
   gives (read16 38) 0;
   gives (read16 42) 0;
   gives (read16 46) 0;
   gives (read16 50) 0;
   gives (read16 54) 0;
   gives (read16 58) 0;
   gives (read16 62) 0;
   gives (read16 66) 0;
   gives (read16 70) 0;
   gives (read16 74) 0;
   gives (read16 78) 0;
   gives (read16 82) 0;
   gives (read16 86) 0;
   gives (read16 90) 0;
   gives (read16 94) 0;
   gives (read16 98) 0;
   gives (read16 102) 0;
   gives (read16 106) 0;
   gives (read16 110) 0;
   gives (read16 114) 0;
   gives (read16 118) 0;
   gives (read16 122) 0;
   gives (read16 126) 0;
   throws (read16 0) hardwareBreakpointException;
   throws (read16 4) hardwareBreakpointException;
   throws (read16 8) hardwareBreakpointException;
   throws (read16 12) hardwareBreakpointException;
   throws (read16 16) hardwareBreakpointException;
   throws (read16 20) hardwareBreakpointException;
   throws (read16 24) hardwareBreakpointException;
   throws (read16 28) hardwareBreakpointException;
   throws (read16 32) hardwareBreakpointException;
   throws (read16 36) hardwareBreakpointException;
   throws (read16 40) hardwareBreakpointException;
   throws (read16 44) hardwareBreakpointException;
   throws (read16 48) hardwareBreakpointException;
   throws (read16 52) hardwareBreakpointException;
   throws (read16 56) hardwareBreakpointException;
   throws (read16 60) hardwareBreakpointException;
   throws (read16 64) hardwareBreakpointException;
   throws (read16 68) hardwareBreakpointException;
   throws (read16 72) hardwareBreakpointException;
   throws (read16 76) hardwareBreakpointException;
   throws (read16 80) hardwareBreakpointException;
   throws (read16 84) hardwareBreakpointException;
   throws (read16 88) hardwareBreakpointException;
   throws (read16 92) hardwareBreakpointException;
   throws (read16 96) hardwareBreakpointException;
   throws (read16 100) hardwareBreakpointException;
   throws (read16 104) hardwareBreakpointException;
   throws (read16 108) hardwareBreakpointException;
   throws (read16 112) hardwareBreakpointException;
   throws (read16 116) hardwareBreakpointException;
   throws (read16 120) hardwareBreakpointException;
   throws (read16 124) hardwareBreakpointException].
Proof. vm_compute. reflexivity. Qed.

Example AttemptToSetWatchpointAtInvalidAddress_ShouldThrow :
  passes [throws (MemorySim_SetHardwareWatchpoint 0 2 1) busErrorException].
Proof. vm_compute. reflexivity. Qed.

Example AttemptToClearWatchpointAtInvalidAddress_ShouldThrow :
  passes [throws (MemorySim_ClearHardwareWatchpoint 0 2 1) busErrorException].
Proof. vm_compute. reflexivity. Qed.

Example SetWatchpointShouldThrowIfOutOfMemory :
  passes [ok (MemorySim_CreateRegion 0 6);
   fail_alloc 1;
   throws (MemorySim_SetHardwareWatchpoint 0 2 1) outOfMemoryException;
   fail_alloc 2;
   ok (MemorySim_SetHardwareWatchpoint 0 2 1)].
Proof. vm_compute. reflexivity. Qed.

Example SetAndClear2ByteHardwareWatchpoint_IssueReadsWhichHitAndMissWatchpoint :
  passes [ok (MemorySim_CreateRegion 0 6);
   ok (MemorySim_SetHardwareWatchpoint 2 2 1);
   gives (read16 0) 0;
   zero (MemorySim_WasWatchpointEncountered);
   gives (read16 2) 0;
   nonzero (MemorySim_WasWatchpointEncountered);
   gives (read16 4) 0;
   ok (MemorySim_ClearHardwareWatchpoint 2 2 1);
   zero (MemorySim_WasWatchpointEncountered);
   gives (read16 2) 0;
   zero (MemorySim_WasWatchpointEncountered)].
Proof. vm_compute. reflexivity. Qed.

Example SetAndClear4ByteHardwareWatchpoint_IssueReadsWhichHitAndMissBreakpoint :
  passes [ok (MemorySim_CreateRegion 0 12);
   ok (MemorySim_SetHardwareWatchpoint 4 4 1);
   gives (read32 0) 0;
   zero (MemorySim_WasWatchpointEncountered);
   gives (read32 4) 0;
   nonzero (MemorySim_WasWatchpointEncountered);
   gives (read32 8) 0;
   ok (MemorySim_ClearHardwareWatchpoint 4 4 1);
   gives (read32 4) 0].
Proof. vm_compute. reflexivity. Qed.

Example Set4ByteHardwareWatchpoint_HitOnSmallerSize :
  passes [ok (MemorySim_CreateRegion 0 12);
   ok (MemorySim_SetHardwareWatchpoint 4 4 1);
   zero (MemorySim_WasWatchpointEncountered);
   gives (read16 4) 0;
   nonzero (MemorySim_WasWatchpointEncountered);
   zero (MemorySim_WasWatchpointEncountered);
   gives (read16 6) 0;
   nonzero (MemorySim_WasWatchpointEncountered)].
Proof. vm_compute. reflexivity. Qed.

Example HardwareReadWatchpoint_NoHitOnWrites :
  passes [ok (MemorySim_CreateRegion 0 6);
   ok (MemorySim_SetHardwareWatchpoint 2 2 1);
   ok (write16 0 0x00001234);
   ok (write16 2 0x00001234);
   ok (write16 4 0x00001234);
   zero (MemorySim_WasWatchpointEncountered)].
Proof. vm_compute. reflexivity. Qed.

Example HardwareWriteWatchpoint_NoHitOnReads :
  passes [ok (MemorySim_CreateRegion 0 6);
   ok (MemorySim_SetHardwareWatchpoint 2 2 2);
   gives (read16 0) 0;
   gives (read16 2) 0;
   gives (read16 4) 0;
   zero (MemorySim_WasWatchpointEncountered)].
Proof. vm_compute. reflexivity. Qed.

Example HardwareWriteWatchpoint_HitOnWrites :
  passes [ok (MemorySim_CreateRegion 0 6);
   ok (MemorySim_SetHardwareWatchpoint 2 2 2);
   ok (write16 0 0x00001234);
   zero (MemorySim_WasWatchpointEncountered);
   ok (write16 2 0x00001234);
   nonzero (MemorySim_WasWatchpointEncountered);
   ok (write16 4 0x00001234);
   zero (MemorySim_WasWatchpointEncountered)].
Proof. vm_compute. reflexivity. Qed.

Example HardwareReadWriteWatchpoint_HitsOnReadsAndWrites :
  passes [ok (MemorySim_CreateRegion 0 6);
   ok (MemorySim_SetHardwareWatchpoint 2 2 3);
   ok (write16 0 0x00001234);
   gives (read16 0) 0x00001234;
   zero (MemorySim_WasWatchpointEncountered);
   ok (write16 2 0x00001234);
   nonzero (MemorySim_WasWatchpointEncountered);
   gives (read16 2) 0x00001234;
   nonzero (MemorySim_WasWatchpointEncountered);
   ok (write16 4 0x00001234);
   gives (read16 4) 0x00001234;
   zero (MemorySim_WasWatchpointEncountered)].
Proof. vm_compute. reflexivity. Qed.

Example SetSameWatchpointTwice_SecondShouldBeIgnored :
  passes [ok (MemorySim_CreateRegion 0 2);
   ok (MemorySim_SetHardwareWatchpoint 0 2 1);
   ok (MemorySim_SetHardwareWatchpoint 0 2 1);
   zero (MemorySim_WasWatchpointEncountered);
   ok (read16 0);
   nonzero (MemorySim_WasWatchpointEncountered);
   ok (MemorySim_ClearHardwareWatchpoint 0 2 1);
   ok (read16 0);
   zero (MemorySim_WasWatchpointEncountered)].
Proof. vm_compute. reflexivity. Qed.

Example SetTwoDifferentWatchpointTypesAtSameAddress_BothShouldBeObserved :
  passes [ok (MemorySim_CreateRegion 0 2);
   ok (MemorySim_SetHardwareWatchpoint 0 2 1);
   ok (MemorySim_SetHardwareWatchpoint 0 2 2);
   zero (MemorySim_WasWatchpointEncountered);
   ok (write16 0 0x00001234);
   nonzero (MemorySim_WasWatchpointEncountered);
   ok (read16 0);
   nonzero (MemorySim_WasWatchpointEncountered)].
Proof. vm_compute. reflexivity. Qed.

Example TryClearingWatchpointWhichNoExist_ShouldBeIgnored :
  passes [ok (MemorySim_CreateRegion 0 4);
   ok (MemorySim_SetHardwareWatchpoint 2 2 1);
   ok (MemorySim_ClearHardwareWatchpoint 2 2 2);
   zero (MemorySim_WasWatchpointEncountered);
   ok (write16 2 0x00001234);
   zero (MemorySim_WasWatchpointEncountered);
   ok (read16 2);
   nonzero (MemorySim_WasWatchpointEncountered)].
Proof. vm_compute. reflexivity. Qed.

(* the test uses 4 * 1024 bytes *)
Example SetAndVerifySeveralWatchpoints :
  passes [ok (MemorySim_CreateRegion 0 128);
   ok (MemorySim_SetHardwareWatchpoint 0 2 1);
   ok (MemorySim_SetHardwareWatchpoint 4 2 1);
   ok (MemorySim_SetHardwareWatchpoint 8 2 1);
   ok (MemorySim_SetHardwareWatchpoint 12 2 1);
   ok (MemorySim_SetHardwareWatchpoint 16 2 1);
   ok (MemorySim_SetHardwareWatchpoint 20 2 1);
   ok (MemorySim_SetHardwareWatchpoint 24 2 1);
   ok (MemorySim_SetHardwareWatchpoint 28 2 1);
   ok (MemorySim_SetHardwareWatchpoint 32 2 1);
   ok (MemorySim_SetHardwareWatchpoint 36 2 1);
   ok (MemorySim_SetHardwareWatchpoint 40 2 1);
   ok (MemorySim_SetHardwareWatchpoint 44 2 1);
   ok (MemorySim_SetHardwareWatchpoint 48 2 1);
   ok (MemorySim_SetHardwareWatchpoint 52 2 1);
   ok (MemorySim_SetHardwareWatchpoint 56 2 1);
   ok (MemorySim_SetHardwareWatchpoint 60 2 1);
   ok (MemorySim_SetHardwareWatchpoint 64 2 1);
   ok (MemorySim_SetHardwareWatchpoint 68 2 1);
   ok (MemorySim_SetHardwareWatchpoint 72 2 1);
   ok (MemorySim_SetHardwareWatchpoint 76 2 1);
   ok (MemorySim_SetHardwareWatchpoint 80 2 1);
   ok (MemorySim_SetHardwareWatchpoint 84 2 1);
   ok (MemorySim_SetHardwareWatchpoint 88 2 1);
   ok (MemorySim_SetHardwareWatchpoint 92 2 1);
   ok (MemorySim_SetHardwareWatchpoint 96 2 1);
   ok (MemorySim_SetHardwareWatchpoint 100 2 1);
   ok (MemorySim_SetHardwareWatchpoint 104 2 1);
   ok (MemorySim_SetHardwareWatchpoint 108 2 1);
   ok (MemorySim_SetHardwareWatchpoint 112 2 1);
   ok (MemorySim_SetHardwareWatchpoint 116 2 1);
   ok (MemorySim_SetHardwareWatchpoint 120 2 1);
   ok (MemorySim_SetHardwareWatchpoint 124 2 1);
   gives (read16 2) 0;
   zero (MemorySim_WasWatchpointEncountered);
   gives (read16 6) 0;
   zero (MemorySim_WasWatchpointEncountered);
   gives (read16 10) 0;
   zero (MemorySim_WasWatchpointEncountered);
   gives (read16 14) 0;
   zero (MemorySim_WasWatchpointEncountered);
   gives (read16 18) 0;
   zero (MemorySim_WasWatchpointEncountered);
   gives (read16 22) 0;
   zero (MemorySim_WasWatchpointEncountered);
   gives (read16 26) 0;
   zero (MemorySim_WasWatchpointEncountered);
   gives (read16 30) 0;
   zero (MemorySim_WasWatchpointEncountered);
   gives (read16 34) 0;
   zero (MemorySim_WasWatchpointEncountered);
   gives (read16 38) 0;
   zero (MemorySim_WasWatchpointEncountered);
   gives (read16 42) 0;
   zero (MemorySim_WasWatchpointEncountered);
   gives (read16 46) 0;
   zero (MemorySim_WasWatchpointEncountered);
   gives (read16 50) 0;
   zero (MemorySim_WasWatchpointEncountered);
   gives (read16 54) 0;
   zero (MemorySim_WasWatchpointEncountered);
   gives (read16 58) 0;
   zero (MemorySim_WasWatchpointEncountered);
   gives (read16 62) 0;
   zero (MemorySim_WasWatchpointEncountered);
   gives (read16 66) 0;
   zero (MemorySim_WasWatchpointEncountered);
   gives (read16 70) 0;
   zero (MemorySim_WasWatchpointEncountered);
   gives (read16 74) 0;
   zero (MemorySim_WasWatchpointEncountered);
   gives (read16 78) 0;
   zero (MemorySim_WasWatchpointEncountered);
   gives (read16 82) 0;
   zero (MemorySim_WasWatchpointEncountered);
   gives (read16 86) 0;
   zero (MemorySim_WasWatchpointEncountered);
   gives (read16 90) 0;
   zero (MemorySim_WasWatchpointEncountered);
   gives (read16 94) 0;
   zero (MemorySim_WasWatchpointEncountered);
   gives (read16 98) 0;
   zero (MemorySim_WasWatchpointEncountered);
   gives (read16 102) 0;
   zero (MemorySim_WasWatchpointEncountered);
   gives (read16 106) 0;
   zero (MemorySim_WasWatchpointEncountered);
   gives (read16 110) 0;
   zero (MemorySim_WasWatchpointEncountered);
   gives (read16 114) 0;
   zero (MemorySim_WasWatchpointEncountered);
   gives (read16 118) 0;
   zero (MemorySim_WasWatchpointEncountered);
   gives (read16 122) 0;
   zero (MemorySim_WasWatchpointEncountered);
   gives (read16 126) 0;
   zero (MemorySim_WasWatchpointEncountered);
   gives (read16 0) 0;
   nonzero (MemorySim_WasWatchpointEncountered);
   gives (read16 4) 0;
   nonzero (MemorySim_WasWatchpointEncountered);
   gives (read16 8) 0;
   nonzero (MemorySim_WasWatchpointEncountered);
   gives (read16 12) 0;
   nonzero (MemorySim_WasWatchpointEncountered);
   gives (read16 16) 0;
   nonzero (MemorySim_WasWatchpointEncountered);
   gives (read16 20) 0;
   nonzero (MemorySim_WasWatchpointEncountered);
   gives (read16 24) 0;
   nonzero (MemorySim_WasWatchpointEncountered);
   gives (read16 28) 0;
   nonzero (MemorySim_WasWatchpointEncountered);
   gives (read16 32) 0;
   nonzero (MemorySim_WasWatchpointEncountered);
   gives (read16 36) 0;
   nonzero (MemorySim_WasWatchpointEncountered);
   gives (read16 40) 0;
   nonzero (MemorySim_WasWatchpointEncountered);
   gives (read16 44) 0;
   nonzero (MemorySim_WasWatchpointEncountered);
   gives (read16 48) 0;
   nonzero (MemorySim_WasWatchpointEncountered);
   gives (read16 52) 0;
   nonzero (MemorySim_WasWatchpointEncountered);
   gives (read16 56) 0;
   nonzero (MemorySim_WasWatchpointEncountered);
   gives (read16 60) 0;
   nonzero (MemorySim_WasWatchpointEncountered);
   gives (read16 64) 0;
   nonzero (MemorySim_WasWatchpointEncountered);
   gives (read16 68) 0;
   nonzero (MemorySim_WasWatchpointEncountered);
   gives (read16 72) 0;
   nonzero (MemorySim_WasWatchpointEncountered);
   gives (read16 76) 0;
   nonzero (MemorySim_WasWatchpointEncountered);
   gives (read16 80) 0;
   nonzero (MemorySim_WasWatchpointEncountered);
   gives (read16 84) 0;
   nonzero (MemorySim_WasWatchpointEncountered);
   gives (read16 88) 0;
   nonzero (MemorySim_WasWatchpointEncountered);
   gives (read16 92) 0;
   nonzero (MemorySim_WasWatchpointEncountered);
   gives (read16 96) 0;
   nonzero (MemorySim_WasWatchpointEncountered);
   gives (read16 100) 0;
   nonzero (MemorySim_WasWatchpointEncountered);
   gives (read16 104) 0;
   nonzero (MemorySim_WasWatchpointEncountered);
   gives (read16 108) 0;
   nonzero (MemorySim_WasWatchpointEncountered);
   gives (read16 112) 0;
   nonzero (MemorySim_WasWatchpointEncountered);
   gives (read16 116) 0;
   nonzero (MemorySim_WasWatchpointEncountered);
   gives (read16 120) 0;
   nonzero (MemorySim_WasWatchpointEncountered);
   gives (read16 124) 0;
   nonzero (MemorySim_WasWatchpointEncountered)].
Proof. vm_compute. reflexivity. Qed.

Example GetMemoryMapXML_NoRegions :
  passes [text (MemorySim_GetMemoryMapXML) "<?xml version=""1.0""?><!DOCTYPE memory-map PUBLIC ""+//IDN gnu.org//DTD GDB Memory Map V1.0//EN"" ""http://sourceware.org/gdb/gdb-memory-map.dtd""><memory-map></memory-map>"].
Proof. vm_compute. reflexivity. Qed.

Example GetMemoryMapXML_ShouldThrowIfOutOfMemory :
  passes [fail_alloc 1;
   throws (MemorySim_GetMemoryMapXML) outOfMemoryException].
Proof. vm_compute. reflexivity. Qed.

Example GetMemoryMapXML_OneFlashRegion :
  passes [ok (MemorySim_CreateRegion 0 256);
   ok (MemorySim_MakeRegionReadOnly 0);
   text (MemorySim_GetMemoryMapXML) "<?xml version=""1.0""?><!DOCTYPE memory-map PUBLIC ""+//IDN gnu.org//DTD GDB Memory Map V1.0//EN"" ""http://sourceware.org/gdb/gdb-memory-map.dtd""><memory-map><memory type=""flash"" start=""0x0"" length=""0x100""> <property name=""blocksize"">1</property></memory></memory-map>"].
Proof. vm_compute. reflexivity. Qed.

Example GetMemoryMapXML_OneRamRegion :
  passes [ok (MemorySim_CreateRegion 0x10000000 256);
   text (MemorySim_GetMemoryMapXML) "<?xml version=""1.0""?><!DOCTYPE memory-map PUBLIC ""+//IDN gnu.org//DTD GDB Memory Map V1.0//EN"" ""http://sourceware.org/gdb/gdb-memory-map.dtd""><memory-map><memory type=""ram"" start=""0x10000000"" length=""0x100""></memory></memory-map>"].
Proof. vm_compute. reflexivity. Qed.

Example GetMemoryMapXML_OneFlashAndOneRamRegion :
  passes [ok (MemorySim_CreateRegionsFromFlashImage [0; 128; 0; 16; 0; 2; 0; 0] 8);
   text (MemorySim_GetMemoryMapXML) "<?xml version=""1.0""?><!DOCTYPE memory-map PUBLIC ""+//IDN gnu.org//DTD GDB Memory Map V1.0//EN"" ""http://sourceware.org/gdb/gdb-memory-map.dtd""><memory-map><memory type=""flash"" start=""0x0"" length=""0x8""> <property name=""blocksize"">1</property></memory><memory type=""ram"" start=""0x10000000"" length=""0x8000""></memory></memory-map>"].
Proof. vm_compute. reflexivity. Qed.

Example MapSimulatedAddressForWrite_AttemptToMapWithNoRegions_ShouldThrow :
  passes [throws (MemorySim_MapForWrite 0 4) busErrorException].
Proof. vm_compute. reflexivity. Qed.

Example MapSimulatedAddressForWrite_MapValidAddressRegion :
  passes [ok (MemorySim_CreateRegion 4 4);
   ok (write32 4 0x11111111);
   points (MemorySim_MapForWrite 4 4) 0x11111111].
Proof. vm_compute. reflexivity. Qed.

Example MapSimulatedAddressForWrite_AttemptToMapAddressBeforeAndAfterValidRegion_ShouldThrow :
  passes [ok (MemorySim_CreateRegion 4 4);
   throws (MemorySim_MapForWrite 0 4) busErrorException;
   throws (MemorySim_MapForWrite 8 4) busErrorException].
Proof. vm_compute. reflexivity. Qed.

Example MapSimulatedAddressForWrite_AttemptToMapAddressThatOverflowRegions_ShouldThrow :
  passes [ok (MemorySim_CreateRegion 4 4);
   throws (MemorySim_MapForWrite 4 5) busErrorException].
Proof. vm_compute. reflexivity. Qed.

Example MapSimulatedAddressForWrite_AttemptToMapAddressForWriteThatIsReadOnly_ShouldThrow :
  passes [ok (MemorySim_CreateRegion 4 4);
   ok (MemorySim_MakeRegionReadOnly 4);
   throws (MemorySim_MapForWrite 4 4) busErrorException].
Proof. vm_compute. reflexivity. Qed.

Example MapSimulatedAddressForRead_ReadFromReadOnlyRegion :
  passes [ok (MemorySim_CreateRegion 4 4);
   ok (MemorySim_MakeRegionReadOnly 4);
   points (MemorySim_MapForRead 4 4) 0].
Proof. vm_compute. reflexivity. Qed.

Example MapSimulatedAddressForRead_AttemptToMapAddressToInvalidRegion_ShouldThrow :
  passes [throws (MemorySim_MapForRead 4 4) busErrorException].
Proof. vm_compute. reflexivity. Qed.

Example GetReadCount_OnNonExistentRegion_ShouldThrow :
  passes [throws (MemorySim_GetFlashReadCount 0) busErrorException].
Proof. vm_compute. reflexivity. Qed.

Example GetReadCount_OnReadWriteRamRegion_ShouldThrow :
  passes [ok (MemorySim_CreateRegion 0 2);
   throws (MemorySim_GetFlashReadCount 0) busErrorException].
Proof. vm_compute. reflexivity. Qed.

Example GetReadCount_AddressOfHalfWordOverflowingOutOfRegion_ShouldThrow :
  passes [ok (MemorySim_CreateRegion 0 3);
   ok (MemorySim_MakeRegionReadOnly 0);
   throws (MemorySim_GetFlashReadCount 2) busErrorException].
Proof. vm_compute. reflexivity. Qed.

Example GetReadCount_CheckFlashRegionWithNoReads_ShouldReadCountOfZero :
  passes [ok (MemorySim_CreateRegion 0 2);
   ok (MemorySim_MakeRegionReadOnly 0);
   gives (MemorySim_GetFlashReadCount 0) 0].
Proof. vm_compute. reflexivity. Qed.

Example GetReadCount_CheckFlashRegionWithOneReads_ShouldReadCountOfOne :
  passes [ok (MemorySim_CreateRegion 0 2);
   ok (MemorySim_MakeRegionReadOnly 0);
   ok (read16 0);
   gives (MemorySim_GetFlashReadCount 0) 1].
Proof. vm_compute. reflexivity. Qed.

Example GetReadCount_CheckFlashRegionWithTwoReads_ShouldReadCountOfTwo :
  passes [ok (MemorySim_CreateRegion 0 2);
   ok (MemorySim_MakeRegionReadOnly 0);
   ok (read16 0);
   ok (read16 0);
   gives (MemorySim_GetFlashReadCount 0) 2].
Proof. vm_compute. reflexivity. Qed.

Example GetReadCount_CheckFlashRegionWithMultipleHalfWordOnlyReadFromOne_ShouldReadCountsOfZeroAnd1 :
  passes [ok (MemorySim_CreateRegion 0 6);
   ok (MemorySim_MakeRegionReadOnly 0);
   ok (read16 2);
   gives (MemorySim_GetFlashReadCount 0) 0;
   gives (MemorySim_GetFlashReadCount 2) 1;
   gives (MemorySim_GetFlashReadCount 4) 0].
Proof. vm_compute. reflexivity. Qed.

Example AliasToSimulateFourBytes_DefaultsToReadWrite_VerifyCanReadAndWrite :
  passes [ok (MemorySim_CreateRegion 4 4);
   ok (MemorySim_CreateAlias 0x10000004 4 4);
   ok (write32 4 0x11111111);
   gives (read32 4) 0x11111111;
   ok (write16 4 0x00002222);
   gives (read16 4) 0x00002222;
   ok (write8 4 51);
   gives (read8 4) 51;
   ok (write32 0x10000004 0xAAAAAAAA);
   gives (read32 0x10000004) 0xAAAAAAAA;
   gives (read32 4) 0xAAAAAAAA;
   ok (write16 0x10000004 0x0000BBBB);
   gives (read16 0x10000004) 0x0000BBBB;
   gives (read16 4) 0x0000BBBB;
   ok (write8 0x10000004 204);
   gives (read8 0x10000004) 204;
   gives (read8 4) 204;
   ok (write32 4 0xAAAAAAAA);
   gives (read32 0x10000004) 0xAAAAAAAA;
   gives (read32 4) 0xAAAAAAAA;
   ok (write16 4 0x0000BBBB);
   gives (read16 0x10000004) 0x0000BBBB;
   gives (read16 4) 0x0000BBBB;
   ok (write8 4 204);
   gives (read8 0x10000004) 204;
   gives (read8 4) 204].
Proof. vm_compute. reflexivity. Qed.

Example AliasToSimulateFourBytes_VerifyCanMakeReadOnly :
  passes [ok (MemorySim_CreateRegion 4 4);
   ok (MemorySim_MakeRegionReadOnly 4);
   ok (MemorySim_CreateAlias 0x10000004 4 4);
   throws (write32 0x10000004 0x11111111) busErrorException;
   throws (write16 0x10000004 0x00002222) busErrorException;
   throws (write8 0x10000004 51) busErrorException;
   gives (read32 0x10000004) 0;
   gives (read16 0x10000004) 0;
   gives (read8 0x10000004) 0].
Proof. vm_compute. reflexivity. Qed.

Example AliasToSetAndClear2ByteHardwareBreakpoint_IssueReadsWhichHitAndMissBreakpoint :
  passes [ok (MemorySim_CreateRegion 0 6);
   ok (MemorySim_CreateAlias 0x10000004 0 6);
   ok (MemorySim_SetHardwareBreakpoint 0x10000006 2);
   gives (read16 0x10000004) 0;
   throws (read16 0x10000006) hardwareBreakpointException;
   gives (read16 0x10000008) 0;
   gives (read16 0) 0;
   throws (read16 2) hardwareBreakpointException;
   gives (read16 4) 0;
   ok (MemorySim_ClearHardwareBreakpoint 0x10000006 2);
   gives (read16 0x10000006) 0;
   ok (MemorySim_SetHardwareBreakpoint 2 2);
   gives (read16 0x10000004) 0;
   throws (read16 0x10000006) hardwareBreakpointException;
   gives (read16 0x10000008) 0;
   ok (MemorySim_ClearHardwareBreakpoint 2 2);
   gives (read16 0x10000006) 0].
Proof. vm_compute. reflexivity. Qed.

Example AliasToSetAndClear4ByteHardwareWatchpoint_IssueReadsWhichHitAndMissBreakpoint :
  passes [ok (MemorySim_CreateRegion 0 12);
   ok (MemorySim_CreateAlias 0x10000004 0 12);
   ok (MemorySim_SetHardwareWatchpoint 4 4 1);
   gives (read32 0x10000004) 0;
   zero (MemorySim_WasWatchpointEncountered);
   gives (read32 0x10000008) 0;
   nonzero (MemorySim_WasWatchpointEncountered);
   gives (read32 0x1000000C) 0;
   ok (MemorySim_ClearHardwareWatchpoint 4 4 1);
   gives (read32 0x10000008) 0;
   ok (MemorySim_SetHardwareWatchpoint 0x10000008 4 1);
   gives (read32 0) 0;
   zero (MemorySim_WasWatchpointEncountered);
   gives (read32 4) 0;
   nonzero (MemorySim_WasWatchpointEncountered);
   gives (read32 8) 0;
   ok (MemorySim_ClearHardwareWatchpoint 0x10000008 4 1);
   gives (read32 4) 0].
Proof. vm_compute. reflexivity. Qed.

Example GetMemoryMapXML_OneFlashAndOneRamRegionPlusAliasesForEach :
  passes [ok (MemorySim_CreateRegionsFromFlashImage [0; 128; 0; 16; 0; 2; 0; 0] 8);
   ok (MemorySim_CreateAlias 0xA0000000 0 8);
   ok (MemorySim_CreateAlias 0xB0000000 0x10000000 0x00008000);
   text (MemorySim_GetMemoryMapXML) "<?xml version=""1.0""?><!DOCTYPE memory-map PUBLIC ""+//IDN gnu.org//DTD GDB Memory Map V1.0//EN"" ""http://sourceware.org/gdb/gdb-memory-map.dtd""><memory-map><memory type=""flash"" start=""0x0"" length=""0x8""> <property name=""blocksize"">1</property></memory><memory type=""ram"" start=""0x10000000"" length=""0x8000""></memory><memory type=""flash"" start=""0xA0000000"" length=""0x8""> <property name=""blocksize"">1</property></memory><memory type=""ram"" start=""0xB0000000"" length=""0x8000""></memory></memory-map>"].
Proof. vm_compute. reflexivity. Qed.

Example GetMemoryMapXML_OneFlashAndOneRamRegionPlusAliasesForEach_MakeAliasesTooLarge_ShouldBeTruncated :
  passes [ok (MemorySim_CreateRegionsFromFlashImage [0; 128; 0; 16; 0; 2; 0; 0] 8);
   ok (MemorySim_CreateAlias 0xA0000000 0 16);
   ok (MemorySim_CreateAlias 0xB0000000 0x10000000 0x00010000);
   text (MemorySim_GetMemoryMapXML) "<?xml version=""1.0""?><!DOCTYPE memory-map PUBLIC ""+//IDN gnu.org//DTD GDB Memory Map V1.0//EN"" ""http://sourceware.org/gdb/gdb-memory-map.dtd""><memory-map><memory type=""flash"" start=""0x0"" length=""0x8""> <property name=""blocksize"">1</property></memory><memory type=""ram"" start=""0x10000000"" length=""0x8000""></memory><memory type=""flash"" start=""0xA0000000"" length=""0x8""> <property name=""blocksize"">1</property></memory><memory type=""ram"" start=""0xB0000000"" length=""0x8000""></memory></memory-map>"].
Proof. vm_compute. reflexivity. Qed.

Example MapSimulatedAddressForWrite_MapValidAddressRegionAndAliases :
  passes [ok (MemorySim_CreateRegion 4 4);
   ok (MemorySim_CreateAlias 0x10000004 4 4);
   ok (write32 4 0x11111111);
   points (MemorySim_MapForWrite 4 4) 0x11111111;
   points (MemorySim_MapForWrite 0x10000004 4) 0x11111111;
   same (MemorySim_MapForWrite 4 4) (MemorySim_MapForWrite 0x10000004 4)].
Proof. vm_compute. reflexivity. Qed.

Example GetReadCount_CheckFlashRegionWithOneAliasReads_ShouldReadCountOfOne :
  passes [ok (MemorySim_CreateRegion 0 2);
   ok (MemorySim_MakeRegionReadOnly 0);
   ok (MemorySim_CreateAlias 0x10000004 0 2);
   ok (read16 0x10000004);
   gives (MemorySim_GetFlashReadCount 0) 1].
Proof. vm_compute. reflexivity. Qed.

Example AttemptToAliasNonExistentRegion_ShouldThrow :
  passes [ok (MemorySim_CreateRegion 4 4);
   throws (MemorySim_CreateAlias 0x10000004 8 4) busErrorException].
Proof. vm_compute. reflexivity. Qed.
