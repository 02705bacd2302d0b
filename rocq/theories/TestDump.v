(** The unit tests libCrashDebug/tests/CrashCatcherDumpTests.h,
    CrashCatcherBinaryDumpTests.cpp and CrashCatcherHexDumpTests.cpp, transcribed and run on the model.  Tests of the
    model, not proofs of properties. *)
From Coq Require Import String ZArith List Bool.
From Verif Require Import Base World MemSim MemSpec MemEx Context Dump GdbLog TestLib.
Import ListNotations.
Open Scope Z_scope.
Open Scope string_scope.

Example Binary_InvalidLogFilename_ShouldThrowFileException :
  passes_with [] deadbeef [throws_msg (CrashCatcherDump_ReadBinary (s2b "invalidDumpFilename.dmp")) fileException "Failed to open the ""invalidDumpFilename.dmp"" dump file."; registers_are [0; 0xDEADBEEF; 0xDEADBEEF; 0xDEADBEEF; 0xDEADBEEF; 0xDEADBEEF; 0xDEADBEEF; 0xDEADBEEF; 0xDEADBEEF; 0xDEADBEEF; 0xDEADBEEF; 0xDEADBEEF; 0xDEADBEEF; 0xDEADBEEF; 0xDEADBEEF; 0xDEADBEEF; 0xDEADBEEF; 0xDEADBEEF; 0xDEADBEEF; 0xDEADBEEF; 0; 0; 0; 0; 0; 0; 0; 0; 0; 0; 0; 0; 0; 0; 0; 0; 0; 0; 0; 0; 0; 0; 0; 0; 0; 0; 0; 0; 0; 0; 0; 0; 0; 0]].
Proof. vm_compute. reflexivity. Qed.

Example Binary_FailSignatureRead_ShouldThrowFileFormatException :
  passes_with [99; 67; 3; 0; 0; 0; 0; 0; 239; 190; 173; 222; 239; 190; 173; 222; 239; 190; 173; 222; 239; 190; 173; 222; 239; 190; 173; 222; 239; 190; 173; 222; 239; 190; 173; 222; 239; 190; 173; 222; 239; 190; 173; 222; 239; 190; 173; 222; 239; 190; 173; 222; 239; 190; 173; 222; 239; 190; 173; 222; 239; 190; 173; 222; 239; 190; 173; 222; 239; 190; 173; 222; 239; 190; 173; 222; 239; 190; 173; 222; 239; 190; 173; 222; 0; 0; 0; 0] deadbeef [fail_reads; throws_msg (CrashCatcherDump_ReadBinary test_file) fileFormatException "The dump file was too short to contain the 4-byte signature."; registers_are [0; 0xDEADBEEF; 0xDEADBEEF; 0xDEADBEEF; 0xDEADBEEF; 0xDEADBEEF; 0xDEADBEEF; 0xDEADBEEF; 0xDEADBEEF; 0xDEADBEEF; 0xDEADBEEF; 0xDEADBEEF; 0xDEADBEEF; 0xDEADBEEF; 0xDEADBEEF; 0xDEADBEEF; 0xDEADBEEF; 0xDEADBEEF; 0xDEADBEEF; 0xDEADBEEF; 0; 0; 0; 0; 0; 0; 0; 0; 0; 0; 0; 0; 0; 0; 0; 0; 0; 0; 0; 0; 0; 0; 0; 0; 0; 0; 0; 0; 0; 0; 0; 0; 0; 0]].
Proof. vm_compute. reflexivity. Qed.

Example Binary_InvalidSignature_ShouldThrowFileFormatException :
  passes_with [99; 67; 3; 1; 0; 0; 0; 0; 239; 190; 173; 222; 239; 190; 173; 222; 239; 190; 173; 222; 239; 190; 173; 222; 239; 190; 173; 222; 239; 190; 173; 222; 239; 190; 173; 222; 239; 190; 173; 222; 239; 190; 173; 222; 239; 190; 173; 222; 239; 190; 173; 222; 239; 190; 173; 222; 239; 190; 173; 222; 239; 190; 173; 222; 239; 190; 173; 222; 239; 190; 173; 222; 239; 190; 173; 222; 239; 190; 173; 222; 239; 190; 173; 222; 0; 0; 0; 0] deadbeef
  [throws_msg (CrashCatcherDump_ReadBinary test_file) fileFormatException "The dump file didn't start with the expected 4-byte signature.";
   registers_are [0; 0xDEADBEEF; 0xDEADBEEF; 0xDEADBEEF; 0xDEADBEEF; 0xDEADBEEF; 0xDEADBEEF; 0xDEADBEEF; 0xDEADBEEF; 0xDEADBEEF; 0xDEADBEEF; 0xDEADBEEF; 0xDEADBEEF; 0xDEADBEEF; 0xDEADBEEF; 0xDEADBEEF; 0xDEADBEEF; 0xDEADBEEF; 0xDEADBEEF; 0xDEADBEEF; 0; 0; 0; 0; 0; 0; 0; 0; 0; 0; 0; 0; 0; 0; 0; 0; 0; 0; 0; 0; 0; 0; 0; 0; 0; 0; 0; 0; 0; 0; 0; 0; 0; 0]].
Proof. vm_compute. reflexivity. Qed.

Example Binary_FileTooShortForFlags_ShouldThrowFileFormatException :
  passes_with [99; 67; 3; 0; 0; 0; 0] deadbeef
  [throws_msg (CrashCatcherDump_ReadBinary test_file) fileFormatException "The dump file was too short to contain the flags.";
   registers_are [0; 0xDEADBEEF; 0xDEADBEEF; 0xDEADBEEF; 0xDEADBEEF; 0xDEADBEEF; 0xDEADBEEF; 0xDEADBEEF; 0xDEADBEEF; 0xDEADBEEF; 0xDEADBEEF; 0xDEADBEEF; 0xDEADBEEF; 0xDEADBEEF; 0xDEADBEEF; 0xDEADBEEF; 0xDEADBEEF; 0xDEADBEEF; 0xDEADBEEF; 0xDEADBEEF; 0; 0; 0; 0; 0; 0; 0; 0; 0; 0; 0; 0; 0; 0; 0; 0; 0; 0; 0; 0; 0; 0; 0; 0; 0; 0; 0; 0; 0; 0; 0; 0; 0; 0]].
Proof. vm_compute. reflexivity. Qed.

Example Binary_FileTooShortForExceptionPSR_ShouldThrowFileFormatException :
  passes_with [99; 67; 3; 0; 0; 0; 0; 0; 239; 190; 173; 222; 239; 190; 173; 222; 239; 190; 173; 222; 239; 190; 173; 222; 239; 190; 173; 222; 239; 190; 173; 222; 239; 190; 173; 222; 239; 190; 173; 222; 239; 190; 173; 222; 239; 190; 173; 222; 239; 190; 173; 222; 239; 190; 173; 222; 239; 190; 173; 222; 239; 190; 173; 222; 239; 190; 173; 222; 239; 190; 173; 222; 239; 190; 173; 222; 239; 190; 173; 222; 239; 190; 173; 222; 0; 0; 0] deadbeef
  [throws_msg (CrashCatcherDump_ReadBinary test_file) fileFormatException "The dump file was too short to contain the exception PSR.";
   registers_are [0; 0xDEADBEEF; 0xDEADBEEF; 0xDEADBEEF; 0xDEADBEEF; 0xDEADBEEF; 0xDEADBEEF; 0xDEADBEEF; 0xDEADBEEF; 0xDEADBEEF; 0xDEADBEEF; 0xDEADBEEF; 0xDEADBEEF; 0xDEADBEEF; 0xDEADBEEF; 0xDEADBEEF; 0xDEADBEEF; 0xDEADBEEF; 0xDEADBEEF; 0xDEADBEEF; 0; 0; 0; 0; 0; 0; 0; 0; 0; 0; 0; 0; 0; 0; 0; 0; 0; 0; 0; 0; 0; 0; 0; 0; 0; 0; 0; 0; 0; 0; 0; 0; 0; 0]].
Proof. vm_compute. reflexivity. Qed.

Example Binary_FileTooShortForIntegerRegisters_ShouldThrowFileFormatException :
  passes_with [99; 67; 3; 0; 0; 0; 0; 0; 239; 190; 173; 222; 239; 190; 173; 222; 239; 190; 173; 222; 239; 190; 173; 222; 239; 190; 173; 222; 239; 190; 173; 222; 239; 190; 173; 222; 239; 190; 173; 222; 239; 190; 173; 222; 239; 190; 173; 222; 239; 190; 173; 222; 239; 190; 173; 222; 239; 190; 173; 222; 239; 190; 173; 222; 239; 190; 173; 222; 239; 190; 173; 222; 239; 190; 173; 222; 239; 190; 173; 222; 239; 190; 173] deadbeef
  [throws_msg (CrashCatcherDump_ReadBinary test_file) fileFormatException "The dump file was too short to contain the integer registers.";
   registers_are [0; 0xDEADBEEF; 0xDEADBEEF; 0xDEADBEEF; 0xDEADBEEF; 0xDEADBEEF; 0xDEADBEEF; 0xDEADBEEF; 0xDEADBEEF; 0xDEADBEEF; 0xDEADBEEF; 0xDEADBEEF; 0xDEADBEEF; 0xDEADBEEF; 0xDEADBEEF; 0xDEADBEEF; 0xDEADBEEF; 0xDEADBEEF; 0xDEADBEEF; 0xDEADBEEF; 0; 0; 0; 0; 0; 0; 0; 0; 0; 0; 0; 0; 0; 0; 0; 0; 0; 0; 0; 0; 0; 0; 0; 0; 0; 0; 0; 0; 0; 0; 0; 0; 0; 0]].
Proof. vm_compute. reflexivity. Qed.

Example Binary_DumpContainingRegistersOnly_VerifyRegistersReadAndEmptyMemoryRegions :
  passes_with [99; 67; 3; 0; 0; 0; 0; 0; 0; 0; 0; 0; 17; 17; 17; 17; 34; 34; 34; 34; 51; 51; 51; 51; 68; 68; 68; 68; 85; 85; 85; 85; 102; 102; 102; 102; 119; 119; 119; 119; 136; 136; 136; 136; 153; 153; 153; 153; 170; 170; 170; 170; 187; 187; 187; 187; 204; 204; 204; 204; 221; 221; 221; 221; 238; 238; 238; 238; 255; 255; 255; 255; 13; 240; 13; 240; 69; 69; 69; 69; 84; 84; 84; 84; 237; 254; 173; 186] deadbeef
  [ok (CrashCatcherDump_ReadBinary test_file);
   text MemorySim_GetMemoryMapXML "<?xml version=""1.0""?><!DOCTYPE memory-map PUBLIC ""+//IDN gnu.org//DTD GDB Memory Map V1.0//EN"" ""http://sourceware.org/gdb/gdb-memory-map.dtd""><memory-map></memory-map>";
   registers_are [0; 0; 0x11111111; 0x22222222; 0x33333333; 0x44444444; 0x55555555; 0x66666666; 0x77777777; 0x88888888; 0x99999999; 0xAAAAAAAA; 0xBBBBBBBB; 0xCCCCCCCC; 0xDDDDDDDD; 0xEEEEEEEE; 0xFFFFFFFF; 0xF00DF00D; 0x45454545; 0x54545454; 0xBAADFEED; 0; 0; 0; 0; 0; 0; 0; 0; 0; 0; 0; 0; 0; 0; 0; 0; 0; 0; 0; 0; 0; 0; 0; 0; 0; 0; 0; 0; 0; 0; 0; 0; 0]].
Proof. vm_compute. reflexivity. Qed.

Example Binary_Version2DumpContainingRegistersOnly_VerifyRegistersReadDefaultMSPandPSPAndEmptyMemoryRegions :
  passes_with [99; 67; 2; 0; 0; 0; 0; 0; 0; 0; 0; 0; 17; 17; 17; 17; 34; 34; 34; 34; 51; 51; 51; 51; 68; 68; 68; 68; 85; 85; 85; 85; 102; 102; 102; 102; 119; 119; 119; 119; 136; 136; 136; 136; 153; 153; 153; 153; 170; 170; 170; 170; 187; 187; 187; 187; 204; 204; 204; 204; 221; 221; 221; 221; 238; 238; 238; 238; 255; 255; 255; 255; 13; 240; 13; 240; 237; 254; 173; 186] deadbeef
  [ok (CrashCatcherDump_ReadBinary test_file);
   text MemorySim_GetMemoryMapXML "<?xml version=""1.0""?><!DOCTYPE memory-map PUBLIC ""+//IDN gnu.org//DTD GDB Memory Map V1.0//EN"" ""http://sourceware.org/gdb/gdb-memory-map.dtd""><memory-map></memory-map>";
   registers_are [0; 0; 0x11111111; 0x22222222; 0x33333333; 0x44444444; 0x55555555; 0x66666666; 0x77777777; 0x88888888; 0x99999999; 0xAAAAAAAA; 0xBBBBBBBB; 0xCCCCCCCC; 0xDDDDDDDD; 0xEEEEEEEE; 0xFFFFFFFF; 0xF00DF00D; 0xBAADBAAD; 0xBAADBAAD; 0xBAADFEED; 0; 0; 0; 0; 0; 0; 0; 0; 0; 0; 0; 0; 0; 0; 0; 0; 0; 0; 0; 0; 0; 0; 0; 0; 0; 0; 0; 0; 0; 0; 0; 0; 0]].
Proof. vm_compute. reflexivity. Qed.

Example Binary_DumpContainingFloatRegistersToo_VerifyRegistersReadAndEmptyMemoryRegions :
  passes_with [99; 67; 3; 0; 1; 0; 0; 0; 0; 0; 0; 0; 17; 17; 17; 17; 34; 34; 34; 34; 51; 51; 51; 51; 68; 68; 68; 68; 85; 85; 85; 85; 102; 102; 102; 102; 119; 119; 119; 119; 136; 136; 136; 136; 153; 153; 153; 153; 170; 170; 170; 170; 187; 187; 187; 187; 204; 204; 204; 204; 221; 221; 221; 221; 238; 238; 238; 238; 255; 255; 255; 255; 13; 240; 13; 240; 69; 69; 69; 69; 84; 84; 84; 84; 237; 254; 173; 186; 0; 0; 0; 0; 1; 0; 0; 0; 2; 0; 0; 0; 3; 0; 0; 0; 4; 0; 0; 0; 5; 0; 0; 0; 6; 0; 0; 0; 7; 0; 0; 0; 8; 0; 0; 0; 9; 0; 0; 0; 10; 0; 0; 0; 11; 0; 0; 0; 12; 0; 0; 0; 13; 0; 0; 0; 14; 0; 0; 0; 15; 0; 0; 0; 16; 0; 0; 0; 17; 0; 0; 0; 18; 0; 0; 0; 19; 0; 0; 0; 20; 0; 0; 0; 21; 0; 0; 0; 22; 0; 0; 0; 23; 0; 0; 0; 24; 0; 0; 0; 25; 0; 0; 0; 26; 0; 0; 0; 27; 0; 0; 0; 28; 0; 0; 0; 29; 0; 0; 0; 30; 0; 0; 0; 31; 0; 0; 0; 13; 240; 173; 186] deadbeef
  [ok (CrashCatcherDump_ReadBinary test_file);
   text MemorySim_GetMemoryMapXML "<?xml version=""1.0""?><!DOCTYPE memory-map PUBLIC ""+//IDN gnu.org//DTD GDB Memory Map V1.0//EN"" ""http://sourceware.org/gdb/gdb-memory-map.dtd""><memory-map></memory-map>";
   registers_are [1; 0; 0x11111111; 0x22222222; 0x33333333; 0x44444444; 0x55555555; 0x66666666; 0x77777777; 0x88888888; 0x99999999; 0xAAAAAAAA; 0xBBBBBBBB; 0xCCCCCCCC; 0xDDDDDDDD; 0xEEEEEEEE; 0xFFFFFFFF; 0xF00DF00D; 0x45454545; 0x54545454; 0xBAADFEED; 0; 1; 2; 3; 4; 5; 6; 7; 8; 9; 10; 11; 12; 13; 14; 15; 16; 17; 18; 19; 20; 21; 22; 23; 24; 25; 26; 27; 28; 29; 30; 31; 0xBAADF00D]].
Proof. vm_compute. reflexivity. Qed.

Example Binary_Version2DumpContainingFloatRegistersToo_VerifyRegistersDefaultsForMSPandPSPReadAndEmptyMemoryRegions :
  passes_with [99; 67; 2; 0; 1; 0; 0; 0; 0; 0; 0; 0; 17; 17; 17; 17; 34; 34; 34; 34; 51; 51; 51; 51; 68; 68; 68; 68; 85; 85; 85; 85; 102; 102; 102; 102; 119; 119; 119; 119; 136; 136; 136; 136; 153; 153; 153; 153; 170; 170; 170; 170; 187; 187; 187; 187; 204; 204; 204; 204; 221; 221; 221; 221; 238; 238; 238; 238; 255; 255; 255; 255; 13; 240; 13; 240; 237; 254; 173; 186; 0; 0; 0; 0; 1; 0; 0; 0; 2; 0; 0; 0; 3; 0; 0; 0; 4; 0; 0; 0; 5; 0; 0; 0; 6; 0; 0; 0; 7; 0; 0; 0; 8; 0; 0; 0; 9; 0; 0; 0; 10; 0; 0; 0; 11; 0; 0; 0; 12; 0; 0; 0; 13; 0; 0; 0; 14; 0; 0; 0; 15; 0; 0; 0; 16; 0; 0; 0; 17; 0; 0; 0; 18; 0; 0; 0; 19; 0; 0; 0; 20; 0; 0; 0; 21; 0; 0; 0; 22; 0; 0; 0; 23; 0; 0; 0; 24; 0; 0; 0; 25; 0; 0; 0; 26; 0; 0; 0; 27; 0; 0; 0; 28; 0; 0; 0; 29; 0; 0; 0; 30; 0; 0; 0; 31; 0; 0; 0; 13; 240; 173; 186] deadbeef
  [ok (CrashCatcherDump_ReadBinary test_file);
   text MemorySim_GetMemoryMapXML "<?xml version=""1.0""?><!DOCTYPE memory-map PUBLIC ""+//IDN gnu.org//DTD GDB Memory Map V1.0//EN"" ""http://sourceware.org/gdb/gdb-memory-map.dtd""><memory-map></memory-map>";
   registers_are [1; 0; 0x11111111; 0x22222222; 0x33333333; 0x44444444; 0x55555555; 0x66666666; 0x77777777; 0x88888888; 0x99999999; 0xAAAAAAAA; 0xBBBBBBBB; 0xCCCCCCCC; 0xDDDDDDDD; 0xEEEEEEEE; 0xFFFFFFFF; 0xF00DF00D; 0xBAADBAAD; 0xBAADBAAD; 0xBAADFEED; 0; 1; 2; 3; 4; 5; 6; 7; 8; 9; 10; 11; 12; 13; 14; 15; 16; 17; 18; 19; 20; 21; 22; 23; 24; 25; 26; 27; 28; 29; 30; 31; 0xBAADF00D]].
Proof. vm_compute. reflexivity. Qed.

Example Binary_FileTooShortForFloatRegisters_ShouldThrowFileFormatException :
  passes_with [99; 67; 3; 0; 1; 0; 0; 0; 239; 190; 173; 222; 239; 190; 173; 222; 239; 190; 173; 222; 239; 190; 173; 222; 239; 190; 173; 222; 239; 190; 173; 222; 239; 190; 173; 222; 239; 190; 173; 222; 239; 190; 173; 222; 239; 190; 173; 222; 239; 190; 173; 222; 239; 190; 173; 222; 239; 190; 173; 222; 239; 190; 173; 222; 239; 190; 173; 222; 239; 190; 173; 222; 239; 190; 173; 222; 239; 190; 173; 222; 239; 190; 173; 222; 0; 0; 0; 0; 0; 0; 0; 0; 0; 0; 0; 0; 0; 0; 0; 0; 0; 0; 0; 0; 0; 0; 0; 0; 0; 0; 0; 0; 0; 0; 0; 0; 0; 0; 0; 0; 0; 0; 0; 0; 0; 0; 0; 0; 0; 0; 0; 0; 0; 0; 0; 0; 0; 0; 0; 0; 0; 0; 0; 0; 0; 0; 0; 0; 0; 0; 0; 0; 0; 0; 0; 0; 0; 0; 0; 0; 0; 0; 0; 0; 0; 0; 0; 0; 0; 0; 0; 0; 0; 0; 0; 0; 0; 0; 0; 0; 0; 0; 0; 0; 0; 0; 0; 0; 0; 0; 0; 0; 0; 0; 0; 0; 0; 0; 0; 0; 0; 0; 0; 0; 0; 0; 0; 0; 0; 0; 0; 0; 0; 0; 0; 0; 0; 0; 0] deadbeef
  [throws_msg (CrashCatcherDump_ReadBinary test_file) fileFormatException "The dump file was too short to contain the floating point registers.";
   registers_are [1; 0xDEADBEEF; 0xDEADBEEF; 0xDEADBEEF; 0xDEADBEEF; 0xDEADBEEF; 0xDEADBEEF; 0xDEADBEEF; 0xDEADBEEF; 0xDEADBEEF; 0xDEADBEEF; 0xDEADBEEF; 0xDEADBEEF; 0xDEADBEEF; 0xDEADBEEF; 0xDEADBEEF; 0xDEADBEEF; 0xDEADBEEF; 0xDEADBEEF; 0xDEADBEEF; 0; 0; 0; 0; 0; 0; 0; 0; 0; 0; 0; 0; 0; 0; 0; 0; 0; 0; 0; 0; 0; 0; 0; 0; 0; 0; 0; 0; 0; 0; 0; 0; 0; 0]].
Proof. vm_compute. reflexivity. Qed.

Example Binary_DumpContainingOneMemoryRegionOf1Word_VerifyMemoryContents :
  passes_with [99; 67; 3; 0; 0; 0; 0; 0; 239; 190; 173; 222; 239; 190; 173; 222; 239; 190; 173; 222; 239; 190; 173; 222; 239; 190; 173; 222; 239; 190; 173; 222; 239; 190; 173; 222; 239; 190; 173; 222; 239; 190; 173; 222; 239; 190; 173; 222; 239; 190; 173; 222; 239; 190; 173; 222; 239; 190; 173; 222; 239; 190; 173; 222; 239; 190; 173; 222; 239; 190; 173; 222; 239; 190; 173; 222; 239; 190; 173; 222; 239; 190; 173; 222; 0; 0; 0; 0; 0; 0; 0; 16; 4; 0; 0; 16; 17; 17; 17; 17] deadbeef
  [ok (CrashCatcherDump_ReadBinary test_file);
   text MemorySim_GetMemoryMapXML "<?xml version=""1.0""?><!DOCTYPE memory-map PUBLIC ""+//IDN gnu.org//DTD GDB Memory Map V1.0//EN"" ""http://sourceware.org/gdb/gdb-memory-map.dtd""><memory-map><memory type=""ram"" start=""0x10000000"" length=""0x4""></memory></memory-map>";
   gives (read32 0x10000000) 0x11111111;
   registers_are [0; 0xDEADBEEF; 0xDEADBEEF; 0xDEADBEEF; 0xDEADBEEF; 0xDEADBEEF; 0xDEADBEEF; 0xDEADBEEF; 0xDEADBEEF; 0xDEADBEEF; 0xDEADBEEF; 0xDEADBEEF; 0xDEADBEEF; 0xDEADBEEF; 0xDEADBEEF; 0xDEADBEEF; 0xDEADBEEF; 0xDEADBEEF; 0xDEADBEEF; 0xDEADBEEF; 0; 0; 0; 0; 0; 0; 0; 0; 0; 0; 0; 0; 0; 0; 0; 0; 0; 0; 0; 0; 0; 0; 0; 0; 0; 0; 0; 0; 0; 0; 0; 0; 0; 0]].
Proof. vm_compute. reflexivity. Qed.

Example Binary_FailAllocationForRegion_VerifyEmptyMemoryAndExceptionThrown :
  passes_with [99; 67; 3; 0; 0; 0; 0; 0; 239; 190; 173; 222; 239; 190; 173; 222; 239; 190; 173; 222; 239; 190; 173; 222; 239; 190; 173; 222; 239; 190; 173; 222; 239; 190; 173; 222; 239; 190; 173; 222; 239; 190; 173; 222; 239; 190; 173; 222; 239; 190; 173; 222; 239; 190; 173; 222; 239; 190; 173; 222; 239; 190; 173; 222; 239; 190; 173; 222; 239; 190; 173; 222; 239; 190; 173; 222; 239; 190; 173; 222; 239; 190; 173; 222; 0; 0; 0; 0; 0; 0; 0; 16; 4; 0; 0; 16; 17; 17; 17; 17] deadbeef
  [fail_alloc 1;
   throws_msg (CrashCatcherDump_ReadBinary test_file) outOfMemoryException "The dump file failed to load RAM memory region at 0x10000000 - 0x10000004.";
   text MemorySim_GetMemoryMapXML "<?xml version=""1.0""?><!DOCTYPE memory-map PUBLIC ""+//IDN gnu.org//DTD GDB Memory Map V1.0//EN"" ""http://sourceware.org/gdb/gdb-memory-map.dtd""><memory-map></memory-map>";
   registers_are [0; 0xDEADBEEF; 0xDEADBEEF; 0xDEADBEEF; 0xDEADBEEF; 0xDEADBEEF; 0xDEADBEEF; 0xDEADBEEF; 0xDEADBEEF; 0xDEADBEEF; 0xDEADBEEF; 0xDEADBEEF; 0xDEADBEEF; 0xDEADBEEF; 0xDEADBEEF; 0xDEADBEEF; 0xDEADBEEF; 0xDEADBEEF; 0xDEADBEEF; 0xDEADBEEF; 0; 0; 0; 0; 0; 0; 0; 0; 0; 0; 0; 0; 0; 0; 0; 0; 0; 0; 0; 0; 0; 0; 0; 0; 0; 0; 0; 0; 0; 0; 0; 0; 0; 0]].
Proof. vm_compute. reflexivity. Qed.

Example Binary_DumpContainingTruncatedMemoryRegionDescription_ExceptionShouldBeThrownAndNoMemoryRegionsCreated :
  passes_with [99; 67; 3; 0; 0; 0; 0; 0; 239; 190; 173; 222; 239; 190; 173; 222; 239; 190; 173; 222; 239; 190; 173; 222; 239; 190; 173; 222; 239; 190; 173; 222; 239; 190; 173; 222; 239; 190; 173; 222; 239; 190; 173; 222; 239; 190; 173; 222; 239; 190; 173; 222; 239; 190; 173; 222; 239; 190; 173; 222; 239; 190; 173; 222; 239; 190; 173; 222; 239; 190; 173; 222; 239; 190; 173; 222; 239; 190; 173; 222; 239; 190; 173; 222; 0; 0; 0; 0; 0; 0; 0; 16; 4; 0; 0] deadbeef
  [throws_msg (CrashCatcherDump_ReadBinary test_file) fileFormatException "The dump file contained a truncated memory region header.";
   text MemorySim_GetMemoryMapXML "<?xml version=""1.0""?><!DOCTYPE memory-map PUBLIC ""+//IDN gnu.org//DTD GDB Memory Map V1.0//EN"" ""http://sourceware.org/gdb/gdb-memory-map.dtd""><memory-map></memory-map>";
   registers_are [0; 0xDEADBEEF; 0xDEADBEEF; 0xDEADBEEF; 0xDEADBEEF; 0xDEADBEEF; 0xDEADBEEF; 0xDEADBEEF; 0xDEADBEEF; 0xDEADBEEF; 0xDEADBEEF; 0xDEADBEEF; 0xDEADBEEF; 0xDEADBEEF; 0xDEADBEEF; 0xDEADBEEF; 0xDEADBEEF; 0xDEADBEEF; 0xDEADBEEF; 0xDEADBEEF; 0; 0; 0; 0; 0; 0; 0; 0; 0; 0; 0; 0; 0; 0; 0; 0; 0; 0; 0; 0; 0; 0; 0; 0; 0; 0; 0; 0; 0; 0; 0; 0; 0; 0]].
Proof. vm_compute. reflexivity. Qed.

Example Binary_DumpContainingTruncatedMemoryRegionData_ExceptionShouldBeThrown_PartiallyCompletedMemoryRegion :
  passes_with [99; 67; 3; 0; 0; 0; 0; 0; 239; 190; 173; 222; 239; 190; 173; 222; 239; 190; 173; 222; 239; 190; 173; 222; 239; 190; 173; 222; 239; 190; 173; 222; 239; 190; 173; 222; 239; 190; 173; 222; 239; 190; 173; 222; 239; 190; 173; 222; 239; 190; 173; 222; 239; 190; 173; 222; 239; 190; 173; 222; 239; 190; 173; 222; 239; 190; 173; 222; 239; 190; 173; 222; 239; 190; 173; 222; 239; 190; 173; 222; 239; 190; 173; 222; 0; 0; 0; 0; 0; 0; 0; 16; 4; 0; 0; 16; 17; 17; 17] deadbeef
  [throws_msg (CrashCatcherDump_ReadBinary test_file) fileFormatException "The dump file failed to load RAM memory region at 0x10000000 - 0x10000004.";
   text MemorySim_GetMemoryMapXML "<?xml version=""1.0""?><!DOCTYPE memory-map PUBLIC ""+//IDN gnu.org//DTD GDB Memory Map V1.0//EN"" ""http://sourceware.org/gdb/gdb-memory-map.dtd""><memory-map><memory type=""ram"" start=""0x10000000"" length=""0x4""></memory></memory-map>";
   gives (read32 0x10000000) 0x00111111;
   registers_are [0; 0xDEADBEEF; 0xDEADBEEF; 0xDEADBEEF; 0xDEADBEEF; 0xDEADBEEF; 0xDEADBEEF; 0xDEADBEEF; 0xDEADBEEF; 0xDEADBEEF; 0xDEADBEEF; 0xDEADBEEF; 0xDEADBEEF; 0xDEADBEEF; 0xDEADBEEF; 0xDEADBEEF; 0xDEADBEEF; 0xDEADBEEF; 0xDEADBEEF; 0xDEADBEEF; 0; 0; 0; 0; 0; 0; 0; 0; 0; 0; 0; 0; 0; 0; 0; 0; 0; 0; 0; 0; 0; 0; 0; 0; 0; 0; 0; 0; 0; 0; 0; 0; 0; 0]].
Proof. vm_compute. reflexivity. Qed.

Example Binary_DumpContainingTwoMemoryRegionsOf1Word_VerifyMemoryContents :
  passes_with [99; 67; 3; 0; 0; 0; 0; 0; 239; 190; 173; 222; 239; 190; 173; 222; 239; 190; 173; 222; 239; 190; 173; 222; 239; 190; 173; 222; 239; 190; 173; 222; 239; 190; 173; 222; 239; 190; 173; 222; 239; 190; 173; 222; 239; 190; 173; 222; 239; 190; 173; 222; 239; 190; 173; 222; 239; 190; 173; 222; 239; 190; 173; 222; 239; 190; 173; 222; 239; 190; 173; 222; 239; 190; 173; 222; 239; 190; 173; 222; 239; 190; 173; 222; 0; 0; 0; 0; 0; 0; 0; 16; 4; 0; 0; 16; 17; 17; 17; 17; 0; 0; 0; 32; 4; 0; 0; 32; 34; 34; 34; 34] deadbeef
  [ok (CrashCatcherDump_ReadBinary test_file);
   text MemorySim_GetMemoryMapXML "<?xml version=""1.0""?><!DOCTYPE memory-map PUBLIC ""+//IDN gnu.org//DTD GDB Memory Map V1.0//EN"" ""http://sourceware.org/gdb/gdb-memory-map.dtd""><memory-map><memory type=""ram"" start=""0x10000000"" length=""0x4""></memory><memory type=""ram"" start=""0x20000000"" length=""0x4""></memory></memory-map>";
   gives (read32 0x10000000) 0x11111111;
   gives (read32 0x20000000) 0x22222222;
   registers_are [0; 0xDEADBEEF; 0xDEADBEEF; 0xDEADBEEF; 0xDEADBEEF; 0xDEADBEEF; 0xDEADBEEF; 0xDEADBEEF; 0xDEADBEEF; 0xDEADBEEF; 0xDEADBEEF; 0xDEADBEEF; 0xDEADBEEF; 0xDEADBEEF; 0xDEADBEEF; 0xDEADBEEF; 0xDEADBEEF; 0xDEADBEEF; 0xDEADBEEF; 0xDEADBEEF; 0; 0; 0; 0; 0; 0; 0; 0; 0; 0; 0; 0; 0; 0; 0; 0; 0; 0; 0; 0; 0; 0; 0; 0; 0; 0; 0; 0; 0; 0; 0; 0; 0; 0]].
Proof. vm_compute. reflexivity. Qed.

Example Binary_DumpContainingOneMemoryRegionsFollowedByStackOverflowError_VerifyMemoryContentsAndExceptionThrown :
  passes_with [99; 67; 3; 0; 0; 0; 0; 0; 239; 190; 173; 222; 239; 190; 173; 222; 239; 190; 173; 222; 239; 190; 173; 222; 239; 190; 173; 222; 239; 190; 173; 222; 239; 190; 173; 222; 239; 190; 173; 222; 239; 190; 173; 222; 239; 190; 173; 222; 239; 190; 173; 222; 239; 190; 173; 222; 239; 190; 173; 222; 239; 190; 173; 222; 239; 190; 173; 222; 239; 190; 173; 222; 239; 190; 173; 222; 239; 190; 173; 222; 239; 190; 173; 222; 0; 0; 0; 0; 0; 0; 0; 16; 4; 0; 0; 16; 17; 17; 17; 17; 237; 85; 206; 172] deadbeef
  [throws_msg (CrashCatcherDump_ReadBinary test_file) stackOverflowException "The dump file ended with an indication that CrashCatcher detected a stack overflow.";
   text MemorySim_GetMemoryMapXML "<?xml version=""1.0""?><!DOCTYPE memory-map PUBLIC ""+//IDN gnu.org//DTD GDB Memory Map V1.0//EN"" ""http://sourceware.org/gdb/gdb-memory-map.dtd""><memory-map><memory type=""ram"" start=""0x10000000"" length=""0x4""></memory></memory-map>";
   gives (read32 0x10000000) 0x11111111;
   registers_are [0; 0xDEADBEEF; 0xDEADBEEF; 0xDEADBEEF; 0xDEADBEEF; 0xDEADBEEF; 0xDEADBEEF; 0xDEADBEEF; 0xDEADBEEF; 0xDEADBEEF; 0xDEADBEEF; 0xDEADBEEF; 0xDEADBEEF; 0xDEADBEEF; 0xDEADBEEF; 0xDEADBEEF; 0xDEADBEEF; 0xDEADBEEF; 0xDEADBEEF; 0xDEADBEEF; 0; 0; 0; 0; 0; 0; 0; 0; 0; 0; 0; 0; 0; 0; 0; 0; 0; 0; 0; 0; 0; 0; 0; 0; 0; 0; 0; 0; 0; 0; 0; 0; 0; 0]].
Proof. vm_compute. reflexivity. Qed.

Example Hex_InvalidLogFilename_ShouldThrowFileException :
  passes_with [] deadbeef [throws_msg (CrashCatcherDump_ReadHex (s2b "invalidDumpFilename.dmp")) fileException "Failed to open the ""invalidDumpFilename.dmp"" dump file."; registers_are [0; 0xDEADBEEF; 0xDEADBEEF; 0xDEADBEEF; 0xDEADBEEF; 0xDEADBEEF; 0xDEADBEEF; 0xDEADBEEF; 0xDEADBEEF; 0xDEADBEEF; 0xDEADBEEF; 0xDEADBEEF; 0xDEADBEEF; 0xDEADBEEF; 0xDEADBEEF; 0xDEADBEEF; 0xDEADBEEF; 0xDEADBEEF; 0xDEADBEEF; 0xDEADBEEF; 0; 0; 0; 0; 0; 0; 0; 0; 0; 0; 0; 0; 0; 0; 0; 0; 0; 0; 0; 0; 0; 0; 0; 0; 0; 0; 0; 0; 0; 0; 0; 0; 0; 0]].
Proof. vm_compute. reflexivity. Qed.

Example Hex_FailSignatureRead_ShouldThrowFileFormatException :
  passes_with (s2b "6343030000000000EFBEADDEEFBEADDEEFBEADDEEFBEADDEEFBEADDEEFBEADDEEFBEADDEEFBEADDEEFBEADDEEFBEADDEEFBEADDEEFBEADDEEFBEADDEEFBEADDEEFBEADDEEFBEADDEEFBEADDEEFBEADDEEFBEADDE00000000") deadbeef [fail_reads; throws_msg (CrashCatcherDump_ReadHex test_file) fileFormatException "The dump file was too short to contain the 4-byte signature."; registers_are [0; 0xDEADBEEF; 0xDEADBEEF; 0xDEADBEEF; 0xDEADBEEF; 0xDEADBEEF; 0xDEADBEEF; 0xDEADBEEF; 0xDEADBEEF; 0xDEADBEEF; 0xDEADBEEF; 0xDEADBEEF; 0xDEADBEEF; 0xDEADBEEF; 0xDEADBEEF; 0xDEADBEEF; 0xDEADBEEF; 0xDEADBEEF; 0xDEADBEEF; 0xDEADBEEF; 0; 0; 0; 0; 0; 0; 0; 0; 0; 0; 0; 0; 0; 0; 0; 0; 0; 0; 0; 0; 0; 0; 0; 0; 0; 0; 0; 0; 0; 0; 0; 0; 0; 0]].
Proof. vm_compute. reflexivity. Qed.

Example Hex_InvalidSignature_ShouldThrowFileFormatException :
  passes_with (s2b "6343030100000000EFBEADDEEFBEADDEEFBEADDEEFBEADDEEFBEADDEEFBEADDEEFBEADDEEFBEADDEEFBEADDEEFBEADDEEFBEADDEEFBEADDEEFBEADDEEFBEADDEEFBEADDEEFBEADDEEFBEADDEEFBEADDEEFBEADDE00000000") deadbeef
  [throws_msg (CrashCatcherDump_ReadHex test_file) fileFormatException "The dump file didn't start with the expected 4-byte signature.";
   registers_are [0; 0xDEADBEEF; 0xDEADBEEF; 0xDEADBEEF; 0xDEADBEEF; 0xDEADBEEF; 0xDEADBEEF; 0xDEADBEEF; 0xDEADBEEF; 0xDEADBEEF; 0xDEADBEEF; 0xDEADBEEF; 0xDEADBEEF; 0xDEADBEEF; 0xDEADBEEF; 0xDEADBEEF; 0xDEADBEEF; 0xDEADBEEF; 0xDEADBEEF; 0xDEADBEEF; 0; 0; 0; 0; 0; 0; 0; 0; 0; 0; 0; 0; 0; 0; 0; 0; 0; 0; 0; 0; 0; 0; 0; 0; 0; 0; 0; 0; 0; 0; 0; 0; 0; 0]].
Proof. vm_compute. reflexivity. Qed.

Example Hex_FileTooShortForFlags_ShouldThrowFileFormatException :
  passes_with (s2b "63430300000000") deadbeef
  [throws_msg (CrashCatcherDump_ReadHex test_file) fileFormatException "The dump file was too short to contain the flags.";
   registers_are [0; 0xDEADBEEF; 0xDEADBEEF; 0xDEADBEEF; 0xDEADBEEF; 0xDEADBEEF; 0xDEADBEEF; 0xDEADBEEF; 0xDEADBEEF; 0xDEADBEEF; 0xDEADBEEF; 0xDEADBEEF; 0xDEADBEEF; 0xDEADBEEF; 0xDEADBEEF; 0xDEADBEEF; 0xDEADBEEF; 0xDEADBEEF; 0xDEADBEEF; 0xDEADBEEF; 0; 0; 0; 0; 0; 0; 0; 0; 0; 0; 0; 0; 0; 0; 0; 0; 0; 0; 0; 0; 0; 0; 0; 0; 0; 0; 0; 0; 0; 0; 0; 0; 0; 0]].
Proof. vm_compute. reflexivity. Qed.

Example Hex_FileTooShortForExceptionPSR_ShouldThrowFileFormatException :
  passes_with (s2b "6343030000000000EFBEADDEEFBEADDEEFBEADDEEFBEADDEEFBEADDEEFBEADDEEFBEADDEEFBEADDEEFBEADDEEFBEADDEEFBEADDEEFBEADDEEFBEADDEEFBEADDEEFBEADDEEFBEADDEEFBEADDEEFBEADDEEFBEADDE000000") deadbeef
  [throws_msg (CrashCatcherDump_ReadHex test_file) fileFormatException "The dump file was too short to contain the exception PSR.";
   registers_are [0; 0xDEADBEEF; 0xDEADBEEF; 0xDEADBEEF; 0xDEADBEEF; 0xDEADBEEF; 0xDEADBEEF; 0xDEADBEEF; 0xDEADBEEF; 0xDEADBEEF; 0xDEADBEEF; 0xDEADBEEF; 0xDEADBEEF; 0xDEADBEEF; 0xDEADBEEF; 0xDEADBEEF; 0xDEADBEEF; 0xDEADBEEF; 0xDEADBEEF; 0xDEADBEEF; 0; 0; 0; 0; 0; 0; 0; 0; 0; 0; 0; 0; 0; 0; 0; 0; 0; 0; 0; 0; 0; 0; 0; 0; 0; 0; 0; 0; 0; 0; 0; 0; 0; 0]].
Proof. vm_compute. reflexivity. Qed.

Example Hex_FileTooShortForIntegerRegisters_ShouldThrowFileFormatException :
  passes_with (s2b "6343030000000000EFBEADDEEFBEADDEEFBEADDEEFBEADDEEFBEADDEEFBEADDEEFBEADDEEFBEADDEEFBEADDEEFBEADDEEFBEADDEEFBEADDEEFBEADDEEFBEADDEEFBEADDEEFBEADDEEFBEADDEEFBEADDEEFBEAD") deadbeef
  [throws_msg (CrashCatcherDump_ReadHex test_file) fileFormatException "The dump file was too short to contain the integer registers.";
   registers_are [0; 0xDEADBEEF; 0xDEADBEEF; 0xDEADBEEF; 0xDEADBEEF; 0xDEADBEEF; 0xDEADBEEF; 0xDEADBEEF; 0xDEADBEEF; 0xDEADBEEF; 0xDEADBEEF; 0xDEADBEEF; 0xDEADBEEF; 0xDEADBEEF; 0xDEADBEEF; 0xDEADBEEF; 0xDEADBEEF; 0xDEADBEEF; 0xDEADBEEF; 0xDEADBEEF; 0; 0; 0; 0; 0; 0; 0; 0; 0; 0; 0; 0; 0; 0; 0; 0; 0; 0; 0; 0; 0; 0; 0; 0; 0; 0; 0; 0; 0; 0; 0; 0; 0; 0]].
Proof. vm_compute. reflexivity. Qed.

Example Hex_DumpContainingRegistersOnly_VerifyRegistersReadAndEmptyMemoryRegions :
  passes_with (s2b "634303000000000000000000111111112222222233333333444444445555555566666666777777778888888899999999AAAAAAAABBBBBBBBCCCCCCCCDDDDDDDDEEEEEEEEFFFFFFFF0DF00DF04545454554545454EDFEADBA") deadbeef
  [ok (CrashCatcherDump_ReadHex test_file);
   text MemorySim_GetMemoryMapXML "<?xml version=""1.0""?><!DOCTYPE memory-map PUBLIC ""+//IDN gnu.org//DTD GDB Memory Map V1.0//EN"" ""http://sourceware.org/gdb/gdb-memory-map.dtd""><memory-map></memory-map>";
   registers_are [0; 0; 0x11111111; 0x22222222; 0x33333333; 0x44444444; 0x55555555; 0x66666666; 0x77777777; 0x88888888; 0x99999999; 0xAAAAAAAA; 0xBBBBBBBB; 0xCCCCCCCC; 0xDDDDDDDD; 0xEEEEEEEE; 0xFFFFFFFF; 0xF00DF00D; 0x45454545; 0x54545454; 0xBAADFEED; 0; 0; 0; 0; 0; 0; 0; 0; 0; 0; 0; 0; 0; 0; 0; 0; 0; 0; 0; 0; 0; 0; 0; 0; 0; 0; 0; 0; 0; 0; 0; 0; 0]].
Proof. vm_compute. reflexivity. Qed.

Example Hex_Version2DumpContainingRegistersOnly_VerifyRegistersReadDefaultMSPandPSPAndEmptyMemoryRegions :
  passes_with (s2b "634302000000000000000000111111112222222233333333444444445555555566666666777777778888888899999999AAAAAAAABBBBBBBBCCCCCCCCDDDDDDDDEEEEEEEEFFFFFFFF0DF00DF0EDFEADBA") deadbeef
  [ok (CrashCatcherDump_ReadHex test_file);
   text MemorySim_GetMemoryMapXML "<?xml version=""1.0""?><!DOCTYPE memory-map PUBLIC ""+//IDN gnu.org//DTD GDB Memory Map V1.0//EN"" ""http://sourceware.org/gdb/gdb-memory-map.dtd""><memory-map></memory-map>";
   registers_are [0; 0; 0x11111111; 0x22222222; 0x33333333; 0x44444444; 0x55555555; 0x66666666; 0x77777777; 0x88888888; 0x99999999; 0xAAAAAAAA; 0xBBBBBBBB; 0xCCCCCCCC; 0xDDDDDDDD; 0xEEEEEEEE; 0xFFFFFFFF; 0xF00DF00D; 0xBAADBAAD; 0xBAADBAAD; 0xBAADFEED; 0; 0; 0; 0; 0; 0; 0; 0; 0; 0; 0; 0; 0; 0; 0; 0; 0; 0; 0; 0; 0; 0; 0; 0; 0; 0; 0; 0; 0; 0; 0; 0; 0]].
Proof. vm_compute. reflexivity. Qed.

Example Hex_DumpContainingFloatRegistersToo_VerifyRegistersReadAndEmptyMemoryRegions :
  passes_with (s2b "634303000100000000000000111111112222222233333333444444445555555566666666777777778888888899999999AAAAAAAABBBBBBBBCCCCCCCCDDDDDDDDEEEEEEEEFFFFFFFF0DF00DF04545454554545454EDFEADBA000000000100000002000000030000000400000005000000060000000700000008000000090000000A0000000B0000000C0000000D0000000E0000000F000000100000001100000012000000130000001400000015000000160000001700000018000000190000001A0000001B0000001C0000001D0000001E0000001F0000000DF0ADBA") deadbeef
  [ok (CrashCatcherDump_ReadHex test_file);
   text MemorySim_GetMemoryMapXML "<?xml version=""1.0""?><!DOCTYPE memory-map PUBLIC ""+//IDN gnu.org//DTD GDB Memory Map V1.0//EN"" ""http://sourceware.org/gdb/gdb-memory-map.dtd""><memory-map></memory-map>";
   registers_are [1; 0; 0x11111111; 0x22222222; 0x33333333; 0x44444444; 0x55555555; 0x66666666; 0x77777777; 0x88888888; 0x99999999; 0xAAAAAAAA; 0xBBBBBBBB; 0xCCCCCCCC; 0xDDDDDDDD; 0xEEEEEEEE; 0xFFFFFFFF; 0xF00DF00D; 0x45454545; 0x54545454; 0xBAADFEED; 0; 1; 2; 3; 4; 5; 6; 7; 8; 9; 10; 11; 12; 13; 14; 15; 16; 17; 18; 19; 20; 21; 22; 23; 24; 25; 26; 27; 28; 29; 30; 31; 0xBAADF00D]].
Proof. vm_compute. reflexivity. Qed.

Example Hex_Version2DumpContainingFloatRegistersToo_VerifyRegistersDefaultsForMSPandPSPReadAndEmptyMemoryRegions :
  passes_with (s2b "634302000100000000000000111111112222222233333333444444445555555566666666777777778888888899999999AAAAAAAABBBBBBBBCCCCCCCCDDDDDDDDEEEEEEEEFFFFFFFF0DF00DF0EDFEADBA000000000100000002000000030000000400000005000000060000000700000008000000090000000A0000000B0000000C0000000D0000000E0000000F000000100000001100000012000000130000001400000015000000160000001700000018000000190000001A0000001B0000001C0000001D0000001E0000001F0000000DF0ADBA") deadbeef
  [ok (CrashCatcherDump_ReadHex test_file);
   text MemorySim_GetMemoryMapXML "<?xml version=""1.0""?><!DOCTYPE memory-map PUBLIC ""+//IDN gnu.org//DTD GDB Memory Map V1.0//EN"" ""http://sourceware.org/gdb/gdb-memory-map.dtd""><memory-map></memory-map>";
   registers_are [1; 0; 0x11111111; 0x22222222; 0x33333333; 0x44444444; 0x55555555; 0x66666666; 0x77777777; 0x88888888; 0x99999999; 0xAAAAAAAA; 0xBBBBBBBB; 0xCCCCCCCC; 0xDDDDDDDD; 0xEEEEEEEE; 0xFFFFFFFF; 0xF00DF00D; 0xBAADBAAD; 0xBAADBAAD; 0xBAADFEED; 0; 1; 2; 3; 4; 5; 6; 7; 8; 9; 10; 11; 12; 13; 14; 15; 16; 17; 18; 19; 20; 21; 22; 23; 24; 25; 26; 27; 28; 29; 30; 31; 0xBAADF00D]].
Proof. vm_compute. reflexivity. Qed.

Example Hex_FileTooShortForFloatRegisters_ShouldThrowFileFormatException :
  passes_with (s2b "6343030001000000EFBEADDEEFBEADDEEFBEADDEEFBEADDEEFBEADDEEFBEADDEEFBEADDEEFBEADDEEFBEADDEEFBEADDEEFBEADDEEFBEADDEEFBEADDEEFBEADDEEFBEADDEEFBEADDEEFBEADDEEFBEADDEEFBEADDE000000000000000000000000000000000000000000000000000000000000000000000000000000000000000000000000000000000000000000000000000000000000000000000000000000000000000000000000000000000000000000000000000000000000000000000000000000000000000000000000000000000000000000000000000000") deadbeef
  [throws_msg (CrashCatcherDump_ReadHex test_file) fileFormatException "The dump file was too short to contain the floating point registers.";
   registers_are [1; 0xDEADBEEF; 0xDEADBEEF; 0xDEADBEEF; 0xDEADBEEF; 0xDEADBEEF; 0xDEADBEEF; 0xDEADBEEF; 0xDEADBEEF; 0xDEADBEEF; 0xDEADBEEF; 0xDEADBEEF; 0xDEADBEEF; 0xDEADBEEF; 0xDEADBEEF; 0xDEADBEEF; 0xDEADBEEF; 0xDEADBEEF; 0xDEADBEEF; 0xDEADBEEF; 0; 0; 0; 0; 0; 0; 0; 0; 0; 0; 0; 0; 0; 0; 0; 0; 0; 0; 0; 0; 0; 0; 0; 0; 0; 0; 0; 0; 0; 0; 0; 0; 0; 0]].
Proof. vm_compute. reflexivity. Qed.

Example Hex_DumpContainingOneMemoryRegionOf1Word_VerifyMemoryContents :
  passes_with (s2b "6343030000000000EFBEADDEEFBEADDEEFBEADDEEFBEADDEEFBEADDEEFBEADDEEFBEADDEEFBEADDEEFBEADDEEFBEADDEEFBEADDEEFBEADDEEFBEADDEEFBEADDEEFBEADDEEFBEADDEEFBEADDEEFBEADDEEFBEADDE00000000000000100400001011111111") deadbeef
  [ok (CrashCatcherDump_ReadHex test_file);
   text MemorySim_GetMemoryMapXML "<?xml version=""1.0""?><!DOCTYPE memory-map PUBLIC ""+//IDN gnu.org//DTD GDB Memory Map V1.0//EN"" ""http://sourceware.org/gdb/gdb-memory-map.dtd""><memory-map><memory type=""ram"" start=""0x10000000"" length=""0x4""></memory></memory-map>";
   gives (read32 0x10000000) 0x11111111;
   registers_are [0; 0xDEADBEEF; 0xDEADBEEF; 0xDEADBEEF; 0xDEADBEEF; 0xDEADBEEF; 0xDEADBEEF; 0xDEADBEEF; 0xDEADBEEF; 0xDEADBEEF; 0xDEADBEEF; 0xDEADBEEF; 0xDEADBEEF; 0xDEADBEEF; 0xDEADBEEF; 0xDEADBEEF; 0xDEADBEEF; 0xDEADBEEF; 0xDEADBEEF; 0xDEADBEEF; 0; 0; 0; 0; 0; 0; 0; 0; 0; 0; 0; 0; 0; 0; 0; 0; 0; 0; 0; 0; 0; 0; 0; 0; 0; 0; 0; 0; 0; 0; 0; 0; 0; 0]].
Proof. vm_compute. reflexivity. Qed.

Example Hex_FailAllocationForRegion_VerifyEmptyMemoryAndExceptionThrown :
  passes_with (s2b "6343030000000000EFBEADDEEFBEADDEEFBEADDEEFBEADDEEFBEADDEEFBEADDEEFBEADDEEFBEADDEEFBEADDEEFBEADDEEFBEADDEEFBEADDEEFBEADDEEFBEADDEEFBEADDEEFBEADDEEFBEADDEEFBEADDEEFBEADDE00000000000000100400001011111111") deadbeef
  [fail_alloc 1;
   throws_msg (CrashCatcherDump_ReadHex test_file) outOfMemoryException "The dump file failed to load RAM memory region at 0x10000000 - 0x10000004.";
   text MemorySim_GetMemoryMapXML "<?xml version=""1.0""?><!DOCTYPE memory-map PUBLIC ""+//IDN gnu.org//DTD GDB Memory Map V1.0//EN"" ""http://sourceware.org/gdb/gdb-memory-map.dtd""><memory-map></memory-map>";
   registers_are [0; 0xDEADBEEF; 0xDEADBEEF; 0xDEADBEEF; 0xDEADBEEF; 0xDEADBEEF; 0xDEADBEEF; 0xDEADBEEF; 0xDEADBEEF; 0xDEADBEEF; 0xDEADBEEF; 0xDEADBEEF; 0xDEADBEEF; 0xDEADBEEF; 0xDEADBEEF; 0xDEADBEEF; 0xDEADBEEF; 0xDEADBEEF; 0xDEADBEEF; 0xDEADBEEF; 0; 0; 0; 0; 0; 0; 0; 0; 0; 0; 0; 0; 0; 0; 0; 0; 0; 0; 0; 0; 0; 0; 0; 0; 0; 0; 0; 0; 0; 0; 0; 0; 0; 0]].
Proof. vm_compute. reflexivity. Qed.

Example Hex_DumpContainingTruncatedMemoryRegionDescription_ExceptionShouldBeThrownAndNoMemoryRegionsCreated :
  passes_with (s2b "6343030000000000EFBEADDEEFBEADDEEFBEADDEEFBEADDEEFBEADDEEFBEADDEEFBEADDEEFBEADDEEFBEADDEEFBEADDEEFBEADDEEFBEADDEEFBEADDEEFBEADDEEFBEADDEEFBEADDEEFBEADDEEFBEADDEEFBEADDE0000000000000010040000") deadbeef
  [throws_msg (CrashCatcherDump_ReadHex test_file) fileFormatException "The dump file contained a truncated memory region header.";
   text MemorySim_GetMemoryMapXML "<?xml version=""1.0""?><!DOCTYPE memory-map PUBLIC ""+//IDN gnu.org//DTD GDB Memory Map V1.0//EN"" ""http://sourceware.org/gdb/gdb-memory-map.dtd""><memory-map></memory-map>";
   registers_are [0; 0xDEADBEEF; 0xDEADBEEF; 0xDEADBEEF; 0xDEADBEEF; 0xDEADBEEF; 0xDEADBEEF; 0xDEADBEEF; 0xDEADBEEF; 0xDEADBEEF; 0xDEADBEEF; 0xDEADBEEF; 0xDEADBEEF; 0xDEADBEEF; 0xDEADBEEF; 0xDEADBEEF; 0xDEADBEEF; 0xDEADBEEF; 0xDEADBEEF; 0xDEADBEEF; 0; 0; 0; 0; 0; 0; 0; 0; 0; 0; 0; 0; 0; 0; 0; 0; 0; 0; 0; 0; 0; 0; 0; 0; 0; 0; 0; 0; 0; 0; 0; 0; 0; 0]].
Proof. vm_compute. reflexivity. Qed.

Example Hex_DumpContainingTruncatedMemoryRegionData_ExceptionShouldBeThrown_PartiallyCompletedMemoryRegion :
  passes_with (s2b "6343030000000000EFBEADDEEFBEADDEEFBEADDEEFBEADDEEFBEADDEEFBEADDEEFBEADDEEFBEADDEEFBEADDEEFBEADDEEFBEADDEEFBEADDEEFBEADDEEFBEADDEEFBEADDEEFBEADDEEFBEADDEEFBEADDEEFBEADDE000000000000001004000010111111") deadbeef
  [throws_msg (CrashCatcherDump_ReadHex test_file) fileFormatException "The dump file failed to load RAM memory region at 0x10000000 - 0x10000004.";
   text MemorySim_GetMemoryMapXML "<?xml version=""1.0""?><!DOCTYPE memory-map PUBLIC ""+//IDN gnu.org//DTD GDB Memory Map V1.0//EN"" ""http://sourceware.org/gdb/gdb-memory-map.dtd""><memory-map><memory type=""ram"" start=""0x10000000"" length=""0x4""></memory></memory-map>";
   gives (read32 0x10000000) 0x00111111;
   registers_are [0; 0xDEADBEEF; 0xDEADBEEF; 0xDEADBEEF; 0xDEADBEEF; 0xDEADBEEF; 0xDEADBEEF; 0xDEADBEEF; 0xDEADBEEF; 0xDEADBEEF; 0xDEADBEEF; 0xDEADBEEF; 0xDEADBEEF; 0xDEADBEEF; 0xDEADBEEF; 0xDEADBEEF; 0xDEADBEEF; 0xDEADBEEF; 0xDEADBEEF; 0xDEADBEEF; 0; 0; 0; 0; 0; 0; 0; 0; 0; 0; 0; 0; 0; 0; 0; 0; 0; 0; 0; 0; 0; 0; 0; 0; 0; 0; 0; 0; 0; 0; 0; 0; 0; 0]].
Proof. vm_compute. reflexivity. Qed.

Example Hex_DumpContainingTwoMemoryRegionsOf1Word_VerifyMemoryContents :
  passes_with (s2b "6343030000000000EFBEADDEEFBEADDEEFBEADDEEFBEADDEEFBEADDEEFBEADDEEFBEADDEEFBEADDEEFBEADDEEFBEADDEEFBEADDEEFBEADDEEFBEADDEEFBEADDEEFBEADDEEFBEADDEEFBEADDEEFBEADDEEFBEADDE00000000000000100400001011111111000000200400002022222222") deadbeef
  [ok (CrashCatcherDump_ReadHex test_file);
   text MemorySim_GetMemoryMapXML "<?xml version=""1.0""?><!DOCTYPE memory-map PUBLIC ""+//IDN gnu.org//DTD GDB Memory Map V1.0//EN"" ""http://sourceware.org/gdb/gdb-memory-map.dtd""><memory-map><memory type=""ram"" start=""0x10000000"" length=""0x4""></memory><memory type=""ram"" start=""0x20000000"" length=""0x4""></memory></memory-map>";
   gives (read32 0x10000000) 0x11111111;
   gives (read32 0x20000000) 0x22222222;
   registers_are [0; 0xDEADBEEF; 0xDEADBEEF; 0xDEADBEEF; 0xDEADBEEF; 0xDEADBEEF; 0xDEADBEEF; 0xDEADBEEF; 0xDEADBEEF; 0xDEADBEEF; 0xDEADBEEF; 0xDEADBEEF; 0xDEADBEEF; 0xDEADBEEF; 0xDEADBEEF; 0xDEADBEEF; 0xDEADBEEF; 0xDEADBEEF; 0xDEADBEEF; 0xDEADBEEF; 0; 0; 0; 0; 0; 0; 0; 0; 0; 0; 0; 0; 0; 0; 0; 0; 0; 0; 0; 0; 0; 0; 0; 0; 0; 0; 0; 0; 0; 0; 0; 0; 0; 0]].
Proof. vm_compute. reflexivity. Qed.

Example Hex_DumpContainingOneMemoryRegionsFollowedByStackOverflowError_VerifyMemoryContentsAndExceptionThrown :
  passes_with (s2b "6343030000000000EFBEADDEEFBEADDEEFBEADDEEFBEADDEEFBEADDEEFBEADDEEFBEADDEEFBEADDEEFBEADDEEFBEADDEEFBEADDEEFBEADDEEFBEADDEEFBEADDEEFBEADDEEFBEADDEEFBEADDEEFBEADDEEFBEADDE00000000000000100400001011111111ED55CEAC") deadbeef
  [throws_msg (CrashCatcherDump_ReadHex test_file) stackOverflowException "The dump file ended with an indication that CrashCatcher detected a stack overflow.";
   text MemorySim_GetMemoryMapXML "<?xml version=""1.0""?><!DOCTYPE memory-map PUBLIC ""+//IDN gnu.org//DTD GDB Memory Map V1.0//EN"" ""http://sourceware.org/gdb/gdb-memory-map.dtd""><memory-map><memory type=""ram"" start=""0x10000000"" length=""0x4""></memory></memory-map>";
   gives (read32 0x10000000) 0x11111111;
   registers_are [0; 0xDEADBEEF; 0xDEADBEEF; 0xDEADBEEF; 0xDEADBEEF; 0xDEADBEEF; 0xDEADBEEF; 0xDEADBEEF; 0xDEADBEEF; 0xDEADBEEF; 0xDEADBEEF; 0xDEADBEEF; 0xDEADBEEF; 0xDEADBEEF; 0xDEADBEEF; 0xDEADBEEF; 0xDEADBEEF; 0xDEADBEEF; 0xDEADBEEF; 0xDEADBEEF; 0; 0; 0; 0; 0; 0; 0; 0; 0; 0; 0; 0; 0; 0; 0; 0; 0; 0; 0; 0; 0; 0; 0; 0; 0; 0; 0; 0; 0; 0; 0; 0; 0; 0]].
Proof. vm_compute. reflexivity. Qed.

Example Hex_DumpContainingNewlinesBetweenHexDigits_VerifyRegistersReadAndEmptyMemoryRegions :
  passes_with [54; 51; 52; 51; 48; 51; 48; 48; 13; 10; 48; 48; 48; 48; 48; 48; 48; 48; 13; 10; 48; 48; 48; 48; 48; 48; 48; 48; 49; 49; 49; 49; 49; 49; 49; 49; 50; 50; 50; 50; 50; 50; 50; 50; 51; 51; 51; 51; 51; 51; 51; 51; 10; 52; 52; 52; 52; 52; 52; 52; 52; 53; 53; 53; 53; 53; 53; 53; 53; 54; 54; 54; 54; 54; 54; 54; 54; 55; 55; 55; 55; 55; 55; 55; 55; 13; 56; 56; 56; 56; 56; 56; 56; 56; 57; 57; 57; 57; 57; 57; 57; 57; 65; 65; 65; 65; 65; 65; 65; 65; 66; 66; 66; 66; 66; 66; 66; 66; 10; 13; 67; 67; 67; 67; 67; 67; 67; 67; 68; 68; 68; 68; 68; 68; 68; 68; 69; 69; 69; 69; 69; 69; 69; 69; 70; 70; 70; 70; 70; 70; 70; 70; 13; 10; 48; 68; 70; 48; 48; 68; 70; 48; 52; 53; 52; 53; 52; 53; 52; 53; 53; 52; 53; 52; 53; 52; 53; 52; 69; 68; 70; 69; 65; 68; 66; 65] deadbeef
  [ok (CrashCatcherDump_ReadHex test_file);
   text MemorySim_GetMemoryMapXML "<?xml version=""1.0""?><!DOCTYPE memory-map PUBLIC ""+//IDN gnu.org//DTD GDB Memory Map V1.0//EN"" ""http://sourceware.org/gdb/gdb-memory-map.dtd""><memory-map></memory-map>";
   registers_are [0; 0; 0x11111111; 0x22222222; 0x33333333; 0x44444444; 0x55555555; 0x66666666; 0x77777777; 0x88888888; 0x99999999; 0xAAAAAAAA; 0xBBBBBBBB; 0xCCCCCCCC; 0xDDDDDDDD; 0xEEEEEEEE; 0xFFFFFFFF; 0xF00DF00D; 0x45454545; 0x54545454; 0xBAADFEED; 0; 0; 0; 0; 0; 0; 0; 0; 0; 0; 0; 0; 0; 0; 0; 0; 0; 0; 0; 0; 0; 0; 0; 0; 0; 0; 0; 0; 0; 0; 0; 0; 0]].
Proof. vm_compute. reflexivity. Qed.

Example Hex_SameTestAsPreviousButWithLowercaseHexDigits :
  passes_with [54; 51; 52; 51; 48; 51; 48; 48; 13; 10; 48; 48; 48; 48; 48; 48; 48; 48; 13; 10; 48; 48; 48; 48; 48; 48; 48; 48; 49; 49; 49; 49; 49; 49; 49; 49; 50; 50; 50; 50; 50; 50; 50; 50; 51; 51; 51; 51; 51; 51; 51; 51; 10; 52; 52; 52; 52; 52; 52; 52; 52; 53; 53; 53; 53; 53; 53; 53; 53; 54; 54; 54; 54; 54; 54; 54; 54; 55; 55; 55; 55; 55; 55; 55; 55; 13; 56; 56; 56; 56; 56; 56; 56; 56; 57; 57; 57; 57; 57; 57; 57; 57; 97; 97; 97; 97; 97; 97; 97; 97; 98; 98; 98; 98; 98; 98; 98; 98; 10; 13; 99; 99; 99; 99; 99; 99; 99; 99; 100; 100; 100; 100; 100; 100; 100; 100; 101; 101; 101; 101; 101; 101; 101; 101; 102; 102; 102; 102; 102; 102; 102; 102; 13; 10; 48; 100; 102; 48; 48; 100; 102; 48; 52; 53; 52; 53; 52; 53; 52; 53; 53; 52; 53; 52; 53; 52; 53; 52; 101; 100; 102; 101; 97; 100; 98; 97] deadbeef
  [ok (CrashCatcherDump_ReadHex test_file);
   text MemorySim_GetMemoryMapXML "<?xml version=""1.0""?><!DOCTYPE memory-map PUBLIC ""+//IDN gnu.org//DTD GDB Memory Map V1.0//EN"" ""http://sourceware.org/gdb/gdb-memory-map.dtd""><memory-map></memory-map>";
   registers_are [0; 0; 0x11111111; 0x22222222; 0x33333333; 0x44444444; 0x55555555; 0x66666666; 0x77777777; 0x88888888; 0x99999999; 0xAAAAAAAA; 0xBBBBBBBB; 0xCCCCCCCC; 0xDDDDDDDD; 0xEEEEEEEE; 0xFFFFFFFF; 0xF00DF00D; 0x45454545; 0x54545454; 0xBAADFEED; 0; 0; 0; 0; 0; 0; 0; 0; 0; 0; 0; 0; 0; 0; 0; 0; 0; 0; 0; 0; 0; 0; 0; 0; 0; 0; 0; 0; 0; 0; 0; 0; 0]].
Proof. vm_compute. reflexivity. Qed.

Example Hex_DumpContainingOneTooFewHexDigits_VerifyExceptionThrown :
  passes_with [54; 51; 52; 51; 48; 51; 48; 48; 13; 10; 48; 48; 48; 48; 48; 48; 48; 48; 13; 10; 48; 48; 48; 48; 48; 48; 48; 48; 49; 49; 49; 49; 49; 49; 49; 49; 50; 50; 50; 50; 50; 50; 50; 50; 51; 51; 51; 51; 51; 51; 51; 51; 10; 52; 52; 52; 52; 52; 52; 52; 52; 53; 53; 53; 53; 53; 53; 53; 53; 54; 54; 54; 54; 54; 54; 54; 54; 55; 55; 55; 55; 55; 55; 55; 55; 13; 56; 56; 56; 56; 56; 56; 56; 56; 57; 57; 57; 57; 57; 57; 57; 57; 65; 65; 65; 65; 65; 65; 65; 65; 66; 66; 66; 66; 66; 66; 66; 66; 10; 13; 67; 67; 67; 67; 67; 67; 67; 67; 68; 68; 68; 68; 68; 68; 68; 68; 69; 69; 69; 69; 69; 69; 69; 69; 70; 70; 70; 70; 70; 70; 70; 70; 13; 10; 48; 68; 70; 48; 48; 68; 70; 48; 52; 53; 52; 53; 52; 53; 52; 53; 53; 52; 53; 52; 53; 52; 53; 52; 69; 68; 70; 69; 65; 68; 66] deadbeef
  [throws (CrashCatcherDump_ReadHex test_file) fileFormatException;
   text MemorySim_GetMemoryMapXML "<?xml version=""1.0""?><!DOCTYPE memory-map PUBLIC ""+//IDN gnu.org//DTD GDB Memory Map V1.0//EN"" ""http://sourceware.org/gdb/gdb-memory-map.dtd""><memory-map></memory-map>";
   registers_are [0; 0; 0x11111111; 0x22222222; 0x33333333; 0x44444444; 0x55555555; 0x66666666; 0x77777777; 0x88888888; 0x99999999; 0xAAAAAAAA; 0xBBBBBBBB; 0xCCCCCCCC; 0xDDDDDDDD; 0xEEEEEEEE; 0xFFFFFFFF; 0xF00DF00D; 0x45454545; 0x54545454; 0x00ADFEED; 0; 0; 0; 0; 0; 0; 0; 0; 0; 0; 0; 0; 0; 0; 0; 0; 0; 0; 0; 0; 0; 0; 0; 0; 0; 0; 0; 0; 0; 0; 0; 0; 0]].
Proof. vm_compute. reflexivity. Qed.

Example Hex_DumpContainingNonHexDigitInLastByte_VerifyExceptionThrown :
  passes_with [54; 51; 52; 51; 48; 51; 48; 48; 13; 10; 48; 48; 48; 48; 48; 48; 48; 48; 13; 10; 48; 48; 48; 48; 48; 48; 48; 48; 49; 49; 49; 49; 49; 49; 49; 49; 50; 50; 50; 50; 50; 50; 50; 50; 51; 51; 51; 51; 51; 51; 51; 51; 10; 52; 52; 52; 52; 52; 52; 52; 52; 53; 53; 53; 53; 53; 53; 53; 53; 54; 54; 54; 54; 54; 54; 54; 54; 55; 55; 55; 55; 55; 55; 55; 55; 13; 56; 56; 56; 56; 56; 56; 56; 56; 57; 57; 57; 57; 57; 57; 57; 57; 65; 65; 65; 65; 65; 65; 65; 65; 66; 66; 66; 66; 66; 66; 66; 66; 10; 13; 67; 67; 67; 67; 67; 67; 67; 67; 68; 68; 68; 68; 68; 68; 68; 68; 69; 69; 69; 69; 69; 69; 69; 69; 70; 70; 70; 70; 70; 70; 70; 70; 13; 10; 48; 68; 70; 48; 48; 68; 70; 48; 52; 53; 52; 53; 52; 53; 52; 53; 53; 52; 53; 52; 53; 52; 53; 52; 69; 68; 70; 69; 65; 68; 66; 71] deadbeef
  [throws (CrashCatcherDump_ReadHex test_file) fileFormatException;
   text MemorySim_GetMemoryMapXML "<?xml version=""1.0""?><!DOCTYPE memory-map PUBLIC ""+//IDN gnu.org//DTD GDB Memory Map V1.0//EN"" ""http://sourceware.org/gdb/gdb-memory-map.dtd""><memory-map></memory-map>";
   registers_are [0; 0; 0x11111111; 0x22222222; 0x33333333; 0x44444444; 0x55555555; 0x66666666; 0x77777777; 0x88888888; 0x99999999; 0xAAAAAAAA; 0xBBBBBBBB; 0xCCCCCCCC; 0xDDDDDDDD; 0xEEEEEEEE; 0xFFFFFFFF; 0xF00DF00D; 0x45454545; 0x54545454; 0x00ADFEED; 0; 0; 0; 0; 0; 0; 0; 0; 0; 0; 0; 0; 0; 0; 0; 0; 0; 0; 0; 0; 0; 0; 0; 0; 0; 0; 0; 0; 0; 0; 0; 0; 0]].
Proof. vm_compute. reflexivity. Qed.
