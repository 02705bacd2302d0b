(** The unit tests libCrashDebug/tests/GdbLogParserTest.cpp, transcribed and run on the model.  Tests of the
    model, not proofs of properties.  The mocked lines become a file; they are joined by
    newlines, the last one has none, as in the mock *)
From Coq Require Import String ZArith List Bool.
From Verif Require Import Base World MemSim MemSpec MemEx Context Dump GdbLog TestLib.
Import ListNotations.
Open Scope Z_scope.
Open Scope string_scope.

Example Log_InvalidLogFilename_ShouldThrowMSPandPSPnotInit :
  passes_with [] deadbeef [throws_msg (GdbLogParse (s2b "invalid_file.log")) fileException "Failed to open ""invalid_file.log"" GDB log."; registers_are [0; 0xDEADBEEF; 0xDEADBEEF; 0xDEADBEEF; 0xDEADBEEF; 0xDEADBEEF; 0xDEADBEEF; 0xDEADBEEF; 0xDEADBEEF; 0xDEADBEEF; 0xDEADBEEF; 0xDEADBEEF; 0xDEADBEEF; 0xDEADBEEF; 0xDEADBEEF; 0xDEADBEEF; 0xDEADBEEF; 0xDEADBEEF; 0xDEADBEEF; 0xDEADBEEF; 0; 0; 0; 0; 0; 0; 0; 0; 0; 0; 0; 0; 0; 0; 0; 0; 0; 0; 0; 0; 0; 0; 0; 0; 0; 0; 0; 0; 0; 0; 0; 0; 0; 0]].
Proof. vm_compute. reflexivity. Qed.

Example Log_OneLineLogFile_1RamValue_FailFSeekCall_ShouldThrow :
  passes_with [48; 120; 49; 48; 48; 48; 48; 48; 48; 48; 58; 9; 48; 120; 49; 49; 49; 49; 49; 49; 49; 49] deadbeef
  [fail_io 3;
   throws_msg (GdbLogParse test_file) fileException "Failed to rewind GDB log for second pass.";
   registers_are [0; 0xDEADBEEF; 0xDEADBEEF; 0xDEADBEEF; 0xDEADBEEF; 0xDEADBEEF; 0xDEADBEEF; 0xDEADBEEF; 0xDEADBEEF; 0xDEADBEEF; 0xDEADBEEF; 0xDEADBEEF; 0xDEADBEEF; 0xDEADBEEF; 0xDEADBEEF; 0xDEADBEEF; 0xDEADBEEF; 0xDEADBEEF; 0xBAADBAAD; 0xBAADBAAD; 0; 0; 0; 0; 0; 0; 0; 0; 0; 0; 0; 0; 0; 0; 0; 0; 0; 0; 0; 0; 0; 0; 0; 0; 0; 0; 0; 0; 0; 0; 0; 0; 0; 0]].
Proof. vm_compute. reflexivity. Qed.

Example Log_EmptyLogfile_ShouldReturnNoRegions :
  passes_with [] deadbeef
  [ok (GdbLogParse test_file);
   text MemorySim_GetMemoryMapXML "<?xml version=""1.0""?><!DOCTYPE memory-map PUBLIC ""+//IDN gnu.org//DTD GDB Memory Map V1.0//EN"" ""http://sourceware.org/gdb/gdb-memory-map.dtd""><memory-map></memory-map>";
   registers_are [0; 0xDEADBEEF; 0xDEADBEEF; 0xDEADBEEF; 0xDEADBEEF; 0xDEADBEEF; 0xDEADBEEF; 0xDEADBEEF; 0xDEADBEEF; 0xDEADBEEF; 0xDEADBEEF; 0xDEADBEEF; 0xDEADBEEF; 0xDEADBEEF; 0xDEADBEEF; 0xDEADBEEF; 0xDEADBEEF; 0xDEADBEEF; 0xBAADBAAD; 0xBAADBAAD; 0; 0; 0; 0; 0; 0; 0; 0; 0; 0; 0; 0; 0; 0; 0; 0; 0; 0; 0; 0; 0; 0; 0; 0; 0; 0; 0; 0; 0; 0; 0; 0; 0; 0]].
Proof. vm_compute. reflexivity. Qed.

Example Log_OneLineLogFile_NotRamOrRegisters_ShouldReturnNoRegions :
  passes_with [53; 54; 9; 71; 80; 73; 79; 32; 108; 101; 100; 115; 91; 53; 93; 32; 61; 32; 123] deadbeef
  [ok (GdbLogParse test_file);
   text MemorySim_GetMemoryMapXML "<?xml version=""1.0""?><!DOCTYPE memory-map PUBLIC ""+//IDN gnu.org//DTD GDB Memory Map V1.0//EN"" ""http://sourceware.org/gdb/gdb-memory-map.dtd""><memory-map></memory-map>";
   registers_are [0; 0xDEADBEEF; 0xDEADBEEF; 0xDEADBEEF; 0xDEADBEEF; 0xDEADBEEF; 0xDEADBEEF; 0xDEADBEEF; 0xDEADBEEF; 0xDEADBEEF; 0xDEADBEEF; 0xDEADBEEF; 0xDEADBEEF; 0xDEADBEEF; 0xDEADBEEF; 0xDEADBEEF; 0xDEADBEEF; 0xDEADBEEF; 0xBAADBAAD; 0xBAADBAAD; 0; 0; 0; 0; 0; 0; 0; 0; 0; 0; 0; 0; 0; 0; 0; 0; 0; 0; 0; 0; 0; 0; 0; 0; 0; 0; 0; 0; 0; 0; 0; 0; 0; 0]].
Proof. vm_compute. reflexivity. Qed.

Example Log_OneLineLogFile_1RamValue_ShouldReturn1WordRegion :
  passes_with [48; 120; 49; 48; 48; 48; 48; 48; 48; 48; 58; 9; 48; 120; 49; 49; 49; 49; 49; 49; 49; 49] deadbeef
  [ok (GdbLogParse test_file);
   text MemorySim_GetMemoryMapXML "<?xml version=""1.0""?><!DOCTYPE memory-map PUBLIC ""+//IDN gnu.org//DTD GDB Memory Map V1.0//EN"" ""http://sourceware.org/gdb/gdb-memory-map.dtd""><memory-map><memory type=""ram"" start=""0x10000000"" length=""0x4""></memory></memory-map>";
   gives (read32 0x10000000) 0x11111111;
   registers_are [0; 0xDEADBEEF; 0xDEADBEEF; 0xDEADBEEF; 0xDEADBEEF; 0xDEADBEEF; 0xDEADBEEF; 0xDEADBEEF; 0xDEADBEEF; 0xDEADBEEF; 0xDEADBEEF; 0xDEADBEEF; 0xDEADBEEF; 0xDEADBEEF; 0xDEADBEEF; 0xDEADBEEF; 0xDEADBEEF; 0xDEADBEEF; 0xBAADBAAD; 0xBAADBAAD; 0; 0; 0; 0; 0; 0; 0; 0; 0; 0; 0; 0; 0; 0; 0; 0; 0; 0; 0; 0; 0; 0; 0; 0; 0; 0; 0; 0; 0; 0; 0; 0; 0; 0]].
Proof. vm_compute. reflexivity. Qed.

Example Log_OneLineLogFile_1RamValueWithMixedCaseHexDigits_ShouldReturn1WordRegion :
  passes_with [48; 120; 65; 98; 67; 100; 69; 102; 48; 48; 58; 9; 48; 120; 49; 49; 49; 49; 49; 49; 49; 49] deadbeef
  [ok (GdbLogParse test_file);
   text MemorySim_GetMemoryMapXML "<?xml version=""1.0""?><!DOCTYPE memory-map PUBLIC ""+//IDN gnu.org//DTD GDB Memory Map V1.0//EN"" ""http://sourceware.org/gdb/gdb-memory-map.dtd""><memory-map><memory type=""ram"" start=""0xABCDEF00"" length=""0x4""></memory></memory-map>";
   gives (read32 0xABCDEF00) 0x11111111;
   registers_are [0; 0xDEADBEEF; 0xDEADBEEF; 0xDEADBEEF; 0xDEADBEEF; 0xDEADBEEF; 0xDEADBEEF; 0xDEADBEEF; 0xDEADBEEF; 0xDEADBEEF; 0xDEADBEEF; 0xDEADBEEF; 0xDEADBEEF; 0xDEADBEEF; 0xDEADBEEF; 0xDEADBEEF; 0xDEADBEEF; 0xDEADBEEF; 0xBAADBAAD; 0xBAADBAAD; 0; 0; 0; 0; 0; 0; 0; 0; 0; 0; 0; 0; 0; 0; 0; 0; 0; 0; 0; 0; 0; 0; 0; 0; 0; 0; 0; 0; 0; 0; 0; 0; 0; 0]].
Proof. vm_compute. reflexivity. Qed.

Example Log_OneLineLogFile_4RamValues_ShouldReturn4WordRegion :
  passes_with [48; 120; 49; 48; 48; 48; 48; 48; 48; 48; 58; 9; 48; 120; 49; 49; 49; 49; 49; 49; 49; 49; 9; 48; 120; 50; 50; 50; 50; 50; 50; 50; 50; 9; 48; 120; 51; 51; 51; 51; 51; 51; 51; 51; 9; 48; 120; 52; 52; 52; 52; 52; 52; 52; 52] deadbeef
  [ok (GdbLogParse test_file);
   text MemorySim_GetMemoryMapXML "<?xml version=""1.0""?><!DOCTYPE memory-map PUBLIC ""+//IDN gnu.org//DTD GDB Memory Map V1.0//EN"" ""http://sourceware.org/gdb/gdb-memory-map.dtd""><memory-map><memory type=""ram"" start=""0x10000000"" length=""0x10""></memory></memory-map>";
   gives (read32 0x10000000) 0x11111111;
   gives (read32 0x10000004) 0x22222222;
   gives (read32 0x10000008) 0x33333333;
   gives (read32 0x1000000c) 0x44444444;
   registers_are [0; 0xDEADBEEF; 0xDEADBEEF; 0xDEADBEEF; 0xDEADBEEF; 0xDEADBEEF; 0xDEADBEEF; 0xDEADBEEF; 0xDEADBEEF; 0xDEADBEEF; 0xDEADBEEF; 0xDEADBEEF; 0xDEADBEEF; 0xDEADBEEF; 0xDEADBEEF; 0xDEADBEEF; 0xDEADBEEF; 0xDEADBEEF; 0xBAADBAAD; 0xBAADBAAD; 0; 0; 0; 0; 0; 0; 0; 0; 0; 0; 0; 0; 0; 0; 0; 0; 0; 0; 0; 0; 0; 0; 0; 0; 0; 0; 0; 0; 0; 0; 0; 0; 0; 0]].
Proof. vm_compute. reflexivity. Qed.

Example Log_OneLineLogFile_AddressSymbolAnd4RamValues_ShouldReturn4WordRegion :
  passes_with [48; 120; 49; 48; 48; 48; 48; 48; 48; 48; 32; 60; 105; 109; 112; 117; 114; 101; 95; 100; 97; 116; 97; 62; 58; 9; 48; 120; 49; 49; 49; 49; 49; 49; 49; 49; 9; 48; 120; 50; 50; 50; 50; 50; 50; 50; 50; 9; 48; 120; 51; 51; 51; 51; 51; 51; 51; 51; 9; 48; 120; 52; 52; 52; 52; 52; 52; 52; 52] deadbeef
  [ok (GdbLogParse test_file);
   text MemorySim_GetMemoryMapXML "<?xml version=""1.0""?><!DOCTYPE memory-map PUBLIC ""+//IDN gnu.org//DTD GDB Memory Map V1.0//EN"" ""http://sourceware.org/gdb/gdb-memory-map.dtd""><memory-map><memory type=""ram"" start=""0x10000000"" length=""0x10""></memory></memory-map>";
   gives (read32 0x10000000) 0x11111111;
   gives (read32 0x10000004) 0x22222222;
   gives (read32 0x10000008) 0x33333333;
   gives (read32 0x1000000c) 0x44444444;
   registers_are [0; 0xDEADBEEF; 0xDEADBEEF; 0xDEADBEEF; 0xDEADBEEF; 0xDEADBEEF; 0xDEADBEEF; 0xDEADBEEF; 0xDEADBEEF; 0xDEADBEEF; 0xDEADBEEF; 0xDEADBEEF; 0xDEADBEEF; 0xDEADBEEF; 0xDEADBEEF; 0xDEADBEEF; 0xDEADBEEF; 0xDEADBEEF; 0xBAADBAAD; 0xBAADBAAD; 0; 0; 0; 0; 0; 0; 0; 0; 0; 0; 0; 0; 0; 0; 0; 0; 0; 0; 0; 0; 0; 0; 0; 0; 0; 0; 0; 0; 0; 0; 0; 0; 0; 0]].
Proof. vm_compute. reflexivity. Qed.

Example Log_OneLineLogFile_5RamValues_ShouldReturn4WordRegion :
  passes_with [48; 120; 49; 48; 48; 48; 48; 48; 48; 48; 58; 9; 48; 120; 49; 49; 49; 49; 49; 49; 49; 49; 9; 48; 120; 50; 50; 50; 50; 50; 50; 50; 50; 9; 48; 120; 51; 51; 51; 51; 51; 51; 51; 51; 9; 48; 120; 52; 52; 52; 52; 52; 52; 52; 52; 9; 53; 53; 53; 53; 53; 53; 53; 53] deadbeef
  [ok (GdbLogParse test_file);
   text MemorySim_GetMemoryMapXML "<?xml version=""1.0""?><!DOCTYPE memory-map PUBLIC ""+//IDN gnu.org//DTD GDB Memory Map V1.0//EN"" ""http://sourceware.org/gdb/gdb-memory-map.dtd""><memory-map><memory type=""ram"" start=""0x10000000"" length=""0x10""></memory></memory-map>";
   gives (read32 0x10000000) 0x11111111;
   gives (read32 0x10000004) 0x22222222;
   gives (read32 0x10000008) 0x33333333;
   gives (read32 0x1000000c) 0x44444444;
   registers_are [0; 0xDEADBEEF; 0xDEADBEEF; 0xDEADBEEF; 0xDEADBEEF; 0xDEADBEEF; 0xDEADBEEF; 0xDEADBEEF; 0xDEADBEEF; 0xDEADBEEF; 0xDEADBEEF; 0xDEADBEEF; 0xDEADBEEF; 0xDEADBEEF; 0xDEADBEEF; 0xDEADBEEF; 0xDEADBEEF; 0xDEADBEEF; 0xBAADBAAD; 0xBAADBAAD; 0; 0; 0; 0; 0; 0; 0; 0; 0; 0; 0; 0; 0; 0; 0; 0; 0; 0; 0; 0; 0; 0; 0; 0; 0; 0; 0; 0; 0; 0; 0; 0; 0; 0]].
Proof. vm_compute. reflexivity. Qed.

Example Log_OneLineLogFile_4RamValuesWithSymbols_ShouldReturn4WordRegion :
  passes_with [48; 120; 49; 48; 48; 48; 48; 48; 48; 48; 58; 9; 48; 120; 49; 49; 49; 49; 49; 49; 49; 49; 32; 60; 115; 121; 109; 98; 111; 108; 62; 9; 48; 120; 50; 50; 50; 50; 50; 50; 50; 50; 32; 60; 60; 115; 121; 109; 98; 111; 108; 62; 62; 9; 48; 120; 51; 51; 51; 51; 51; 51; 51; 51; 60; 60; 60; 115; 121; 109; 98; 111; 108; 62; 62; 62; 9; 48; 120; 52; 52; 52; 52; 52; 52; 52; 52; 60; 60; 60; 60; 115; 121; 109; 98; 111; 108; 62; 62; 62; 62] deadbeef
  [ok (GdbLogParse test_file);
   text MemorySim_GetMemoryMapXML "<?xml version=""1.0""?><!DOCTYPE memory-map PUBLIC ""+//IDN gnu.org//DTD GDB Memory Map V1.0//EN"" ""http://sourceware.org/gdb/gdb-memory-map.dtd""><memory-map><memory type=""ram"" start=""0x10000000"" length=""0x10""></memory></memory-map>";
   gives (read32 0x10000000) 0x11111111;
   gives (read32 0x10000004) 0x22222222;
   gives (read32 0x10000008) 0x33333333;
   gives (read32 0x1000000c) 0x44444444;
   registers_are [0; 0xDEADBEEF; 0xDEADBEEF; 0xDEADBEEF; 0xDEADBEEF; 0xDEADBEEF; 0xDEADBEEF; 0xDEADBEEF; 0xDEADBEEF; 0xDEADBEEF; 0xDEADBEEF; 0xDEADBEEF; 0xDEADBEEF; 0xDEADBEEF; 0xDEADBEEF; 0xDEADBEEF; 0xDEADBEEF; 0xDEADBEEF; 0xBAADBAAD; 0xBAADBAAD; 0; 0; 0; 0; 0; 0; 0; 0; 0; 0; 0; 0; 0; 0; 0; 0; 0; 0; 0; 0; 0; 0; 0; 0; 0; 0; 0; 0; 0; 0; 0; 0; 0; 0]].
Proof. vm_compute. reflexivity. Qed.

Example Log_TwoLineLogFile_8RamValues_ShouldReturn8WordRegion :
  passes_with [48; 120; 49; 48; 48; 48; 48; 48; 48; 48; 58; 9; 48; 120; 49; 49; 49; 49; 49; 49; 49; 49; 9; 48; 120; 50; 50; 50; 50; 50; 50; 50; 50; 9; 48; 120; 51; 51; 51; 51; 51; 51; 51; 51; 9; 48; 120; 52; 52; 52; 52; 52; 52; 52; 52; 10; 48; 120; 49; 48; 48; 48; 48; 48; 49; 48; 58; 9; 48; 120; 53; 53; 53; 53; 53; 53; 53; 53; 9; 48; 120; 54; 54; 54; 54; 54; 54; 54; 54; 9; 48; 120; 55; 55; 55; 55; 55; 55; 55; 55; 9; 48; 120; 56; 56; 56; 56; 56; 56; 56; 56] deadbeef
  [ok (GdbLogParse test_file);
   text MemorySim_GetMemoryMapXML "<?xml version=""1.0""?><!DOCTYPE memory-map PUBLIC ""+//IDN gnu.org//DTD GDB Memory Map V1.0//EN"" ""http://sourceware.org/gdb/gdb-memory-map.dtd""><memory-map><memory type=""ram"" start=""0x10000000"" length=""0x20""></memory></memory-map>";
   gives (read32 0x10000000) 0x11111111;
   gives (read32 0x10000004) 0x22222222;
   gives (read32 0x10000008) 0x33333333;
   gives (read32 0x1000000c) 0x44444444;
   gives (read32 0x10000010) 0x55555555;
   gives (read32 0x10000014) 0x66666666;
   gives (read32 0x10000018) 0x77777777;
   gives (read32 0x1000001c) 0x88888888;
   registers_are [0; 0xDEADBEEF; 0xDEADBEEF; 0xDEADBEEF; 0xDEADBEEF; 0xDEADBEEF; 0xDEADBEEF; 0xDEADBEEF; 0xDEADBEEF; 0xDEADBEEF; 0xDEADBEEF; 0xDEADBEEF; 0xDEADBEEF; 0xDEADBEEF; 0xDEADBEEF; 0xDEADBEEF; 0xDEADBEEF; 0xDEADBEEF; 0xBAADBAAD; 0xBAADBAAD; 0; 0; 0; 0; 0; 0; 0; 0; 0; 0; 0; 0; 0; 0; 0; 0; 0; 0; 0; 0; 0; 0; 0; 0; 0; 0; 0; 0; 0; 0; 0; 0; 0; 0]].
Proof. vm_compute. reflexivity. Qed.

Example Log_TwoLineLogFile_8RamValues_ShouldReturnTwo4WordRegions :
  passes_with [48; 120; 49; 48; 48; 48; 48; 48; 48; 48; 58; 9; 48; 120; 49; 49; 49; 49; 49; 49; 49; 49; 9; 48; 120; 50; 50; 50; 50; 50; 50; 50; 50; 9; 48; 120; 51; 51; 51; 51; 51; 51; 51; 51; 9; 48; 120; 52; 52; 52; 52; 52; 52; 52; 52; 10; 48; 120; 50; 48; 48; 48; 48; 48; 48; 48; 58; 9; 48; 120; 53; 53; 53; 53; 53; 53; 53; 53; 9; 48; 120; 54; 54; 54; 54; 54; 54; 54; 54; 9; 48; 120; 55; 55; 55; 55; 55; 55; 55; 55; 9; 48; 120; 56; 56; 56; 56; 56; 56; 56; 56] deadbeef
  [ok (GdbLogParse test_file);
   text MemorySim_GetMemoryMapXML "<?xml version=""1.0""?><!DOCTYPE memory-map PUBLIC ""+//IDN gnu.org//DTD GDB Memory Map V1.0//EN"" ""http://sourceware.org/gdb/gdb-memory-map.dtd""><memory-map><memory type=""ram"" start=""0x10000000"" length=""0x10""></memory><memory type=""ram"" start=""0x20000000"" length=""0x10""></memory></memory-map>";
   gives (read32 0x10000000) 0x11111111;
   gives (read32 0x10000004) 0x22222222;
   gives (read32 0x10000008) 0x33333333;
   gives (read32 0x1000000c) 0x44444444;
   gives (read32 0x20000000) 0x55555555;
   gives (read32 0x20000004) 0x66666666;
   gives (read32 0x20000008) 0x77777777;
   gives (read32 0x2000000c) 0x88888888;
   registers_are [0; 0xDEADBEEF; 0xDEADBEEF; 0xDEADBEEF; 0xDEADBEEF; 0xDEADBEEF; 0xDEADBEEF; 0xDEADBEEF; 0xDEADBEEF; 0xDEADBEEF; 0xDEADBEEF; 0xDEADBEEF; 0xDEADBEEF; 0xDEADBEEF; 0xDEADBEEF; 0xDEADBEEF; 0xDEADBEEF; 0xDEADBEEF; 0xBAADBAAD; 0xBAADBAAD; 0; 0; 0; 0; 0; 0; 0; 0; 0; 0; 0; 0; 0; 0; 0; 0; 0; 0; 0; 0; 0; 0; 0; 0; 0; 0; 0; 0; 0; 0; 0; 0; 0; 0]].
Proof. vm_compute. reflexivity. Qed.

Example Log_FailMemoryAllocationForRegion_ShouldThrow :
  passes_with [48; 120; 49; 48; 48; 48; 48; 48; 48; 48; 58; 9; 48; 120; 49; 49; 49; 49; 49; 49; 49; 49] deadbeef
  [fail_alloc 1;
   throws (GdbLogParse test_file) outOfMemoryException;
   text MemorySim_GetMemoryMapXML "<?xml version=""1.0""?><!DOCTYPE memory-map PUBLIC ""+//IDN gnu.org//DTD GDB Memory Map V1.0//EN"" ""http://sourceware.org/gdb/gdb-memory-map.dtd""><memory-map></memory-map>";
   registers_are [0; 0xDEADBEEF; 0xDEADBEEF; 0xDEADBEEF; 0xDEADBEEF; 0xDEADBEEF; 0xDEADBEEF; 0xDEADBEEF; 0xDEADBEEF; 0xDEADBEEF; 0xDEADBEEF; 0xDEADBEEF; 0xDEADBEEF; 0xDEADBEEF; 0xDEADBEEF; 0xDEADBEEF; 0xDEADBEEF; 0xDEADBEEF; 0xBAADBAAD; 0xBAADBAAD; 0; 0; 0; 0; 0; 0; 0; 0; 0; 0; 0; 0; 0; 0; 0; 0; 0; 0; 0; 0; 0; 0; 0; 0; 0; 0; 0; 0; 0; 0; 0; 0; 0; 0]].
Proof. vm_compute. reflexivity. Qed.

Example Log_OneLineLogFile_JustR0Register_ShouldReturnNoRegionsAndSetR0 :
  passes_with [114; 48; 32; 32; 32; 32; 32; 32; 32; 32; 32; 32; 32; 32; 32; 48; 120; 49; 49; 49; 49; 49; 49; 49; 49; 9; 50; 56; 54; 51; 51; 49; 49; 53; 51] deadbeef
  [ok (GdbLogParse test_file);
   text MemorySim_GetMemoryMapXML "<?xml version=""1.0""?><!DOCTYPE memory-map PUBLIC ""+//IDN gnu.org//DTD GDB Memory Map V1.0//EN"" ""http://sourceware.org/gdb/gdb-memory-map.dtd""><memory-map></memory-map>";
   registers_are [0; 0x11111111; 0xDEADBEEF; 0xDEADBEEF; 0xDEADBEEF; 0xDEADBEEF; 0xDEADBEEF; 0xDEADBEEF; 0xDEADBEEF; 0xDEADBEEF; 0xDEADBEEF; 0xDEADBEEF; 0xDEADBEEF; 0xDEADBEEF; 0xDEADBEEF; 0xDEADBEEF; 0xDEADBEEF; 0xDEADBEEF; 0xBAADBAAD; 0xBAADBAAD; 0; 0; 0; 0; 0; 0; 0; 0; 0; 0; 0; 0; 0; 0; 0; 0; 0; 0; 0; 0; 0; 0; 0; 0; 0; 0; 0; 0; 0; 0; 0; 0; 0; 0]].
Proof. vm_compute. reflexivity. Qed.

Example Log_HaveAllRegisters_ShouldReturnNoRegionsAndSetAllRegisters :
  passes_with [114; 48; 32; 32; 32; 32; 32; 32; 32; 32; 32; 32; 32; 32; 32; 48; 120; 48; 48; 48; 48; 48; 48; 48; 48; 9; 48; 10; 114; 49; 32; 32; 32; 32; 32; 32; 32; 32; 32; 32; 32; 32; 32; 48; 120; 49; 49; 49; 49; 49; 49; 49; 49; 10; 114; 50; 32; 32; 32; 32; 32; 32; 32; 32; 32; 32; 32; 32; 32; 48; 120; 50; 50; 50; 50; 50; 50; 50; 50; 10; 114; 51; 32; 32; 32; 32; 32; 32; 32; 32; 32; 32; 32; 32; 32; 48; 120; 51; 51; 51; 51; 51; 51; 51; 51; 10; 114; 52; 32; 32; 32; 32; 32; 32; 32; 32; 32; 32; 32; 32; 32; 48; 120; 52; 52; 52; 52; 52; 52; 52; 52; 10; 114; 53; 32; 32; 32; 32; 32; 32; 32; 32; 32; 32; 32; 32; 32; 48; 120; 53; 53; 53; 53; 53; 53; 53; 53; 10; 114; 54; 32; 32; 32; 32; 32; 32; 32; 32; 32; 32; 32; 32; 32; 48; 120; 54; 54; 54; 54; 54; 54; 54; 54; 10; 114; 55; 32; 32; 32; 32; 32; 32; 32; 32; 32; 32; 32; 32; 32; 48; 120; 55; 55; 55; 55; 55; 55; 55; 55; 10; 114; 56; 32; 32; 32; 32; 32; 32; 32; 32; 32; 32; 32; 32; 32; 48; 120; 56; 56; 56; 56; 56; 56; 56; 56; 10; 114; 57; 32; 32; 32; 32; 32; 32; 32; 32; 32; 32; 32; 32; 32; 48; 120; 57; 57; 57; 57; 57; 57; 57; 57; 10; 114; 49; 48; 32; 32; 32; 32; 32; 32; 32; 32; 32; 32; 32; 32; 48; 120; 65; 65; 65; 65; 65; 65; 65; 65; 10; 114; 49; 49; 32; 32; 32; 32; 32; 32; 32; 32; 32; 32; 32; 32; 48; 120; 98; 98; 98; 98; 98; 98; 98; 98; 10; 114; 49; 50; 32; 32; 32; 32; 32; 32; 32; 32; 32; 32; 32; 32; 48; 120; 99; 99; 99; 99; 99; 99; 99; 99; 10; 115; 112; 32; 32; 32; 32; 32; 32; 32; 32; 32; 32; 32; 32; 32; 48; 120; 100; 100; 100; 100; 100; 100; 100; 100; 10; 108; 114; 32; 32; 32; 32; 32; 32; 32; 32; 32; 32; 32; 32; 32; 48; 120; 101; 101; 101; 101; 101; 101; 101; 101; 10; 112; 99; 32; 32; 32; 32; 32; 32; 32; 32; 32; 32; 32; 32; 32; 48; 120; 102; 102; 102; 102; 102; 102; 102; 102; 10; 120; 112; 115; 114; 32; 32; 32; 32; 32; 32; 32; 32; 32; 32; 32; 48; 120; 102; 48; 48; 100; 102; 48; 48; 100; 10; 109; 115; 112; 32; 32; 32; 32; 32; 32; 32; 32; 32; 32; 32; 32; 48; 120; 52; 53; 52; 53; 52; 53; 52; 53; 10; 112; 115; 112; 32; 32; 32; 32; 32; 32; 32; 32; 32; 32; 32; 32; 48; 120; 53; 52; 53; 52; 53; 52; 53; 52] deadbeef
  [ok (GdbLogParse test_file);
   text MemorySim_GetMemoryMapXML "<?xml version=""1.0""?><!DOCTYPE memory-map PUBLIC ""+//IDN gnu.org//DTD GDB Memory Map V1.0//EN"" ""http://sourceware.org/gdb/gdb-memory-map.dtd""><memory-map></memory-map>";
   registers_are [0; 0; 0x11111111; 0x22222222; 0x33333333; 0x44444444; 0x55555555; 0x66666666; 0x77777777; 0x88888888; 0x99999999; 0xAAAAAAAA; 0xBBBBBBBB; 0xCCCCCCCC; 0xDDDDDDDD; 0xEEEEEEEE; 0xFFFFFFFF; 0xF00DF00D; 0x45454545; 0x54545454; 0; 0; 0; 0; 0; 0; 0; 0; 0; 0; 0; 0; 0; 0; 0; 0; 0; 0; 0; 0; 0; 0; 0; 0; 0; 0; 0; 0; 0; 0; 0; 0; 0; 0]].
Proof. vm_compute. reflexivity. Qed.

Example Log_HaveAllRegistersAndTwoMemoryBanks_ShouldReturnTwoRegionsAndSetAllRegisters :
  passes_with [48; 120; 49; 48; 48; 48; 48; 48; 48; 48; 58; 9; 48; 120; 49; 49; 49; 49; 49; 49; 49; 49; 9; 48; 120; 50; 50; 50; 50; 50; 50; 50; 50; 9; 48; 120; 51; 51; 51; 51; 51; 51; 51; 51; 9; 48; 120; 52; 52; 52; 52; 52; 52; 52; 52; 10; 48; 120; 50; 48; 48; 48; 48; 48; 48; 48; 58; 9; 48; 120; 53; 53; 53; 53; 53; 53; 53; 53; 9; 48; 120; 54; 54; 54; 54; 54; 54; 54; 54; 9; 48; 120; 55; 55; 55; 55; 55; 55; 55; 55; 9; 48; 120; 56; 56; 56; 56; 56; 56; 56; 56; 10; 114; 48; 32; 32; 32; 32; 32; 32; 32; 32; 32; 32; 32; 32; 32; 48; 120; 48; 48; 48; 48; 48; 48; 48; 48; 9; 48; 10; 114; 49; 32; 32; 32; 32; 32; 32; 32; 32; 32; 32; 32; 32; 32; 48; 120; 49; 49; 49; 49; 49; 49; 49; 49; 10; 114; 50; 32; 32; 32; 32; 32; 32; 32; 32; 32; 32; 32; 32; 32; 48; 120; 50; 50; 50; 50; 50; 50; 50; 50; 10; 114; 51; 32; 32; 32; 32; 32; 32; 32; 32; 32; 32; 32; 32; 32; 48; 120; 51; 51; 51; 51; 51; 51; 51; 51; 10; 114; 52; 32; 32; 32; 32; 32; 32; 32; 32; 32; 32; 32; 32; 32; 48; 120; 52; 52; 52; 52; 52; 52; 52; 52; 10; 114; 53; 32; 32; 32; 32; 32; 32; 32; 32; 32; 32; 32; 32; 32; 48; 120; 53; 53; 53; 53; 53; 53; 53; 53; 10; 114; 54; 32; 32; 32; 32; 32; 32; 32; 32; 32; 32; 32; 32; 32; 48; 120; 54; 54; 54; 54; 54; 54; 54; 54; 10; 114; 55; 32; 32; 32; 32; 32; 32; 32; 32; 32; 32; 32; 32; 32; 48; 120; 55; 55; 55; 55; 55; 55; 55; 55; 10; 114; 56; 32; 32; 32; 32; 32; 32; 32; 32; 32; 32; 32; 32; 32; 48; 120; 56; 56; 56; 56; 56; 56; 56; 56; 10; 114; 57; 32; 32; 32; 32; 32; 32; 32; 32; 32; 32; 32; 32; 32; 48; 120; 57; 57; 57; 57; 57; 57; 57; 57; 10; 114; 49; 48; 32; 32; 32; 32; 32; 32; 32; 32; 32; 32; 32; 32; 48; 120; 65; 65; 65; 65; 65; 65; 65; 65; 10; 114; 49; 49; 32; 32; 32; 32; 32; 32; 32; 32; 32; 32; 32; 32; 48; 120; 98; 98; 98; 98; 98; 98; 98; 98; 10; 114; 49; 50; 32; 32; 32; 32; 32; 32; 32; 32; 32; 32; 32; 32; 48; 120; 99; 99; 99; 99; 99; 99; 99; 99; 10; 115; 112; 32; 32; 32; 32; 32; 32; 32; 32; 32; 32; 32; 32; 32; 48; 120; 100; 100; 100; 100; 100; 100; 100; 100; 10; 108; 114; 32; 32; 32; 32; 32; 32; 32; 32; 32; 32; 32; 32; 32; 48; 120; 101; 101; 101; 101; 101; 101; 101; 101; 10; 112; 99; 32; 32; 32; 32; 32; 32; 32; 32; 32; 32; 32; 32; 32; 48; 120; 102; 102; 102; 102; 102; 102; 102; 102; 10; 120; 112; 115; 114; 32; 32; 32; 32; 32; 32; 32; 32; 32; 32; 32; 48; 120; 102; 48; 48; 100; 102; 48; 48; 100; 10; 109; 115; 112; 32; 32; 32; 32; 32; 32; 32; 32; 32; 32; 32; 32; 48; 120; 52; 53; 52; 53; 52; 53; 52; 53; 10; 112; 115; 112; 32; 32; 32; 32; 32; 32; 32; 32; 32; 32; 32; 32; 48; 120; 53; 52; 53; 52; 53; 52; 53; 52] deadbeef
  [ok (GdbLogParse test_file);
   text MemorySim_GetMemoryMapXML "<?xml version=""1.0""?><!DOCTYPE memory-map PUBLIC ""+//IDN gnu.org//DTD GDB Memory Map V1.0//EN"" ""http://sourceware.org/gdb/gdb-memory-map.dtd""><memory-map><memory type=""ram"" start=""0x10000000"" length=""0x10""></memory><memory type=""ram"" start=""0x20000000"" length=""0x10""></memory></memory-map>";
   gives (read32 0x10000000) 0x11111111;
   gives (read32 0x10000004) 0x22222222;
   gives (read32 0x10000008) 0x33333333;
   gives (read32 0x1000000c) 0x44444444;
   gives (read32 0x20000000) 0x55555555;
   gives (read32 0x20000004) 0x66666666;
   gives (read32 0x20000008) 0x77777777;
   gives (read32 0x2000000c) 0x88888888;
   registers_are [0; 0; 0x11111111; 0x22222222; 0x33333333; 0x44444444; 0x55555555; 0x66666666; 0x77777777; 0x88888888; 0x99999999; 0xAAAAAAAA; 0xBBBBBBBB; 0xCCCCCCCC; 0xDDDDDDDD; 0xEEEEEEEE; 0xFFFFFFFF; 0xF00DF00D; 0x45454545; 0x54545454; 0; 0; 0; 0; 0; 0; 0; 0; 0; 0; 0; 0; 0; 0; 0; 0; 0; 0; 0; 0; 0; 0; 0; 0; 0; 0; 0; 0; 0; 0; 0; 0; 0; 0]].
Proof. vm_compute. reflexivity. Qed.

Example Log_HaveAllIntegerAndFloatingPointRegisters_ShouldReturnNoRegionsAndSetAllRegisters :
  passes_with [114; 48; 32; 32; 32; 32; 32; 32; 32; 32; 32; 32; 32; 32; 32; 48; 120; 48; 48; 48; 48; 48; 48; 48; 48; 9; 48; 10; 114; 49; 32; 32; 32; 32; 32; 32; 32; 32; 32; 32; 32; 32; 32; 48; 120; 49; 49; 49; 49; 49; 49; 49; 49; 10; 114; 50; 32; 32; 32; 32; 32; 32; 32; 32; 32; 32; 32; 32; 32; 48; 120; 50; 50; 50; 50; 50; 50; 50; 50; 10; 114; 51; 32; 32; 32; 32; 32; 32; 32; 32; 32; 32; 32; 32; 32; 48; 120; 51; 51; 51; 51; 51; 51; 51; 51; 10; 114; 52; 32; 32; 32; 32; 32; 32; 32; 32; 32; 32; 32; 32; 32; 48; 120; 52; 52; 52; 52; 52; 52; 52; 52; 10; 114; 53; 32; 32; 32; 32; 32; 32; 32; 32; 32; 32; 32; 32; 32; 48; 120; 53; 53; 53; 53; 53; 53; 53; 53; 10; 114; 54; 32; 32; 32; 32; 32; 32; 32; 32; 32; 32; 32; 32; 32; 48; 120; 54; 54; 54; 54; 54; 54; 54; 54; 10; 114; 55; 32; 32; 32; 32; 32; 32; 32; 32; 32; 32; 32; 32; 32; 48; 120; 55; 55; 55; 55; 55; 55; 55; 55; 10; 114; 56; 32; 32; 32; 32; 32; 32; 32; 32; 32; 32; 32; 32; 32; 48; 120; 56; 56; 56; 56; 56; 56; 56; 56; 10; 114; 57; 32; 32; 32; 32; 32; 32; 32; 32; 32; 32; 32; 32; 32; 48; 120; 57; 57; 57; 57; 57; 57; 57; 57; 10; 114; 49; 48; 32; 32; 32; 32; 32; 32; 32; 32; 32; 32; 32; 32; 48; 120; 65; 65; 65; 65; 65; 65; 65; 65; 10; 114; 49; 49; 32; 32; 32; 32; 32; 32; 32; 32; 32; 32; 32; 32; 48; 120; 98; 98; 98; 98; 98; 98; 98; 98; 10; 114; 49; 50; 32; 32; 32; 32; 32; 32; 32; 32; 32; 32; 32; 32; 48; 120; 99; 99; 99; 99; 99; 99; 99; 99; 10; 115; 112; 32; 32; 32; 32; 32; 32; 32; 32; 32; 32; 32; 32; 32; 48; 120; 100; 100; 100; 100; 100; 100; 100; 100; 10; 108; 114; 32; 32; 32; 32; 32; 32; 32; 32; 32; 32; 32; 32; 32; 48; 120; 101; 101; 101; 101; 101; 101; 101; 101; 10; 112; 99; 32; 32; 32; 32; 32; 32; 32; 32; 32; 32; 32; 32; 32; 48; 120; 102; 102; 102; 102; 102; 102; 102; 102; 10; 120; 112; 115; 114; 32; 32; 32; 32; 32; 32; 32; 32; 32; 32; 32; 48; 120; 102; 48; 48; 100; 102; 48; 48; 100; 10; 109; 115; 112; 32; 32; 32; 32; 32; 32; 32; 32; 32; 32; 32; 32; 48; 120; 52; 53; 52; 53; 52; 53; 52; 53; 10; 112; 115; 112; 32; 32; 32; 32; 32; 32; 32; 32; 32; 32; 32; 32; 48; 120; 53; 52; 53; 52; 53; 52; 53; 52; 10; 102; 112; 115; 99; 114; 32; 32; 32; 32; 32; 32; 32; 32; 32; 32; 48; 120; 49; 9; 49; 10; 115; 48; 32; 32; 32; 32; 32; 32; 32; 32; 32; 32; 32; 32; 32; 48; 9; 40; 114; 97; 119; 32; 48; 120; 48; 48; 48; 48; 48; 48; 48; 48; 41; 10; 115; 49; 32; 32; 32; 32; 32; 32; 32; 32; 32; 32; 32; 32; 32; 49; 9; 40; 114; 97; 119; 32; 48; 120; 51; 102; 56; 48; 48; 48; 48; 48; 41; 10; 115; 50; 32; 32; 32; 32; 32; 32; 32; 32; 32; 32; 32; 32; 32; 50; 9; 40; 114; 97; 119; 32; 48; 120; 52; 48; 48; 48; 48; 48; 48; 48; 41; 10; 115; 51; 32; 32; 32; 32; 32; 32; 32; 32; 32; 32; 32; 32; 32; 51; 9; 40; 114; 97; 119; 32; 48; 120; 52; 48; 52; 48; 48; 48; 48; 48; 41; 10; 115; 52; 32; 32; 32; 32; 32; 32; 32; 32; 32; 32; 32; 32; 32; 52; 9; 40; 114; 97; 119; 32; 48; 120; 52; 48; 56; 48; 48; 48; 48; 48; 41; 10; 115; 53; 32; 32; 32; 32; 32; 32; 32; 32; 32; 32; 32; 32; 32; 53; 9; 40; 114; 97; 119; 32; 48; 120; 52; 48; 97; 48; 48; 48; 48; 48; 41; 10; 115; 54; 32; 32; 32; 32; 32; 32; 32; 32; 32; 32; 32; 32; 32; 54; 9; 40; 114; 97; 119; 32; 48; 120; 52; 48; 99; 48; 48; 48; 48; 48; 41; 10; 115; 55; 32; 32; 32; 32; 32; 32; 32; 32; 32; 32; 32; 32; 32; 55; 9; 40; 114; 97; 119; 32; 48; 120; 52; 48; 101; 48; 48; 48; 48; 48; 41; 10; 115; 56; 32; 32; 32; 32; 32; 32; 32; 32; 32; 32; 32; 32; 32; 56; 9; 40; 114; 97; 119; 32; 48; 120; 52; 49; 48; 48; 48; 48; 48; 48; 41; 10; 115; 57; 32; 32; 32; 32; 32; 32; 32; 32; 32; 32; 32; 32; 32; 57; 9; 40; 114; 97; 119; 32; 48; 120; 52; 49; 49; 48; 48; 48; 48; 48; 41; 10; 115; 49; 48; 32; 32; 32; 32; 32; 32; 32; 32; 32; 32; 32; 32; 49; 48; 9; 40; 114; 97; 119; 32; 48; 120; 52; 49; 50; 48; 48; 48; 48; 48; 41; 10; 115; 49; 49; 32; 32; 32; 32; 32; 32; 32; 32; 32; 32; 32; 32; 49; 49; 9; 40; 114; 97; 119; 32; 48; 120; 52; 49; 51; 48; 48; 48; 48; 48; 41; 10; 115; 49; 50; 32; 32; 32; 32; 32; 32; 32; 32; 32; 32; 32; 32; 49; 50; 9; 40; 114; 97; 119; 32; 48; 120; 52; 49; 52; 48; 48; 48; 48; 48; 41; 10; 115; 49; 51; 32; 32; 32; 32; 32; 32; 32; 32; 32; 32; 32; 32; 49; 51; 9; 40; 114; 97; 119; 32; 48; 120; 52; 49; 53; 48; 48; 48; 48; 48; 41; 10; 115; 49; 52; 32; 32; 32; 32; 32; 32; 32; 32; 32; 32; 32; 32; 49; 52; 9; 40; 114; 97; 119; 32; 48; 120; 52; 49; 54; 48; 48; 48; 48; 48; 41; 10; 115; 49; 53; 32; 32; 32; 32; 32; 32; 32; 32; 32; 32; 32; 32; 49; 53; 9; 40; 114; 97; 119; 32; 48; 120; 52; 49; 55; 48; 48; 48; 48; 48; 41; 10; 115; 49; 54; 32; 32; 32; 32; 32; 32; 32; 32; 32; 32; 32; 32; 49; 54; 9; 40; 114; 97; 119; 32; 48; 120; 52; 49; 56; 48; 48; 48; 48; 48; 41; 10; 115; 49; 55; 32; 32; 32; 32; 32; 32; 32; 32; 32; 32; 32; 32; 49; 55; 9; 40; 114; 97; 119; 32; 48; 120; 52; 49; 56; 56; 48; 48; 48; 48; 41; 10; 115; 49; 56; 32; 32; 32; 32; 32; 32; 32; 32; 32; 32; 32; 32; 49; 56; 9; 40; 114; 97; 119; 32; 48; 120; 52; 49; 57; 48; 48; 48; 48; 48; 41; 10; 115; 49; 57; 32; 32; 32; 32; 32; 32; 32; 32; 32; 32; 32; 32; 49; 57; 9; 40; 114; 97; 119; 32; 48; 120; 52; 49; 57; 56; 48; 48; 48; 48; 41; 10; 115; 50; 48; 32; 32; 32; 32; 32; 32; 32; 32; 32; 32; 32; 32; 50; 48; 9; 40; 114; 97; 119; 32; 48; 120; 52; 49; 97; 48; 48; 48; 48; 48; 41; 10; 115; 50; 49; 32; 32; 32; 32; 32; 32; 32; 32; 32; 32; 32; 32; 50; 49; 9; 40; 114; 97; 119; 32; 48; 120; 52; 49; 97; 56; 48; 48; 48; 48; 41; 10; 115; 50; 50; 32; 32; 32; 32; 32; 32; 32; 32; 32; 32; 32; 32; 50; 50; 9; 40; 114; 97; 119; 32; 48; 120; 52; 49; 98; 48; 48; 48; 48; 48; 41; 10; 115; 50; 51; 32; 32; 32; 32; 32; 32; 32; 32; 32; 32; 32; 32; 50; 51; 9; 40; 114; 97; 119; 32; 48; 120; 52; 49; 98; 56; 48; 48; 48; 48; 41; 10; 115; 50; 52; 32; 32; 32; 32; 32; 32; 32; 32; 32; 32; 32; 32; 50; 52; 9; 40; 114; 97; 119; 32; 48; 120; 52; 49; 99; 48; 48; 48; 48; 48; 41; 10; 115; 50; 53; 32; 32; 32; 32; 32; 32; 32; 32; 32; 32; 32; 32; 50; 53; 9; 40; 114; 97; 119; 32; 48; 120; 52; 49; 99; 56; 48; 48; 48; 48; 41; 10; 115; 50; 54; 32; 32; 32; 32; 32; 32; 32; 32; 32; 32; 32; 32; 50; 54; 9; 40; 114; 97; 119; 32; 48; 120; 52; 49; 100; 48; 48; 48; 48; 48; 41; 10; 115; 50; 55; 32; 32; 32; 32; 32; 32; 32; 32; 32; 32; 32; 32; 50; 55; 9; 40; 114; 97; 119; 32; 48; 120; 52; 49; 100; 56; 48; 48; 48; 48; 41; 10; 115; 50; 56; 32; 32; 32; 32; 32; 32; 32; 32; 32; 32; 32; 32; 50; 56; 9; 40; 114; 97; 119; 32; 48; 120; 52; 49; 101; 48; 48; 48; 48; 48; 41; 10; 115; 50; 57; 32; 32; 32; 32; 32; 32; 32; 32; 32; 32; 32; 32; 50; 57; 9; 40; 114; 97; 119; 32; 48; 120; 52; 49; 101; 56; 48; 48; 48; 48; 41; 10; 115; 51; 48; 32; 32; 32; 32; 32; 32; 32; 32; 32; 32; 32; 32; 51; 48; 9; 40; 114; 97; 119; 32; 48; 120; 52; 49; 102; 48; 48; 48; 48; 48; 41; 10; 115; 51; 49; 32; 32; 32; 32; 32; 32; 32; 32; 32; 32; 32; 32; 51; 49; 9; 40; 114; 97; 119; 32; 48; 120; 52; 49; 102; 56; 48; 48; 48; 48; 41] deadbeef
  [ok (GdbLogParse test_file);
   text MemorySim_GetMemoryMapXML "<?xml version=""1.0""?><!DOCTYPE memory-map PUBLIC ""+//IDN gnu.org//DTD GDB Memory Map V1.0//EN"" ""http://sourceware.org/gdb/gdb-memory-map.dtd""><memory-map></memory-map>";
   registers_are [1; 0; 0x11111111; 0x22222222; 0x33333333; 0x44444444; 0x55555555; 0x66666666; 0x77777777; 0x88888888; 0x99999999; 0xAAAAAAAA; 0xBBBBBBBB; 0xCCCCCCCC; 0xDDDDDDDD; 0xEEEEEEEE; 0xFFFFFFFF; 0xF00DF00D; 0x45454545; 0x54545454; 0; 0; 0x3F800000; 0x40000000; 0x40400000; 0x40800000; 0x40A00000; 0x40C00000; 0x40E00000; 0x41000000; 0x41100000; 0x41200000; 0x41300000; 0x41400000; 0x41500000; 0x41600000; 0x41700000; 0x41800000; 0x41880000; 0x41900000; 0x41980000; 0x41A00000; 0x41A80000; 0x41B00000; 0x41B80000; 0x41C00000; 0x41C80000; 0x41D00000; 0x41D80000; 0x41E00000; 0x41E80000; 0x41F00000; 0x41F80000; 1]].
Proof. vm_compute. reflexivity. Qed.

Example Log_FloatingPointValueWithMissingRawValue_ShouldSetRegisterToNegativeOne :
  passes_with [115; 48; 32; 32; 32; 32; 32; 32; 32; 32; 32; 32; 32; 32; 32; 53; 53] deadbeef
  [ok (GdbLogParse test_file);
   text MemorySim_GetMemoryMapXML "<?xml version=""1.0""?><!DOCTYPE memory-map PUBLIC ""+//IDN gnu.org//DTD GDB Memory Map V1.0//EN"" ""http://sourceware.org/gdb/gdb-memory-map.dtd""><memory-map></memory-map>";
   registers_are [1; 0xDEADBEEF; 0xDEADBEEF; 0xDEADBEEF; 0xDEADBEEF; 0xDEADBEEF; 0xDEADBEEF; 0xDEADBEEF; 0xDEADBEEF; 0xDEADBEEF; 0xDEADBEEF; 0xDEADBEEF; 0xDEADBEEF; 0xDEADBEEF; 0xDEADBEEF; 0xDEADBEEF; 0xDEADBEEF; 0xDEADBEEF; 0xBAADBAAD; 0xBAADBAAD; 0; 0xFFFFFFFF; 0; 0; 0; 0; 0; 0; 0; 0; 0; 0; 0; 0; 0; 0; 0; 0; 0; 0; 0; 0; 0; 0; 0; 0; 0; 0; 0; 0; 0; 0; 0; 0]].
Proof. vm_compute. reflexivity. Qed.
