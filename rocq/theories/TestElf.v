(** The unit tests libCrashDebug/tests/ElfLoadTest.cpp, transcribed and run on the model.  Tests of the
    model, not proofs of properties. *)
From Coq Require Import String ZArith List Bool.
From Verif Require Import Base World MemSim MemSpec MemEx Context Elf TestLib.
Import ListNotations.
Open Scope Z_scope.
Open Scope string_scope.

Example Elf_ElfSmallerThanHeaderByOneByte_ShouldThrow :
  passes [throws_msg (ElfLoad_FromMemory [255; 255; 255; 255; 255; 255; 255; 255; 255; 255; 255; 255; 255; 255; 255; 255; 255; 255; 255; 255; 255; 255; 255; 255; 255; 255; 255; 255; 255; 255; 255; 255; 255; 255; 255; 255; 255; 255; 255; 255; 255; 255; 255; 255; 255; 255; 255; 255; 255; 255; 255]) elfFormatException "ELF was too short to contain valid header."].
Proof. vm_compute. reflexivity. Qed.

Example Elf_FirstByteOfElfIdentWrong_ShouldThrow :
  passes [throws_msg (ElfLoad_FromMemory [128; 69; 76; 70; 1; 1; 0; 0; 0; 0; 0; 0; 0; 0; 0; 0; 2; 0; 0; 0; 0; 0; 0; 0; 0; 0; 0; 0; 52; 0; 0; 0; 0; 0; 0; 0; 0; 0; 0; 0; 0; 0; 32; 0; 1; 0; 0; 0; 0; 0; 0; 0; 1; 0; 0; 0; 84; 0; 0; 0; 0; 0; 0; 0; 0; 0; 0; 0; 8; 0; 0; 0; 8; 0; 0; 0; 5; 0; 0; 0; 0; 0; 0; 0; 0; 128; 0; 16; 0; 1; 0; 0]) elfFormatException "ELF header doesn't start with expected magic ELF identifier."].
Proof. vm_compute. reflexivity. Qed.

Example Elf_LastByteOfElfIdentWrong_ShouldThrow :
  passes [throws_msg (ElfLoad_FromMemory [127; 69; 76; 69; 1; 1; 0; 0; 0; 0; 0; 0; 0; 0; 0; 0; 2; 0; 0; 0; 0; 0; 0; 0; 0; 0; 0; 0; 52; 0; 0; 0; 0; 0; 0; 0; 0; 0; 0; 0; 0; 0; 32; 0; 1; 0; 0; 0; 0; 0; 0; 0; 1; 0; 0; 0; 84; 0; 0; 0; 0; 0; 0; 0; 0; 0; 0; 0; 8; 0; 0; 0; 8; 0; 0; 0; 5; 0; 0; 0; 0; 0; 0; 0; 0; 128; 0; 16; 0; 1; 0; 0]) elfFormatException "ELF header doesn't start with expected magic ELF identifier."].
Proof. vm_compute. reflexivity. Qed.

Example Elf_ElfHeaderClassTypeNot32Bit_ShouldThrow :
  passes [throws_msg (ElfLoad_FromMemory [127; 69; 76; 70; 2; 1; 0; 0; 0; 0; 0; 0; 0; 0; 0; 0; 2; 0; 0; 0; 0; 0; 0; 0; 0; 0; 0; 0; 52; 0; 0; 0; 0; 0; 0; 0; 0; 0; 0; 0; 0; 0; 32; 0; 1; 0; 0; 0; 0; 0; 0; 0; 1; 0; 0; 0; 84; 0; 0; 0; 0; 0; 0; 0; 0; 0; 0; 0; 8; 0; 0; 0; 8; 0; 0; 0; 5; 0; 0; 0; 0; 0; 0; 0; 0; 128; 0; 16; 0; 1; 0; 0]) elfFormatException "ELF header doesn't contain 32-bit flag."].
Proof. vm_compute. reflexivity. Qed.

Example Elf_ElfHeaderDataTypeNotLSB_ShouldThrow :
  passes [throws_msg (ElfLoad_FromMemory [127; 69; 76; 70; 1; 2; 0; 0; 0; 0; 0; 0; 0; 0; 0; 0; 2; 0; 0; 0; 0; 0; 0; 0; 0; 0; 0; 0; 52; 0; 0; 0; 0; 0; 0; 0; 0; 0; 0; 0; 0; 0; 32; 0; 1; 0; 0; 0; 0; 0; 0; 0; 1; 0; 0; 0; 84; 0; 0; 0; 0; 0; 0; 0; 0; 0; 0; 0; 8; 0; 0; 0; 8; 0; 0; 0; 5; 0; 0; 0; 0; 0; 0; 0; 0; 128; 0; 16; 0; 1; 0; 0]) elfFormatException "ELF header doesn't contain little endian flag."].
Proof. vm_compute. reflexivity. Qed.

Example Elf_ElfHeaderNotExecutableType_ShouldThrow :
  passes [throws_msg (ElfLoad_FromMemory [127; 69; 76; 70; 1; 1; 0; 0; 0; 0; 0; 0; 0; 0; 0; 0; 3; 0; 0; 0; 0; 0; 0; 0; 0; 0; 0; 0; 52; 0; 0; 0; 0; 0; 0; 0; 0; 0; 0; 0; 0; 0; 32; 0; 1; 0; 0; 0; 0; 0; 0; 0; 1; 0; 0; 0; 84; 0; 0; 0; 0; 0; 0; 0; 0; 0; 0; 0; 8; 0; 0; 0; 8; 0; 0; 0; 5; 0; 0; 0; 0; 0; 0; 0; 0; 128; 0; 16; 0; 1; 0; 0]) elfFormatException "ELF header doesn't contain executable flag."].
Proof. vm_compute. reflexivity. Qed.

Example Elf_ElfHeaderWithPageHeaderOffsetOfZero_ShouldThrow :
  passes [throws_msg (ElfLoad_FromMemory [127; 69; 76; 70; 1; 1; 0; 0; 0; 0; 0; 0; 0; 0; 0; 0; 2; 0; 0; 0; 0; 0; 0; 0; 0; 0; 0; 0; 0; 0; 0; 0; 0; 0; 0; 0; 0; 0; 0; 0; 0; 0; 32; 0; 1; 0; 0; 0; 0; 0; 0; 0; 1; 0; 0; 0; 84; 0; 0; 0; 0; 0; 0; 0; 0; 0; 0; 0; 8; 0; 0; 0; 8; 0; 0; 0; 5; 0; 0; 0; 0; 0; 0; 0; 0; 128; 0; 16; 0; 1; 0; 0]) elfFormatException "ELF header contains an invalid offset of 0 for the page headers."].
Proof. vm_compute. reflexivity. Qed.

Example Elf_ElfHeaderWithPageHeaderEntryCountOfZero_ShouldThrow :
  passes [throws_msg (ElfLoad_FromMemory [127; 69; 76; 70; 1; 1; 0; 0; 0; 0; 0; 0; 0; 0; 0; 0; 2; 0; 0; 0; 0; 0; 0; 0; 0; 0; 0; 0; 52; 0; 0; 0; 0; 0; 0; 0; 0; 0; 0; 0; 0; 0; 32; 0; 0; 0; 0; 0; 0; 0; 0; 0; 1; 0; 0; 0; 84; 0; 0; 0; 0; 0; 0; 0; 0; 0; 0; 0; 8; 0; 0; 0; 8; 0; 0; 0; 5; 0; 0; 0; 0; 0; 0; 0; 0; 128; 0; 16; 0; 1; 0; 0]) elfFormatException "ELF header contains an invalid page header entry count of 0."].
Proof. vm_compute. reflexivity. Qed.

Example Elf_ElfHeaderWithPageHeaderSizeSmallerThanExpected_ShouldThrow :
  passes [throws_msg (ElfLoad_FromMemory [127; 69; 76; 70; 1; 1; 0; 0; 0; 0; 0; 0; 0; 0; 0; 0; 2; 0; 0; 0; 0; 0; 0; 0; 0; 0; 0; 0; 52; 0; 0; 0; 0; 0; 0; 0; 0; 0; 0; 0; 0; 0; 31; 0; 1; 0; 0; 0; 0; 0; 0; 0; 1; 0; 0; 0; 84; 0; 0; 0; 0; 0; 0; 0; 0; 0; 0; 0; 8; 0; 0; 0; 8; 0; 0; 0; 5; 0; 0; 0; 0; 0; 0; 0; 0; 128; 0; 16; 0; 1; 0; 0]) elfFormatException "ELF header contains a page header entry size of 31, which is smaller than the expected size of 32."].
Proof. vm_compute. reflexivity. Qed.

Example Elf_FirstPageHeaderEntryStartsOutOfBounds_ShouldThrow :
  passes [throws_msg (ElfLoad_FromMemory [127; 69; 76; 70; 1; 1; 0; 0; 0; 0; 0; 0; 0; 0; 0; 0; 2; 0; 0; 0; 0; 0; 0; 0; 0; 0; 0; 0; 52; 0; 0; 0; 0; 0; 0; 0; 0; 0; 0; 0; 0; 0; 32; 0; 1; 0; 0; 0; 0; 0; 0; 0]) elfFormatException "ELF page header entry 0 is at an invalid file offset of 52."].
Proof. vm_compute. reflexivity. Qed.

Example Elf_FirstPageHeaderEntryEndsOutOfBounds_ShouldThrow :
  passes [throws_msg (ElfLoad_FromMemory [127; 69; 76; 70; 1; 1; 0; 0; 0; 0; 0; 0; 0; 0; 0; 0; 2; 0; 0; 0; 0; 0; 0; 0; 0; 0; 0; 0; 52; 0; 0; 0; 0; 0; 0; 0; 0; 0; 0; 0; 0; 0; 32; 0; 1; 0; 0; 0; 0; 0; 0; 0; 1; 0; 0; 0; 84; 0; 0; 0; 0; 0; 0; 0; 0; 0; 0; 0; 8; 0; 0; 0; 8; 0; 0; 0; 5; 0; 0; 0; 0; 0; 0]) elfFormatException "ELF page header entry 0 is at an invalid file offset of 52."].
Proof. vm_compute. reflexivity. Qed.

Example Elf_NoPageEntryIsLoadable_ShouldThrow :
  passes [throws_msg (ElfLoad_FromMemory [127; 69; 76; 70; 1; 1; 0; 0; 0; 0; 0; 0; 0; 0; 0; 0; 2; 0; 0; 0; 0; 0; 0; 0; 0; 0; 0; 0; 52; 0; 0; 0; 0; 0; 0; 0; 0; 0; 0; 0; 0; 0; 32; 0; 1; 0; 0; 0; 0; 0; 0; 0; 2; 0; 0; 0; 84; 0; 0; 0; 0; 0; 0; 0; 0; 0; 0; 0; 8; 0; 0; 0; 8; 0; 0; 0; 5; 0; 0; 0; 0; 0; 0; 0; 0; 128; 0; 16; 0; 1; 0; 0]) elfFormatException "ELF contained no entries which were loadable and had a valid non-zero filesz <= to memsz."].
Proof. vm_compute. reflexivity. Qed.

Example Elf_NoPageEntryHasNonZeroFileSize_ShouldThrow :
  passes [throws_msg (ElfLoad_FromMemory [127; 69; 76; 70; 1; 1; 0; 0; 0; 0; 0; 0; 0; 0; 0; 0; 2; 0; 0; 0; 0; 0; 0; 0; 0; 0; 0; 0; 52; 0; 0; 0; 0; 0; 0; 0; 0; 0; 0; 0; 0; 0; 32; 0; 1; 0; 0; 0; 0; 0; 0; 0; 1; 0; 0; 0; 84; 0; 0; 0; 0; 0; 0; 0; 0; 0; 0; 0; 0; 0; 0; 0; 8; 0; 0; 0; 5; 0; 0; 0; 0; 0; 0; 0; 0; 128; 0; 16; 0; 1; 0; 0]) elfFormatException "ELF contained no entries which were loadable and had a valid non-zero filesz <= to memsz."].
Proof. vm_compute. reflexivity. Qed.

Example Elf_NoPageEntryHasMemSizeGreaterThanOrEqualToFileSize_ShouldThrow :
  passes [throws_msg (ElfLoad_FromMemory [127; 69; 76; 70; 1; 1; 0; 0; 0; 0; 0; 0; 0; 0; 0; 0; 2; 0; 0; 0; 0; 0; 0; 0; 0; 0; 0; 0; 52; 0; 0; 0; 0; 0; 0; 0; 0; 0; 0; 0; 0; 0; 32; 0; 1; 0; 0; 0; 0; 0; 0; 0; 1; 0; 0; 0; 84; 0; 0; 0; 0; 0; 0; 0; 0; 0; 0; 0; 8; 0; 0; 0; 7; 0; 0; 0; 5; 0; 0; 0; 0; 0; 0; 0; 0; 128; 0; 16; 0; 1; 0; 0]) elfFormatException "ELF contained no entries which were loadable and had a valid non-zero filesz <= to memsz."].
Proof. vm_compute. reflexivity. Qed.

Example Elf_PageEntryOffsetIsOverflows_ShouldThrow :
  passes [throws_msg (ElfLoad_FromMemory [127; 69; 76; 70; 1; 1; 0; 0; 0; 0; 0; 0; 0; 0; 0; 0; 2; 0; 0; 0; 0; 0; 0; 0; 0; 0; 0; 0; 52; 0; 0; 0; 0; 0; 0; 0; 0; 0; 0; 0; 0; 0; 32; 0; 1; 0; 0; 0; 0; 0; 0; 0; 1; 0; 0; 0; 92; 0; 0; 0; 0; 0; 0; 0; 0; 0; 0; 0; 8; 0; 0; 0; 8; 0; 0; 0; 5; 0; 0; 0; 0; 0; 0; 0; 0; 128; 0; 16; 0; 1; 0; 0]) elfFormatException "ELF failed to load entry from file at offsets 92 to 99."].
Proof. vm_compute. reflexivity. Qed.

Example Elf_PageEntryFileSizeOverflows_ShouldThrow :
  passes [throws_msg (ElfLoad_FromMemory [127; 69; 76; 70; 1; 1; 0; 0; 0; 0; 0; 0; 0; 0; 0; 0; 2; 0; 0; 0; 0; 0; 0; 0; 0; 0; 0; 0; 52; 0; 0; 0; 0; 0; 0; 0; 0; 0; 0; 0; 0; 0; 32; 0; 1; 0; 0; 0; 0; 0; 0; 0; 1; 0; 0; 0; 84; 0; 0; 0; 0; 0; 0; 0; 0; 0; 0; 0; 9; 0; 0; 0; 9; 0; 0; 0; 5; 0; 0; 0; 0; 0; 0; 0; 0; 128; 0; 16; 0; 1; 0; 0]) elfFormatException "ELF failed to load entry from file at offsets 84 to 92."].
Proof. vm_compute. reflexivity. Qed.

Example Elf_LoadFromFirstAndOnlyProgramHeaderEntry_ValidateMemoryContents :
  passes [ok (ElfLoad_FromMemory [127; 69; 76; 70; 1; 1; 0; 0; 0; 0; 0; 0; 0; 0; 0; 0; 2; 0; 0; 0; 0; 0; 0; 0; 0; 0; 0; 0; 52; 0; 0; 0; 0; 0; 0; 0; 0; 0; 0; 0; 0; 0; 32; 0; 1; 0; 0; 0; 0; 0; 0; 0; 1; 0; 0; 0; 84; 0; 0; 0; 0; 0; 0; 0; 0; 0; 0; 0; 8; 0; 0; 0; 8; 0; 0; 0; 5; 0; 0; 0; 0; 0; 0; 0; 0; 128; 0; 16; 0; 1; 0; 0]);
   gives (read32 0) 0x10008000;
   gives (read32 4) 256].
Proof. vm_compute. reflexivity. Qed.

Example Elf_NonZeroPhysicalAddressDifferentThanZeroVirtualAddress_ValidateMemoryContents :
  passes [ok (ElfLoad_FromMemory [127; 69; 76; 70; 1; 1; 0; 0; 0; 0; 0; 0; 0; 0; 0; 0; 2; 0; 0; 0; 0; 0; 0; 0; 0; 0; 0; 0; 52; 0; 0; 0; 0; 0; 0; 0; 0; 0; 0; 0; 0; 0; 32; 0; 1; 0; 0; 0; 0; 0; 0; 0; 1; 0; 0; 0; 84; 0; 0; 0; 0; 0; 0; 0; 0; 0; 0; 16; 8; 0; 0; 0; 8; 0; 0; 0; 5; 0; 0; 0; 0; 0; 0; 0; 0; 128; 0; 16; 0; 1; 0; 0]);
   gives (read32 0x10000000) 0x10008000;
   gives (read32 0x10000004) 256].
Proof. vm_compute. reflexivity. Qed.

Example Elf_WriteablePageEntry_ValidateMemoryContents :
  passes [ok (ElfLoad_FromMemory [127; 69; 76; 70; 1; 1; 0; 0; 0; 0; 0; 0; 0; 0; 0; 0; 2; 0; 0; 0; 0; 0; 0; 0; 0; 0; 0; 0; 52; 0; 0; 0; 0; 0; 0; 0; 0; 0; 0; 0; 0; 0; 32; 0; 1; 0; 0; 0; 0; 0; 0; 0; 1; 0; 0; 0; 84; 0; 0; 0; 0; 0; 0; 0; 0; 0; 0; 16; 8; 0; 0; 0; 8; 0; 0; 0; 7; 0; 0; 0; 0; 0; 0; 0; 0; 128; 0; 16; 0; 1; 0; 0]);
   gives (read32 0x10000000) 0x10008000;
   gives (read32 0x10000004) 256].
Proof. vm_compute. reflexivity. Qed.

Example Elf_ReadOnlyNonExecutablePageEntry_ValidateMemoryContents :
  passes [ok (ElfLoad_FromMemory [127; 69; 76; 70; 1; 1; 0; 0; 0; 0; 0; 0; 0; 0; 0; 0; 2; 0; 0; 0; 0; 0; 0; 0; 0; 0; 0; 0; 52; 0; 0; 0; 0; 0; 0; 0; 0; 0; 0; 0; 0; 0; 32; 0; 1; 0; 0; 0; 0; 0; 0; 0; 1; 0; 0; 0; 84; 0; 0; 0; 0; 0; 0; 0; 0; 0; 0; 0; 8; 0; 0; 0; 8; 0; 0; 0; 4; 0; 0; 0; 0; 0; 0; 0; 0; 128; 0; 16; 0; 1; 0; 0]);
   gives (read32 0) 0x10008000;
   gives (read32 4) 256].
Proof. vm_compute. reflexivity. Qed.

Example Elf_FileSizeSmallerThanMemSize_ValidateMemoryContents_ShouldTruncateToFileSize :
  passes [ok (ElfLoad_FromMemory [127; 69; 76; 70; 1; 1; 0; 0; 0; 0; 0; 0; 0; 0; 0; 0; 2; 0; 0; 0; 0; 0; 0; 0; 0; 0; 0; 0; 52; 0; 0; 0; 0; 0; 0; 0; 0; 0; 0; 0; 0; 0; 32; 0; 1; 0; 0; 0; 0; 0; 0; 0; 1; 0; 0; 0; 84; 0; 0; 0; 0; 0; 0; 0; 0; 0; 0; 0; 4; 0; 0; 0; 8; 0; 0; 0; 5; 0; 0; 0; 0; 0; 0; 0; 0; 128; 0; 16; 0; 1; 0; 0]);
   gives (read32 0) 0x10008000;
   throws_msg (read32 4) busErrorException ""].
Proof. vm_compute. reflexivity. Qed.

Example Elf_LoadFromSecondProgramHeaderEntry_ValidateMemoryContents :
  passes [ok (ElfLoad_FromMemory [127; 69; 76; 70; 1; 1; 0; 0; 0; 0; 0; 0; 0; 0; 0; 0; 2; 0; 0; 0; 0; 0; 0; 0; 0; 0; 0; 0; 52; 0; 0; 0; 0; 0; 0; 0; 0; 0; 0; 0; 0; 0; 32; 0; 2; 0; 0; 0; 0; 0; 0; 0; 0; 0; 0; 0; 0; 0; 0; 0; 0; 0; 0; 0; 0; 0; 0; 0; 0; 0; 0; 0; 0; 0; 0; 0; 0; 0; 0; 0; 0; 0; 0; 0; 1; 0; 0; 0; 116; 0; 0; 0; 0; 0; 0; 0; 0; 0; 0; 0; 8; 0; 0; 0; 8; 0; 0; 0; 5; 0; 0; 0; 0; 0; 0; 0; 0; 128; 0; 16; 0; 1; 0; 0]);
   gives (read32 0) 0x10008000;
   gives (read32 4) 256].
Proof. vm_compute. reflexivity. Qed.

Example Elf_LoadFromSecondProgramHeaderEntryWithNonStandardEntrySize_ValidateMemoryContents :
  passes [ok (ElfLoad_FromMemory [127; 69; 76; 70; 1; 1; 0; 0; 0; 0; 0; 0; 0; 0; 0; 0; 2; 0; 0; 0; 0; 0; 0; 0; 0; 0; 0; 0; 52; 0; 0; 0; 0; 0; 0; 0; 0; 0; 0; 0; 0; 0; 36; 0; 2; 0; 0; 0; 0; 0; 0; 0; 0; 0; 0; 0; 0; 0; 0; 0; 0; 0; 0; 0; 0; 0; 0; 0; 0; 0; 0; 0; 0; 0; 0; 0; 0; 0; 0; 0; 0; 0; 0; 0; 0; 0; 0; 0; 1; 0; 0; 0; 124; 0; 0; 0; 0; 0; 0; 0; 0; 0; 0; 0; 8; 0; 0; 0; 8; 0; 0; 0; 5; 0; 0; 0; 0; 0; 0; 0; 0; 0; 0; 0; 255; 255; 255; 255; 0; 0; 0; 0]);
   gives (read32 0) 0xFFFFFFFF;
   gives (read32 4) 0].
Proof. vm_compute. reflexivity. Qed.
