(** The unit tests libCrashDebug/tests/CrashDebugCommandLineTests.cpp, transcribed and run on the model.
    Tests of the model, not proofs of properties. *)
From Coq Require Import String ZArith List Bool.
From Verif Require Import Base World MemSim MemSpec MemEx Context CmdLine MainProg TestLib.
Import ListNotations.
Open Scope Z_scope.
Open Scope string_scope.

(** validateExceptionThrownAndUsageStringDisplayed: code, message, and the first six characters of the
    last three error outputs. *)
Definition fails_to_start (args : list string) (c : Z) (msg : string) : tstep :=
  fun w => match api (CrashDebugCommandLine_Init (map s2b args)) w with
           | Raised x w' =>
               match w_err w' with
               | o1 :: o2 :: o3 :: _ =>
                   if (x =? c)%Z && bytes_eqb (w_msg w') (s2b msg) && bytes_eqb (firstn 6 o3) (s2b "ERROR:") &&
                      bytes_eqb (firstn 6 o2) (10 :: s2b "Crash") && bytes_eqb (firstn 6 o1) (s2b "Usage:")
                   then Some (set_exn w' noException []) else None
               | _ => None
               end
           | _ => None
           end.
Definition starts (args : list string) : tstep := ok (CrashDebugCommandLine_Init (map s2b args)).
(** checkRegisters *)
Definition integer_registers_are (l : list Z) : tstep :=
  fun w => if bytes_eqb (slice (w_ctx w) 4 76) (flat_map (le 4) l) then Some w else None.
(** teardown; [false] if the command line holds no memory object. *)
Definition uninit (has : bool) : tstep := ok (CrashDebugCommandLine_Uninit has).

Definition elf_0 : list Z := [127; 69; 76; 70; 1; 1; 0; 0; 0; 0; 0; 0; 0; 0; 0; 0; 2; 0; 0; 0; 0; 0; 0; 0; 0; 0; 0; 0; 52; 0; 0; 0; 0; 0; 0; 0; 0; 0; 0; 0; 0; 0; 32; 0; 1; 0; 0; 0; 0; 0; 0; 0; 1; 0; 0; 0; 84; 0; 0; 0; 0; 0; 0; 0; 0; 0; 0; 0; 8; 0; 0; 0; 8; 0; 0; 0; 5; 0; 0; 0; 0; 0; 0; 0; 4; 0; 0; 16; 0; 1; 0; 0].
Definition elf_bad : list Z := [128; 69; 76; 70; 1; 1; 0; 0; 0; 0; 0; 0; 0; 0; 0; 0; 2; 0; 0; 0; 0; 0; 0; 0; 0; 0; 0; 0; 52; 0; 0; 0; 0; 0; 0; 0; 0; 0; 0; 0; 0; 0; 32; 0; 1; 0; 0; 0; 0; 0; 0; 0; 1; 0; 0; 0; 84; 0; 0; 0; 0; 0; 0; 0; 0; 0; 0; 0; 8; 0; 0; 0; 8; 0; 0; 0; 5; 0; 0; 0; 0; 0; 0; 0; 4; 0; 0; 16; 0; 1; 0; 0].
Definition elf_4000 : list Z := [127; 69; 76; 70; 1; 1; 0; 0; 0; 0; 0; 0; 0; 0; 0; 0; 2; 0; 0; 0; 0; 0; 0; 0; 0; 0; 0; 0; 52; 0; 0; 0; 0; 0; 0; 0; 0; 0; 0; 0; 0; 0; 32; 0; 1; 0; 0; 0; 0; 0; 0; 0; 1; 0; 0; 0; 84; 0; 0; 0; 0; 0; 0; 0; 0; 64; 0; 0; 8; 0; 0; 0; 8; 0; 0; 0; 5; 0; 0; 0; 0; 0; 0; 0; 4; 0; 0; 16; 0; 1; 0; 0].
Definition dir : list (string * list Z) :=
  [("image.bin", [4; 0; 0; 16; 0; 1; 0; 0]);
   ("gdb_v2.txt", [48; 120; 49; 48; 48; 48; 48; 48; 48; 48; 58; 9; 48; 120; 49; 49; 49; 49; 49; 49; 49; 49; 9; 48; 120; 50; 50; 50; 50; 50; 50; 50; 50; 9; 48; 120; 51; 51; 51; 51; 51; 51; 51; 51; 9; 48; 120; 52; 52; 52; 52; 52; 52; 52; 52; 10; 114; 48; 32; 32; 32; 32; 32; 32; 32; 32; 32; 32; 32; 32; 32; 48; 120; 53; 97; 53; 97; 53; 97; 53; 97; 9; 48; 10; 114; 49; 32; 32; 32; 32; 32; 32; 32; 32; 32; 32; 32; 32; 32; 48; 120; 49; 49; 49; 49; 49; 49; 49; 49; 10; 114; 50; 32; 32; 32; 32; 32; 32; 32; 32; 32; 32; 32; 32; 32; 48; 120; 50; 50; 50; 50; 50; 50; 50; 50; 10; 114; 51; 32; 32; 32; 32; 32; 32; 32; 32; 32; 32; 32; 32; 32; 48; 120; 51; 51; 51; 51; 51; 51; 51; 51; 10; 114; 52; 32; 32; 32; 32; 32; 32; 32; 32; 32; 32; 32; 32; 32; 48; 120; 52; 52; 52; 52; 52; 52; 52; 52; 10; 114; 53; 32; 32; 32; 32; 32; 32; 32; 32; 32; 32; 32; 32; 32; 48; 120; 53; 53; 53; 53; 53; 53; 53; 53; 10; 114; 54; 32; 32; 32; 32; 32; 32; 32; 32; 32; 32; 32; 32; 32; 48; 120; 54; 54; 54; 54; 54; 54; 54; 54; 10; 114; 55; 32; 32; 32; 32; 32; 32; 32; 32; 32; 32; 32; 32; 32; 48; 120; 55; 55; 55; 55; 55; 55; 55; 55; 10; 114; 56; 32; 32; 32; 32; 32; 32; 32; 32; 32; 32; 32; 32; 32; 48; 120; 56; 56; 56; 56; 56; 56; 56; 56; 10; 114; 57; 32; 32; 32; 32; 32; 32; 32; 32; 32; 32; 32; 32; 32; 48; 120; 57; 57; 57; 57; 57; 57; 57; 57; 10; 114; 49; 48; 32; 32; 32; 32; 32; 32; 32; 32; 32; 32; 32; 32; 48; 120; 65; 65; 65; 65; 65; 65; 65; 65; 10; 114; 49; 49; 32; 32; 32; 32; 32; 32; 32; 32; 32; 32; 32; 32; 48; 120; 98; 98; 98; 98; 98; 98; 98; 98; 10; 114; 49; 50; 32; 32; 32; 32; 32; 32; 32; 32; 32; 32; 32; 32; 48; 120; 99; 99; 99; 99; 99; 99; 99; 99; 10; 115; 112; 32; 32; 32; 32; 32; 32; 32; 32; 32; 32; 32; 32; 32; 48; 120; 100; 100; 100; 100; 100; 100; 100; 100; 10; 108; 114; 32; 32; 32; 32; 32; 32; 32; 32; 32; 32; 32; 32; 32; 48; 120; 101; 101; 101; 101; 101; 101; 101; 101; 10; 112; 99; 32; 32; 32; 32; 32; 32; 32; 32; 32; 32; 32; 32; 32; 48; 120; 102; 102; 102; 102; 102; 102; 102; 102; 10; 120; 112; 115; 114; 32; 32; 32; 32; 32; 32; 32; 32; 32; 32; 32; 48; 120; 102; 48; 48; 100; 102; 48; 48; 100; 10; 0]);
   ("gdb_v3.txt", [48; 120; 49; 48; 48; 48; 48; 48; 48; 48; 58; 9; 48; 120; 49; 49; 49; 49; 49; 49; 49; 49; 9; 48; 120; 50; 50; 50; 50; 50; 50; 50; 50; 9; 48; 120; 51; 51; 51; 51; 51; 51; 51; 51; 9; 48; 120; 52; 52; 52; 52; 52; 52; 52; 52; 10; 114; 48; 32; 32; 32; 32; 32; 32; 32; 32; 32; 32; 32; 32; 32; 48; 120; 53; 97; 53; 97; 53; 97; 53; 97; 9; 48; 10; 114; 49; 32; 32; 32; 32; 32; 32; 32; 32; 32; 32; 32; 32; 32; 48; 120; 49; 49; 49; 49; 49; 49; 49; 49; 10; 114; 50; 32; 32; 32; 32; 32; 32; 32; 32; 32; 32; 32; 32; 32; 48; 120; 50; 50; 50; 50; 50; 50; 50; 50; 10; 114; 51; 32; 32; 32; 32; 32; 32; 32; 32; 32; 32; 32; 32; 32; 48; 120; 51; 51; 51; 51; 51; 51; 51; 51; 10; 114; 52; 32; 32; 32; 32; 32; 32; 32; 32; 32; 32; 32; 32; 32; 48; 120; 52; 52; 52; 52; 52; 52; 52; 52; 10; 114; 53; 32; 32; 32; 32; 32; 32; 32; 32; 32; 32; 32; 32; 32; 48; 120; 53; 53; 53; 53; 53; 53; 53; 53; 10; 114; 54; 32; 32; 32; 32; 32; 32; 32; 32; 32; 32; 32; 32; 32; 48; 120; 54; 54; 54; 54; 54; 54; 54; 54; 10; 114; 55; 32; 32; 32; 32; 32; 32; 32; 32; 32; 32; 32; 32; 32; 48; 120; 55; 55; 55; 55; 55; 55; 55; 55; 10; 114; 56; 32; 32; 32; 32; 32; 32; 32; 32; 32; 32; 32; 32; 32; 48; 120; 56; 56; 56; 56; 56; 56; 56; 56; 10; 114; 57; 32; 32; 32; 32; 32; 32; 32; 32; 32; 32; 32; 32; 32; 48; 120; 57; 57; 57; 57; 57; 57; 57; 57; 10; 114; 49; 48; 32; 32; 32; 32; 32; 32; 32; 32; 32; 32; 32; 32; 48; 120; 65; 65; 65; 65; 65; 65; 65; 65; 10; 114; 49; 49; 32; 32; 32; 32; 32; 32; 32; 32; 32; 32; 32; 32; 48; 120; 98; 98; 98; 98; 98; 98; 98; 98; 10; 114; 49; 50; 32; 32; 32; 32; 32; 32; 32; 32; 32; 32; 32; 32; 48; 120; 99; 99; 99; 99; 99; 99; 99; 99; 10; 115; 112; 32; 32; 32; 32; 32; 32; 32; 32; 32; 32; 32; 32; 32; 48; 120; 100; 100; 100; 100; 100; 100; 100; 100; 10; 108; 114; 32; 32; 32; 32; 32; 32; 32; 32; 32; 32; 32; 32; 32; 48; 120; 101; 101; 101; 101; 101; 101; 101; 101; 10; 112; 99; 32; 32; 32; 32; 32; 32; 32; 32; 32; 32; 32; 32; 32; 48; 120; 102; 102; 102; 102; 102; 102; 102; 102; 10; 120; 112; 115; 114; 32; 32; 32; 32; 32; 32; 32; 32; 32; 32; 32; 48; 120; 102; 48; 48; 100; 102; 48; 48; 100; 10; 109; 115; 112; 32; 32; 32; 32; 32; 32; 32; 32; 32; 32; 32; 32; 48; 120; 97; 53; 97; 53; 97; 53; 97; 53; 10; 112; 115; 112; 32; 32; 32; 32; 32; 32; 32; 32; 32; 32; 32; 32; 48; 120; 98; 99; 98; 99; 98; 99; 98; 99; 10; 0]);
   ("crash_v2.txt", [54; 51; 52; 51; 48; 50; 48; 48; 13; 10; 48; 48; 48; 48; 48; 48; 48; 48; 13; 10; 53; 97; 53; 97; 53; 97; 53; 97; 49; 49; 49; 49; 49; 49; 49; 49; 50; 50; 50; 50; 50; 50; 50; 50; 51; 51; 51; 51; 51; 51; 51; 51; 13; 10; 52; 52; 52; 52; 52; 52; 52; 52; 53; 53; 53; 53; 53; 53; 53; 53; 54; 54; 54; 54; 54; 54; 54; 54; 55; 55; 55; 55; 55; 55; 55; 55; 13; 10; 56; 56; 56; 56; 56; 56; 56; 56; 57; 57; 57; 57; 57; 57; 57; 57; 65; 65; 65; 65; 65; 65; 65; 65; 66; 66; 66; 66; 66; 66; 66; 66; 13; 10; 67; 67; 67; 67; 67; 67; 67; 67; 13; 10; 68; 68; 68; 68; 68; 68; 68; 68; 13; 10; 69; 69; 69; 69; 69; 69; 69; 69; 70; 70; 70; 70; 70; 70; 70; 70; 48; 68; 70; 48; 48; 68; 70; 48; 13; 10; 48; 51; 48; 48; 48; 48; 48; 48; 13; 10; 48; 48; 48; 48; 48; 48; 49; 48; 49; 48; 48; 48; 48; 48; 49; 48; 13; 10; 49; 49; 49; 49; 49; 49; 49; 49; 50; 50; 50; 50; 50; 50; 50; 50; 51; 51; 51; 51; 51; 51; 51; 51; 52; 52; 52; 52; 52; 52; 52; 52; 13; 10]);
   ("crash_v3.txt", [54; 51; 52; 51; 48; 51; 48; 48; 13; 10; 48; 48; 48; 48; 48; 48; 48; 48; 13; 10; 53; 97; 53; 97; 53; 97; 53; 97; 49; 49; 49; 49; 49; 49; 49; 49; 50; 50; 50; 50; 50; 50; 50; 50; 51; 51; 51; 51; 51; 51; 51; 51; 13; 10; 52; 52; 52; 52; 52; 52; 52; 52; 53; 53; 53; 53; 53; 53; 53; 53; 54; 54; 54; 54; 54; 54; 54; 54; 55; 55; 55; 55; 55; 55; 55; 55; 13; 10; 56; 56; 56; 56; 56; 56; 56; 56; 57; 57; 57; 57; 57; 57; 57; 57; 65; 65; 65; 65; 65; 65; 65; 65; 66; 66; 66; 66; 66; 66; 66; 66; 13; 10; 67; 67; 67; 67; 67; 67; 67; 67; 13; 10; 68; 68; 68; 68; 68; 68; 68; 68; 13; 10; 69; 69; 69; 69; 69; 69; 69; 69; 70; 70; 70; 70; 70; 70; 70; 70; 48; 68; 70; 48; 48; 68; 70; 48; 13; 10; 65; 53; 65; 53; 65; 53; 65; 53; 66; 67; 66; 67; 66; 67; 66; 67; 48; 51; 48; 48; 48; 48; 48; 48; 13; 10; 48; 48; 48; 48; 48; 48; 49; 48; 49; 48; 48; 48; 48; 48; 49; 48; 13; 10; 49; 49; 49; 49; 49; 49; 49; 49; 50; 50; 50; 50; 50; 50; 50; 50; 51; 51; 51; 51; 51; 51; 51; 51; 52; 52; 52; 52; 52; 52; 52; 52; 13; 10]);
   ("crash_v2.dmp", [99; 67; 2; 0; 0; 0; 0; 0; 90; 90; 90; 90; 17; 17; 17; 17; 34; 34; 34; 34; 51; 51; 51; 51; 68; 68; 68; 68; 85; 85; 85; 85; 102; 102; 102; 102; 119; 119; 119; 119; 136; 136; 136; 136; 153; 153; 153; 153; 170; 170; 170; 170; 187; 187; 187; 187; 204; 204; 204; 204; 221; 221; 221; 221; 238; 238; 238; 238; 255; 255; 255; 255; 13; 240; 13; 240; 3; 0; 0; 0; 0; 0; 0; 16; 16; 0; 0; 16; 17; 17; 17; 17; 34; 34; 34; 34; 51; 51; 51; 51; 68; 68; 68; 68]);
   ("crash_v3.dmp", [99; 67; 3; 0; 0; 0; 0; 0; 90; 90; 90; 90; 17; 17; 17; 17; 34; 34; 34; 34; 51; 51; 51; 51; 68; 68; 68; 68; 85; 85; 85; 85; 102; 102; 102; 102; 119; 119; 119; 119; 136; 136; 136; 136; 153; 153; 153; 153; 170; 170; 170; 170; 187; 187; 187; 187; 204; 204; 204; 204; 221; 221; 221; 221; 238; 238; 238; 238; 255; 255; 255; 255; 13; 240; 13; 240; 165; 165; 165; 165; 188; 188; 188; 188; 3; 0; 0; 0; 0; 0; 0; 16; 16; 0; 0; 16; 17; 17; 17; 17; 34; 34; 34; 34; 51; 51; 51; 51; 68; 68; 68; 68])].
(** createTestFiles *)
Definition test_files (elf : list Z) (name : list Z) : option (list Z) :=
  match find (fun f => bytes_eqb (s2b (fst f)) name) (("image.elf", elf) :: dir) with Some f => Some (snd f) | None => None end.
Definition passes_files (fs : list Z -> option (list Z)) (l : list tstep) : Prop :=
  match run_steps l (w_start (mkEnv (fun _ _ => true) fs (fun _ => IoOk) (fun _ => PollNo) (fun _ => RdEof) (fun _ => true))) with
  | Some w => (w_code w =? 0)%Z && match h_live (w_heap w), fs_open (w_files w) with [], [] => true | _, _ => false end
  | None => false
  end = true.

Example Cmd_NoParameters_ShouldThrow :
  passes_files (test_files elf_0)
  [fails_to_start [] invalidArgumentException "Must provide --bin or --elf command line option.";
   integer_registers_are [0; 0; 0; 0; 0; 0; 0; 0; 0; 0; 0; 0; 0; 0; 0; 0; 0; 0; 0];
   uninit false].
Proof. vm_compute. reflexivity. Qed.

Example Cmd_NotDoubleSlashArgument_ShouldThrowAsNotAllowedForThisApp :
  passes_files (test_files elf_0)
  [fails_to_start ["image.bin"] invalidArgumentException "Command line options must start with ""--"".";
   integer_registers_are [0; 0; 0; 0; 0; 0; 0; 0; 0; 0; 0; 0; 0; 0; 0; 0; 0; 0; 0];
   uninit false].
Proof. vm_compute. reflexivity. Qed.

Example Cmd_InvalidCommandLineFlag_ShouldThrow :
  passes_files (test_files elf_0)
  [fails_to_start ["--foo"] invalidArgumentException """--foo"" isn't a valid command line option.";
   integer_registers_are [0; 0; 0; 0; 0; 0; 0; 0; 0; 0; 0; 0; 0; 0; 0; 0; 0; 0; 0];
   uninit false].
Proof. vm_compute. reflexivity. Qed.

Example Cmd_JustImageFilename_ShouldThrowAsDumpFilenameIsRequiredToo :
  passes_files (test_files elf_0)
  [fails_to_start ["--bin"; "image.bin"; "0x0"] invalidArgumentException "Must provide --dump command line option.";
   integer_registers_are [0; 0; 0; 0; 0; 0; 0; 0; 0; 0; 0; 0; 0; 0; 0; 0; 0; 0; 0];
   uninit false].
Proof. vm_compute. reflexivity. Qed.

Example Cmd_LeaveOffImageFilenameAndBaseAddress_ShouldThrow :
  passes_files (test_files elf_0)
  [fails_to_start ["--dump"; "gdb_v2.txt"; "--bin"] invalidArgumentException "The --bin command line option requires filename and base address.";
   integer_registers_are [0; 0; 0; 0; 0; 0; 0; 0; 0; 0; 0; 0; 0; 0; 0; 0; 0; 0; 0];
   uninit false].
Proof. vm_compute. reflexivity. Qed.

Example Cmd_LeaveOffBaseAddress_ShouldThrow :
  passes_files (test_files elf_0)
  [fails_to_start ["--dump"; "gdb_v2.txt"; "--bin"; "image.bin"] invalidArgumentException "The --bin command line option requires filename and base address.";
   integer_registers_are [0; 0; 0; 0; 0; 0; 0; 0; 0; 0; 0; 0; 0; 0; 0; 0; 0; 0; 0];
   uninit false].
Proof. vm_compute. reflexivity. Qed.

Example Cmd_LeaveOffDumpFilename_ShouldThrow :
  passes_files (test_files elf_0)
  [fails_to_start ["--bin"; "image.bin"; "0x0"; "--dump"] invalidArgumentException "The --dump command line option requires filename.";
   integer_registers_are [0; 0; 0; 0; 0; 0; 0; 0; 0; 0; 0; 0; 0; 0; 0; 0; 0; 0; 0];
   uninit false].
Proof. vm_compute. reflexivity. Qed.

Example Cmd_ValidImageAndVersion2DumpFilenames_ValidateMemoryAndRegisters :
  passes_files (test_files elf_0)
  [starts ["--bin"; "image.bin"; "0x0"; "--dump"; "gdb_v2.txt"];
   gives (read32 0x00000000) 0x10000004;
   gives (read32 0x00000004) 256;
   gives (read32 0x10000000) 0x11111111;
   gives (read32 0x10000004) 0x22222222;
   gives (read32 0x10000008) 0x33333333;
   gives (read32 0x1000000c) 0x44444444;
   integer_registers_are [0x5A5A5A5A; 0x11111111; 0x22222222; 0x33333333; 0x44444444; 0x55555555; 0x66666666; 0x77777777; 0x88888888; 0x99999999; 0xAAAAAAAA; 0xBBBBBBBB; 0xCCCCCCCC; 0xDDDDDDDD; 0xEEEEEEEE; 0xFFFFFFFF; 0xF00DF00D; 0xBAADBAAD; 0xBAADBAAD];
   uninit true].
Proof. vm_compute. reflexivity. Qed.

Example Cmd_ValidImageAndVersion3DumpFilenames_ValidateMemoryAndRegisters :
  passes_files (test_files elf_0)
  [starts ["--bin"; "image.bin"; "0x0"; "--dump"; "gdb_v3.txt"];
   gives (read32 0x00000000) 0x10000004;
   gives (read32 0x00000004) 256;
   gives (read32 0x10000000) 0x11111111;
   gives (read32 0x10000004) 0x22222222;
   gives (read32 0x10000008) 0x33333333;
   gives (read32 0x1000000c) 0x44444444;
   integer_registers_are [0x5A5A5A5A; 0x11111111; 0x22222222; 0x33333333; 0x44444444; 0x55555555; 0x66666666; 0x77777777; 0x88888888; 0x99999999; 0xAAAAAAAA; 0xBBBBBBBB; 0xCCCCCCCC; 0xDDDDDDDD; 0xEEEEEEEE; 0xFFFFFFFF; 0xF00DF00D; 0xA5A5A5A5; 0xBCBCBCBC];
   uninit true].
Proof. vm_compute. reflexivity. Qed.

Example Cmd_ValidImageAndVersion2DumpFilenames_DifferentBaseAddress_ValidateMemoryAndRegisters :
  passes_files (test_files elf_0)
  [starts ["--bin"; "image.bin"; "0x4000"; "--dump"; "gdb_v2.txt"];
   gives (read32 0x00004000) 0x10000004;
   gives (read32 0x00004004) 256;
   gives (read32 0x10000000) 0x11111111;
   gives (read32 0x10000004) 0x22222222;
   gives (read32 0x10000008) 0x33333333;
   gives (read32 0x1000000c) 0x44444444;
   integer_registers_are [0x5A5A5A5A; 0x11111111; 0x22222222; 0x33333333; 0x44444444; 0x55555555; 0x66666666; 0x77777777; 0x88888888; 0x99999999; 0xAAAAAAAA; 0xBBBBBBBB; 0xCCCCCCCC; 0xDDDDDDDD; 0xEEEEEEEE; 0xFFFFFFFF; 0xF00DF00D; 0xBAADBAAD; 0xBAADBAAD];
   uninit true].
Proof. vm_compute. reflexivity. Qed.

Example Cmd_ValidImageAndVersion3DumpFilenames_DifferentBaseAddress_ValidateMemoryAndRegisters :
  passes_files (test_files elf_0)
  [starts ["--bin"; "image.bin"; "0x4000"; "--dump"; "gdb_v3.txt"];
   gives (read32 0x00004000) 0x10000004;
   gives (read32 0x00004004) 256;
   gives (read32 0x10000000) 0x11111111;
   gives (read32 0x10000004) 0x22222222;
   gives (read32 0x10000008) 0x33333333;
   gives (read32 0x1000000c) 0x44444444;
   integer_registers_are [0x5A5A5A5A; 0x11111111; 0x22222222; 0x33333333; 0x44444444; 0x55555555; 0x66666666; 0x77777777; 0x88888888; 0x99999999; 0xAAAAAAAA; 0xBBBBBBBB; 0xCCCCCCCC; 0xDDDDDDDD; 0xEEEEEEEE; 0xFFFFFFFF; 0xF00DF00D; 0xA5A5A5A5; 0xBCBCBCBC];
   uninit true].
Proof. vm_compute. reflexivity. Qed.

Example Cmd_ValidImageAndCrashCatcherVersion2HexDumpFilenames_ValidateMemoryAndRegisters :
  passes_files (test_files elf_0)
  [starts ["--bin"; "image.bin"; "0x0"; "--dump"; "crash_v2.txt"];
   gives (read32 0x00000000) 0x10000004;
   gives (read32 0x00000004) 256;
   gives (read32 0x10000000) 0x11111111;
   gives (read32 0x10000004) 0x22222222;
   gives (read32 0x10000008) 0x33333333;
   gives (read32 0x1000000c) 0x44444444;
   integer_registers_are [0x5A5A5A5A; 0x11111111; 0x22222222; 0x33333333; 0x44444444; 0x55555555; 0x66666666; 0x77777777; 0x88888888; 0x99999999; 0xAAAAAAAA; 0xBBBBBBBB; 0xCCCCCCCC; 0xDDDDDDDD; 0xEEEEEEEE; 0xFFFFFFFF; 0xF00DF00D; 0xBAADBAAD; 0xBAADBAAD];
   uninit true].
Proof. vm_compute. reflexivity. Qed.

Example Cmd_ValidImageAndCrashCatcherVersion3HexDumpFilenames_ValidateMemoryAndRegisters :
  passes_files (test_files elf_0)
  [starts ["--bin"; "image.bin"; "0x0"; "--dump"; "crash_v3.txt"];
   gives (read32 0x00000000) 0x10000004;
   gives (read32 0x00000004) 256;
   gives (read32 0x10000000) 0x11111111;
   gives (read32 0x10000004) 0x22222222;
   gives (read32 0x10000008) 0x33333333;
   gives (read32 0x1000000c) 0x44444444;
   integer_registers_are [0x5A5A5A5A; 0x11111111; 0x22222222; 0x33333333; 0x44444444; 0x55555555; 0x66666666; 0x77777777; 0x88888888; 0x99999999; 0xAAAAAAAA; 0xBBBBBBBB; 0xCCCCCCCC; 0xDDDDDDDD; 0xEEEEEEEE; 0xFFFFFFFF; 0xF00DF00D; 0xA5A5A5A5; 0xBCBCBCBC];
   uninit true].
Proof. vm_compute. reflexivity. Qed.

Example Cmd_ValidImageAndVersion2CrashCatcherBinaryDumpFilenames_ValidateMemoryAndRegisters :
  passes_files (test_files elf_0)
  [starts ["--bin"; "image.bin"; "0x0"; "--dump"; "crash_v2.dmp"];
   gives (read32 0x00000000) 0x10000004;
   gives (read32 0x00000004) 256;
   gives (read32 0x10000000) 0x11111111;
   gives (read32 0x10000004) 0x22222222;
   gives (read32 0x10000008) 0x33333333;
   gives (read32 0x1000000c) 0x44444444;
   integer_registers_are [0x5A5A5A5A; 0x11111111; 0x22222222; 0x33333333; 0x44444444; 0x55555555; 0x66666666; 0x77777777; 0x88888888; 0x99999999; 0xAAAAAAAA; 0xBBBBBBBB; 0xCCCCCCCC; 0xDDDDDDDD; 0xEEEEEEEE; 0xFFFFFFFF; 0xF00DF00D; 0xBAADBAAD; 0xBAADBAAD];
   uninit true].
Proof. vm_compute. reflexivity. Qed.

Example Cmd_ValidImageAndVersion3CrashCatcherBinaryDumpFilenames_ValidateMemoryAndRegisters :
  passes_files (test_files elf_0)
  [starts ["--bin"; "image.bin"; "0x0"; "--dump"; "crash_v3.dmp"];
   gives (read32 0x00000000) 0x10000004;
   gives (read32 0x00000004) 256;
   gives (read32 0x10000000) 0x11111111;
   gives (read32 0x10000004) 0x22222222;
   gives (read32 0x10000008) 0x33333333;
   gives (read32 0x1000000c) 0x44444444;
   integer_registers_are [0x5A5A5A5A; 0x11111111; 0x22222222; 0x33333333; 0x44444444; 0x55555555; 0x66666666; 0x77777777; 0x88888888; 0x99999999; 0xAAAAAAAA; 0xBBBBBBBB; 0xCCCCCCCC; 0xDDDDDDDD; 0xEEEEEEEE; 0xFFFFFFFF; 0xF00DF00D; 0xA5A5A5A5; 0xBCBCBCBC];
   uninit true].
Proof. vm_compute. reflexivity. Qed.

Example Cmd_FailImageFileOpen_ShouldThrow :
  passes_files (test_files elf_0)
  [fail_io 0;
   fails_to_start ["--bin"; "image.bin"; "0x0"; "--dump"; "gdb_v3.txt"] fileException "Failed to open ""image.bin"".";
   integer_registers_are [0; 0; 0; 0; 0; 0; 0; 0; 0; 0; 0; 0; 0; 0; 0; 0; 0; 0; 0];
   uninit false].
Proof. vm_compute. reflexivity. Qed.

Example Cmd_FailImageFileSeekInGetFileSize_ShouldThrow :
  passes_files (test_files elf_0)
  [fail_io 1;
   fails_to_start ["--bin"; "image.bin"; "0x0"; "--dump"; "gdb_v3.txt"] fileException "Failed to get file size of ""image.bin"".";
   integer_registers_are [0; 0; 0; 0; 0; 0; 0; 0; 0; 0; 0; 0; 0; 0; 0; 0; 0; 0; 0];
   uninit false].
Proof. vm_compute. reflexivity. Qed.

Example Cmd_FailImageFileBufferAllocation_ShouldThrow :
  passes_files (test_files elf_0)
  [fail_alloc 1;
   fails_to_start ["--bin"; "image.bin"; "0x0"; "--dump"; "gdb_v3.txt"] outOfMemoryException "Failed to allocate 8 bytes for reading ""image.bin"".";
   integer_registers_are [0; 0; 0; 0; 0; 0; 0; 0; 0; 0; 0; 0; 0; 0; 0; 0; 0; 0; 0];
   uninit false].
Proof. vm_compute. reflexivity. Qed.

Example Cmd_FailImageFileRead_ShouldThrow :
  passes_files (test_files elf_0)
  [fail_io 4;
   fails_to_start ["--bin"; "image.bin"; "0x0"; "--dump"; "gdb_v3.txt"] fileException "Failed to read ""image.bin"".";
   integer_registers_are [0; 0; 0; 0; 0; 0; 0; 0; 0; 0; 0; 0; 0; 0; 0; 0; 0; 0; 0];
   uninit false].
Proof. vm_compute. reflexivity. Qed.

Example Cmd_FailMemoryRegionAllocation_ShouldThrow :
  passes_files (test_files elf_0)
  [fail_alloc 2;
   fails_to_start ["--bin"; "image.bin"; "0"; "--dump"; "gdb_v3.txt"] outOfMemoryException "Failed to load read-only code into memory region at address 0x00000000.";
   integer_registers_are [0; 0; 0; 0; 0; 0; 0; 0; 0; 0; 0; 0; 0; 0; 0; 0; 0; 0; 0];
   uninit false].
Proof. vm_compute. reflexivity. Qed.

Example Cmd_InvalidDumpFilename_ShouldThrow :
  passes_files (test_files elf_0)
  [fails_to_start ["--bin"; "image.bin"; "0x0"; "--dump"; "invalidFilename.dmp"] fileException "Failed to open ""invalidFilename.dmp"".";
   integer_registers_are [0; 0; 0; 0; 0; 0; 0; 0; 0; 0; 0; 0; 0; 0; 0; 0; 0; 0; 0];
   uninit false].
Proof. vm_compute. reflexivity. Qed.

Example Cmd_ValidElfAndVersion2DumpFilenames_ValidateMemoryAndRegisters :
  passes_files (test_files elf_0)
  [starts ["--elf"; "image.elf"; "--dump"; "gdb_v2.txt"];
   gives (read32 0x00000000) 0x10000004;
   gives (read32 0x00000004) 256;
   gives (read32 0x10000000) 0x11111111;
   gives (read32 0x10000004) 0x22222222;
   gives (read32 0x10000008) 0x33333333;
   gives (read32 0x1000000c) 0x44444444;
   integer_registers_are [0x5A5A5A5A; 0x11111111; 0x22222222; 0x33333333; 0x44444444; 0x55555555; 0x66666666; 0x77777777; 0x88888888; 0x99999999; 0xAAAAAAAA; 0xBBBBBBBB; 0xCCCCCCCC; 0xDDDDDDDD; 0xEEEEEEEE; 0xFFFFFFFF; 0xF00DF00D; 0xBAADBAAD; 0xBAADBAAD];
   uninit true].
Proof. vm_compute. reflexivity. Qed.

Example Cmd_ValidElfAndVersion3DumpFilenames_ValidateMemoryAndRegisters :
  passes_files (test_files elf_0)
  [starts ["--elf"; "image.elf"; "--dump"; "gdb_v3.txt"];
   gives (read32 0x00000000) 0x10000004;
   gives (read32 0x00000004) 256;
   gives (read32 0x10000000) 0x11111111;
   gives (read32 0x10000004) 0x22222222;
   gives (read32 0x10000008) 0x33333333;
   gives (read32 0x1000000c) 0x44444444;
   integer_registers_are [0x5A5A5A5A; 0x11111111; 0x22222222; 0x33333333; 0x44444444; 0x55555555; 0x66666666; 0x77777777; 0x88888888; 0x99999999; 0xAAAAAAAA; 0xBBBBBBBB; 0xCCCCCCCC; 0xDDDDDDDD; 0xEEEEEEEE; 0xFFFFFFFF; 0xF00DF00D; 0xA5A5A5A5; 0xBCBCBCBC];
   uninit true].
Proof. vm_compute. reflexivity. Qed.

Example Cmd_LeaveOffElfFilename_ShouldThrow :
  passes_files (test_files elf_0)
  [fails_to_start ["--dump"; "gdb_v2.txt"; "--elf"] invalidArgumentException "The --elf command line option requires filename.";
   integer_registers_are [0; 0; 0; 0; 0; 0; 0; 0; 0; 0; 0; 0; 0; 0; 0; 0; 0; 0; 0];
   uninit false].
Proof. vm_compute. reflexivity. Qed.

Example Cmd_InvalidElfSignature_ShouldThrow :
  passes_files (test_files elf_bad)
  [fails_to_start ["--elf"; "image.elf"; "--dump"; "gdb_v2.txt"] elfFormatException "ELF header doesn't start with expected magic ELF identifier.";
   integer_registers_are [0; 0; 0; 0; 0; 0; 0; 0; 0; 0; 0; 0; 0; 0; 0; 0; 0; 0; 0];
   uninit false].
Proof. vm_compute. reflexivity. Qed.

Example Cmd_ValidElfAndVersion2DumpFilenames_DifferentBaseAddress_ValidateMemoryAndRegisters :
  passes_files (test_files elf_4000)
  [starts ["--elf"; "image.elf"; "--dump"; "gdb_v2.txt"];
   gives (read32 0x00004000) 0x10000004;
   gives (read32 0x00004004) 256;
   gives (read32 0x10000000) 0x11111111;
   gives (read32 0x10000004) 0x22222222;
   gives (read32 0x10000008) 0x33333333;
   gives (read32 0x1000000c) 0x44444444;
   integer_registers_are [0x5A5A5A5A; 0x11111111; 0x22222222; 0x33333333; 0x44444444; 0x55555555; 0x66666666; 0x77777777; 0x88888888; 0x99999999; 0xAAAAAAAA; 0xBBBBBBBB; 0xCCCCCCCC; 0xDDDDDDDD; 0xEEEEEEEE; 0xFFFFFFFF; 0xF00DF00D; 0xBAADBAAD; 0xBAADBAAD];
   uninit true].
Proof. vm_compute. reflexivity. Qed.

Example Cmd_ValidElfAndVersion3DumpFilenames_DifferentBaseAddress_ValidateMemoryAndRegisters :
  passes_files (test_files elf_4000)
  [starts ["--elf"; "image.elf"; "--dump"; "gdb_v3.txt"];
   gives (read32 0x00004000) 0x10000004;
   gives (read32 0x00004004) 256;
   gives (read32 0x10000000) 0x11111111;
   gives (read32 0x10000004) 0x22222222;
   gives (read32 0x10000008) 0x33333333;
   gives (read32 0x1000000c) 0x44444444;
   integer_registers_are [0x5A5A5A5A; 0x11111111; 0x22222222; 0x33333333; 0x44444444; 0x55555555; 0x66666666; 0x77777777; 0x88888888; 0x99999999; 0xAAAAAAAA; 0xBBBBBBBB; 0xCCCCCCCC; 0xDDDDDDDD; 0xEEEEEEEE; 0xFFFFFFFF; 0xF00DF00D; 0xA5A5A5A5; 0xBCBCBCBC];
   uninit true].
Proof. vm_compute. reflexivity. Qed.

Example Cmd_LeaveOffBaseAddressSizeRedirectAddress_ShouldThrow :
  passes_files (test_files elf_0)
  [fails_to_start ["--bin"; "image.bin"; "0x0"; "--dump"; "gdb_v3.txt"; "--alias"] invalidArgumentException "The --alias command line option requires baseAddress, size, and redirectAddress.";
   integer_registers_are [0; 0; 0; 0; 0; 0; 0; 0; 0; 0; 0; 0; 0; 0; 0; 0; 0; 0; 0];
   uninit false].
Proof. vm_compute. reflexivity. Qed.

Example Cmd_LeaveOffSizeRedirectAddress_ShouldThrow :
  passes_files (test_files elf_0)
  [fails_to_start ["--bin"; "image.bin"; "0x0"; "--dump"; "gdb_v3.txt"; "--alias"; "0xA0000000"] invalidArgumentException "The --alias command line option requires baseAddress, size, and redirectAddress.";
   integer_registers_are [0; 0; 0; 0; 0; 0; 0; 0; 0; 0; 0; 0; 0; 0; 0; 0; 0; 0; 0];
   uninit false].
Proof. vm_compute. reflexivity. Qed.

Example Cmd_LeaveOffRedirectAddress_ShouldThrow :
  passes_files (test_files elf_0)
  [fails_to_start ["--bin"; "image.bin"; "0x0"; "--dump"; "gdb_v3.txt"; "--alias"; "0xA0000000"; "8"] invalidArgumentException "The --alias command line option requires baseAddress, size, and redirectAddress.";
   integer_registers_are [0; 0; 0; 0; 0; 0; 0; 0; 0; 0; 0; 0; 0; 0; 0; 0; 0; 0; 0];
   uninit false].
Proof. vm_compute. reflexivity. Qed.

Example Cmd_AttemptToAliasToUnknownRegion_ShouldThrow :
  passes_files (test_files elf_0)
  [fails_to_start ["--bin"; "image.bin"; "0x0"; "--dump"; "gdb_v3.txt"; "--alias"; "0xA0000000"; "128"; "0xBAADBEEF"] busErrorException "Failed to create alias of 0xA0000000 to 0xBAADBEEF of size 128.";
   integer_registers_are [0x5A5A5A5A; 0x11111111; 0x22222222; 0x33333333; 0x44444444; 0x55555555; 0x66666666; 0x77777777; 0x88888888; 0x99999999; 0xAAAAAAAA; 0xBBBBBBBB; 0xCCCCCCCC; 0xDDDDDDDD; 0xEEEEEEEE; 0xFFFFFFFF; 0xF00DF00D; 0xA5A5A5A5; 0xBCBCBCBC];
   uninit false].
Proof. vm_compute. reflexivity. Qed.

Example Cmd_UsingAliasesWithLargeSizesToBeTruncated_ValidateMemoryAndRegisters :
  passes_files (test_files elf_0)
  [starts ["--bin"; "image.bin"; "0x0"; "--dump"; "gdb_v3.txt"; "--alias"; "0xA0000000"; "128"; "0x0"; "--alias"; "0xB0000000"; "128"; "0x10000000"];
   gives (read32 0xA0000000) 0x10000004;
   gives (read32 0xA0000004) 256;
   gives (read32 0x00000000) 0x10000004;
   gives (read32 0x00000004) 256;
   gives (read32 0xB0000000) 0x11111111;
   gives (read32 0xB0000004) 0x22222222;
   gives (read32 0xB0000008) 0x33333333;
   gives (read32 0xB000000c) 0x44444444;
   gives (read32 0x10000000) 0x11111111;
   gives (read32 0x10000004) 0x22222222;
   gives (read32 0x10000008) 0x33333333;
   gives (read32 0x1000000c) 0x44444444;
   integer_registers_are [0x5A5A5A5A; 0x11111111; 0x22222222; 0x33333333; 0x44444444; 0x55555555; 0x66666666; 0x77777777; 0x88888888; 0x99999999; 0xAAAAAAAA; 0xBBBBBBBB; 0xCCCCCCCC; 0xDDDDDDDD; 0xEEEEEEEE; 0xFFFFFFFF; 0xF00DF00D; 0xA5A5A5A5; 0xBCBCBCBC];
   uninit true].
Proof. vm_compute. reflexivity. Qed.
