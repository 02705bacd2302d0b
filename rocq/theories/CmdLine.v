(** libCrashDebug/src/CrashDebugCommandLine.c and libcommon/src/common.c, function by function. *)
From Coq Require Import String ZArith List Bool.
From Verif Require Import Base World Context MemSim Dump GdbLog Elf.
Import ListNotations.
Open Scope Z_scope.
Open Scope m_scope.

(** include/CrashDebugCommandLine.h: the fields set by the option parser.  The register context is
    the world's [w_ctx]; [pMemory] is a separate flag (non-NULL or not). *)
Record cl := mkCL { cl_elf : option (list Z); cl_bin : option (list Z); cl_dump : option (list Z); cl_base : Z }.

(** CrashDebugCommandLine.c 79-83. *)
Inductive pass := FIRST_PASS | SECOND_PASS.

(** CrashDebugCommandLine.c 148-151. *)
Definition hasDoubleDashPrefix (a : list Z) : bool :=
  match a with
  | 45 :: 45 :: _ => true
  | _ => false
  end.

(** CrashDebugCommandLine.c 205-221: the second-pass effect of --alias. *)
Definition createAliasOption (b s r : list Z) : M world unit :=
  let base := strtou32 b in
  let size := strtou32 s in
  let redirect := strtou32 r in
  try0 (MemorySim_CreateAlias base redirect size)
       (c <- getExceptionCode;;
        throw_msg c (s2b "Failed to create alias of 0x" ++ fmt08X base ++ s2b " to 0x" ++ fmt08X redirect ++
                     s2b " of size " ++ fmtd size ++ s2b ".")).

(** CrashDebugCommandLine.c 130-222: parseArguments, parseArgument, parseFlagArgument and the four
    option parsers.  The argument vector is a list; each option consumes its arguments. *)
Fixpoint parseArguments (p : pass) (args : list (list Z)) (c : cl) : M world cl :=
  match args with
  | [] => ret c
  | a :: t =>
      if negb (hasDoubleDashPrefix a) then
        throw_msg invalidArgumentException (s2b "Command line options must start with ""--"".")
      else if strcaseeq a (s2b "--bin") then
        match t with
        | f :: b :: t' =>
            parseArguments p t'
              (match p with
               | FIRST_PASS => mkCL (cl_elf c) (Some f) (cl_dump c) (strtou32 b)
               | SECOND_PASS => c
               end)
        | _ => throw_msg invalidArgumentException
                 (s2b "The --bin command line option requires filename and base address.")
        end
      else if strcaseeq a (s2b "--elf") then
        match t with
        | f :: t' =>
            parseArguments p t'
              (match p with
               | FIRST_PASS => mkCL (Some f) (cl_bin c) (cl_dump c) (cl_base c)
               | SECOND_PASS => c
               end)
        | _ => throw_msg invalidArgumentException (s2b "The --elf command line option requires filename.")
        end
      else if strcaseeq a (s2b "--dump") then
        match t with
        | f :: t' =>
            parseArguments p t'
              (match p with
               | FIRST_PASS => mkCL (cl_elf c) (cl_bin c) (Some f) (cl_base c)
               | SECOND_PASS => c
               end)
        | _ => throw_msg invalidArgumentException (s2b "The --dump command line option requires filename.")
        end
      else if strcaseeq a (s2b "--alias") then
        match t with
        | b :: s :: r :: t' =>
            (match p with
             | FIRST_PASS => ret tt
             | SECOND_PASS => createAliasOption b s r
             end) ;;;
            parseArguments p t' c
        | _ => throw_msg invalidArgumentException
                 (s2b "The --alias command line option requires baseAddress, size, and redirectAddress.")
        end
      else throw_msg invalidArgumentException (s2b """" ++ a ++ s2b """ isn't a valid command line option.")
  end.

(** CrashDebugCommandLine.c 224-230. *)
Definition throwIfRequiredArgumentNotSpecified (c : cl) : M world unit :=
  match cl_bin c, cl_elf c with
  | None, None => throw_msg invalidArgumentException (s2b "Must provide --bin or --elf command line option.")
  | _, _ =>
      match cl_dump c with
      | None => throw_msg invalidArgumentException (s2b "Must provide --dump command line option.")
      | Some _ => ret tt
      end
  end.

(** libcommon/src/common.c GetFileSize. *)
Definition GetFileSize (h : nat) : M world Z :=
  ok <- fseek_end h;;
  if negb ok then throw fileException else
  p <- ftell h;;
  match p with
  | None => throw fileException
  | Some size =>
      ok2 <- fseek_start h;;
      if negb ok2 then throw fileException else ret size
  end.

(** Locals of loadFileData: pFile, pBuffer, fileSize, and the contents of the buffer. *)
Record lfd := mkLfd { l_file : option nat; l_buf : option nat; l_size : Z; l_data : list Z }.

(** CrashDebugCommandLine.c 257-297: returns the buffer's block and its contents. *)
Definition loadFileData (name : list Z) : M world (nat * list Z) :=
  l <- try_ (mkLfd None None 0 [])
    (p <- lift (fopen name);;
     match p with
     | None => lift (throw_msg fileException (s2b "Failed to open """ ++ name ++ s2b """."))
     | Some h =>
         setl (mkLfd (Some h) None 0 []) ;;;
         size <- lift (try_msg (GetFileSize h)
                         (s2b "Failed to get file size of """ ++ name ++ s2b """."));;
         b <- lift (malloc size);;
         match b with
         | None => lift (throw_msg outOfMemoryException
                           (s2b "Failed to allocate " ++ fmtu size ++ s2b " bytes for reading """ ++ name ++ s2b """."))
         | Some b =>
             setl (mkLfd (Some h) (Some b) size []) ;;;
             bs <- lift (fread h (Z.to_nat size));;
             if negb (zlen bs =? size)
             then lift (throw_msg fileException (s2b "Failed to read """ ++ name ++ s2b """."))
             else setl (mkLfd (Some h) (Some b) size bs) ;;; lift (fclose h)
         end
     end)
    (fun l => free_opt (l_buf l) ;;;
              (match l_file l with Some h => fclose h | None => ret tt end) ;;;
              rethrow);;
  match l_buf l with
  | Some b => ret (b, l_data l)
  | None => fail_ub UbData   (* unreachable: the body sets pBuffer before ending normally *)
  end.

(** CrashDebugCommandLine.c 299-311.  The file size is passed as a uint32_t. *)
Definition loadBinFile (base : Z) (data : list Z) : M world unit :=
  try0 (MemorySim_CreateRegion base (W (zlen data)) ;;;
        MemorySim_LoadFromFlashImage base data (W (zlen data)) ;;;
        MemorySim_MakeRegionReadOnly base)
       (c <- getExceptionCode;;
        throw_msg c (s2b "Failed to load read-only code into memory region at address 0x" ++ fmt08X base ++ s2b ".")).

(** CrashDebugCommandLine.c 232-255.  The local is [fileData.pData]. *)
Definition loadImageFile (c : cl) : M world unit :=
  try_ None
    (match cl_elf c, cl_bin c with
     | Some f, _ =>
         d <- lift (loadFileData f);;
         setl (Some (fst d)) ;;;
         lift (ElfLoad_FromMemory (snd d))
     | None, Some f =>
         d <- lift (loadFileData f);;
         setl (Some (fst d)) ;;;
         lift (loadBinFile (cl_base c) (snd d))
     | None, None => fail_ub UbData   (* unreachable: loadFileData(NULL) *)
     end ;;;
     b <- getl;;
     lift (free_opt b))
    (fun b => free_opt b ;;; rethrow) ;;;
  ret tt.

(** CrashDebugCommandLine.c 72-77. *)
Inductive dump_type := GDB_LOG | CRASH_CATCHER_BIN | CRASH_CATCHER_HEX.

(** CrashDebugCommandLine.c 348-374: signature tests on the 4-byte header. *)
Definition nibbleDigit (x : Z) : Z := hexU x.
Definition hasBinaryCrashCatcherSignature (hd : list Z) : bool :=
  bytes_eqb (firstn 2 hd) [SIGNATURE_BYTE0; SIGNATURE_BYTE1].
Definition hasHexCrashCatcherSignature (hd : list Z) : bool :=
  bytes_eqb hd [nibbleDigit (SIGNATURE_BYTE0 / 16); nibbleDigit (SIGNATURE_BYTE0 mod 16);
                nibbleDigit (SIGNATURE_BYTE1 / 16); nibbleDigit (SIGNATURE_BYTE1 mod 16)].

(** CrashDebugCommandLine.c 329-346. *)
Definition getFileType (name : list Z) : M world dump_type :=
  p <- fopen name;;
  match p with
  | None => throw_msg fileException (s2b "Failed to open """ ++ name ++ s2b """.")
  | Some h =>
      bs <- fread h 4;;
      fclose h ;;;
      let hd := firstn 4 (bs ++ [0; 0; 0; 0]) in
      if hasBinaryCrashCatcherSignature hd then ret CRASH_CATCHER_BIN
      else if hasHexCrashCatcherSignature hd then ret CRASH_CATCHER_HEX
      else ret GDB_LOG
  end.

(** CrashDebugCommandLine.c 313-327. *)
Definition loadDumpFile (c : cl) : M world unit :=
  match cl_dump c with
  | None => fail_ub UbData   (* unreachable: fopen(NULL) *)
  | Some name =>
      t <- getFileType name;;
      match t with
      | GDB_LOG => GdbLogParse name
      | CRASH_CATCHER_HEX => CrashCatcherDump_ReadHex name
      | CRASH_CATCHER_BIN => CrashCatcherDump_ReadBinary name
      end
  end.

(** CrashDebugCommandLine.c 376-380, 28-34 (with the macros of include/version.h 17-32) and 36-62. *)
Definition displayExceptionMessage : M world unit :=
  w <- getw;; eprintf (s2b "ERROR: " ++ w_msg w ++ [10]).
Definition text_lines (l : list string) : list Z := flat_map (fun x => s2b x ++ [10]) l.
Definition displayCopyrightNotice : M world unit :=
  eprintf (text_lines
    ["";
     "CrashDebug - Cortex-M Post-Mortem Debugging Aid (1.7-20210805.0)";
     "";
     "Copyright (C) 2021 Adam Green";
     "This is free software; see the source for copying conditions.  There is NO";
     "warranty; not even for MERCHANTABILITY or FITNESS FOR A PARTICULAR PURPOSE.";
     ""]%string).
Definition displayUsage : M world unit :=
  eprintf (text_lines
    ["Usage: CrashDebug (--elf elfFilename | --bin imageFilename baseAddress)";
     "                   --dump dumpFilename";
     "                  [--alias baseAddress size redirectAddress]";
     "Where: NOTE: The --elf and --bin options are mutually exclusive.  Use one";
     "             or the other but not both.";
     "       --elf is used to provide the filename of the .elf image containing";
     "         the device's FLASH contents at the time of the crash.";
     "       --bin is used to provide the filename of the binary image loaded into";
     "         the device's FLASH when the crash occurred. These binary images are";
     "         typically generated by running:";
     "           ""arm-none-eabi-objcopy -O binary input.elf output.bin""";
     "         The baseAddress parameter indicates where the contents of the .bin";
     "         file was loaded into FLASH.  This address will typically be";
     "         0x00000000 unless a boot loader was in use.";
     "       --dump is used to provide the filename of the crash dump which";
     "         contains the contents of RAM and the CPU registers at the time of";
     "         the crash.  See the following link to learn more about generating";
     "         these crash dumps:";
     "           http://github.com/adamgreen/CrashDebug#crash-dump-generation";
     "       --alias is used to trap memory accesses to the region defined";
     "         by baseAddress/size and redirect them to the region at";
     "         redirectAddress. For example acesses to baseAddress will access";
     "         redirectAddress instead)."]%string).

(** CrashDebugCommandLine.c 107-128.  The local is the structure: parsed options and whether pMemory
    is non-NULL.  Returns whether pMemory is non-NULL (always true on success). *)
Definition CrashDebugCommandLine_Init (args : list (list Z)) : M world (cl * bool) :=
  try_ (mkCL None None None 0, false)
    (lift (modw (fun w => set_ctx w (repeat 0 216))) ;;;
     c <- lift (parseArguments FIRST_PASS args (mkCL None None None 0));;
     setl (c, false) ;;;
     lift (throwIfRequiredArgumentNotSpecified c) ;;;
     lift MemorySim_Init ;;;
     setl (c, true) ;;;
     lift (loadImageFile c) ;;;
     lift (loadDumpFile c) ;;;
     lift (parseArguments SECOND_PASS args c) ;;;
     ret tt)
    (fun l =>
       displayExceptionMessage ;;;
       displayCopyrightNotice ;;;
       displayUsage ;;;
       (if snd l then MemorySim_Uninit else ret tt) ;;;
       rethrow).
