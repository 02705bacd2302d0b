(** libCrashDebug/src/CrashCatcherDump.c, function by function. *)
From Coq Require Import String ZArith List Bool.
From Verif Require Import Base World Context MemSim.
Import ListNotations.
Open Scope Z_scope.
Open Scope m_scope.

(** CrashCatcher.h (submodule not in /repo): signature, version, sentinel. *)
Definition SIGNATURE_BYTE0 := 99.  (* 'c' *)
Definition SIGNATURE_BYTE1 := 67.  (* 'C' *)
Definition VERSION_MAJOR := 3.
Definition VERSION_MINOR := 0.
Definition STACK_SENTINEL := 2899203565. (* 0xACCE55ED *)

(** CrashCatcherDump.c 300-311: value of a hex digit; [None] where it throws. *)
Definition nibbleDigitToVal (c : Z) : option Z :=
  if (48 <=? c) && (c <=? 57) then Some (c - 48)
  else if (97 <=? c) && (c <=? 102) then Some (c - 97 + 10)
  else if (65 <=? c) && (c <=? 70) then Some (c - 65 + 10)
  else None.

(** CrashCatcherDump.c 285-298.  The loop runs at most once per remaining byte of the file. *)
Fixpoint skipNewLines (fuel : nat) (h : nat) : M world (option Z) :=
  match fuel with
  | O => fail_ub UbFuel
  | S k =>
      bs <- fread h 1;;
      match bs with
      | c :: _ => if (c =? 13) || (c =? 10) then skipNewLines k h else ret (Some c)
      | [] => ret None
      end
  end.

Definition readNextCharacterSkippingNewLines (h : nat) : M world (option Z) :=
  f <- get_file h;;
  skipNewLines (S (length (f_data f))) h.

(** Where a read goes: a local buffer, or the register context at an offset. *)
Inductive dest := Local | Ctx (off : Z).

(** Store bytes already read at position [i] of the destination. *)
Definition store_dest (d : dest) (i : Z) (bs : list Z) : M world unit :=
  match d with
  | Local => ret tt
  | Ctx off => ctx_put (off + i) bs
  end.

(** CrashCatcherDump.c 77-80: the bytes read. *)
Definition binaryRead (h : nat) (d : dest) (n : nat) : M world (list Z) :=
  bs <- fread h n;;
  store_dest d 0 bs ;;;
  ret bs.

(** CrashCatcherDump.c 262-283: [acc] are the bytes read so far. *)
Fixpoint hexRead_loop (h : nat) (d : dest) (n : nat) (acc : list Z) : M world (list Z) :=
  match n with
  | O => ret acc
  | S k =>
      hi <- readNextCharacterSkippingNewLines h;;
      match hi with
      | None => ret acc
      | Some hi =>
          lo <- readNextCharacterSkippingNewLines h;;
          match lo with
          | None => ret acc
          | Some lo =>
              match nibbleDigitToVal hi, nibbleDigitToVal lo with
              | Some a, Some b =>
                  store_dest d (zlen acc) [16 * a + b] ;;;
                  hexRead_loop h d k (acc ++ [16 * a + b])
              | _, _ => throw fileFormatException
              end
          end
      end
  end.
Definition hexRead (h : nat) (d : dest) (n : nat) : M world (list Z) := hexRead_loop h d n [].

(** The [read] function pointer of the Object (lines 28-35). *)
Inductive kind := Binary | Hex.
Definition doRead (k : kind) (h : nat) (d : dest) (n : nat) : M world (list Z) :=
  match k with Binary => binaryRead h d n | Hex => hexRead h d n end.

(** CrashCatcherDump.c 95-101. *)
Definition openDump (name : list Z) : M world nat :=
  p <- fopen name;;
  match p with
  | Some h => ret h
  | None => throw_msg fileException (s2b "Failed to open the """ ++ name ++ s2b """ dump file.")
  end.

(** CrashCatcherDump.c 112-136: returns isVersion2Dump. *)
Definition validateDumpSignature (k : kind) (h : nat) : M world bool :=
  sig <- doRead k h Local 4;;
  if negb (Nat.eqb (length sig) 4)
  then throw_msg fileFormatException (s2b "The dump file was too short to contain the 4-byte signature.")
  else if bytes_eqb sig [SIGNATURE_BYTE0; SIGNATURE_BYTE1; VERSION_MAJOR; VERSION_MINOR] then ret false
  else if bytes_eqb sig [SIGNATURE_BYTE0; SIGNATURE_BYTE1; 2; 0] then ret true
  else throw_msg fileFormatException (s2b "The dump file didn't start with the expected 4-byte signature.").

(** CrashCatcherDump.c 138-143. *)
Definition readFlags (k : kind) (h : nat) : M world unit :=
  bs <- doRead k h (Ctx OFF_FLAGS) 4;;
  if negb (Nat.eqb (length bs) 4)
  then throw_msg fileFormatException (s2b "The dump file was too short to contain the flags.")
  else ret tt.

(** CrashCatcherDump.c 145-163. *)
Definition readIntegerRegisters (k : kind) (h : nat) (v2 : bool) : M world unit :=
  let size := if v2 then 68%nat else 76%nat in
  (if v2 then ctx_put (OFF_R MSP) (le 4 DEFAULT_SP_VALUE) ;;; ctx_put (OFF_R PSP) (le 4 DEFAULT_SP_VALUE)
   else ret tt) ;;;
  bs <- doRead k h (Ctx (OFF_R 0)) size;;
  if negb (Nat.eqb (length bs) size)
  then throw_msg fileFormatException (s2b "The dump file was too short to contain the integer registers.")
  else
    bs2 <- doRead k h (Ctx OFF_PSR) 4;;
    if negb (Nat.eqb (length bs2) 4)
    then throw_msg fileFormatException (s2b "The dump file was too short to contain the exception PSR.")
    else ret tt.

(** CrashCatcherDump.c 165-173. *)
Definition readFloatingPointRegisters (k : kind) (h : nat) : M world unit :=
  flags <- ctx_word OFF_FLAGS;;
  if Z.land flags CRASH_CATCHER_FLAGS_FLOATING_POINT =? 0 then ret tt
  else
    bs <- doRead k h (Ctx (OFF_FPR 0)) 132;;
    if negb (Nat.eqb (length bs) 132)
    then throw_msg fileFormatException (s2b "The dump file was too short to contain the floating point registers.")
    else ret tt.

(** CrashCatcherDump.c 224-231: the copy loop.  Each iteration consumes at least one byte of the
    file or throws, so [fuel] above the file length is enough. *)
Fixpoint loadRegionBytes (fuel : nat) (k : kind) (h : nat) (a count : Z) : M world unit :=
  match fuel with
  | O => fail_ub UbFuel
  | S f =>
      if count <=? 0 then ret tt
      else
        bs <- doRead k h Local 1;;
        match bs with
        | [b] => write8 a b ;;; loadRegionBytes f k h (W (a + 1)) (count - 1)
        | _ => throw fileFormatException
        end
  end.

(** CrashCatcherDump.c 217-232. *)
Definition createAndLoadMemoryRegion (k : kind) (h : nat) (start end_ : Z) : M world unit :=
  let bytesInRegion := W (end_ - start) in
  MemorySim_CreateRegion start bytesInRegion ;;;
  f <- get_file h;;
  loadRegionBytes (S (S (length (f_data f)))) k h start bytesInRegion.

(** CrashCatcherDump.c 185-210 and 212-215: returns eof. *)
Definition readNextMemoryRegion (k : kind) (h : nat) : M world bool :=
  bs <- doRead k h Local 8;;
  if Nat.eqb (length bs) 4 && (of_le bs =? STACK_SENTINEL)
  then throw_msg stackOverflowException
         (s2b "The dump file ended with an indication that CrashCatcher detected a stack overflow.")
  else if Nat.eqb (length bs) 0 then ret true
  else if negb (Nat.eqb (length bs) 8)
  then throw_msg fileFormatException (s2b "The dump file contained a truncated memory region header.")
  else
    let start := of_le (firstn 4 bs) in
    let end_ := of_le (skipn 4 bs) in
    try0 (createAndLoadMemoryRegion k h start end_)
         (c <- getExceptionCode;;
          throw_msg c (s2b "The dump file failed to load RAM memory region at 0x" ++ fmt08X start ++
                       s2b " - 0x" ++ fmt08X end_ ++ s2b ".")) ;;;
    ret false.

(** CrashCatcherDump.c 175-183.  Every iteration that does not stop consumes file bytes. *)
Fixpoint regionLoop (fuel : nat) (k : kind) (h : nat) : M world unit :=
  match fuel with
  | O => fail_ub UbFuel
  | S f =>
      eof <- readNextMemoryRegion k h;;
      if eof then ret tt else regionLoop f k h
  end.
Definition readMemoryRegions (k : kind) (h : nat) : M world unit :=
  f <- get_file h;;
  regionLoop (S (length (f_data f))) k h.

(** CrashCatcherDump.c 103-110. *)
Definition readDump (k : kind) (h : nat) : M world unit :=
  v2 <- validateDumpSignature k h;;
  readFlags k h ;;;
  readIntegerRegisters k h v2 ;;;
  readFloatingPointRegisters k h ;;;
  readMemoryRegions k h.

(** CrashCatcherDump.c 234-241. *)
Definition destructObject (p : option nat) : M world unit :=
  match p with Some h => fclose h | None => ret tt end.

(** CrashCatcherDump.c 60-75 (ReadBinary), 245-260 (ReadHex), 82-93 (initObject).  The local is
    [object.pFile]. *)
Definition CrashCatcherDump_Read (k : kind) (name : list Z) : M world unit :=
  try_ None
    (h <- lift (openDump name);;
     setl (Some h) ;;;
     lift (readDump k h) ;;;
     p <- getl;;
     lift (destructObject p) ;;;
     setl None)
    (fun p => destructObject p ;;; rethrow) ;;;
  ret tt.
Definition CrashCatcherDump_ReadBinary := CrashCatcherDump_Read Binary.
Definition CrashCatcherDump_ReadHex := CrashCatcherDump_Read Hex.
