(** libCrashDebug/src/GdbLogParser.c, function by function.  A line is the C string in the line
    buffer. *)
From Coq Require Import String ZArith List Bool.
From Verif Require Import Base World Context MemSim.
Import ListNotations.
Open Scope Z_scope.
Open Scope m_scope.

(** GdbLogParser.c 39-57: ParseResults. *)
Inductive parse_result :=
| PMemory (address : Z) (values : list Z)
| PRegister (offset value : Z)
| POther.

(** GdbLogParser.c 208-232: strlen > 11 and "0x" followed by 8 hex digits. *)
Definition is8DigitHexValue (l : list Z) : bool :=
  match l with
  | 48 :: 120 :: t => Nat.leb 8 (length t) && forallb isHexDigit (firstn 8 t)
  | _ => false
  end.
Definition isMemoryLine (l : list Z) : bool := Nat.ltb 11 (length l) && is8DigitHexValue l.

(** GdbLogParser.c 273-278. *)
Definition skipWhitespace (l : list Z) : list Z := skip_ws l.

(** GdbLogParser.c 286-297: the loop, with the nesting level. *)
Fixpoint skipSymbol_loop (l : list Z) (level : Z) : list Z :=
  match l with
  | [] => []
  | c :: t =>
      if c =? 60 then skipSymbol_loop t (level + 1)
      else if c =? 62 then skipSymbol_loop t (level - 1)
      else if isspace c && (level =? 0) then l
      else skipSymbol_loop t level
  end.
(** GdbLogParser.c 280-298. *)
Definition skipSymbol (l : list Z) : list Z :=
  match l with
  | 60 :: _ => skipSymbol_loop l 0
  | _ => l
  end.
(** GdbLogParser.c 265-271. *)
Definition skipWhitespaceAndSymbol (l : list Z) : list Z :=
  skipWhitespace (skipSymbol (skipWhitespace l)).

(** GdbLogParser.c 239-240, 253-263 and 300-305: at most [k] more values.  When strtoul converts
    nothing the value is 0 and the position does not move. *)
Fixpoint parseValues (k : nat) (l : list Z) : list Z :=
  match k with
  | O => []
  | S k' =>
      match l with
      | [] => []
      | _ => let (v, rest) := strtoul0 (skipWhitespaceAndSymbol l) in W v :: parseValues k' rest
      end
  end.

(** GdbLogParser.c 234-251. *)
Definition parseMemoryLine (l : list Z) : parse_result :=
  PMemory (strtou32 l) (parseValues 4 (skipn 11 l)).

(** GdbLogParser.c 307-366: the 15-character register names and their context offsets. *)
Definition reg15 (s : string) : list Z := firstn 15 (s2b s ++ repeat 32 15).
Definition registers : list (list Z * Z) :=
  [ (reg15 "r0", OFF_R 0); (reg15 "r1", OFF_R 1); (reg15 "r2", OFF_R 2); (reg15 "r3", OFF_R 3);
    (reg15 "r4", OFF_R 4); (reg15 "r5", OFF_R 5); (reg15 "r6", OFF_R 6); (reg15 "r7", OFF_R 7);
    (reg15 "r8", OFF_R 8); (reg15 "r9", OFF_R 9); (reg15 "r10", OFF_R 10); (reg15 "r11", OFF_R 11);
    (reg15 "r12", OFF_R 12); (reg15 "sp", OFF_R 13); (reg15 "lr", OFF_R 14); (reg15 "pc", OFF_R 15);
    (reg15 "xpsr", OFF_R 16); (reg15 "msp", OFF_R 17); (reg15 "psp", OFF_R 18);
    (reg15 "s0", OFF_FPR 0); (reg15 "s1", OFF_FPR 1); (reg15 "s2", OFF_FPR 2); (reg15 "s3", OFF_FPR 3);
    (reg15 "s4", OFF_FPR 4); (reg15 "s5", OFF_FPR 5); (reg15 "s6", OFF_FPR 6); (reg15 "s7", OFF_FPR 7);
    (reg15 "s8", OFF_FPR 8); (reg15 "s9", OFF_FPR 9); (reg15 "s10", OFF_FPR 10); (reg15 "s11", OFF_FPR 11);
    (reg15 "s12", OFF_FPR 12); (reg15 "s13", OFF_FPR 13); (reg15 "s14", OFF_FPR 14); (reg15 "s15", OFF_FPR 15);
    (reg15 "s16", OFF_FPR 16); (reg15 "s17", OFF_FPR 17); (reg15 "s18", OFF_FPR 18); (reg15 "s19", OFF_FPR 19);
    (reg15 "s20", OFF_FPR 20); (reg15 "s21", OFF_FPR 21); (reg15 "s22", OFF_FPR 22); (reg15 "s23", OFF_FPR 23);
    (reg15 "s24", OFF_FPR 24); (reg15 "s25", OFF_FPR 25); (reg15 "s26", OFF_FPR 26); (reg15 "s27", OFF_FPR 27);
    (reg15 "s28", OFF_FPR 28); (reg15 "s29", OFF_FPR 29); (reg15 "s30", OFF_FPR 30); (reg15 "s31", OFF_FPR 31);
    (reg15 "fpscr", OFF_FPR 32) ].

(** GdbLogParser.c 368-378: strncmp(name, line, 15) == 0, first match. *)
Fixpoint lookupRegister (t : list (list Z * Z)) (l : list Z) : option Z :=
  match t with
  | [] => None
  | (name, off) :: t' => if bytes_eqb name (firstn 15 l) then Some off else lookupRegister t' l
  end.
Definition isRegisterLine (l : list Z) : option Z := lookupRegister registers l.

(** GdbLogParser.c 161-165. *)
Definition isFloatingPointRegister (off : Z) : bool := (OFF_FPR 0 <=? off) && (off <=? OFF_FPR 31).

(** GdbLogParser.c 414-419. *)
Fixpoint findWhitespace (l : list Z) : list Z :=
  match l with
  | [] => []
  | c :: t => if isspace c then l else findWhitespace t
  end.

(** GdbLogParser.c 399-412. *)
Definition parseFloatRegisterLine (l : list Z) : Z :=
  let l1 := skipWhitespace (findWhitespace (skipn 15 l)) in
  if bytes_eqb (firstn 5 l1) (s2b "(raw ") then strtou32 (skipn 5 l1) else 4294967295.

(** GdbLogParser.c 381-397. *)
Definition parseRegisterLine (l : list Z) (off : Z) : parse_result :=
  PRegister off (if isFloatingPointRegister off then parseFloatRegisterLine l else strtou32 (skipn 15 l)).

(** GdbLogParser.c 197-206 and 421-426. *)
Definition parseLine (l : list Z) : parse_result :=
  if isMemoryLine l then parseMemoryLine l
  else match isRegisterLine l with
       | Some off => parseRegisterLine l off
       | None => POther
       end.

(** GdbLogParser.c 22-30: regionStart, regionSize, nextExpectedAddress of the ParseObject. *)
Record pobj := mkPO { po_start : Z; po_size : Z; po_next : Z }.

(** GdbLogParser.c 141-152. *)
Definition firstPassMemoryHandler (o : pobj) (address : Z) (values : list Z) : M world pobj :=
  let n := 4 * zlen values in
  o1 <- (if negb (address =? po_next o) then
           (if negb (po_start o =? 4294967295) then MemorySim_CreateRegion (po_start o) (po_size o)
            else ret tt) ;;;
           ret (mkPO address 0 (po_next o))
         else ret o);;
  ret (mkPO (po_start o1) (W (po_size o1 + n)) (W (address + n))).

(** GdbLogParser.c 154-159. *)
Definition firstPassRegisterHandler (off value : Z) : M world unit :=
  (if isFloatingPointRegister off then
     f <- ctx_word OFF_FLAGS;;
     ctx_put OFF_FLAGS (le 4 (Z.lor f CRASH_CATCHER_FLAGS_FLOATING_POINT))
   else ret tt) ;;;
  ctx_put off (le 4 value).

(** GdbLogParser.c 125-139. *)
Definition firstPassHandler (o : pobj) (p : parse_result) : M world pobj :=
  match p with
  | PMemory a vs => firstPassMemoryHandler o a vs
  | PRegister off v => firstPassRegisterHandler off v ;;; ret o
  | POther => ret o
  end.

(** GdbLogParser.c 172-173: write the values one word after another. *)
Fixpoint writeValues (a : Z) (vs : list Z) : M world unit :=
  match vs with
  | [] => ret tt
  | v :: t => write32 a v ;;; writeValues (W (a + 4)) t
  end.

(** GdbLogParser.c 167-174. *)
Definition secondPassHandler (o : pobj) (p : parse_result) : M world pobj :=
  match p with
  | PMemory a vs => writeValues a vs ;;; ret o
  | _ => ret o
  end.

(** GdbLogParser.c 188-192.  Every iteration consumes at least one byte of the file. *)
Fixpoint lineLoop (fuel : nat) (h : nat) (handler : pobj -> parse_result -> M world pobj) (o : pobj)
  : M world pobj :=
  match fuel with
  | O => fail_ub UbFuel
  | S k =>
      line <- fgets h 1024;;
      match line with
      | None => ret o
      | Some bs => o' <- handler o (parseLine (cstr bs));; lineLoop k h handler o'
      end
  end.

(** GdbLogParser.c 176-195. *)
Definition parseLines (h : nat) (handler : pobj -> parse_result -> M world pobj) : M world unit :=
  f <- get_file h;;
  o <- lineLoop (S (length (f_data f))) h handler (mkPO 4294967295 0 4294967295);;
  if negb (po_size o =? 0) then MemorySim_CreateRegion (po_start o) (po_size o) else ret tt.

(** GdbLogParser.c 111-117. *)
Definition openLog (name : list Z) : M world nat :=
  p <- fopen name;;
  match p with
  | Some h => ret h
  | None => throw_msg fileException (s2b "Failed to open """ ++ name ++ s2b """ GDB log.")
  end.

(** GdbLogParser.c 119-123. *)
Definition initPSPandMSP : M world unit :=
  ctx_put (OFF_R MSP) (le 4 DEFAULT_SP_VALUE) ;;; ctx_put (OFF_R PSP) (le 4 DEFAULT_SP_VALUE).

(** GdbLogParser.c 428-433.  The fseek arguments are swapped there, but SEEK_SET is 0 so the call
    still is fseek(h, 0, SEEK_SET). *)
Definition rewindLogFile (h : nat) : M world unit :=
  ok <- fseek_start h;;
  if ok then ret tt else throw_msg fileException (s2b "Failed to rewind GDB log for second pass.").

(** GdbLogParser.c 90-109.  The local is [pLogFile]; the body closes it last without clearing it. *)
Definition GdbLogParse (name : list Z) : M world unit :=
  try_ None
    (h <- lift (openLog name);;
     setl (Some h) ;;;
     lift (initPSPandMSP ;;;
           parseLines h firstPassHandler ;;;
           rewindLogFile h ;;;
           parseLines h secondPassHandler ;;;
           fclose h))
    (fun p => (match p with Some h => fclose h | None => ret tt end) ;;; rethrow) ;;;
  ret tt.
