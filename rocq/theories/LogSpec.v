(** Specification vocabulary for GDB logs: the text formats GDB writes and what loading them means.
    Nothing here refers to the functions of the log parser. *)
From Coq Require Import String ZArith List Bool.
From Verif Require Import Base World MemSim MemSpec DumpSpec.
Import ListNotations.
Open Scope Z_scope.

(** ** Lines *)

(** [l] is what is read next, with a 1024-byte line buffer, when [rest] follows it: a line with its
    newline, the first 1023 characters of a longer line, or a last line without newline. *)
Definition piece (l rest : list Z) : Prop :=
  (exists body, l = body ++ [10] /\ ~ In 10 body /\ (length l <= 1023)%nat) \/
  (~ In 10 l /\ length l = 1023%nat) \/
  (~ In 10 l /\ l <> [] /\ (length l <= 1023)%nat /\ rest = []).

(** The lines of a text. *)
Inductive lines : list Z -> list (list Z) -> Prop :=
| lines_nil : lines [] []
| lines_cons l rest ls : piece l rest -> lines rest ls -> lines (l ++ rest) (l :: ls).

(** ** Numbers *)

Fixpoint hex_num (acc : Z) (ds : list Z) : option Z :=
  match ds with
  | [] => Some acc
  | c :: t => match hex_value c with Some x => hex_num (16 * acc + x) t | None => None end
  end.
(** [ds] are hex digits, of either case, for the 32-bit value [v]. *)
Definition hex_shows (ds : list Z) (v : Z) : Prop := ds <> [] /\ hex_num 0 ds = Some v /\ u32 v.

Definition hex_digit (c : Z) : Prop := hex_value c <> None.
(** [t] does not start with a hex digit. *)
Definition digits_end (t : list Z) : Prop := match t with c :: _ => ~ hex_digit c | [] => True end.

(** ** Registers *)

(** Register number [i] of the integer registers (0..18) or of s0..s31, fpscr (0..32). *)
Inductive target := TInt (i : nat) | TFloat (i : nat).

Definition int_names : list string :=
  ["r0"; "r1"; "r2"; "r3"; "r4"; "r5"; "r6"; "r7"; "r8"; "r9"; "r10"; "r11"; "r12"; "sp"; "lr"; "pc"; "xpsr"; "msp"; "psp"]%string.
Definition float_names : list string :=
  ["s0"; "s1"; "s2"; "s3"; "s4"; "s5"; "s6"; "s7"; "s8"; "s9"; "s10"; "s11"; "s12"; "s13"; "s14"; "s15";
   "s16"; "s17"; "s18"; "s19"; "s20"; "s21"; "s22"; "s23"; "s24"; "s25"; "s26"; "s27"; "s28"; "s29"; "s30"; "s31"; "fpscr"]%string.
Definition is_target (t : target) : Prop := match t with TInt i => (i < 19)%nat | TFloat i => (i < 33)%nat end.
Definition name_of (t : target) : list Z :=
  s2b match t with TInt i => nth i int_names ""%string | TFloat i => nth i float_names ""%string end.
(** The name padded with blanks to 15 characters, as GDB prints it. *)
Definition field (t : target) : list Z := name_of t ++ repeat 32 (15 - length (name_of t)).

Definition word_at (ctx : list Z) (t : target) : Z :=
  match t with TInt i => reg_word ctx i | TFloat i => fp_word ctx i end.

(** The line is about register [t]. *)
Definition mentions (l : list Z) (t : target) : Prop := exists rest, l = field t ++ rest.

(** Blank characters. *)
Definition blank (c : Z) : Prop := c = 32 \/ 9 <= c <= 13.

(** The line gives register [t] the value [v]: "r0             0x12ab...", and for s0..s31
    "s1             1  (raw 0x3f800000)". *)
Definition shows (l : list Z) (t : target) (v : Z) : Prop :=
  match t with
  | TFloat i =>
      if Nat.ltb i 32 then
        exists dec gap ds tail, l = field t ++ dec ++ gap ++ s2b "(raw 0x" ++ ds ++ tail /\
          Forall (fun c => c <> 0 /\ ~ blank c) dec /\ Forall blank gap /\ gap <> [] /\ hex_shows ds v /\ digits_end tail
      else exists ds tail, l = field t ++ s2b "0x" ++ ds ++ tail /\ hex_shows ds v /\ digits_end tail
  | TInt _ => exists ds tail, l = field t ++ s2b "0x" ++ ds ++ tail /\ hex_shows ds v /\ digits_end tail
  end.

(** The value a register has if the log does not mention it. *)
Definition unlisted (ctx : list Z) (t : target) : Z :=
  match t with
  | TInt 17 | TInt 18 => 0xBAADBAAD
  | _ => word_at ctx t
  end.

(** Bit [n] of the flags word, which comes first in the context.  Bit 0 says that the floating-point
    registers are valid. *)
Definition flag_bit (ctx : list Z) (n : Z) : bool := Z.testbit (of_le (firstn 4 ctx)) n.
(** The exception PSR. *)
Definition psr_word (ctx : list Z) : Z := of_le (firstn 4 (skipn 80 ctx)).

(** ** Memory *)

(** A symbol's angle brackets nest properly. *)
Fixpoint nested (level : nat) (s : list Z) : Prop :=
  match s with
  | [] => level = O
  | c :: t => if c =? 60 then nested (S level) t
              else if c =? 62 then match level with O => False | S k => nested k t end
              else nested level t
  end.

(** What follows the address: a colon, or a symbol in angle brackets and a colon. *)
Definition separator (s : list Z) : Prop :=
  s = s2b ":" \/ exists sym, s = s2b " <" ++ sym ++ s2b ">:" /\ nested 0 sym.

(** The words of a memory line, each after some blanks. *)
Inductive word_list : list Z -> list Z -> Prop :=
| wl_nil : word_list [] []
| wl_cons v ws gap ds t :
    Forall blank gap -> gap <> [] -> hex_shows ds v -> word_list ws t -> word_list (v :: ws) (gap ++ s2b "0x" ++ ds ++ t).

(** [l] is "0x20000000 <symbol+4>:  0x00000001 0x00000002 ..." followed by the blanks [tail]. *)
Definition memory_line (a : Z) (ws : list Z) (tail l : list Z) : Prop :=
  exists d8 sep t, l = s2b "0x" ++ d8 ++ sep ++ t ++ tail /\ length d8 = 8%nat /\ hex_shows d8 a /\ separator sep /\
    word_list ws t /\ Forall blank tail /\ ws <> [] /\ (length ws <= 4)%nat /\ Forall (fun c => c <> 0) l.

(** [l] starts like a memory line: "0x", 8 hex digits and at least two further characters. *)
Definition like_memory (l : list Z) : Prop :=
  exists d8 c1 c2 rest, l = s2b "0x" ++ d8 ++ c1 :: c2 :: rest /\ length d8 = 8%nat /\ Forall hex_digit d8 /\ c1 <> 0 /\ c2 <> 0.

(** The memory the lines show, one entry per memory line.  Each memory line has four words, as GDB
    prints them, or nothing after its last word. *)
Inductive log_shows : list (list Z) -> list (Z * list Z) -> Prop :=
| ls_nil : log_shows [] []
| ls_memory l ls a ws tail ms :
    memory_line a ws tail l -> length ws = 4%nat \/ tail = [] -> log_shows ls ms -> log_shows (l :: ls) ((a, words ws) :: ms)
| ls_other l ls ms : ~ like_memory l -> log_shows ls ms -> log_shows (l :: ls) ms.

(** The same for any number of words: a line of fewer than four words that has blanks (or its
    newline) after the last word counts as having one more word, zero. *)
Definition padded (ws tail : list Z) : list Z :=
  match tail with [] => ws | _ => if Nat.ltb (length ws) 4 then ws ++ [0] else ws end.
Inductive log_loads : list (list Z) -> list (Z * list Z) -> Prop :=
| ll_nil : log_loads [] []
| ll_memory l ls a ws tail ms : memory_line a ws tail l -> log_loads ls ms -> log_loads (l :: ls) ((a, words (padded ws tail)) :: ms)
| ll_other l ls ms : ~ like_memory l -> log_loads ls ms -> log_loads (l :: ls) ms.

(** Entries that continue one another joined. *)
Fixpoint joined (ms : list (Z * list Z)) : list (Z * list Z) :=
  match ms with
  | [] => []
  | (a, bs) :: t => match joined t with
                    | (b, cs) :: r => if a + zlen bs =? b then (a, bs ++ cs) :: r else (a, bs) :: (b, cs) :: r
                    | [] => [(a, bs)]
                    end
  end.

(** No run of lines covers all 2^32 bytes, and no line that ends with the last byte of the address
    space is directly followed by a line at address 0. *)
Definition no_wrap (ms : list (Z * list Z)) : Prop :=
  Forall (fun x => zlen (snd x) < 4294967296) (joined ms) /\
  forall before x y after, ms = before ++ x :: y :: after -> fst x + zlen (snd x) = 4294967296 -> fst y <> 0.

(** [w'] is [w] with memory added after the existing regions; registers are not looked at. *)
Definition memory_added (w w' : world) (ms : list (Z * list Z)) : Prop :=
  (exists new, regions w' = regions w ++ new /\ Forall2 is_ram new ms) /\
  fs_open (w_files w') = fs_open (w_files w) /\
  m_hits (w_mem w') = m_hits (w_mem w) /\ m_xml (w_mem w') = m_xml (w_mem w) /\
  w_err w' = w_err w /\ w_faults w' = w_faults w /\ w_gdb w' = w_gdb w /\ w_con w' = w_con w /\ w_env w' = w_env w.
