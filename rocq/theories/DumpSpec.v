(** Specification vocabulary for CrashCatcher dumps: the file format and what loading a dump means.
    Nothing here refers to the functions of the dump reader. *)
From Coq Require Import String ZArith List Bool.
From Verif Require Import Base World MemSim MemSpec.
Import ListNotations.
Open Scope Z_scope.

(** ** The format *)

(** A dump: version 2 or 3, flags, the integer registers R0..R12, SP, LR, PC, xPSR (and in version 3
    MSP and PSP), the exception PSR, S0..S31 and FPSCR if flagged, and memory regions, each given
    by its start address and contents. *)
Record dump := mkDump {
  d_v2 : bool; d_flags : Z; d_regs : list Z; d_psr : Z; d_fp : list Z; d_mem : list (Z * list Z) }.

(** Bit 0 of the flags says that the floating-point registers are present. *)
Definition has_fp (d : dump) : bool := Z.odd (d_flags d).

Definition valid_region (x : Z * list Z) : Prop := u32 (fst x) /\ u32 (zlen (snd x)) /\ Forall byte (snd x).

Definition valid (d : dump) : Prop :=
  u32 (d_flags d) /\
  (Forall u32 (d_regs d) /\ length (d_regs d) = if d_v2 d then 17%nat else 19%nat) /\
  u32 (d_psr d) /\
  (Forall u32 (d_fp d) /\ length (d_fp d) = if has_fp d then 33%nat else 0%nat) /\
  Forall valid_region (d_mem d).

(** Little-endian words. *)
Definition words (l : list Z) : list Z := flat_map (le 4) l.

(** A region is written as its start address, the address after its last byte, and its bytes. *)
Definition enc_region (x : Z * list Z) : list Z := le 4 (fst x) ++ le 4 (fst x + zlen (snd x)) ++ snd x.

(** Everything before the regions: "cC", the version, and the registers. *)
Definition enc_head (d : dump) : list Z :=
  s2b "cC" ++ (if d_v2 d then [2; 0] else [3; 0]) ++
  le 4 (d_flags d) ++ words (d_regs d) ++ le 4 (d_psr d) ++ words (d_fp d).

Definition encode (d : dump) : list Z := enc_head d ++ flat_map enc_region (d_mem d).

(** What CrashCatcher appends when it has overflowed its stack: the word 0xACCE55ED. *)
Definition overflow_mark : list Z := [237; 85; 206; 172].

(** ** What loading it means *)

(** The register context: flags, the 19 integer registers (MSP and PSP get 0xBAADBAAD if the dump
    lacks them), the exception PSR and the 33 floating-point words, which keep their old contents if
    the dump has none. *)
Definition context (d : dump) (old : list Z) : list Z :=
  le 4 (d_flags d) ++ words (d_regs d) ++
  (if d_v2 d then [173; 186; 173; 186; 173; 186; 173; 186] else []) ++ le 4 (d_psr d) ++
  (if has_fp d then words (d_fp d) else skipn 84 old).

(** A writable region of memory with these contents. *)
Definition is_ram (r : region) (x : Z * list Z) : Prop :=
  r_base r = fst x /\ r_size r = zlen (snd x) /\ r_redir r = None /\ r_data r = snd x /\
  r_ro r = false /\ r_wps r = [] /\ r_rc r = None.

(** [w'] is [w] with the dump's registers, its regions added after the existing ones, and no file
    left open. *)
Definition loaded (w w' : world) (d : dump) : Prop :=
  (exists new, regions w' = regions w ++ new /\ Forall2 is_ram new (d_mem d)) /\
  w_ctx w' = context d (w_ctx w) /\
  fs_open (w_files w') = fs_open (w_files w) /\
  m_hits (w_mem w') = m_hits (w_mem w) /\ m_xml (w_mem w') = m_xml (w_mem w) /\
  w_err w' = w_err w /\ w_faults w' = w_faults w /\ w_gdb w' = w_gdb w /\ w_con w' = w_con w /\ w_env w' = w_env w.

(** The same registers with other memory. *)
Definition with_mem (d : dump) (ms : list (Z * list Z)) : dump :=
  mkDump (d_v2 d) (d_flags d) (d_regs d) (d_psr d) (d_fp d) ms.

(** [t] is the dump cut off after its registers and some of its regions. *)
Definition at_boundary (d : dump) (t : list Z) (ms : list (Z * list Z)) : Prop :=
  (exists rest, d_mem d = ms ++ rest) /\ t = encode (with_mem d ms).

(** [t] is the dump cut off after the start address of a region that starts at 0xACCE55ED. *)
Definition looks_overflowed (d : dump) (t : list Z) : Prop :=
  exists ms bs rest, d_mem d = ms ++ (2899203565, bs) :: rest /\ t = encode (with_mem d ms) ++ overflow_mark.

(** Register words of a context: R0..R12, SP, LR, PC, xPSR, MSP, PSP are numbers 0..18. *)
Definition reg_word (ctx : list Z) (i : nat) : Z := of_le (firstn 4 (skipn (4 + 4 * i) ctx)).
(** S0..S31 and FPSCR are numbers 0..32. *)
Definition fp_word (ctx : list Z) (i : nat) : Z := of_le (firstn 4 (skipn (84 + 4 * i) ctx)).

(** Address ranges (start, length) without a common address. *)
Definition apart (x y : Z * Z) : Prop :=
  snd x = 0 \/ snd y = 0 \/ fst x + snd x <= fst y \/ fst y + snd y <= fst x.
Definition range_of (r : region) : Z * Z := (r_base r, r_size r).
Definition range_in (x : Z * list Z) : Z * Z := (fst x, zlen (snd x)).

(** The regions end at or below 2^32, have no address in common, and none with existing memory. *)
Definition fit (rs : list region) (ms : list (Z * list Z)) : Prop :=
  Forall (fun x => fst x + zlen (snd x) <= 4294967296) ms /\
  ForallOrdPairs (fun x y => apart (range_in x) (range_in y)) ms /\
  forall r x, In r rs -> In x ms -> apart (range_of r) (range_in x).

(** ** Files *)

(** The file has these contents. *)
Definition file_is (w : world) (name data : list Z) : Prop := e_fs (w_env w) name = Some data.
(** No file operation fails or is cut short. *)
Definition no_io_faults (w : world) : Prop := forall n, e_io (w_env w) n = IoOk.
(** A file operation failed during a call that started in [w] and ended in [w']. *)
Definition fault_between (w w' : world) : Prop :=
  exists n, (fs_calls (w_files w) <= n < fs_calls (w_files w'))%nat /\ e_io (w_env w) n <> IoOk.
(** The register context has its size. *)
Definition ctx_sane (w : world) : Prop := zlen (w_ctx w) = 216.

(** ** Hex dumps *)

Definition newline (c : Z) : Prop := c = 13 \/ c = 10.

Definition hex_value (c : Z) : option Z :=
  if (48 <=? c) && (c <=? 57) then Some (c - 48)
  else if (97 <=? c) && (c <=? 102) then Some (c - 87)
  else if (65 <=? c) && (c <=? 70) then Some (c - 55)
  else None.

(** [text] shows the bytes [bs] as pairs of hex digits of either case, with CR and LF characters in
    between in any way. *)
Inductive renders : list Z -> list Z -> Prop :=
| renders_nil : renders [] []
| renders_newline bs c text : newline c -> renders bs text -> renders bs (c :: text)
| renders_byte bs hi gap lo text x y :
    hex_value hi = Some x -> Forall newline gap -> hex_value lo = Some y -> renders bs text ->
    renders (16 * x + y :: bs) (hi :: gap ++ lo :: text).

(** The characters of a text other than CR and LF. *)
Definition significant (text : list Z) : list Z := filter (fun c => negb ((c =? 13) || (c =? 10))) text.

(** The text of these characters has a character that is not a hex digit, other than an unpaired
    last one. *)
Definition malformed (text : list Z) : Prop :=
  exists i c, nth_error (significant text) i = Some c /\ hex_value c = None /\
              (i < 2 * (length (significant text) / 2))%nat.

(** ** Comparing two runs *)

(** Everything but the file layer is the same. *)
Definition same_but_files (w w' : world) : Prop := exists f, w' = set_files w f.

(** The same outcome, in states that agree on everything but the file layer. *)
Definition same_outcome {A} (r r' : result A) : Prop :=
  match r, r' with
  | Done a w, Done a' w' => a = a' /\ same_but_files w w'
  | Raised c w, Raised c' w' => c = c' /\ same_but_files w w'
  | Crashed u, Crashed u' => u = u'
  | _, _ => False
  end.
