(** The target that a debug session presents: memory made of the parts that the image and the dump
    describe, aliases onto them, the registers of the dump and a count of failed accesses.  It is
    described without the simulated memory, its regions or the functions of the platform layer. *)
From Coq Require Import String ZArith List Bool.
From Verif Require Import Base World CmdSpec AliasSpec MemSpec DumpSpec PlatSpec.
Import ListNotations.
Open Scope Z_scope.

(** A part of memory: whether it can be written, its address, and its bytes. *)
Record part := mkPart { p_ram : bool; p_addr : Z; p_bytes : list Z }.

Record target := mkTarget {
  t_parts : list part;
  t_aliases : list (Z * Z * Z);   (* address, size, redirect address *)
  t_regs : list Z;                (* the 216 bytes of registers *)
  t_faults : Z                    (* failed accesses since the last query *)
}.

(** The target that an image of the parts [ms] and a dump with memory [mem] and registers [regs]
    stand for: the image is read-only, the dump's memory is not. *)
Definition target_of (os : list opt) (ms mem : list (Z * list Z)) (regs : list Z) : target :=
  mkTarget (map (fun x => mkPart false (fst x) (snd x)) ms ++ map (fun x => mkPart true (fst x) (snd x)) mem) (aliases os) regs 0.

(** ** Memory *)

(** The [n] bytes at [a] lie in the part. *)
Definition inside (n a : Z) (p : part) : bool := (p_addr p <=? a) && (a + n <=? p_addr p + zlen (p_bytes p)).

(** The first element for which [f] has a value. *)
Fixpoint first_some {A B} (f : A -> option B) (l : list A) : option B :=
  match l with
  | [] => None
  | x :: t => match f x with Some y => Some y | None => first_some f t end
  end.

(** Where an alias leads: to the address as far from the redirect address as [a] is from the alias's,
    if the access lies within the alias and, there, within the part that has the redirect address. *)
Definition via (ps : list part) (n a : Z) (al : Z * Z * Z) : option Z :=
  let '(base, size, redirect) := al in
  let a' := redirect + (a - base) in
  if (base <=? a) && (a + n <=? base + size) && existsb (fun p => inside 1 redirect p && inside n a' p) ps
  then Some a' else None.

(** The address of the bytes that [n] bytes at [a] stand for: [a] itself if they lie in a part,
    otherwise where the first alias leads that leads anywhere. *)
Definition real_address (t : target) (n a : Z) : option Z :=
  if existsb (inside n a) (t_parts t) then Some a else first_some (via (t_parts t) n a) (t_aliases t).

(** The little-endian number there. *)
Definition peek (t : target) (n a : Z) : option Z :=
  match real_address t n a with
  | None => None
  | Some a' =>
      first_some (fun p => if inside n a' p then Some (of_le (firstn (Z.to_nat n) (skipn (Z.to_nat (a' - p_addr p)) (p_bytes p)))) else None)
                 (t_parts t)
  end.

(** The bytes of a part with [bs] from [i] on. *)
Definition put (i : nat) (bs l : list Z) : list Z := firstn i l ++ bs ++ skipn (i + length bs) l.

(** Storing the number [v] there; impossible if the part is read-only. *)
Definition poke (t : target) (n a v : Z) : option target :=
  match real_address t n a with
  | None => None
  | Some a' =>
      if existsb (fun p => inside n a' p && p_ram p) (t_parts t)
      then Some (mkTarget (map (fun p => if inside n a' p then mkPart (p_ram p) (p_addr p) (put (Z.to_nat (a' - p_addr p)) (le (Z.to_nat n) v) (p_bytes p)) else p)
                               (t_parts t)) (t_aliases t) (t_regs t) (t_faults t))
      else None
  end.

Definition failed (t : target) : target := mkTarget (t_parts t) (t_aliases t) (t_regs t) (t_faults t + 1).
Definition asked (t : target) : target := mkTarget (t_parts t) (t_aliases t) (t_regs t) 0.
Definition with_regs (t : target) (r : list Z) : target := mkTarget (t_parts t) (t_aliases t) r (t_faults t).

(** ** The memory map *)

Definition map_entry (ram : bool) (a n : Z) : list Z :=
  if ram then
    s2b "<memory type=""ram"" start=""0x" ++ fmtX a ++ s2b """ length=""0x" ++ fmtX n ++ s2b """></memory>"
  else
    s2b "<memory type=""flash"" start=""0x" ++ fmtX a ++ s2b """ length=""0x" ++ fmtX n ++
    s2b """> <property name=""blocksize"">1</property></memory>".

(** An alias is shown like the part it leads to, cut off where that part ends. *)
Definition alias_entry (ps : list part) (al : Z * Z * Z) : list Z :=
  let '(base, size, redirect) := al in
  match find (inside 1 redirect) ps with
  | Some p => map_entry (p_ram p) base (Z.min size (p_addr p + zlen (p_bytes p) - redirect))
  | None => []
  end.

Definition memory_map (t : target) : list Z :=
  s2b "<?xml version=""1.0""?><!DOCTYPE memory-map PUBLIC ""+//IDN gnu.org//DTD GDB Memory Map V1.0//EN"" ""http://sourceware.org/gdb/gdb-memory-map.dtd""><memory-map>" ++
  flat_map (fun p => map_entry (p_ram p) (p_addr p) (zlen (p_bytes p))) (t_parts t) ++
  flat_map (alias_entry (t_parts t)) (t_aliases t) ++ s2b "</memory-map>".

(** ** The fault report *)

Definition mem_report (t : target) : list gdbout :=
  status_part "**MPU Fault**" (option_map (fun v => v mod 256) (peek t 4 0xE000ED28)) (peek t 4 0xE000ED34) mem_bits.
Definition bus_report (t : target) : list gdbout :=
  status_part "**Bus Fault**" (option_map (fun v => v / 256 mod 256) (peek t 4 0xE000ED28)) (peek t 4 0xE000ED38) bus_bits.
Definition usage_report (t : target) : list gdbout :=
  status_part "**Usage Fault**" (option_map (fun v => v / 65536 mod 65536) (peek t 4 0xE000ED28)) None usage_bits.
Definition hard_report (t : target) : list gdbout :=
  text "**Hard Fault**" ::
  match peek t 4 0xE000ED2C with
  | None => []
  | Some h => [text "  Status Register: "; GHex h] ++ bit_lines h hard_bits ++
              if Z.testbit h 30 then text "    Forced" :: mem_report t ++ bus_report t ++ usage_report t else []
  end.
Definition report (t : target) : list gdbout :=
  match word_at (t_regs t) 80 mod 256 with
  | 3 => hard_report t ++ [text ""]
  | 4 => mem_report t ++ [text ""]
  | 5 => bus_report t ++ [text ""]
  | 6 => usage_report t ++ [text ""]
  | _ => []
  end.

(** ** Conversations *)

(** What a call gives back: a result, or an exception. *)
Inductive reply := Says (x : list Z) | Refuses.

(** The text does not start with two hexadecimal digits. *)
Definition no_byte (l : list Z) : Prop := forall x y t, l = x :: y :: t -> hex_value x = None \/ hex_value y = None.

(** The stop reply: registers 12 to 15. *)
Definition stop_reply (t : target) : list Z :=
  let digits k := hex_text (firstn 4 (skipn k (register_bytes (t_regs t)))) in
  s2b "0c:" ++ digits 48%nat ++ s2b ";0d:" ++ digits 52%nat ++ s2b ";0e:" ++ digits 56%nat ++ s2b ";0f:" ++ digits 60%nat ++ s2b ";".

(** The calls on the channel between debugger and monitor, which do not concern the target. *)
Definition channel_call (p : pcall) : Prop :=
  match p with PHasData | PReceive | PSend _ | PWaiting => True | _ => False end.

(** [responds xml t p r ls t']: to the call [p] the target [t] gives the reply [r], prints the lines
    [ls], and is [t'] afterwards.  [xml] are the descriptions of the registers with and without
    floating-point registers. *)
Inductive responds (xml : bool -> list Z) (t : target) : pcall -> reply -> list gdbout -> target -> Prop :=
| re_control c : responds xml t (PControl c) (Says (frozen_answer c)) [] t
| re_read n a v : peek t n (W a) = Some v -> responds xml t (PRead n a) (Says [v]) [] t
| re_read_off n a : peek t n (W a) = None -> responds xml t (PRead n a) (Says [0]) [] (failed t)
| re_write n a v t' : poke t n (W a) v = Some t' -> responds xml t (PWrite n a v) (Says []) [] t'
| re_write_off n a v : poke t n (W a) v = None -> responds xml t (PWrite n a v) (Says []) [] (failed t)
| re_faults : responds xml t PFaults (Says [t_faults t]) [] (asked t)
| re_cause : responds xml t PCause (Says [signal_for (word_at (t_regs t) 80 mod 256)]) [] t
| re_report : responds xml t PReport (Says []) (report t) t
| re_get : responds xml t PGetRegs (Says (hex_text (register_bytes (t_regs t)))) [] t
| re_set bs packet rest :
    is_hex_of bs packet -> length bs = length (register_bytes (t_regs t)) ->
    responds xml t (PSetRegs (packet ++ rest)) (Says rest) [] (with_regs t (with_registers (t_regs t) bs))
| re_set_bad bs packet rest :   (* the registers before the flaw are set *)
    is_hex_of bs packet -> (length bs < length (register_bytes (t_regs t)))%nat -> no_byte rest ->
    responds xml t (PSetRegs (packet ++ rest)) Refuses []
      (with_regs t (with_registers (t_regs t) (bs ++ skipn (length bs) (register_bytes (t_regs t)))))
| re_stop : responds xml t PTRegs (Says (stop_reply t)) [] t
| re_map : responds xml t PMap (Says (memory_map t)) [] t
| re_map_size : responds xml t PMapSize (Says [zlen (memory_map t)]) [] t
| re_map_memory p : p = PMap \/ p = PMapSize -> responds xml t p Refuses [] t   (* out of memory *)
| re_target : responds xml t PTarget (Says (xml (has_fpu (t_regs t)))) [] t
| re_target_size : responds xml t PTargetSize (Says [zlen (xml (has_fpu (t_regs t)))]) [] t
| re_channel p r : channel_call p -> responds xml t p r [] t.

(** A call with its reply and the lines printed. *)
Definition event : Type := pcall * reply * list gdbout.

(** The events are what the program does, from [w] to [w']. *)
Inductive happens : world -> list event -> world -> Prop :=
| ha_nil w : happens w [] w
| ha_says w p x ls w1 es w' :
    api (pcall_run p) w = Done x w1 -> w_gdb w1 = rev ls ++ w_gdb w -> happens w1 es w' -> happens w ((p, Says x, ls) :: es) w'
| ha_refuses w p c ls w1 es w' :
    api (pcall_run p) w = Raised c w1 -> w_gdb w1 = rev ls ++ w_gdb w -> happens w1 es w' -> happens w ((p, Refuses, ls) :: es) w'.

(** The events are what the target does. *)
Inductive expected (xml : bool -> list Z) : target -> list event -> target -> Prop :=
| ex_nil t : expected xml t [] t
| ex_event t p r ls t1 es t' : responds xml t p r ls t1 -> expected xml t1 es t' -> expected xml t ((p, r, ls) :: es) t'.

(** The description declares the registers of a Cortex-M, with or without floating-point registers. *)
Definition core_registers : list (string * Z) :=
  map (fun n => (n, 32)) ["r0"; "r1"; "r2"; "r3"; "r4"; "r5"; "r6"; "r7"; "r8"; "r9"; "r10"; "r11"; "r12"; "sp"; "lr"; "pc"; "xpsr"; "msp"; "psp"]%string.
Definition fpu_registers : list (string * Z) :=
  map (fun n => (n, 64)) ["d0"; "d1"; "d2"; "d3"; "d4"; "d5"; "d6"; "d7"; "d8"; "d9"; "d10"; "d11"; "d12"; "d13"; "d14"; "d15"]%string ++ [("fpscr"%string, 32)].
Definition declares (fpu : bool) (xml : list Z) : Prop :=
  let l := core_registers ++ if fpu then fpu_registers else [] in
  reg_names xml = map (fun x => s2b (fst x)) l /\ reg_bits xml = map snd l.
