(** Specification vocabulary for the memory simulator: how a caller observes a call, histories of
    calls, which storage serves an access, and well-formedness notions used in theorem statements.
    Nothing here refers to the simulator's internal helper functions. *)
From Coq Require Import String ZArith List Bool.
From Verif Require Import Base World MemSim.
Import ListNotations.
Open Scope Z_scope.

(** ** Observing one call *)

(** What a caller sees who wraps a call in a try block (which first clears the exception code). *)
Inductive result (A : Type) :=
| Done (a : A) (w : world)
| Raised (code : Z) (w : world)
| Crashed (u : ub).
Arguments Done {A}. Arguments Raised {A}. Arguments Crashed {A}.

Definition api {A} (m : M world A) (w : world) : result A :=
  match m (set_exn w noException []) with
  | Ret a w' => Done a w'
  | Exc w' => Raised (w_code w') w'
  | Ub u => Crashed u
  end.

(** The outcome without the state: the value returned, or the exception raised. *)
Inductive outcome_kind (A : Type) := Value (a : A) | Exception_ (code : Z) | Undefined.
Arguments Value {A}. Arguments Exception_ {A}. Arguments Undefined {A}.
Definition outcome_of {A} (r : result A) : outcome_kind A :=
  match r with Done a _ => Value a | Raised c _ => Exception_ c | Crashed _ => Undefined end.

(** ** Histories *)

(** The calls of the MemorySim.h / IMemory interface, except Init and Uninit. *)
Inductive op :=
| OCreate (base size : Z)
| OAlias (base redirect size : Z)
| OReadOnly (base : Z)
| OFlash (src : list Z) (size : Z)
| OLoad (base : Z) (src : list Z) (size : Z)
| OXml
| ORead (n a : Z)
| OWrite (n a v : Z)
| OMapRead (a n : Z)
| OMapWrite (a n : Z)
| OCount (a : Z)
| OSet (a n type : Z)
| OClear (a n type : Z)
| OHits.

Definition width (n : Z) : Prop := n = 1 \/ n = 2 \/ n = 4.

(** The arguments have their C types, and an image buffer is at least as long as its stated size. *)
Definition op_args (o : op) : Prop :=
  match o with
  | OCreate b s => u32 b /\ u32 s
  | OAlias b r s => u32 b /\ u32 r /\ u32 s
  | OReadOnly b => u32 b
  | OFlash src s => u32 s /\ Forall byte src /\ s <= zlen src
  | OLoad b src s => u32 b /\ u32 s /\ Forall byte src /\ s <= zlen src
  | OXml => True
  | ORead n a => width n /\ u32 a
  | OWrite n a v => width n /\ u32 a
  | OMapRead a n | OMapWrite a n => u32 a /\ u32 n
  | OCount a => u32 a
  | OSet a n t | OClear a n t => u32 a /\ u32 n /\ u32 t
  | OHits => True
  end.

(** The call itself; results are dropped. *)
Definition drop {A} (m : M world A) : M world unit := bind m (fun _ => ret tt).
Definition op_run (o : op) : M world unit :=
  match o with
  | OCreate b s => MemorySim_CreateRegion b s
  | OAlias b r s => MemorySim_CreateAlias b r s
  | OReadOnly b => MemorySim_MakeRegionReadOnly b
  | OFlash src s => MemorySim_CreateRegionsFromFlashImage src s
  | OLoad b src s => MemorySim_LoadFromFlashImage b src s
  | OXml => drop MemorySim_GetMemoryMapXML
  | ORead n a => drop (readN n a)
  | OWrite n a v => writeN n a v
  | OMapRead a n => drop (MemorySim_MapForRead a n)
  | OMapWrite a n => drop (MemorySim_MapForWrite a n)
  | OCount a => drop (MemorySim_GetFlashReadCount a)
  | OSet a n t => MemorySim_SetHardwareWatchpoint a n t
  | OClear a n t => MemorySim_ClearHardwareWatchpoint a n t
  | OHits => drop MemorySim_WasWatchpointEncountered
  end.

(** The state after a call, whether it returned or raised; [None] if the call has undefined
    behaviour. *)
Definition step (o : op) (w : world) : option world :=
  match api (op_run o) w with
  | Done _ w' => Some w'
  | Raised _ w' => Some w'
  | Crashed _ => None
  end.

Fixpoint run (ops : list op) (w : world) : option world :=
  match ops with
  | [] => Some w
  | o :: t => match step o w with
              | Some w' => run t w'
              | None => None
              end
  end.

(** The state after MemorySim_Init: an empty simulator; everything else is arbitrary. *)
Definition fresh (w : world) : Prop := w_mem w = mkMem [] None 0.

(** ** Which storage serves an access *)

Notation regions w := (m_regions (w_mem w)).

(** [a, a+n) lies inside region [r]; integers, so no wrap-around. *)
Definition covers (r : region) (a n : Z) : Prop := r_base r <= a /\ a + n <= r_base r + r_size r.

(** [r], with index [i], is the first region in creation order that covers the access. *)
Definition first_cover (rs : list region) (a n : Z) (i : nat) (r : region) : Prop :=
  nth_error rs i = Some r /\ covers r a n /\
  forall i' r', (i' < i)%nat -> nth_error rs i' = Some r' -> ~ covers r' a n.

(** The access is served by the bytes from offset [k] of the storage of region [j]. *)
Definition serves (rs : list region) (a n : Z) (j : nat) (k : Z) : Prop :=
  exists i r, first_cover rs a n i r /\
  match r_redir r with
  | None => j = i /\ k = a - r_base r
  | Some t => j = t /\ exists rt, nth_error rs t = Some rt /\ k = (a - r_base r) + W (r_raddr r - r_base rt)
  end.

(** Byte [k] of the storage of region [j]. *)
Definition storage (rs : list region) (j : nat) (k : Z) : option Z :=
  match nth_error rs j with
  | Some r => if 0 <=? k then nth_error (r_data r) (Z.to_nat k) else None
  | None => None
  end.

(** No two regions share an address. *)
Definition disjoint (r s : region) : Prop :=
  r_size r = 0 \/ r_size s = 0 \/ r_base r + r_size r <= r_base s \/ r_base s + r_size s <= r_base r.
Definition non_overlapping (rs : list region) : Prop :=
  forall i j r s, i <> j -> nth_error rs i = Some r -> nth_error rs j = Some s -> disjoint r s.

(** The two regions occupy the same addresses and redirect alike. *)
Definition same_layout (r r' : region) : Prop :=
  r_base r' = r_base r /\ r_size r' = r_size r /\ r_redir r' = r_redir r /\ r_raddr r' = r_raddr r.

(** ** Effects of single calls on one region *)

(** What a load of [n] bytes at [a] may touch: it proceeds by accesses of 1 or 4 bytes. *)
Definition load_touches (rs : list region) (a n : Z) (j : nat) (k : Z) : Prop :=
  exists i m k', (m = 1 \/ m = 4) /\ 0 <= i /\ i + m <= n /\ serves rs (W (a + i)) m j k' /\ k' <= k < k' + m.

(** The call may store into byte [k] of the storage of region [j]. *)
Definition touches (rs : list region) (o : op) (j : nat) (k : Z) : Prop :=
  match o with
  | OWrite n a _ => exists k', serves rs a n j k' /\ k' <= k < k' + n
  | OLoad a _ n => load_touches rs a n j k
  | OFlash _ n => load_touches rs 0 n j k
  | _ => False
  end.

(** The call is a 16-bit read (or a host-address query for one) of half-word [h] of region [j]. *)
Definition counts_read (rs : list region) (o : op) (j : nat) (h : Z) : Prop :=
  match o with
  | ORead n a | OMapRead a n => n = 2 /\ exists k, serves rs a n j k /\ h = k / 2
  | _ => False
  end.

(** The call makes region [j] read-only (and so starts a new counter array for it). *)
Definition recounts (rs : list region) (o : op) (j : nat) : Prop :=
  match o with
  | OReadOnly a => exists k, serves rs a 1 j k
  | OFlash _ _ => exists k, serves rs 0 1 j k
  | _ => False
  end.

(** The call loads an image (the loaders' way of filling memory, read-only or not). *)
Definition is_load (o : op) : Prop :=
  match o with OLoad _ _ _ | OFlash _ _ => True | _ => False end.

(** The call sets or clears a break/watchpoint. *)
Definition is_wp_op (o : op) : Prop :=
  match o with OSet _ _ _ | OClear _ _ _ => True | _ => False end.

(** The access is mapped, and the region whose storage serves it is not read-only. *)
Definition writable (rs : list region) (a n : Z) : Prop :=
  exists j k r, serves rs a n j k /\ nth_error rs j = Some r /\ r_ro r = false.

(** The two regions differ at most in the bytes stored in them. *)
Definition same_settings (r r' : region) : Prop :=
  same_layout r r' /\ r_ro r' = r_ro r /\ r_wps r' = r_wps r /\ r_rc r' = r_rc r /\
  length (r_data r) = length (r_data r').

(** The call stores into none of the bytes that serve the access. *)
Definition quiet (a n : Z) (w : world) (o : op) : Prop :=
  forall j k k', serves (regions w) a n j k -> k <= k' < k + n -> ~ touches (regions w) o j k'.

(** Everything but the simulated memory, the heap and the exception state is the same. *)
Definition frame (w w' : world) : Prop :=
  w_files w' = w_files w /\ w_ctx w' = w_ctx w /\ w_err w' = w_err w /\ w_faults w' = w_faults w /\
  w_gdb w' = w_gdb w /\ w_con w' = w_con w /\ w_env w' = w_env w.

(** The successive writes of single bytes at [a], [a+1], ...; [None] unless each one succeeds. *)
Fixpoint write_each (a : Z) (bs : list Z) (w : world) : option world :=
  match bs with
  | [] => Some w
  | b :: t => match api (writeN 1 a b) w with
              | Done _ w' => write_each (a + 1) t w'
              | _ => None
              end
  end.

(** ** Conditions on single calls *)

(** The redirect address of an alias is not itself inside an alias. *)
Definition direct_alias (rs : list region) (o : op) : Prop :=
  match o with
  | OAlias _ redirect _ => forall i r, first_cover rs redirect 1 i r -> r_redir r = None
  | _ => True
  end.

(** Every read-only region has its read-counter array (true unless the allocation of one failed). *)
Definition counted (rs : list region) : Prop :=
  forall j r, nth_error rs j = Some r -> r_redir r = None -> r_ro r = true -> r_rc r <> None.

(** A history all of whose calls meet a condition on the state they are issued in. *)
Fixpoint all_along (P : world -> op -> Prop) (ops : list op) (w : world) : Prop :=
  match ops with
  | [] => True
  | o :: t => P w o /\ forall w', step o w = Some w' -> all_along P t w'
  end.

(** ** Reachable states *)

(** Blocks are handed out by increasing number and never twice. *)
Definition heap_sane (w : world) : Prop :=
  NoDup (h_live (w_heap w)) /\ Forall (fun b => (b < h_next (w_heap w))%nat) (h_live (w_heap w)).

(** The states that calls can lead to, from an initialised simulator, if no alias is created whose
    redirect address lies in another alias.  Calls may fail; the allocator may refuse any request. *)
Inductive reachable : world -> Prop :=
| reach_fresh w : fresh w -> heap_sane w -> reachable w
| reach_step w o w' :
    reachable w -> op_args o -> direct_alias (regions w) o -> step o w = Some w' -> reachable w'.

(** ** Allocation *)

(** The number of allocation requests refused between two states: requests made minus blocks handed
    out. *)
Definition refusals (w w' : world) : Z :=
  (Z.of_nat (h_calls (w_heap w')) - Z.of_nat (h_calls (w_heap w))) -
  (Z.of_nat (h_next (w_heap w')) - Z.of_nat (h_next (w_heap w))).

(** The region or alias creations and the setting of a break/watchpoint. *)
Definition allocating (o : op) : Prop :=
  match o with OCreate _ _ | OAlias _ _ _ | OSet _ _ _ => True | _ => False end.

(** The buffer for the memory map stays below 2^31 bytes (169 bytes and 110 per region). *)
Definition xml_fits (rs : list region) : Prop := 169 + 110 * zlen rs < 2147483648.

(** The call has no alias of an alias, no oversized memory map, and no read-count query while some
    read-only region lacks its counters. *)
Definition safe (w : world) (o : op) : Prop :=
  direct_alias (regions w) o /\ (o = OXml -> xml_fits (regions w)) /\
  (forall a, o = OCount a -> counted (regions w)).

(** The call makes no region read-only that already has a counter array. *)
Definition no_recount (rs : list region) (o : op) : Prop :=
  forall j r, recounts rs o j -> nth_error rs j = Some r -> r_rc r = None.

(** Region [j] has got another counter array in place of the one in block [b]. *)
Definition replaced_array (w w' : world) (j b : nat) : Prop :=
  exists r c r' b' c', nth_error (regions w) j = Some r /\ r_rc r = Some (b, c) /\
    nth_error (regions w') j = Some r' /\ r_rc r' = Some (b', c') /\ b' <> b.

(** The blocks of the counter arrays that the calls of a history replaced. *)
Inductive arrays_replaced : world -> list op -> list nat -> Prop :=
| ar_nil w : arrays_replaced w [] []
| ar_one w o ops w' j b l :
    step o w = Some w' -> replaced_array w w' j b -> arrays_replaced w' ops l -> arrays_replaced w (o :: ops) (b :: l)
| ar_none w o ops w' l :
    step o w = Some w' -> (forall j b, ~ replaced_array w w' j b) -> arrays_replaced w' ops l -> arrays_replaced w (o :: ops) l.

(** ** Image regions *)

(** [w'] is [w] with two more regions: read-only memory at 0 holding the first [size] bytes of the
    image, and zeroed RAM from the 256 MB boundary below the image's first word [sp] up to [sp]. *)
Definition flash_done (w w' : world) (src : list Z) (size : Z) (flash ram : region) : Prop :=
  let sp := of_le (firstn 4 src) in
  regions w' = regions w ++ [flash; ram] /\
  (r_base flash = 0 /\ r_size flash = size /\ r_redir flash = None /\ r_data flash = firstn (Z.to_nat size) src /\
   r_ro flash = true /\ r_wps flash = [] /\ option_map snd (r_rc flash) = Some (repeat 0 (Z.to_nat (size / 2)))) /\
  (r_base ram = sp / 268435456 * 268435456 /\ r_size ram = sp mod 268435456 /\ r_redir ram = None /\
   r_data ram = repeat 0 (Z.to_nat (sp mod 268435456)) /\ r_ro ram = false /\ r_wps ram = [] /\ r_rc ram = None) /\
  m_hits (w_mem w') = m_hits (w_mem w) /\ m_xml (w_mem w') = m_xml (w_mem w).

(** ** Read counts *)

(** The number of 16-bit reads of half-word [h] of region [j] in a history. *)
Inductive half_word_reads (j : nat) (h : Z) : world -> list op -> Z -> Prop :=
| hw_nil w : half_word_reads j h w [] 0
| hw_read w o ops w' n :
    counts_read (regions w) o j h -> step o w = Some w' ->
    half_word_reads j h w' ops n -> half_word_reads j h w (o :: ops) (n + 1)
| hw_other w o ops w' n :
    ~ counts_read (regions w) o j h -> step o w = Some w' ->
    half_word_reads j h w' ops n -> half_word_reads j h w (o :: ops) n.

(** ** Break/watchpoints *)

(** Break/watchpoint [x] is installed on region [j]. *)
Definition installed (rs : list region) (j : nat) (x : wp) : Prop :=
  exists r, nth_error rs j = Some r /\ In x (r_wps r).

(** A request for kind [t] and the [n] bytes at [a] denotes [x] on region [j]: the range is recorded
    in the addresses of the region whose storage serves it. *)
Definition names (rs : list region) (a n t : Z) (j : nat) (x : wp) : Prop :=
  exists k r, serves rs a n j k /\ nth_error rs j = Some r /\
              x = mkWp t (W (r_base r + k)) (W (r_base r + k + n)).

(** Regions that differ at most in their break/watchpoints (and the size of the array for them). *)
Definition same_but_wps (r r' : region) : Prop :=
  same_layout r r' /\ r_data r' = r_data r /\ r_ro r' = r_ro r /\ r_rc r' = r_rc r.

(** Set several break/watchpoints, given as (address, size, kind); [None] unless all succeed. *)
Fixpoint set_all (l : list (Z * Z * Z)) (w : world) : option world :=
  match l with
  | [] => Some w
  | (a, n, t) :: l' => match api (MemorySim_SetHardwareWatchpoint a n t) w with
                       | Done _ w' => set_all l' w'
                       | _ => None
                       end
  end.

(** The address just after the range of [x].  Ranges are shorter than 2^32 bytes and their ends are
    recorded modulo 2^32. *)
Definition real_end (x : wp) : Z := if wp_end x <? wp_start x then wp_end x + 2 ^ 32 else wp_end x.

(** The range of [x] contains the [n] bytes at [a]. *)
Definition contains (x : wp) (a n : Z) : bool := (wp_start x <=? a) && (a + n <=? real_end x).

(** [x] is a watchpoint (not a breakpoint) for accesses of this kind. *)
Definition watches (x : wp) (kind : Z) : bool :=
  negb (Z.land kind (wp_type x) =? 0) && negb (wp_type x =? WATCHPOINT_BREAKPOINT).

(** How many watchpoints of a list an access hits. *)
Definition hit_count (l : list wp) (a n kind : Z) : Z :=
  zlen (filter (fun x => watches x kind && contains x a n) l).

(** The range of [x] contains the [n] bytes at [a] as far as 32-bit arithmetic can tell: the end of
    the access and the end of the range are known modulo 2^32 only. *)
Definition caught (x : wp) (a n : Z) : bool := (wp_start x <=? W a) && (W (a + n) <=? wp_end x).

(** How many watchpoints of a list an access counts as hitting, and whether it counts as breaking. *)
Definition caught_count (l : list wp) (a n kind : Z) : Z :=
  zlen (filter (fun x => watches x kind && caught x a n) l).
Definition caught_break (l : list wp) (a n : Z) : bool :=
  (n =? 2) && existsb (fun x => (wp_type x =? WATCHPOINT_BREAKPOINT) && caught x a n) l.

(** The arguments of a set call have their C types. *)
Definition set_arg (x : Z * Z * Z) : Prop := let '(a, n, t) := x in u32 a /\ u32 n /\ u32 t.

(** An installed breakpoint contains the access, which is 16 bits wide. *)
Definition breaks_on (l : list wp) (a n : Z) : bool :=
  (n =? 2) && existsb (fun x => (wp_type x =? WATCHPOINT_BREAKPOINT) && contains x a n) l.

(** ** The memory map text *)

Definition map_line (r : region) : list Z :=
  if r_ro r then
    s2b "<memory type=""flash"" start=""0x" ++ fmtX (r_base r) ++ s2b """ length=""0x" ++ fmtX (r_size r) ++
    s2b """> <property name=""blocksize"">1</property></memory>"
  else
    s2b "<memory type=""ram"" start=""0x" ++ fmtX (r_base r) ++ s2b """ length=""0x" ++ fmtX (r_size r) ++
    s2b """></memory>".

Definition map_text (rs : list region) : list Z :=
  s2b "<?xml version=""1.0""?><!DOCTYPE memory-map PUBLIC ""+//IDN gnu.org//DTD GDB Memory Map V1.0//EN"" ""http://sourceware.org/gdb/gdb-memory-map.dtd""><memory-map>" ++
  flat_map map_line rs ++ s2b "</memory-map>".

(** What the map says about a region. *)
Definition summary (r : region) : bool * Z * Z := (r_ro r, r_base r, r_size r).
