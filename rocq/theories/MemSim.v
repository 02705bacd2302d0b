(** libCrashDebug/src/MemorySim.c, function by function. *)
From Coq Require Import String ZArith List Bool.
From Verif Require Import Base World.
Import ListNotations.
Open Scope Z_scope.
Open Scope m_scope.

(** include/MemorySim.h 21-24. *)
Definition FLASH_BASE_ADDRESS := 0.
Definition RAM_ADDRESS_MASK := 4026531840. (* 0xF0000000 *)

(** include/MemorySim.h 26-32 and MemorySim.c 20-31: access and watchpoint kinds.  LOADING is
    WATCHPOINT_READ, i.e. equal to READING. *)
Definition READING := 1.
Definition WRITING := 2.
Definition LOADING := 1.
(** (WatchpointType)((1 << 31) | 1), as a 32-bit pattern. *)
Definition WATCHPOINT_BREAKPOINT := 2147483649.

(** sizeof(MemoryRegion) and sizeof(Watchpoint) on an LP64 host. *)
Definition SIZEOF_REGION := 72.
Definition SIZEOF_WATCHPOINT := 12.

(** MemorySim.c 129-134. *)
Definition MemorySim_Init : M world unit := modw (fun w => set_mem w (mkMem [] None 0)).

(** MemorySim.c 190-197.  The caller gets the block; its contents are zeros. *)
Definition throwingZeroedMalloc (size : Z) : M world nat :=
  p <- malloc size;;
  match p with
  | None => throw outOfMemoryException
  | Some b => ret b
  end.

(** MemorySim.c 158-167, for a region in the list. *)
Definition freeRegion (r : region) : M world unit :=
  free_opt (option_map fst (r_rc r)) ;;;
  free_opt (r_bwp r) ;;;
  free (r_bdata r) ;;;
  free (r_bself r).

(** MemorySim.c 158-167, for a region under construction whose structure is the first block and
    whose pData is the second (NULL pReadCounts and pWatchpoints). *)
Definition freeNewRegion (p : option (nat * option nat)) : M world unit :=
  match p with
  | None => ret tt
  | Some (b, d) => free_opt d ;;; free b
  end.

(** MemorySim.c 199-206. *)
Definition addRegionToTail (r : region) : M world unit :=
  modw (fun w => let m := w_mem w in
                 set_mem w (mkMem (m_regions m ++ [r]) (m_xml m) (m_hits m))).

(** Zero-filled block contents. *)
Definition zeros (n : Z) : list Z := repeat 0 (Z.to_nat n).

(** MemorySim.c 170-188. *)
Definition MemorySim_CreateRegion (base size : Z) : M world unit :=
  try_ None
    (b <- lift (throwingZeroedMalloc SIZEOF_REGION);;
     setl (Some (b, None)) ;;;
     d <- lift (throwingZeroedMalloc size);;
     setl (Some (b, Some d)) ;;;
     lift (addRegionToTail (mkR base size None 0 (zeros size) [] 0 None false b d None)))
    (fun p => freeNewRegion p ;;; rethrow) ;;;
  ret tt.

(** MemorySim.c 256: [address >= base && (uint64_t)address + size <= (uint64_t)base + region size]. *)
Definition hit (r : region) (a n : Z) : bool :=
  (r_base r <=? a) && (a + n <=? r_base r + r_size r).

(** MemorySim.c 248-268: walk the list; index of the (redirected) region and redirected address. *)
Fixpoint find_from (i : nat) (rs : list region) (a n : Z) : option (nat * Z) :=
  match rs with
  | [] => None
  | r :: t =>
      if hit r a n
      then match r_redir r with
           | Some j => Some (j, W ((a - r_base r) + r_raddr r))
           | None => Some (i, a)
           end
      else find_from (S i) t a n
  end.

Definition findMatchingRegion (a n : Z) : M world (nat * Z) :=
  fun w => match find_from 0 (m_regions (w_mem w)) a n with
           | Some p => Ret p w
           | None => throw busErrorException w
           end.

(** Dereference a region pointer. *)
Definition get_region (i : nat) : M world region :=
  fun w => match nth_error (m_regions (w_mem w)) i with
           | Some r => Ret r w
           | None => Ub UbRegion
           end.

Definition upd_region (i : nat) (f : region -> region) : M world unit :=
  modw (fun w => let m := w_mem w in
                 set_mem w (mkMem (upd_nth i f (m_regions m)) (m_xml m) (m_hits m))).

Definition with_ro (r : region) (x : bool) : region :=
  mkR (r_base r) (r_size r) (r_redir r) (r_raddr r) (r_data r) (r_wps r) (r_wpalloc r) (r_rc r) x
      (r_bself r) (r_bdata r) (r_bwp r).
Definition with_rc (r : region) (x : option (nat * list Z)) : region :=
  mkR (r_base r) (r_size r) (r_redir r) (r_raddr r) (r_data r) (r_wps r) (r_wpalloc r) x (r_ro r)
      (r_bself r) (r_bdata r) (r_bwp r).
Definition with_data (r : region) (x : list Z) : region :=
  mkR (r_base r) (r_size r) (r_redir r) (r_raddr r) x (r_wps r) (r_wpalloc r) (r_rc r) (r_ro r)
      (r_bself r) (r_bdata r) (r_bwp r).
Definition with_wps (r : region) (x : list wp) : region :=
  mkR (r_base r) (r_size r) (r_redir r) (r_raddr r) (r_data r) x (r_wpalloc r) (r_rc r) (r_ro r)
      (r_bself r) (r_bdata r) (r_bwp r).
Definition with_wparray (r : region) (alloc : Z) (b : option nat) : region :=
  mkR (r_base r) (r_size r) (r_redir r) (r_raddr r) (r_data r) (r_wps r) alloc (r_rc r) (r_ro r)
      (r_bself r) (r_bdata r) b.

(** MemorySim.c 209-237.  Line 219 stores the address given by the caller as the redirect address;
    line 220 looks the target up (following an alias if there is one). *)
Definition MemorySim_CreateAlias (aliasAddress redirectAddress size : Z) : M world unit :=
  try_ None
    (b <- lift (throwingZeroedMalloc SIZEOF_REGION);;
     setl (Some (b, None)) ;;;
     p <- lift (findMatchingRegion redirectAddress 1);;
     t <- lift (get_region (fst p));;
     let maxSize := W (r_size t - (redirectAddress - r_base t)) in
     let sz := if maxSize <? size then maxSize else size in
     d <- lift (throwingZeroedMalloc size);;
     setl (Some (b, Some d)) ;;;
     lift (addRegionToTail (mkR aliasAddress sz (Some (fst p)) redirectAddress (zeros size) [] 0 None
                                (r_ro t) b d None)))
    (fun p => freeNewRegion p ;;; rethrow) ;;;
  ret tt.

(** MemorySim.c 270-275. *)
Definition allocateReadCountArrayForReadOnlyRegion (i : nat) : M world unit :=
  r <- get_region i;;
  let halfWordCount := r_size r / 2 in
  b <- throwingZeroedMalloc (halfWordCount * 4);;
  upd_region i (fun r => with_rc r (Some (b, zeros halfWordCount))).

(** MemorySim.c 240-246. *)
Definition MemorySim_MakeRegionReadOnly (base : Z) : M world unit :=
  p <- findMatchingRegion base 1;;
  get_region (fst p) ;;;
  upd_region (fst p) (fun r => with_ro r true) ;;;
  allocateReadCountArrayForReadOnlyRegion (fst p).

(** MemorySim.c 650-653. *)
Definition accessInRange (x : wp) (s e : Z) : bool := (wp_start x <=? s) && (e <=? wp_end x).

(** MemorySim.c 621-648: the loop over the watchpoint array, as the number of watchpoint hits
    recorded and whether a breakpoint exception ends it.  Simplification: the int counter does not
    overflow. *)
Fixpoint scan_wps (l : list wp) (a e n type : Z) (hits : Z) : Z * bool :=
  match l with
  | [] => (hits, false)
  | x :: t =>
      if Z.land type (wp_type x) =? 0 then scan_wps t a e n type hits
      else if wp_type x =? WATCHPOINT_BREAKPOINT then
        if (n =? 2) && accessInRange x a e then (hits, true) else scan_wps t a e n type hits
      else if accessInRange x a e then scan_wps t a e n type (hits + 1)
      else if a <? wp_start x then (hits, false)
      else scan_wps t a e n type hits
  end.

(** MemorySim.c 621-648. *)
Definition checkForBreakWatchPoint (r : region) (a n type : Z) : M world unit :=
  fun w =>
    let m := w_mem w in
    let (h, brk) := scan_wps (r_wps r) a (W (a + n)) n type (m_hits m) in
    let w' := set_mem w (mkMem (m_regions m) (m_xml m) h) in
    if brk then throw hardwareBreakpointException w' else Ret tt w'.

(** Increment entry [k] of the read counter array (line 614). *)
Definition incReadCount (i : nat) (k : Z) : M world unit :=
  r <- get_region i;;
  match r_rc r with
  | None => ret tt
  | Some (b, c) =>
      if (0 <=? k) && (k <? zlen c)
      then upd_region i (fun r => with_rc r (Some (b, upd_nth (Z.to_nat k) (fun x => W (x + 1)) c)))
      else fail_ub UbReadCounts
  end.

(** MemorySim.c 608-619.  A pointer is a region index and an offset into its pData block; forming
    one outside the block is undefined. *)
Definition getDataPointer (a n type : Z) (checkWatchpoints : bool) : M world (nat * Z) :=
  p <- findMatchingRegion a n;;
  let i := fst p in
  let a' := snd p in
  r <- get_region i;;
  let off := W (a' - r_base r) in
  (if (type =? WRITING) && r_ro r then throw busErrorException else ret tt) ;;;
  (if (type =? READING) && (n =? 2) then incReadCount i (off / 2) else ret tt) ;;;
  (if checkWatchpoints then checkForBreakWatchPoint r a' n type else ret tt) ;;;
  if off <=? zlen (r_data r) then ret (i, off) else fail_ub UbData.

(** Load / store of [n] bytes through a data pointer. *)
Definition load_ptr (p : nat * Z) (n : Z) : M world Z :=
  r <- get_region (fst p);;
  if (0 <=? snd p) && (snd p + n <=? zlen (r_data r))
  then ret (of_le (slice (r_data r) (snd p) n))
  else fail_ub UbData.

Definition store_ptr (p : nat * Z) (bs : list Z) : M world unit :=
  r <- get_region (fst p);;
  if (0 <=? snd p) && (snd p + zlen bs <=? zlen (r_data r))
  then upd_region (fst p) (fun r => with_data r (splice (r_data r) (snd p) bs))
  else fail_ub UbData.

(** MemorySim.c 577-605: the IMemory interface, by width in bytes. *)
Definition readN (n a : Z) : M world Z := p <- getDataPointer a n READING true;; load_ptr p n.
Definition writeN (n a v : Z) : M world unit :=
  p <- getDataPointer a n WRITING true;; store_ptr p (le (Z.to_nat n) v).

Definition read32 (a : Z) := readN 4 a.   (* 577-580 *)
Definition read16 (a : Z) := readN 2 a.   (* 582-585 *)
Definition read8 (a : Z) := readN 1 a.    (* 587-590 *)
Definition write32 (a v : Z) := writeN 4 a v.  (* 592-595 *)
Definition write16 (a v : Z) := writeN 2 a v.  (* 597-600 *)
Definition write8 (a v : Z) := writeN 1 a v.   (* 602-605 *)

(** MemorySim.c 323-331. *)
Definition load32 (a : Z) (bs : list Z) : M world unit :=
  p <- getDataPointer a 4 LOADING false;; store_ptr p bs.
Definition load8 (a : Z) (b : Z) : M world unit :=
  p <- getDataPointer a 1 LOADING false;; store_ptr p [b].

(** MemorySim.c 305-321: [src] is the image buffer from the source pointer to its end, [n] the number
    of bytes still to be loaded.  Words while more than 4 bytes remain, then bytes.  Reading past the
    end of the buffer is undefined. *)
Fixpoint load_bytes (n : nat) (src : list Z) (a : Z) : M world unit :=
  match n with
  | O => ret tt
  | S k => match src with
           | b :: t => load8 a b ;;; load_bytes k t (W (a + 1))
           | [] => fail_ub UbBlob
           end
  end.

Fixpoint load_words (n : nat) (src : list Z) (a : Z) : M world unit :=
  match n with
  | S (S (S (S ((S _) as m)))) =>
      match src with
      | b0 :: b1 :: b2 :: b3 :: t => load32 a [b0; b1; b2; b3] ;;; load_words m t (W (a + 4))
      | _ => fail_ub UbBlob
      end
  | _ => load_bytes n src a
  end.

Definition MemorySim_LoadFromFlashImage (base : Z) (src : list Z) (size : Z) : M world unit :=
  load_words (Z.to_nat size) src base.

(** MemorySim.c 333-349. *)
Definition freeLastRegion : M world unit :=
  w <- getw;;
  let rs := m_regions (w_mem w) in
  modw (fun w => let m := w_mem w in set_mem w (mkMem (removelast rs) (m_xml m) (m_hits m))) ;;;
  match rev rs with
  | [] => ret tt
  | r :: _ => freeRegion r
  end.

(** MemorySim.c 278-303.  [src] is the image buffer, [size] the size argument. *)
Definition MemorySim_CreateRegionsFromFlashImage (src : list Z) (size : Z) : M world unit :=
  if size <? 4 then throw bufferOverrunException
  else
    MemorySim_CreateRegion FLASH_BASE_ADDRESS size ;;;
    MemorySim_LoadFromFlashImage FLASH_BASE_ADDRESS src size ;;;
    try0
      (MemorySim_MakeRegionReadOnly FLASH_BASE_ADDRESS ;;;
       if zlen src <? 4 then fail_ub UbBlob
       else
         let endRAM := of_le (firstn 4 src) in
         let baseRAM := Z.land endRAM RAM_ADDRESS_MASK in
         MemorySim_CreateRegion baseRAM (W (endRAM - baseRAM)))
      (freeLastRegion ;;; rethrow).

(** MemorySim.c 33-36. *)
Definition g_xmlHeader : list Z :=
  s2b "<?xml version=""1.0""?><!DOCTYPE memory-map PUBLIC ""+//IDN gnu.org//DTD GDB Memory Map V1.0//EN"" ""http://sourceware.org/gdb/gdb-memory-map.dtd""><memory-map>".
Definition g_xmlTrailer : list Z := s2b "</memory-map>".
(** MemorySim.c 354. *)
Definition xmlExampleLine : list Z :=
  s2b "<memory type=""flash"" start=""0x00000000"" length=""0xFFFFFFFF""> <property name=""blocksize"">1</property></memory>".

(** MemorySim.c 407-412: the text of one region. *)
Definition xml_region (r : region) : list Z :=
  s2b "<memory type=""" ++ s2b (if r_ro r then "flash" else "ram") ++
  s2b """ start=""0x" ++ fmtX (r_base r) ++
  s2b """ length=""0x" ++ fmtX (r_size r) ++
  s2b """>" ++ (if r_ro r then s2b " <property name=""blocksize"">1</property>" else []) ++
  s2b "</memory>".

(** C conversion of a size_t below 2^32 to int. *)
Definition to_int (x : Z) : Z := if W x <? 2147483648 then W x else W x - 4294967296.

(** MemorySim.c 400-419: text so far and room left; [None] if an assert fails. *)
Fixpoint appendMemoryMapRegions (rs : list region) (acc : list Z) (room : Z) : option (list Z * Z) :=
  match rs with
  | [] => Some (acc, room)
  | r :: t =>
      let s := xml_region r in
      if zlen s <? to_int room
      then appendMemoryMapRegions t (acc ++ s) (room - zlen s)
      else None
  end.

(** MemorySim.c 392-398, 400-419 and 421-427.  sizeof counts the terminating NUL. *)
Definition build_xml (rs : list region) (allocSize : Z) : option (list Z) :=
  if allocSize <? zlen g_xmlHeader + 1 then None
  else
    match appendMemoryMapRegions rs g_xmlHeader (allocSize - zlen g_xmlHeader) with
    | None => None
    | Some (txt, room) =>
        if room <? zlen g_xmlTrailer + 1 then None else Some (txt ++ g_xmlTrailer)
    end.

Definition set_xml (x : option (nat * list Z)) : M world unit :=
  modw (fun w => let m := w_mem w in set_mem w (mkMem (m_regions m) x (m_hits m))).

(** MemorySim.c 352-390. *)
Definition MemorySim_GetMemoryMapXML : M world (list Z) :=
  w <- getw;;
  let rs := m_regions (w_mem w) in
  let allocSize := (zlen g_xmlHeader + 1) + (zlen g_xmlTrailer + 1) + zlen rs * (zlen xmlExampleLine + 1) in
  p <- realloc (option_map fst (m_xml (w_mem w))) allocSize;;
  match p with
  | None => throw outOfMemoryException
  | Some b =>
      match build_xml rs allocSize with
      | None => fail_ub AbAssert
      | Some txt => set_xml (Some (b, txt)) ;;; ret txt
      end
  end.

(** MemorySim.c 430-439. *)
Definition MemorySim_MapForWrite (a n : Z) : M world (nat * Z) := getDataPointer a n WRITING false.
Definition MemorySim_MapForRead (a n : Z) : M world (nat * Z) := getDataPointer a n READING false.

(** MemorySim.c 442-451. *)
Definition MemorySim_GetFlashReadCount (a : Z) : M world Z :=
  p <- findMatchingRegion a 2;;
  r <- get_region (fst p);;
  let off := W (snd p - r_base r) in
  if negb (r_ro r) then throw busErrorException
  else match r_rc r with
       | None => fail_ub UbReadCounts
       | Some (_, c) => match nth_error c (Z.to_nat (off / 2)) with
                        | Some v => ret v
                        | None => fail_ub UbReadCounts
                        end
       end.

(** MemorySim.c 513-516. *)
Definition watchpointsMatch (x y : wp) : bool :=
  (wp_type x =? wp_type y) && (wp_start x =? wp_start y) && (wp_end x =? wp_end y).

(** MemorySim.c 45-51. *)
Inductive match_result := FOUND | FOUND_HIGHER | NOT_FOUND.

(** MemorySim.c 478-498 and 500-511. *)
Fixpoint findMatchingOrHigher (l : list wp) (key : wp) (i : nat) : match_result * nat :=
  match l with
  | [] => (NOT_FOUND, i)
  | x :: t =>
      if watchpointsMatch key x then (FOUND, i)
      else if wp_start key <? wp_start x then (FOUND_HIGHER, i)
      else findMatchingOrHigher t key (S i)
  end.

(** MemorySim.c 518-528. *)
Definition growWatchpointArrayIfNeeded (i : nat) (required : Z) : M world unit :=
  r <- get_region i;;
  if r_wpalloc r <? required then
    p <- realloc (r_bwp r) (SIZEOF_WATCHPOINT * required);;
    match p with
    | None => throw outOfMemoryException
    | Some b => upd_region i (fun r => with_wparray r required (Some b))
    end
  else ret tt.

(** MemorySim.c 459-475. *)
Definition setWatchpoint (a n type : Z) : M world unit :=
  p <- findMatchingRegion a n;;
  let i := fst p in
  let a' := snd p in
  let x := mkWp type a' (W (a' + n)) in
  r <- get_region i;;
  match findMatchingOrHigher (r_wps r) x 0 with
  | (FOUND, _) => ret tt
  | (_, k) =>
      growWatchpointArrayIfNeeded i (zlen (r_wps r) + 1) ;;;
      upd_region i (fun r => with_wps r (firstn k (r_wps r) ++ x :: skipn k (r_wps r)))
  end.

(** MemorySim.c 536-550. *)
Definition clearWatchpoint (a n type : Z) : M world unit :=
  p <- findMatchingRegion a n;;
  let i := fst p in
  let a' := snd p in
  let x := mkWp type a' (W (a' + n)) in
  r <- get_region i;;
  match findMatchingOrHigher (r_wps r) x 0 with
  | (FOUND, k) => upd_region i (fun r => with_wps r (firstn k (r_wps r) ++ skipn (S k) (r_wps r)))
  | _ => ret tt
  end.

(** MemorySim.c 454-457, 531-534, 553-562. *)
Definition MemorySim_SetHardwareBreakpoint (a n : Z) := setWatchpoint a n WATCHPOINT_BREAKPOINT.
Definition MemorySim_ClearHardwareBreakpoint (a n : Z) := clearWatchpoint a n WATCHPOINT_BREAKPOINT.
Definition MemorySim_SetHardwareWatchpoint (a n type : Z) := setWatchpoint a n type.
Definition MemorySim_ClearHardwareWatchpoint (a n type : Z) := clearWatchpoint a n type.

(** MemorySim.c 565-572. *)
Definition MemorySim_WasWatchpointEncountered : M world Z :=
  fun w => let m := w_mem w in
           Ret (m_hits m) (set_mem w (mkMem (m_regions m) (m_xml m) 0)).

(** MemorySim.c 137-156, for a non-NULL object. *)
Fixpoint freeRegions (rs : list region) : M world unit :=
  match rs with
  | [] => ret tt
  | r :: t => freeRegion r ;;; freeRegions t
  end.

Definition MemorySim_Uninit : M world unit :=
  w <- getw;;
  freeRegions (m_regions (w_mem w)) ;;;
  free_opt (option_map fst (m_xml (w_mem w))) ;;;
  modw (fun w => set_mem w (mkMem [] None (m_hits (w_mem w)))).
