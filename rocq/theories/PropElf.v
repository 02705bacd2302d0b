(** Properties C33 - C35: loading ELF executables. *)
From Coq Require Import String ZArith List Bool Lia.
From Verif Require Import Base World MemSim Elf BaseLemmas MemSpec MemLemmas MemInv MemOps MemHist2 DumpSpec ElfSpec ElfThms MemEx PropMem PropDump.
Import ListNotations.
Open Scope Z_scope.

(** ** Examples *)

(** A file header for [n] program headers of [size] bytes at offset [off], a program header, and a
    file with four entries: two segments to load, one of another type, one without contents. *)
Definition elf_header (off size n : Z) : list Z :=
  [127; 69; 76; 70; 1; 1; 1; 0; 0; 0; 0; 0; 0; 0; 0; 0] ++ le 2 2 ++ le 2 40 ++ le 4 1 ++ le 4 0x8001 ++ le 4 off ++ le 4 0 ++ le 4 0x5000400 ++
  le 2 52 ++ le 2 size ++ le 2 n ++ le 2 40 ++ le 2 0 ++ le 2 0.
Definition prog_header (type off paddr filesz memsz : Z) : list Z :=
  le 4 type ++ le 4 off ++ le 4 0x70000000 ++ le 4 paddr ++ le 4 filesz ++ le 4 memsz ++ le 4 5 ++ le 4 4.
Definition elf_ex : list Z :=
  elf_header 52 36 4 ++ (prog_header 1 196 0x8000 9 9 ++ [0; 0; 0; 0]) ++ (prog_header 0x70000001 0 0 4 4 ++ [1; 1; 1; 1]) ++
  (prog_header 1 0 0x20000000 0 64 ++ [2; 2; 2; 2]) ++ (prog_header 1 205 0x10000 3 100 ++ [3; 3; 3; 3]) ++
  [1; 2; 3; 4; 5; 6; 7; 8; 9] ++ [10; 11; 12].
Definition ms_elf : list (Z * list Z) := [(0x8000, [1; 2; 3; 4; 5; 6; 7; 8; 9]); (0x10000, [10; 11; 12])].

Ltac bytes_tac := apply Forall_forall; intros x Hx; cbv in Hx; unfold byte; repeat (destruct Hx as [<-|Hx]; [lia|]); destruct Hx.
Lemma small_nat k n : Z.of_nat k < Z.of_nat n -> In k (seq 0 n).
Proof. intro H. apply in_seq. lia. Qed.
Ltac entries_tac n := intros k Hk; apply (small_nat k n) in Hk; cbn in Hk; repeat (destruct Hk as [<-|Hk]; [vm_compute; intuition congruence|]); destruct Hk.

Lemma elf_ex_ok : executable elf_ex.
Proof. split; [bytes_tac|]. split; [vm_compute; reflexivity|]. split; [repeat split; vm_compute; congruence|]. split; [repeat split; vm_compute; congruence|]. entries_tac 4%nat. Qed.
Lemma elf_ex_segments : segments elf_ex = ms_elf.
Proof. vm_compute. reflexivity. Qed.
Lemma elf_ex_fit : fit (regions (w_with [])) (segments elf_ex).
Proof. rewrite elf_ex_segments. unfold ms_elf. fits. Qed.

(** ** C33: loading *)

(** C33.  Loading a complete executable with something to load, whose segments lie below 2^32 and have
    no address in common with one another or with existing memory, adds exactly one read-only region
    per loadable segment, with the contents it has in the file; the only alternative is an
    allocation refused on the way. *)
Theorem C33_loads b w :
  reachable w -> executable b -> segments b <> [] -> fit (regions w) (segments b) ->
  (exists w', api (ElfLoad_FromMemory b) w = Done tt w' /\ rom_added w w' (segments b)) \/
  (exists w', api (ElfLoad_FromMemory b) w = Raised outOfMemoryException w' /\ 0 < refusals w w').
Proof.
  intros HR HE HS HF. destruct (reachable_inv _ HR) as (R & HI). destruct (elf_load R b w HI HE HS HF) as [(w' & E & _ & _ & A)|(w' & E & N & _)]; eauto.
Qed.

Example C33_example :
  reachable (w_with []) /\ executable elf_ex /\ segments elf_ex = ms_elf /\ fit (regions (w_with [])) (segments elf_ex) /\
  outcome_of (api (ElfLoad_FromMemory elf_ex) (w_with [])) = Value tt.
Proof. split; [apply with_reachable|]. split; [apply elf_ex_ok|]. split; [apply elf_ex_segments|]. split; [apply elf_ex_fit|]. vm_compute. reflexivity. Qed.

(** C33.  Afterwards each byte of each segment is read at its address, and writing to it raises a bus
    error and changes nothing. *)
Theorem C33_reads b w w' :
  reachable w -> executable b -> segments b <> [] -> fit (regions w) (segments b) -> api (ElfLoad_FromMemory b) w = Done tt w' ->
  forall a bs i x, In (a, bs) (segments b) -> nth_error bs i = Some x ->
  (exists w'', api (readN 1 (a + Z.of_nat i)) w' = Done x w'') /\
  forall n v, width n -> Z.of_nat i + n <= zlen bs -> api (writeN n (a + Z.of_nat i) v) w' = Raised busErrorException (set_exn w' busErrorException []).
Proof.
  intros HR HE HS HF HD. destruct (reachable_inv _ HR) as (R & HI).
  destruct (elf_load R b w HI HE HS HF) as [(w1 & E & I1 & _ & A)|(w1 & E & _)]; [|congruence]. rewrite HD in E. injection E as <-.
  apply (rom_reads R w w' (segments b)); auto. apply Forall_forall. intros x Hx. unfold segments, segments_upto in Hx. apply in_map_iff in Hx as (k & <- & _).
  destruct HE as (HB & _). apply (num4 b _ HB).
Qed.

Example C33_reads_example : exists w', api (ElfLoad_FromMemory elf_ex) (w_with []) = Done tt w' /\
  outcome_of (api (readN 4 0x8004) w') = Value 0x08070605 /\ outcome_of (api (writeN 4 0x8004 0) w') = Exception_ busErrorException.
Proof. eexists. split; [vm_compute; reflexivity|]. vm_compute. auto. Qed.

(** ** C34: rejection *)

(** C34.  A file that is too short for a header, or whose magic number, class, byte order, type,
    program-header offset, count or entry size is wrong, is rejected; no memory is touched. *)
Theorem C34_header b w :
  Forall byte b -> ~ (has_header b /\ has_table b) ->
  exists w', api (ElfLoad_FromMemory b) w = Raised elfFormatException w' /\ w_mem w' = w_mem w /\ w_heap w' = w_heap w /\ frame w w'.
Proof. apply elf_header_bad. Qed.

Example C34_header_example :
  let short := firstn 51 elf_ex in let bad := 126 :: tl elf_ex in let small := elf_header 52 31 1 in
  Forall byte short /\ Forall byte bad /\ Forall byte small /\ ~ (has_header short /\ has_table short) /\
  ~ (has_header bad /\ has_table bad) /\ ~ (has_header small /\ has_table small) /\ has_header small.
Proof.
  cbv zeta. do 3 (split; [bytes_tac|]). split; [intros ((H & _) & _); vm_compute in H; congruence|]. split; [intros ((_ & H & _) & _); vm_compute in H; congruence|].
  split; [intros (_ & _ & _ & H); vm_compute in H; congruence|]. repeat split; vm_compute; congruence.
Qed.

(** C34.  So is a file without anything to load. *)
Theorem C34_nothing_to_load b w :
  executable b -> segments b = [] ->
  exists w', api (ElfLoad_FromMemory b) w = Raised elfFormatException w' /\ w_mem w' = w_mem w /\ w_heap w' = w_heap w /\ frame w w'.
Proof. apply elf_empty. Qed.

Definition elf_nothing : list Z := elf_header 52 32 2 ++ prog_header 1 0 0x8000 10 9 ++ prog_header 1 0 0x8000 0 9.
Example C34_nothing_example : executable elf_nothing /\ segments elf_nothing = [].
Proof.
  split; [|vm_compute; reflexivity]. split; [bytes_tac|]. split; [vm_compute; reflexivity|]. split; [repeat split; vm_compute; congruence|]. split; [repeat split; vm_compute; congruence|].
  entries_tac 2%nat.
Qed.

(** C34.  A file (65536 bytes less than 4 GB at most) with a program header, or contents of a loadable
    segment, outside the file is rejected; only the segments before it have been loaded.  (If the
    contents claim to end beyond 2^32 the file is accepted: C35_refuted.) *)
Theorem C34_outside b k w :
  reachable w -> Forall byte b -> zlen b < 4294901760 -> has_header b -> has_table b -> Z.of_nat k < entry_count b ->
  (forall j, (j < k)%nat -> entry_good b j) ->
  ~ entry_inside b k \/ (loadable b k = true /\ ~ contents_inside b k /\ seg_offset b k + seg_filesize b k < 4294967296) ->
  fit (regions w) (segments_upto b k) ->
  (exists w', api (ElfLoad_FromMemory b) w = Raised elfFormatException w' /\ rom_added w w' (segments_upto b k)) \/
  (exists w', api (ElfLoad_FromMemory b) w = Raised outOfMemoryException w' /\ 0 < refusals w w').
Proof.
  intros HR HB HZ HH HT Hk HG HX HF. destruct (reachable_inv _ HR) as (R & HI).
  assert (HX' : entry_bad b k).
  { destruct HX as [HX|HX]; [now left|]. destruct (Z_le_gt_dec (entry_at b k + 32) (zlen b)) as [D|D]; [right|left; unfold entry_inside; lia]. split; [exact D|exact HX]. }
  destruct (elf_entry_bad R b k w HI HB HZ HH HT Hk HG HX' HF) as [(w' & E & _ & A)|H]; eauto.
Qed.

Example C34_outside_example :
  let b := firstn 207 elf_ex in
  Forall byte b /\ has_header b /\ has_table b /\ (forall j, (j < 3)%nat -> entry_good b j) /\ loadable b 3 = true /\ ~ contents_inside b 3 /\
  seg_offset b 3 + seg_filesize b 3 < 4294967296 /\ segments_upto b 3 = [(0x8000, [1; 2; 3; 4; 5; 6; 7; 8; 9])] /\
  outcome_of (api (ElfLoad_FromMemory b) (w_with [])) = Exception_ elfFormatException.
Proof.
  cbv zeta. split; [bytes_tac|]. split; [repeat split; vm_compute; congruence|]. split; [repeat split; vm_compute; congruence|].
  split; [|repeat split; vm_compute; congruence]. intros k Hk. assert (Hk' : Z.of_nat k < 3) by lia. revert k Hk' Hk. intros k Hk _. revert k Hk. entries_tac 3%nat.
Qed.

(** ** C35: only bytes of the file are read *)

(** C35.  For every file (65536 bytes less than 4 GB at most), whatever its contents and whichever
    allocations fail: loading reads only bytes of the file and accesses only its own memory, and
    returns or raises one of the documented exceptions - provided that no loadable entry claims
    contents that end beyond 2^32.  The full claim has no such condition; see C35_refuted. *)
Theorem C35_safe_partial b w :
  reachable w -> Forall byte b -> zlen b < 4294901760 ->
  (forall k, Z.of_nat k < entry_count b -> entry_inside b k -> loadable b k = true -> seg_offset b k + seg_filesize b k < 4294967296) ->
  match api (ElfLoad_FromMemory b) w with
  | Done _ w' => frame w w'
  | Raised c w' => (c = elfFormatException \/ c = busErrorException \/ c = outOfMemoryException) /\ frame w w'
  | Crashed _ => False
  end.
Proof.
  intros HR HB HZ HN. destruct (reachable_inv _ HR) as (R & HI). pose proof (elf_safe R b w HI HB HZ HN) as P.
  destruct (api (ElfLoad_FromMemory b) w) as [[] w'|c w'|]; [apply P|split; [apply P|apply P]|exact P].
Qed.

(** A segment whose contents are all there but which overlaps the one before and ends at address 2^32 + 4. *)
Definition elf_overlap : list Z := elf_header 52 32 2 ++ prog_header 1 0 0xFFFFFFF0 8 8 ++ prog_header 1 0 0xFFFFFFF4 16 16.
Example C35_example :
  Forall byte elf_overlap /\ zlen elf_overlap < 4294901760 /\
  (forall k, Z.of_nat k < entry_count elf_overlap -> entry_inside elf_overlap k -> loadable elf_overlap k = true -> seg_offset elf_overlap k + seg_filesize elf_overlap k < 4294967296) /\
  outcome_of (api (ElfLoad_FromMemory elf_overlap) (w_with [])) = Exception_ busErrorException.
Proof. split; [bytes_tac|]. split; [vm_compute; reflexivity|]. split; [|vm_compute; reflexivity]. entries_tac 2%nat. Qed.

(** C35 fails in general: the end of the contents is computed in 32 bits, so a segment that starts at
    the end of an 84-byte file and claims 0xFFFFFFB0 bytes is accepted, and bytes after the file are
    read. *)
Definition elf_wrap : list Z := elf_header 52 32 1 ++ prog_header 1 84 0 0xFFFFFFB0 0xFFFFFFFF.

Lemma load_nothing n a w : (0 < n)%nat -> load_words n [] a w = Ub UbBlob.
Proof. intro H. destruct n as [|[|[|[|[|m]]]]]; [lia|reflexivity..]. Qed.

Lemma wrap_region a n w : u32 a -> u32 n -> 0 < n -> (forall i k, e_malloc (w_env w) i k = true) -> rom_region a [] n w = Ub UbBlob.
Proof.
  intros Ha Hn H0 HM. unfold rom_region, bind. rewrite CreateRegion_eq. cbv zeta. unfold alloc_ok. rewrite !HM. cbn [negb]. unfold MemorySim_LoadFromFlashImage.
  rewrite load_nothing by lia. reflexivity.
Qed.

Lemma wrap_crash w : (forall i k, e_malloc (w_env w) i k = true) -> ElfLoad_FromMemory elf_wrap (set_exn w noException []) = Ub UbBlob.
Proof.
  intro HM. assert (HB : Forall byte elf_wrap) by bytes_tac. assert (HI : entry_inside elf_wrap 0) by (vm_compute; congruence).
  destruct (elf_split elf_wrap (set_exn w noException []) HB) as [(_ & _ & ->)|(X & _)].
  2:{ exfalso. apply X. split; repeat split; vm_compute; congruence. }
  rewrite exn_twice. set (w0 := set_exn w _ _).
  assert (E : loadFlashLoadableEntries 1 elf_wrap (entry_size elf_wrap) 0 (entry_at elf_wrap 0) 0 w0 = Ub UbBlob).
  { cbn [loadFlashLoadableEntries]. unfold bind at 1.
    destruct (try_fetch elf_wrap (entry_at elf_wrap 0) SIZEOF_PHDR (s2b "ELF page header entry " ++ fmtd 0 ++ s2b " is at an invalid file offset of " ++ fmtu (entry_at elf_wrap 0) ++ s2b ".") w0) as [[_ ->]|[X _]].
    2:{ exfalso. apply X. vm_compute. split; congruence. }
    unfold bind at 1. rewrite entry_eq; [|exact HB|vm_compute; congruence|exact HI]. unfold entry_body. replace (loadable elf_wrap 0) with true by reflexivity. unfold bind at 1.
    set (w1 := set_exn w0 noException []).
    destruct (try_fetch elf_wrap (seg_offset elf_wrap 0) (seg_filesize elf_wrap 0) (s2b "ELF failed to load entry from file at offsets " ++ fmtd (seg_offset elf_wrap 0) ++
      s2b " to " ++ fmtd (W (seg_offset elf_wrap 0 + seg_filesize elf_wrap 0 - 1)) ++ s2b ".") w1) as [[_ ->]|[X _]].
    2:{ exfalso. apply X. vm_compute. split; congruence. }
    unfold bind at 1. replace (skipn (Z.to_nat (seg_offset elf_wrap 0)) elf_wrap) with (@nil Z) by (vm_compute; reflexivity).
    rewrite wrap_region; [reflexivity|vm_compute; intuition congruence|vm_compute; intuition congruence|vm_compute; reflexivity|exact HM]. }
  unfold load_table, bind. replace (Z.to_nat (entry_count elf_wrap)) with 1%nat by reflexivity. replace (table_offset elf_wrap) with (entry_at elf_wrap 0) by reflexivity.
  rewrite E. reflexivity.
Qed.

Theorem C35_refuted :
  exists b w, reachable w /\ Forall byte b /\ zlen b = 84 /\ has_header b /\ has_table b /\ entry_count b = 1 /\ entry_inside b 0 /\ loadable b 0 = true /\
    api (ElfLoad_FromMemory b) w = Crashed UbBlob.
Proof.
  exists elf_wrap, (w_with []). split; [apply with_reachable|]. split; [bytes_tac|]. split; [reflexivity|].
  split; [repeat split; vm_compute; congruence|]. split; [repeat split; vm_compute; congruence|]. split; [reflexivity|].
  split; [vm_compute; congruence|]. split; [reflexivity|]. unfold api. rewrite wrap_crash; reflexivity.
Qed.

Print Assumptions C33_loads.
Print Assumptions C33_reads.
Print Assumptions C34_header.
Print Assumptions C34_nothing_to_load.
Print Assumptions C34_outside.
Print Assumptions C35_safe_partial.
Print Assumptions C35_refuted.
