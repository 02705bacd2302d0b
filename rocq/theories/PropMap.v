(** Properties C68 (host pointers), C69 (the memory map says what can be written) and C70 (a simulator
    starts from nothing). *)
From Coq Require Import String ZArith List Bool Lia ZifyBool ZifyNat.
From Verif Require Import Base World Context MemSim CmdLine Platform Comm BaseLemmas MemSpec MemLemmas MemInv MemOps MemHist2 MemThms MemThms2 MemThms3 CmdSpec CmdThms CmdFull PlatSpec MapSpec MapThms MapFaith MemEx PropMem PropCmd PropAlias.
Import ListNotations.
Open Scope Z_scope.
Open Scope m_scope.

(** C68.  A pointer for reading is handed out exactly if one region holds the whole range.  Behind it
    are as many bytes as were asked for.  Asking changes no byte, triggers no watchpoint, and leaves
    the simulator as it was (but for the read counter if two bytes are asked for). *)
Theorem C68_read w a n : reachable w -> u32 a -> u32 n ->
  ((exists r, In r (regions w) /\ covers r a n) ->
   exists p w' bs, api (MemorySim_MapForRead a n) w = Done p w' /\ host_bytes w' p n = Some bs /\ zlen bs = n /\
     (forall j k, storage (regions w') j k = storage (regions w) j k) /\ m_hits (w_mem w') = m_hits (w_mem w) /\
     (n <> 2 -> w_mem w' = w_mem w)) /\
  (~ (exists r, In r (regions w) /\ covers r a n) ->
   api (MemorySim_MapForRead a n) w = Raised busErrorException (set_exn w busErrorException [])).
Proof. apply map_read. Qed.

(** C68.  A pointer for writing is handed out exactly if the range is mapped and may be written;
    asking changes nothing. *)
Theorem C68_write w a n : reachable w -> u32 a -> u32 n ->
  (writable (regions w) a n -> exists p bs, api (MemorySim_MapForWrite a n) w = Done p (set_exn w noException []) /\ host_bytes w p n = Some bs /\ zlen bs = n) /\
  (~ writable (regions w) a n -> api (MemorySim_MapForWrite a n) w = Raised busErrorException (set_exn w busErrorException [])).
Proof. apply map_write. Qed.

(** C68.  Behind a pointer for reading are the bytes that a read of the same address and width
    returns. *)
Theorem C68_value w a n p w' : reachable w -> width n -> u32 a -> api (MemorySim_MapForRead a n) w = Done p w' ->
  exists bs w2, host_bytes w' p n = Some bs /\
    (api (readN n a) w = Done (of_le bs) w2 \/ (n = 2 /\ api (readN n a) w = Raised hardwareBreakpointException w2)).
Proof. apply map_value. Qed.

(** C68.  If no two regions overlap, byte i behind a pointer for reading, of any length, is what a
    read of byte i of the range returns. *)
Theorem C68_bytes w a n p w' bs i b : reachable w -> non_overlapping (regions w) -> u32 a -> u32 n -> a + n <= 4294967296 ->
  api (MemorySim_MapForRead a n) w = Done p w' -> host_bytes w' p n = Some bs -> nth_error bs i = Some b ->
  exists w2, api (readN 1 (a + Z.of_nat i)) w = Done b w2.
Proof. apply map_bytes. Qed.

(** C68.  If no two regions overlap, what the host stores behind a pointer for writing is what reads
    of the range return; nothing else changes. *)
Theorem C68_store w a n p w' i bs : reachable w -> non_overlapping (regions w) -> u32 a -> u32 n -> a + n <= 4294967296 ->
  api (MemorySim_MapForWrite a n) w = Done p w' -> 0 <= i -> i + zlen bs <= n -> Forall byte bs ->
  exists w2, api (host_store p i bs) w' = Done tt w2 /\
    (forall x b, nth_error bs x = Some b -> exists w3, api (readN 1 (a + i + Z.of_nat x)) w2 = Done b w3) /\
    (forall j k, ~ (j = fst p /\ snd p + i <= k < snd p + i + zlen bs) -> storage (regions w2) j k = storage (regions w) j k) /\
    Forall2 same_settings (regions w) (regions w2).
Proof. apply map_store. Qed.

Example C68_example : reachable w_ex /\ non_overlapping (regions w_ex) /\
  outcome_of (api (MemorySim_MapForRead 0x20000004 8) w_ex) = Value (0%nat, 8) /\ writable (regions w_ex) 0x20000004 8 /\
  outcome_of (api (MemorySim_MapForRead 0 4) w_ex) = Value (1%nat, 0) /\ outcome_of (api (MemorySim_MapForWrite 0 4) w_ex) = Exception_ busErrorException /\
  match api (MemorySim_MapForWrite 0x20000004 8) w_ex with
  | Done p w => match api (host_store p 2 [7; 8]) w with Done _ w2 => outcome_of (api (readN 4 0x20000005) w2) | _ => Value 0 end
  | _ => Value 0
  end = Value 0x00080700.
Proof. split; [exact w_ex_reachable|]. split; [exact w_ex_non_overlapping|]. split; [vm_compute; reflexivity|]. split; [|vm_compute; auto].
  eexists _, _, _. split; [apply find_serve_spec; vm_compute; reflexivity|]. split; [vm_compute; reflexivity|]. reflexivity.
Qed.

(** C69.  After any start-up that succeeds and any requests of the debugger, the memory map that GDB
    gets has one line per region, in order, and the line of the region that an access goes to starts
    as that of flash exactly if writing there is refused, and as that of RAM otherwise. *)
Theorem C69_session args os w c w1 w2 ps w3 xml w4 :
  spells args os -> complete os -> api (CrashDebugCommandLine_Init args) w = Done c w1 ->
  api (StandardIComm_Init ;;; mriPlatform_Init) w1 = Done tt w2 -> prun ps w2 = Some w3 -> api (pcall_run PMap) w3 = Done xml w4 ->
  exists lines, xml = map_of lines /\ length lines = length (regions w4) /\
    forall a n v i r, u32 a -> width n -> first_cover (regions w4) a n i r ->
      exists line, nth_error lines i = Some line /\
        (flash_line line <-> exists w5, api (writeN n a v) w4 = Raised busErrorException w5) /\
        (ram_line line <-> ~ exists w5, api (writeN n a v) w4 = Raised busErrorException w5).
Proof.
  intros HS HC HI HJ HP HM. pose proof (started_faithful _ _ _ _ _ HS HC HI) as F1.
  assert (F2 : faithful (regions w2)) by (unfold api in HJ; injection HJ as <-; exact F1).
  pose proof (fa_prun _ _ _ HP F2) as F3. pose proof (fa_api _ w3 (fa_pcall PMap) F3) as F4. rewrite HM in F4.
  pose proof (xml_value _ _ _ HM) as ->. pose proof (xml_keeps _ _ _ HM) as ER.
  exists (map map_line (regions w3)). split; [|split].
  - rewrite <- map_text_eq. unfold map_text, map_of. now rewrite flat_map_concat_map.
  - rewrite map_length. congruence.
  - intros a n v i r Ha Hn FC. exists (map_line r). split.
    + destruct FC as (N & _). rewrite ER in N. rewrite nth_error_map, N. reflexivity.
    + rewrite (write_agrees _ _ _ v _ _ F4 Ha Hn FC). apply line_kind.
Qed.

(** An image with an alias, a dump with two overlapping aliases of RAM. *)
Example C69_example : exists c w1 w2 w3 xml w4,
  api (CrashDebugCommandLine_Init args_al) (w_dir files_ex) = Done c w1 /\ api (StandardIComm_Init ;;; mriPlatform_Init) w1 = Done tt w2 /\
  prun [PWrite 1 0x30000001 9; PRead 4 0; PWrite 4 0 0] w2 = Some w3 /\ api (pcall_run PMap) w3 = Done xml w4 /\
  outcome_of (api (writeN 1 10 1) w4) = Exception_ busErrorException /\ outcome_of (api (writeN 1 0x30000004 1) w4) = Value tt /\
  map (fun r => (r_base r, r_ro r)) (regions w4) = [(0x08000000, true); (0x20000000, false); (0x10000000, false); (0x30000000, false); (0x30000001, false); (0, true)].
Proof. eexists _, _, _, _, _, _. split; [vm_compute; reflexivity|]. split; [vm_compute; reflexivity|]. split; [vm_compute; reflexivity|]. split; [vm_compute; reflexivity|]. vm_compute. auto. Qed.

(** C69.  With any calls of the simulator the same holds for accesses that do not go through an alias;
    C69_alias_refuted is why not for the others. *)
Theorem C69_direct_partial w a n v i r : reachable w -> u32 a -> width n -> first_cover (regions w) a n i r -> r_redir r = None ->
  (flash_line (map_line r) <-> exists w', api (writeN n a v) w = Raised busErrorException w') /\
  (ram_line (map_line r) <-> ~ exists w', api (writeN n a v) w = Raised busErrorException w').
Proof.
  intros HR Ha Hn FC HN. assert (S : serves (regions w) a n i (a - r_base r)) by (exists i, r; rewrite HN; auto).
  destruct FC as (N & _). pose proof (api_write n a v w i _ r (reachable_wf _ HR) Ha Hn S N) as E. cbv zeta in E.
  assert (A : (exists w', api (writeN n a v) w = Raised busErrorException w') <-> r_ro r = true).
  { rewrite E. destruct (r_ro r); split; eauto; try discriminate. intros (w' & X). discriminate. }
  rewrite A. apply line_kind.
Qed.

(** C69 fails for an alias that was made before the memory it leads to was made read-only: the map
    describes it as RAM, but writing there is refused. *)
Theorem C69_alias_refuted : exists w a i r, reachable w /\ u32 a /\ first_cover (regions w) a 1 i r /\ ram_line (map_line r) /\
  forall v, exists w', api (writeN 1 a v) w = Raised busErrorException w'.
Proof.
  set (w := after env0 [OCreate 0 16; OAlias 0x100 0 16; OReadOnly 0]).
  assert (F : exists r, first_cover (regions w) 0x100 1 1 r /\ r_ro r = false).
  { eexists. split; [apply (first_from_spec _ _ _ _ _ 0); vm_compute; reflexivity|]. reflexivity. }
  destruct F as (r & F & RO). exists w, 0x100, 1%nat, r. split; [|split; [unfold u32; lia|split; [exact F|split]]].
  - apply after_reachable. vm_compute. reflexivity.
  - apply line_kind. congruence.
  - intro v. eexists. vm_compute. reflexivity.
Qed.

(** C70.  After initialisation nothing is simulated, whatever there was before: every access and
    request is refused, no watchpoint hit is reported and the memory map has no regions. *)
Theorem C70_init w : exists w', api MemorySim_Init w = Done tt w' /\ no_memory w' /\
  (exists w2, api MemorySim_WasWatchpointEncountered w' = Done 0 w2) /\
  (forall t w2, api MemorySim_GetMemoryMapXML w' = Done t w2 -> t = map_of []).
Proof.
  eexists. split; [reflexivity|]. split; [apply empty_refuses; reflexivity|]. split; [eexists; reflexivity|].
  intros t w2 E. rewrite (xml_value _ _ _ E). reflexivity.
Qed.
(** C70.  What was simulated before has no influence on anything that happens after it. *)
Theorem C70_forget w m : api MemorySim_Init (set_mem w m) = api MemorySim_Init w.
Proof. reflexivity. Qed.
(** C70.  After every history of calls, the simulator can be shut down, and then nothing is simulated. *)
Theorem C70_uninit w : reachable w -> exists w', api MemorySim_Uninit w = Done tt w' /\ no_memory w'.
Proof.
  intro HR. destruct (reachable_inv _ HR) as (B & HI). destruct (uninit_api B w HI) as (w' & E & _ & R & _). exists w'. split; [exact E|]. now apply empty_refuses.
Qed.
Example C70_example : regions w_ex <> [] /\ reachable w_ex /\ outcome_of (api (readN 4 0x20000004) w_ex) <> Exception_ busErrorException.
Proof. split; [vm_compute; discriminate|]. split; [exact w_ex_reachable|]. vm_compute. discriminate. Qed.

Print Assumptions C68_read.
Print Assumptions C68_write.
Print Assumptions C68_value.
Print Assumptions C68_bytes.
Print Assumptions C68_store.
Print Assumptions C69_session.
Print Assumptions C69_direct_partial.
Print Assumptions C69_alias_refuted.
Print Assumptions C70_init.
Print Assumptions C70_forget.
Print Assumptions C70_uninit.
