(** Theorems about the memory simulator (properties C01 to C19).  The vocabulary is defined in
    MemSpec.v; each theorem is followed by a concrete case that meets its hypotheses.  A name ending
    in _partial marks a theorem that covers only part of the property, one ending in _refuted a
    counterexample to the part that does not hold of the code. *)
From Coq Require Import String ZArith List Bool Lia ZifyBool ZifyNat Permutation.
From Verif Require Import Base World MemSim BaseLemmas MemSpec MemLemmas MemInv MemHist2 MemThms MemThms2 MemOps MemOps3 MemThms3 MemFair MemEx HitSpec MemHits.
Import ListNotations.
Open Scope Z_scope.


(** C01.  After a successful write, and any later calls that store into none of the bytes that serve
    it, a read of the same address and width returns the value written, reduced to the width; a
    16-bit read may be stopped by a breakpoint instead (C19 says exactly when). *)
Theorem C01_read_after_write w n a v u w1 ops w2 :
  reachable w -> width n -> u32 a -> api (writeN n a v) w = Done u w1 ->
  Forall op_args ops -> all_along (fun w o => direct_alias (regions w) o /\ quiet a n w o) ops w1 ->
  run ops w1 = Some w2 ->
  exists w3, api (readN n a) w2 = Done (v mod 2 ^ (8 * n)) w3 \/
             (n = 2 /\ api (readN n a) w2 = Raised hardwareBreakpointException w3).
Proof. apply read_after_write. Qed.

(** Write through the alias at 0x20000000; then write next to it, create a region, set a watchpoint. *)
Example C01_example : exists w1 w2,
  api (writeN 4 0x20000000 0x1122334455) w_ex = Done tt w1 /\
  (let ops := [OWrite 1 0x10000008 5; OWrite 2 0x20000008 7; OCreate 0x30000000 8; OSet 0x10000000 4 3; ORead 2 6] in
   Forall op_args ops /\ all_along (fun w o => direct_alias (regions w) o /\ quiet 0x20000000 4 w o) ops w1 /\
   run ops w1 = Some w2) /\
  outcome_of (api (readN 4 0x20000000) w2) = Value 0x22334455 /\ reachable w_ex.
Proof.
  eexists. eexists. split; [vm_compute; reflexivity|]. cbv zeta.
  apply run_first.
  split; [vm_compute; reflexivity|]. split; [apply ops_argsb_ok; vm_compute; reflexivity|].
  split; [|split; [vm_compute; reflexivity|exact w_ex_reachable]].
  eapply (all_alongb_ok (fun w o => direct_aliasb (regions w) o && quietb 0x20000000 4 (regions w) o)); [|vm_compute; reflexivity].
  cbv beta. intros w o H. apply andb_prop in H as [H1 H2]. split; [now apply direct_aliasb_ok|now apply quietb_ok].
Qed.

(** C02.  A successful write changes the bytes it names to the value's bytes, low byte first, and
    nothing else: no other byte of any region, no layout, read-only flag, break/watchpoint or read
    counter. *)
Theorem C02_write_frame w n a v u w1 :
  reachable w -> width n -> u32 a -> api (writeN n a v) w = Done u w1 ->
  exists j k, serves (regions w) a n j k /\
    (forall i, 0 <= i < n -> storage (regions w1) j (k + i) = Some (v / 2 ^ (8 * i) mod 256)) /\
    (forall j' k', ~ (j' = j /\ k <= k' < k + n) -> storage (regions w1) j' k' = storage (regions w) j' k') /\
    Forall2 same_settings (regions w) (regions w1) /\
    m_xml (w_mem w1) = m_xml (w_mem w) /\ w_heap w1 = w_heap w /\ frame w w1.
Proof. apply write_frame. Qed.

Example C02_example : exists w1, api (writeN 2 0x20000002 0xABCD) w_ex = Done tt w1 /\ reachable w_ex /\
  storage (regions w1) 0 6 = Some 0xCD /\ storage (regions w1) 0 7 = Some 0xAB.
Proof. eexists. split; [vm_compute; reflexivity|]. split; [exact w_ex_reachable|]. vm_compute. auto. Qed.

(** C02.  A successful read changes no byte. *)
Theorem C02_read_frame w n a v w1 :
  reachable w -> width n -> u32 a -> api (readN n a) w = Done v w1 ->
  (forall j k, storage (regions w1) j k = storage (regions w) j k) /\
  w_heap w1 = w_heap w /\ m_xml (w_mem w1) = m_xml (w_mem w) /\ frame w w1.
Proof. apply read_frame. Qed.

(** C02.  A failing access changes nothing: a bus error leaves the whole state as it was (but for
    the exception code), a breakpoint leaves every byte as it was. *)
Theorem C02_failing_access w w1 c (n a v : Z) :
  reachable w -> width n -> u32 a ->
  (api (writeN n a v) w = Raised c w1 -> c = busErrorException /\ w1 = set_exn w busErrorException []) /\
  (api (readN n a) w = Raised c w1 ->
     (c = busErrorException /\ w1 = set_exn w busErrorException []) \/
     (c = hardwareBreakpointException /\ n = 2 /\
      forall j k, storage (regions w1) j k = storage (regions w) j k)).
Proof. apply failing_access. Qed.

Example C02_failing_example :
  outcome_of (api (writeN 4 0x1000000E 1) w_ex) = Exception_ busErrorException /\
  outcome_of (api (writeN 4 0 1) w_ex) = Exception_ busErrorException /\
  outcome_of (api (readN 2 6) w_ex) = Exception_ hardwareBreakpointException.
Proof. vm_compute. auto. Qed.

(** C03.  A read succeeds, unless stopped by a breakpoint, exactly when one region contains the
    whole access; otherwise it raises a bus error and changes nothing. *)
Theorem C03_read_mapped w n a :
  reachable w -> width n -> u32 a ->
  ((exists r, In r (regions w) /\ covers r a n) ->
     exists w', (exists v, 0 <= v < 2 ^ (8 * n) /\ api (readN n a) w = Done v w') \/
                (n = 2 /\ api (readN n a) w = Raised hardwareBreakpointException w')) /\
  (~ (exists r, In r (regions w) /\ covers r a n) ->
     api (readN n a) w = Raised busErrorException (set_exn w busErrorException [])).
Proof. apply read_mapped. Qed.

Example C03_example : (exists r, In r (regions w_ex) /\ covers r 0x2000000A 2) /\
  ~ (exists r, In r (regions w_ex) /\ covers r 0x1000000E 4) /\
  outcome_of (api (readN 2 0x1000000E) w_ex) = Value 0 /\ outcome_of (api (readN 4 0x1000000E) w_ex) = Exception_ busErrorException.
Proof.
  split; [apply mapped_ex; eexists; vm_compute; reflexivity|]. split; [|vm_compute; auto].
  intros (r & Hi & Hc). vm_in Hi. unfold covers in Hc.
  repeat (destruct Hi as [<-|Hi]; [cbn in Hc; lia|]). contradiction.
Qed.

(** C03.  A write succeeds exactly when one region contains the whole access and the storage is not
    read-only; otherwise it raises a bus error and changes nothing. *)
Theorem C03_write_mapped w n a v :
  reachable w -> width n -> u32 a ->
  (writable (regions w) a n -> exists w', api (writeN n a v) w = Done tt w') /\
  (~ writable (regions w) a n -> api (writeN n a v) w = Raised busErrorException (set_exn w busErrorException [])).
Proof. apply write_mapped. Qed.

Example C03_write_example : writable (regions w_ex) 0x20000008 4 /\
  outcome_of (api (writeN 4 0x20000008 1) w_ex) = Value tt /\ outcome_of (api (writeN 4 8 1) w_ex) = Exception_ busErrorException.
Proof.
  split; [|vm_compute; auto]. exists 0%nat, 12. eexists. split; [apply find_serve_spec; vm_compute; reflexivity|].
  split; [vm_compute; reflexivity|vm_compute; reflexivity].
Qed.

(** The number of up to four bytes, least significant first (missing bytes count as 0), and the bytes
    of a number. *)
Definition combined (bs : list Z) : Z := nth 0 bs 0 + 2 ^ 8 * nth 1 bs 0 + 2 ^ 16 * nth 2 bs 0 + 2 ^ 24 * nth 3 bs 0.
Definition separated (n : nat) (v : Z) : list Z := firstn n [v mod 2 ^ 8; v / 2 ^ 8 mod 2 ^ 8; v / 2 ^ 16 mod 2 ^ 8; v / 2 ^ 24 mod 2 ^ 8].
Lemma combined_le bs n : width n -> zlen bs = n -> of_le bs = combined bs.
Proof.
  unfold combined, zlen. intros [->|[->| ->]] H; do 4 (try destruct bs as [|? bs]); cbn [length] in H; try lia; try (destruct bs; cbn [length] in H; [|lia]);
    cbn [of_le nth]; change (2 ^ 8) with 256; change (2 ^ 16) with 65536; change (2 ^ 24) with 16777216; lia.
Qed.
Lemma separated_le n v : width n -> le (Z.to_nat n) v = separated (Z.to_nat n) v.
Proof.
  unfold separated. assert (E2 : v / 256 / 256 = v / 65536) by (rewrite Z.div_div by lia; reflexivity). assert (E3 : v / 256 / 256 / 256 = v / 16777216) by (rewrite E2, Z.div_div by lia; reflexivity).
  intros [->|[->| ->]]; [change (Z.to_nat 1) with 1%nat|change (Z.to_nat 2) with 2%nat|change (Z.to_nat 4) with 4%nat]; cbn [le firstn]; change (2 ^ 8) with 256; change (2 ^ 16) with 65536; change (2 ^ 24) with 16777216; rewrite ?E3, ?E2; reflexivity.
Qed.

(** C04.  When regions do not overlap, a successful read returns the little-endian combination of
    the byte reads. *)
Theorem C04_read_bytes w n a v w' :
  reachable w -> non_overlapping (regions w) -> width n -> u32 a -> a + n <= 4294967296 ->
  api (readN n a) w = Done v w' ->
  exists bs, zlen bs = n /\ v = combined bs /\
    forall i b, nth_error bs i = Some b -> exists w'', api (readN 1 (a + Z.of_nat i)) w = Done b w''.
Proof.
  intros HR HN Hn Ha Hb E. destruct (read_bytes w n a v w' HR HN Hn Ha Hb E) as (bs & L & V & B). exists bs. split; [exact L|]. split; [|exact B]. now rewrite <- (combined_le bs n).
Qed.

Example C04_example : reachable w_ex /\ non_overlapping (regions w_ex) /\
  outcome_of (api (readN 4 0) w_ex) = Value 0x04030201 /\ outcome_of (api (readN 1 2) w_ex) = Value 3.
Proof. split; [exact w_ex_reachable|]. split; [exact w_ex_non_overlapping|]. vm_compute. auto. Qed.

(** C04.  When regions do not overlap, a successful write has the effect on memory of the byte
    writes, all of which succeed. *)
Theorem C04_write_bytes w n a v u w' :
  reachable w -> non_overlapping (regions w) -> width n -> u32 a -> a + n <= 4294967296 ->
  api (writeN n a v) w = Done u w' ->
  exists w'', write_each a (separated (Z.to_nat n) v) w = Some w'' /\ regions w'' = regions w'.
Proof. intros HR HN Hn Ha Hb E. rewrite <- separated_le by exact Hn. exact (write_bytes w n a v u w' HR HN Hn Ha Hb E). Qed.

Example C04_write_example : exists w' w'', api (writeN 4 0x20000000 0xAABBCCDD) w_ex = Done tt w' /\
  write_each 0x20000000 [0xDD; 0xCC; 0xBB; 0xAA] w_ex = Some w''.
Proof. eexists. eexists. split; [vm_compute; reflexivity|vm_compute; reflexivity]. Qed.

(** C05.  Once a region is read-only no calls other than image loads change any of its bytes,
    whether they succeed or fail, and it stays read-only. *)
Theorem C05_read_only_kept w j r ops w' :
  reachable w -> nth_error (regions w) j = Some r -> r_ro r = true ->
  Forall op_args ops -> all_along (fun w o => direct_alias (regions w) o /\ ~ is_load o) ops w -> run ops w = Some w' ->
  exists r', nth_error (regions w') j = Some r' /\ r_ro r' = true /\ r_data r' = r_data r.
Proof. apply read_only_kept. Qed.

Example C05_example : exists r w', nth_error (regions w_ex) 1 = Some r /\ r_ro r = true /\
  (let ops := [OWrite 4 0 7; OAlias 0x40000000 4 4; OWrite 1 0x40000000 9; OMapWrite 0 4; OClear 4 4 WATCHPOINT_BREAKPOINT; ORead 2 4] in
   Forall op_args ops /\ all_along (fun w o => direct_alias (regions w) o /\ ~ is_load o) ops w_ex /\ run ops w_ex = Some w') /\
  outcome_of (api (readN 4 0x40000000) w') = Value 0x08070605.
Proof.
  eexists. eexists. split; [vm_compute; reflexivity|]. split; [reflexivity|]. cbv zeta.
  apply run_first.
  split; [vm_compute; reflexivity|]. split; [apply ops_argsb_ok; vm_compute; reflexivity|].
  split; [|vm_compute; reflexivity].
  eapply (all_alongb_ok (fun w o => direct_aliasb (regions w) o && match o with OLoad _ _ _ | OFlash _ _ => false | _ => true end)); [|vm_compute; reflexivity].
  cbv beta. intros w o H. apply andb_prop in H as [H1 H2]. split; [now apply direct_aliasb_ok|]. destruct o; cbn; auto; discriminate.
Qed.

(** C05.  Making the region at an address read-only marks exactly the region that serves the address,
    keeps its bytes and starts its read counters at zero.  It fails with a bus error, changing
    nothing, exactly where no memory is mapped; if the counters cannot be allocated the region is
    read-only nevertheless. *)
Theorem C05_make_read_only w base :
  reachable w -> u32 base ->
  match api (MemorySim_MakeRegionReadOnly base) w with
  | Done _ w' => exists j k r r', serves (regions w) base 1 j k /\ nth_error (regions w) j = Some r /\
      nth_error (regions w') j = Some r' /\ r_ro r' = true /\ r_data r' = r_data r /\
      (exists id, r_rc r' = Some (id, zeros (r_size r / 2))) /\
      forall i, i <> j -> nth_error (regions w') i = nth_error (regions w) i
  | Raised c w' =>
      c = busErrorException /\ (forall r, In r (regions w) -> ~ covers r base 1) /\ regions w' = regions w \/
      c = outOfMemoryException /\ exists j k r r', serves (regions w) base 1 j k /\ nth_error (regions w) j = Some r /\
      nth_error (regions w') j = Some r' /\ r_ro r' = true /\ r_data r' = r_data r /\
      forall i, i <> j -> nth_error (regions w') i = nth_error (regions w) i
  | Crashed _ => False
  end.
Proof. apply make_read_only. Qed.

Example C05_make_example :
  map r_ro (regions w_ex) = [false; true; false; false] /\
  match api (MemorySim_MakeRegionReadOnly 0x20000004) w_ex with Done _ w' => map r_ro (regions w') | _ => [] end = [true; true; false; false] /\
  outcome_of (api (MemorySim_MakeRegionReadOnly 0x70000000) w_ex) = Exception_ busErrorException.
Proof. vm_compute. auto. Qed.

(** C05.  A host address for writing is only given out for storage that is not read-only, and the
    whole requested range lies inside it. *)
Theorem C05_map_write_writable w a n j k w' :
  reachable w -> u32 a -> u32 n -> api (MemorySim_MapForWrite a n) w = Done (j, k) w' ->
  exists r, serves (regions w) a n j k /\ nth_error (regions w) j = Some r /\ r_ro r = false /\ 0 <= k /\ k + n <= zlen (r_data r).
Proof. apply map_write_writable. Qed.

Example C05_map_example : outcome_of (api (MemorySim_MapForWrite 0x20000004 8) w_ex) = Value (0%nat, 8) /\
  outcome_of (api (MemorySim_MapForWrite 0 4) w_ex) = Exception_ busErrorException.
Proof. vm_compute. auto. Qed.

(** C06.  Let an access be served by an alias, and its translated address by the alias's target.
    Then every call at the alias address behaves as the same call at the translated address: the
    same result, exception and resulting state (memory, read counters, break/watchpoints, hit
    counter). *)
Theorem C06_alias_transparent w i r j t a n :
  reachable w -> u32 a -> first_cover (regions w) a n i r -> r_redir r = Some j ->
  let a2 := r_raddr r + (a - r_base r) in
  u32 a2 -> first_cover (regions w) a2 n j t ->
  (api (readN n a) w = api (readN n a2) w) /\
  (forall v, api (writeN n a v) w = api (writeN n a2 v) w) /\
  (api (MemorySim_MapForRead a n) w = api (MemorySim_MapForRead a2 n) w) /\
  (api (MemorySim_MapForWrite a n) w = api (MemorySim_MapForWrite a2 n) w) /\
  (forall t, api (MemorySim_SetHardwareWatchpoint a n t) w = api (MemorySim_SetHardwareWatchpoint a2 n t) w) /\
  (forall t, api (MemorySim_ClearHardwareWatchpoint a n t) w = api (MemorySim_ClearHardwareWatchpoint a2 n t) w) /\
  (api (MemorySim_SetHardwareBreakpoint a n) w = api (MemorySim_SetHardwareBreakpoint a2 n) w) /\
  (api (MemorySim_ClearHardwareBreakpoint a n) w = api (MemorySim_ClearHardwareBreakpoint a2 n) w) /\
  (n = 2 -> api (MemorySim_GetFlashReadCount a) w = api (MemorySim_GetFlashReadCount a2) w) /\
  (n = 1 -> api (MemorySim_MakeRegionReadOnly a) w = api (MemorySim_MakeRegionReadOnly a2) w).
Proof. apply alias_transparent. Qed.

Example C06_example : exists r t,
  first_cover (regions w_ex) 0x20000002 2 2 r /\ r_redir r = Some 0%nat /\ r_raddr r + (0x20000002 - r_base r) = 0x10000006 /\
  first_cover (regions w_ex) 0x10000006 2 0 t /\ reachable w_ex.
Proof.
  eexists. eexists. split; [apply (first_from_spec _ _ _ _ _ 0); vm_compute; reflexivity|]. split; [reflexivity|].
  split; [reflexivity|]. split; [apply (first_from_spec _ _ _ _ _ 0); vm_compute; reflexivity|exact w_ex_reachable].
Qed.

(** C07 (aliases of real regions only; missing: redirect addresses inside another alias).  A new
    alias covers the requested size clamped to the end of its target. *)
Theorem C07_alias_clamped_partial w base red size u w' :
  reachable w -> u32 base -> u32 red -> u32 size -> direct_alias (regions w) (OAlias base red size) ->
  api (MemorySim_CreateAlias base red size) w = Done u w' ->
  exists j t r, first_cover (regions w) red 1 j t /\ regions w' = regions w ++ [r] /\
    r_base r = base /\ r_redir r = Some j /\ r_raddr r = red /\ r_ro r = r_ro t /\
    r_size r = Z.min size (r_base t + r_size t - red).
Proof. apply alias_clamped. Qed.

Example C07_example : exists w', api (MemorySim_CreateAlias 0x50000000 0x10000002 100) w_ex = Done tt w' /\
  option_map r_size (nth_error (regions w') 4) = Some 14 /\
  direct_alias (regions w_ex) (OAlias 0x50000000 0x10000002 100).
Proof.
  eexists. split; [vm_compute; reflexivity|]. split; [vm_compute; reflexivity|]. apply direct_aliasb_ok. vm_compute. reflexivity.
Qed.

(** C07 (aliases of real regions only).  An access served by an alias stays inside the storage of
    its target, at the translated address. *)
Theorem C07_alias_inside_partial w a n i r j :
  reachable w -> u32 a -> 0 <= n -> first_cover (regions w) a n i r -> r_redir r = Some j ->
  exists k t, serves (regions w) a n j k /\ nth_error (regions w) j = Some t /\ 0 <= k /\ k + n <= zlen (r_data t) /\
              k = (r_raddr r + (a - r_base r)) - r_base t.
Proof. apply alias_inside. Qed.

Example C07_inside_example : exists r, first_cover (regions w_ex) 0x2000000A 2 2 r /\ r_redir r = Some 0%nat.
Proof. eexists. split; [apply (first_from_spec _ _ _ _ _ 0); vm_compute; reflexivity|reflexivity]. Qed.

(** An alias of an alias: RAM of 16 bytes at 0x10000000, an alias of it, and an alias of the alias. *)
Definition ops_alias2 : list op :=
  [OCreate 0x10000000 16; OAlias 0xB0000000 0x10000000 16; OAlias 0xC0000000 0xB0000000 16].

(** C07, C08.  Through an alias of an alias a read leaves the simulator's storage. *)
Theorem C07_alias_of_alias_refuted : exists w ops w',
  fresh w /\ heap_sane w /\ Forall op_args ops /\ run ops w = Some w' /\
  (exists u, api (readN 4 0xC0000000) w' = Crashed u).
Proof.
  exists (w_start env0), ops_alias2. eexists. split; [reflexivity|]. split; [apply start_sane|].
  split; [apply ops_argsb_ok; vm_compute; reflexivity|]. split; [vm_compute; reflexivity|]. eexists. vm_compute. reflexivity.
Qed.

(** C08.  From an initialised simulator, calls in any order, with any arguments and any allocation
    failures, and a final uninitialise, never have undefined behaviour, provided no alias of an
    alias is created, no read count is asked for while a read-only region lacks its counters, and
    the memory map fits 2^31 bytes.  Missing: those three cases, which do go wrong. *)
Theorem C08_no_crash_partial w ops :
  fresh w -> heap_sane w -> Forall op_args ops -> all_along safe ops w ->
  exists w' w'', run ops w = Some w' /\ api MemorySim_Uninit w' = Done tt w''.
Proof. apply no_crash. Qed.

Example C08_example : Forall op_args ops_ex /\ all_along safe (ops_ex ++ [OXml; OCount 6; OHits; ORead 4 0xFFFFFFFF]) (w_start env0).
Proof.
  split; [apply ops_argsb_ok; vm_compute; reflexivity|].
  apply (all_alongb_ok (fun w o => direct_aliasb (regions w) o && (169 + 110 * zlen (regions w) <? 2147483648) &&
    forallb (fun r => match r_redir r with None => negb (r_ro r) || (match r_rc r with None => false | _ => true end) | _ => true end) (regions w)));
    [|vm_compute; reflexivity].
  cbv beta. intros w o H. apply andb_prop in H as [H H3]. apply andb_prop in H as [H1 H2].
  split; [now apply direct_aliasb_ok|]. split; [intros _; unfold xml_fits; lia|]. intros a _ j r Hj Hr Hro Hrc.
  rewrite forallb_forall in H3. apply nth_error_In, H3 in Hj. rewrite Hr, Hro, Hrc in Hj. discriminate.
Qed.

(** C08.  When the allocation of the counters fails, the region is read-only without them, and asking
    for a read count dereferences a null pointer. *)
Theorem C08_read_count_refuted : exists w ops w' a,
  fresh w /\ heap_sane w /\ Forall op_args ops /\ run ops w = Some w' /\ u32 a /\
  (exists u, api (MemorySim_GetFlashReadCount a) w' = Crashed u).
Proof.
  exists (w_start (env_fail 2)), [OCreate 0 16; OReadOnly 0]. eexists. exists 4. split; [reflexivity|]. split; [apply start_sane|].
  split; [apply ops_argsb_ok; vm_compute; reflexivity|]. split; [vm_compute; reflexivity|]. split; [unfold u32; lia|].
  eexists. vm_compute. reflexivity.
Qed.

(** C08.  Exactly which read-count queries leave the storage: those that a read-only region without
    counters serves. *)
Theorem C08_count_exact w a : reachable w -> u32 a ->
  (exists u, api (MemorySim_GetFlashReadCount a) w = Crashed u) <->
  (exists j k r, serves (regions w) a 2 j k /\ nth_error (regions w) j = Some r /\ r_ro r = true /\ r_rc r = None).
Proof.
  intros HR Ha. destruct (reachable_inv _ HR) as (R & Hwf & _). assert (H2 : 0 <= 2) by lia.
  unfold api, MemorySim_GetFlashReadCount. unfold bind at 1. unfold findMatchingRegion. change (regions (set_exn w noException [])) with (regions w).
  split.
  - destruct (find_from 0 (regions w) a 2) as [[j a']|] eqn:F; [|intros (u & E); discriminate].
    destruct (locate _ _ _ _ _ Hwf Ha H2 F) as (r & k & L1 & L2 & L3 & L4 & L5 & L6 & L7 & L8 & _).
    unfold bind, get_region. cbn [fst snd]. change (regions (set_exn w noException [])) with (regions w). rewrite L1. unfold roff in L4. rewrite L4.
    destruct (r_ro r) eqn:Ero; cbn [negb]; [|intros (u & E); discriminate].
    destruct (r_rc r) as [[b c]|] eqn:C; [|intros _; exists j, k, r; auto].
    destruct (Hwf _ _ L1). destruct (wr_rc _ _ C) as [Z1 _].
    destruct (nth_error c (Z.to_nat (k / 2))) as [v|] eqn:N; [intros (u & E); discriminate|]. apply nth_error_None in N. unfold zlen in Z1. lia.
  - intros (j & k & r & HS & Hr & Hro & Hrc). destruct (serves_find _ _ _ _ _ Hwf Ha H2 HS) as (r' & a' & F & Hr' & _).
    rewrite F. unfold bind, get_region. cbn [fst snd]. change (regions (set_exn w noException [])) with (regions w). rewrite Hr, Hro, Hrc. eexists. reflexivity.
Qed.

(** C08.  From any state reached without an alias of an alias, nothing else goes wrong: a call that
    leaves the storage or trips an assertion is such a query, or asks for a memory map that needs 2^31
    bytes. *)
Theorem C08_only o w u : reachable w -> op_args o -> direct_alias (regions w) o -> api (op_run o) w = Crashed u ->
  o = OXml /\ ~ xml_fits (regions w) \/
  exists a j k r, o = OCount a /\ serves (regions w) a 2 j k /\ nth_error (regions w) j = Some r /\ r_ro r = true /\ r_rc r = None.
Proof.
  intros HR Ha Hd HE. pose proof (reachable_inv _ HR) as (R & HI).
  assert (NS : ~ safe w o).
  { intro S. destruct (step_safe o R w HI Ha S) as (w' & E & _). unfold step in E. rewrite HE in E. discriminate. }
  destruct o; try (exfalso; apply NS; split; [exact Hd|split; [discriminate|intros; discriminate]]).
  - left. split; [reflexivity|]. intro X. apply NS. split; [exact I|]. split; [auto|intros; discriminate].
  - right. destruct (proj1 (C08_count_exact w a HR Ha)) as (j & k & r & H).
    + exists u. revert HE. unfold op_run, drop, api, bind. destruct (MemorySim_GetFlashReadCount a _); try discriminate; intro H; injection H as ->; reflexivity.
    + exists a, j, k, r. auto.
Qed.

(** The state of the counterexample. *)
Example C08_exact_example : let w := after (env_fail 2) [OCreate 0 16; OReadOnly 0] in
  reachable w /\ u32 4 /\ op_args (OCount 4) /\ direct_alias (regions w) (OCount 4) /\ exists u, api (op_run (OCount 4)) w = Crashed u.
Proof.
  cbv zeta. split; [apply after_reachable; vm_compute; reflexivity|]. split; [unfold u32; lia|]. split; [cbn; unfold u32; lia|]. split; [exact I|].
  eexists. vm_compute. reflexivity.
Qed.


(** C09.  A byte of a newly created region that no earlier region covers reads as zero after any
    later calls that store into none of the bytes serving it. *)
Theorem C09_fresh_zero w base size u w1 a ops w2 :
  reachable w -> u32 base -> u32 size -> u32 a -> base <= a < base + size ->
  (forall r, In r (regions w) -> ~ covers r a 1) ->
  api (MemorySim_CreateRegion base size) w = Done u w1 ->
  Forall op_args ops -> all_along (fun w o => direct_alias (regions w) o /\ quiet a 1 w o) ops w1 ->
  run ops w1 = Some w2 ->
  exists w3, api (readN 1 a) w2 = Done 0 w3.
Proof. apply fresh_zero. Qed.

Example C09_example : exists w1 w2, api (MemorySim_CreateRegion 0x30000000 4) w_ex = Done tt w1 /\
  (forall r, In r (regions w_ex) -> ~ covers r 0x30000003 1) /\
  (let ops := [OWrite 2 0x30000000 0xFFFF; OCreate 0x30000002 4; OWrite 4 0x10000000 0xFFFFFFFF] in
   Forall op_args ops /\ all_along (fun w o => direct_alias (regions w) o /\ quiet 0x30000003 1 w o) ops w1 /\ run ops w1 = Some w2).
Proof.
  eexists. eexists. split; [vm_compute; reflexivity|]. split.
  { intros r Hi Hc. vm_in Hi. unfold covers in Hc. repeat (destruct Hi as [<-|Hi]; [cbn in Hc; lia|]). contradiction. }
  cbv zeta. split; [apply ops_argsb_ok; vm_compute; reflexivity|]. split; [|vm_compute; reflexivity].
  eapply (all_alongb_ok (fun w o => direct_aliasb (regions w) o && quietb 0x30000003 1 (regions w) o)); [|vm_compute; reflexivity].
  cbv beta. intros w o H. apply andb_prop in H as [H1 H2]. split; [now apply direct_aliasb_ok|now apply quietb_ok].
Qed.

(** C10.  Creating a region or alias, successfully or not, adds at most one region after all
    existing ones and leaves the existing ones and the hit counter as they are. *)
Theorem C10_create_appends w o w' :
  reachable w -> op_args o -> direct_alias (regions w) o ->
  (exists b s, o = OCreate b s) \/ (exists b r s, o = OAlias b r s) -> step o w = Some w' ->
  (regions w' = regions w \/ exists x, regions w' = regions w ++ [x]) /\ m_hits (w_mem w') = m_hits (w_mem w).
Proof. apply create_appends. Qed.

Example C10_example : exists w', step (OAlias 0x10000000 0 8) w_ex = Some w' /\ length (regions w') = 5%nat /\
  direct_alias (regions w_ex) (OAlias 0x10000000 0 8).
Proof.
  eexists. split; [vm_compute; reflexivity|]. split; [reflexivity|]. apply direct_aliasb_ok. vm_compute. reflexivity.
Qed.

(** C10.  Adding regions after the existing ones does not change the outcome of any access that is
    mapped. *)
Theorem C10_prefix_access w w' n a :
  reachable w -> reachable w' -> width n -> u32 a ->
  (exists x, regions w' = regions w ++ x) -> m_hits (w_mem w') = m_hits (w_mem w) ->
  (exists r, In r (regions w) /\ covers r a n) ->
  outcome_of (api (readN n a) w') = outcome_of (api (readN n a) w) /\
  forall v, outcome_of (api (writeN n a v) w') = outcome_of (api (writeN n a v) w).
Proof. apply prefix_access. Qed.

(** A second region over the RAM does not shadow it. *)
Example C10_prefix_example : let w' := after env0 (ops_ex ++ [OCreate 0x10000000 16]) in
  reachable w' /\ (exists x, regions w' = regions w_ex ++ x) /\ m_hits (w_mem w') = m_hits (w_mem w_ex) /\
  (exists r, In r (regions w_ex) /\ covers r 0x10000000 4) /\ outcome_of (api (readN 4 0x10000000) w') = Value 0x11223344.
Proof.
  cbv zeta. split; [apply after_reachable; vm_compute; reflexivity|]. split; [eexists; vm_compute; reflexivity|].
  split; [vm_compute; reflexivity|]. split; [apply mapped_ex; eexists; vm_compute; reflexivity|vm_compute; reflexivity].
Qed.

(** C11.  A region creation, alias creation or break/watchpoint setting that raises an exception
    leaves the simulated memory as it was and every block it allocated released. *)
Theorem C11_oom_unchanged w o c w' :
  reachable w -> op_args o -> direct_alias (regions w) o -> allocating o ->
  api (op_run o) w = Raised c w' ->
  w_mem w' = w_mem w /\ h_live (w_heap w') = h_live (w_heap w) /\ frame w w' /\
  (c = outOfMemoryException \/ c = busErrorException).
Proof. apply oom_unchanged. Qed.

Example C11_example : let w := after (env_fail 3) [OCreate 0x10000000 16] in
  reachable w /\ outcome_of (api (MemorySim_CreateRegion 0 8) w) = Exception_ outOfMemoryException.
Proof. cbv zeta. split; [apply after_reachable; vm_compute; reflexivity|vm_compute; reflexivity]. Qed.

(** C11.  If any allocation is refused during such a call, the call raises the out-of-memory
    exception. *)
Theorem C11_refused_raises w o w' :
  op_args o -> allocating o -> step o w = Some w' -> 0 < refusals w w' ->
  api (op_run o) w = Raised outOfMemoryException w'.
Proof. apply refused_raises. Qed.

Example C11_refused_example : exists w', step (OCreate 0 8) (after (env_fail 3) [OCreate 0x10000000 16]) = Some w' /\
  0 < refusals (after (env_fail 3) [OCreate 0x10000000 16]) w'.
Proof. eexists. split; [vm_compute; reflexivity|vm_compute; reflexivity]. Qed.

(** C11.  Conversely no call whatsoever raises the out-of-memory exception unless an allocation was
    refused during it. *)
Theorem C11_only_refused_raises o w w' : api (op_run o) w = Raised outOfMemoryException w' -> 0 < refusals w w'.
Proof. apply only_refused_raises. Qed.

Example C11_only_refused_example : exists w', api (op_run OXml) (after (env_fail 2) [OCreate 0x10000000 16]) = Raised outOfMemoryException w'.
Proof. eexists. vm_compute. reflexivity. Qed.

(** C12.  Under the conditions of C08, and if no region that already has read counters is made read-
    only again, uninitialising releases exactly the blocks the history allocated, each once.
    Missing: making a region read-only twice, which leaks. *)
Theorem C12_no_leak_partial w ops :
  fresh w -> heap_sane w -> Forall op_args ops ->
  all_along (fun w o => safe w o /\ no_recount (regions w) o) ops w ->
  exists w' w'', run ops w = Some w' /\ api MemorySim_Uninit w' = Done tt w'' /\
                 Permutation (h_live (w_heap w'')) (h_live (w_heap w)).
Proof. apply no_leak. Qed.

Example C12_example : all_along (fun w o => safe w o /\ no_recount (regions w) o) ops_ex (w_start env0).
Proof.
  apply (all_alongb_ok (fun w o => direct_aliasb (regions w) o && (169 + 110 * zlen (regions w) <? 2147483648) &&
    match o with OCount _ | OFlash _ _ => false
    | OReadOnly a => match find_serve (regions w) a 1 with
                     | Some (j, _) => match nth_error (regions w) j with Some r => match r_rc r with None => true | _ => false end | None => true end
                     | None => true end
    | _ => true end)); [|vm_compute; reflexivity].
  cbv beta. intros w o H. apply andb_prop in H as [H H3]. apply andb_prop in H as [H1 H2]. split.
  - split; [now apply direct_aliasb_ok|]. split; [intros _; unfold xml_fits; lia|]. intros a ->. discriminate.
  - intros j r Hrc Hj. destruct o; cbn in Hrc; try contradiction; try discriminate.
    destruct Hrc as (k & Hs). apply find_serve_spec in Hs. rewrite Hs, Hj in H3. destruct (r_rc r); [discriminate|reflexivity].
Qed.

(** C12.  Making a region read-only twice loses the first counter array. *)
Theorem C12_read_only_twice_refuted : exists w ops w' w'',
  fresh w /\ heap_sane w /\ h_live (w_heap w) = [] /\ Forall op_args ops /\ run ops w = Some w' /\
  api MemorySim_Uninit w' = Done tt w'' /\ h_live (w_heap w'') <> [].
Proof.
  exists (w_start env0), [OCreate 0 16; OReadOnly 0; OReadOnly 0]. eexists. eexists. split; [reflexivity|]. split; [apply start_sane|].
  split; [reflexivity|]. split; [apply ops_argsb_ok; vm_compute; reflexivity|]. split; [vm_compute; reflexivity|].
  split; [vm_compute; reflexivity|]. discriminate.
Qed.

(** C12.  The exact account, under the conditions of C08 alone: what remains allocated after
    uninitialising is what was before and the counter arrays that calls replaced, nothing else. *)
Theorem C12_account w ops :
  fresh w -> heap_sane w -> Forall op_args ops -> all_along safe ops w ->
  exists w' w'', run ops w = Some w' /\ api MemorySim_Uninit w' = Done tt w'' /\
    (exists lost, arrays_replaced w ops lost) /\
    forall lost, arrays_replaced w ops lost -> Permutation (h_live (w_heap w'')) (lost ++ h_live (w_heap w)).
Proof. apply leak_account. Qed.

(** C12.  Only making a region read-only, also as part of creating regions from an image, replaces
    its counter array. *)
Theorem C12_replaced_only o w w' j b : reachable w -> op_args o -> direct_alias (regions w) o -> step o w = Some w' ->
  replaced_array w w' j b -> recounts (regions w) o j.
Proof. apply replaced_only. Qed.

(** The history of the counterexample, and a call after it: the array of the first call is lost. *)
Definition ops_twice : list op := [OCreate 0 16; OReadOnly 0; OReadOnly 0; ORead 4 0].
Example C12_account_example : fresh (w_start env0) /\ heap_sane (w_start env0) /\ Forall op_args ops_twice /\ all_along safe ops_twice (w_start env0) /\
  exists b, arrays_replaced (w_start env0) ops_twice [b].
Proof.
  split; [reflexivity|]. split; [apply start_sane|]. split; [apply ops_argsb_ok; vm_compute; reflexivity|]. split.
  - apply (all_alongb_ok (fun w o => direct_aliasb (regions w) o && (169 + 110 * zlen (regions w) <? 2147483648) && match o with OCount _ => false | _ => true end)); [|vm_compute; reflexivity].
    cbv beta. intros w o H. apply andb_prop in H as [H H3]. apply andb_prop in H as [H1 H2].
    split; [now apply direct_aliasb_ok|]. split; [intros _; unfold xml_fits; lia|]. intros a ->. discriminate.
  - assert (N : forall w w', (forall j r, nth_error (regions w) j = Some r -> r_rc r = None \/ option_map r_rc (nth_error (regions w') j) = Some (r_rc r)) -> forall j b, ~ replaced_array w w' j b).
    { intros w w' H j b (r & c & r' & b' & c' & H1 & H2 & H3 & H4 & X). destruct (H j r H1) as [E|E]; [congruence|]. rewrite H3 in E. cbn in E. congruence. }
    eexists. eapply ar_none; [vm_compute; reflexivity|apply N; intros [|j] r H; discriminate|].
    eapply ar_none; [vm_compute; reflexivity|apply N; intros [|[|j]] r H; try discriminate; injection H as <-; left; reflexivity|].
    eapply ar_one with (j := 0%nat); [vm_compute; reflexivity|do 5 eexists; split; [reflexivity|]; split; [reflexivity|]; split; [reflexivity|]; split; [reflexivity|discriminate]|].
    eapply ar_none; [vm_compute; reflexivity|apply N; intros [|[|j]] r H; try discriminate; injection H as <-; right; reflexivity|constructor].
Qed.

(** C13.  If no existing region reaches into the image's addresses, creating regions from an image
    of at least 4 bytes adds exactly the two regions described by flash_done, or raises out-of-
    memory with the memory and the allocated blocks as before.  Missing: images that overlap
    existing regions. *)
Theorem C13_flash_image_partial w src size :
  reachable w -> u32 size -> Forall byte src -> 4 <= size <= zlen src ->
  (forall r, In r (regions w) -> r_size r = 0 \/ size <= r_base r) ->
  (exists w' flash ram,
     api (MemorySim_CreateRegionsFromFlashImage src size) w = Done tt w' /\ flash_done w w' src size flash ram) \/
  (exists w', api (MemorySim_CreateRegionsFromFlashImage src size) w = Raised outOfMemoryException w' /\
     0 < refusals w w' /\ w_mem w' = w_mem w /\ Permutation (h_live (w_heap w')) (h_live (w_heap w))).
Proof. apply flash_image. Qed.

Example C13_example : let w := after env0 [OCreate 0x30000000 8] in
  let src := [0x10;0;0;0x10;1;2;3;4;9] in
  reachable w /\ Forall byte src /\ (forall r, In r (regions w) -> r_size r = 0 \/ 9 <= r_base r) /\
  exists w', api (MemorySim_CreateRegionsFromFlashImage src 9) w = Done tt w' /\
    option_map r_data (nth_error (regions w') 1) = Some src /\
    option_map r_base (nth_error (regions w') 2) = Some 0x10000000 /\ option_map r_size (nth_error (regions w') 2) = Some 16.
Proof.
  cbv zeta. split; [apply after_reachable; vm_compute; reflexivity|]. split; [apply bytes_ok; reflexivity|]. split.
  - intros r Hi. vm_in Hi. destruct Hi as [<-|[]]. cbn. lia.
  - eexists. split; [vm_compute; reflexivity|]. vm_compute. auto.
Qed.

(** C13.  An image of fewer than 4 bytes is rejected and nothing changes. *)
Theorem C13_flash_short w src size : size < 4 ->
  api (MemorySim_CreateRegionsFromFlashImage src size) w = Raised bufferOverrunException (set_exn w bufferOverrunException []).
Proof. apply flash_short. Qed.

(** C13.  If a region already covers the image's addresses, the image is loaded into that region: the
    region created for it stays zero. *)
Theorem C13_overlap_refuted : exists w src w' flash,
  reachable w /\ Forall byte src /\ api (MemorySim_CreateRegionsFromFlashImage src (zlen src)) w = Done tt w' /\
  nth_error (regions w') 1 = Some flash /\ r_base flash = 0 /\ r_data flash <> src /\ r_ro flash = false.
Proof.
  exists (after env0 [OCreate 0 16]), [16;0;0;0x10;1;2;3;4]. eexists. eexists. split; [apply after_reachable; vm_compute; reflexivity|].
  split; [apply bytes_ok; reflexivity|]. split; [vm_compute; reflexivity|]. split; [reflexivity|]. split; [reflexivity|].
  split; [discriminate|reflexivity].
Qed.

(** C14.  When regions do not overlap, loading an image of n bytes at an address whose region
    contains it all makes byte i of the image readable at address + i for every i below n, and
    changes nothing else.  Missing: overlapping regions. *)
Theorem C14_load_effect_partial w a src n r i :
  reachable w -> non_overlapping (regions w) -> u32 a -> u32 n -> 0 < n -> a + n <= 4294967296 -> Forall byte src -> n <= zlen src ->
  nth_error (regions w) i = Some r -> covers r a n ->
  exists w', api (MemorySim_LoadFromFlashImage a src n) w = Done tt w' /\
    (forall x b, nth_error src x = Some b -> Z.of_nat x < n -> exists w'', api (readN 1 (a + Z.of_nat x)) w' = Done b w'') /\
    (exists j k, serves (regions w) a n j k /\
       forall j' k', ~ (j' = j /\ k <= k' < k + n) -> storage (regions w') j' k' = storage (regions w) j' k') /\
    Forall2 same_settings (regions w) (regions w') /\
    m_hits (w_mem w') = m_hits (w_mem w) /\ m_xml (w_mem w') = m_xml (w_mem w) /\ w_heap w' = w_heap w /\ frame w w'.
Proof. apply load_effect. Qed.

Example C14_example : exists r, nth_error (regions w_ex) 3 = Some r /\ covers r 0x10000011 6 /\
  exists w', api (MemorySim_LoadFromFlashImage 0x10000011 [9;8;7;6;5;4;3] 6) w_ex = Done tt w' /\
  outcome_of (api (readN 1 0x10000016) w') = Value 4.
Proof.
  eexists. split; [vm_compute; reflexivity|]. split; [unfold covers; cbn; lia|]. eexists. split; [vm_compute; reflexivity|].
  vm_compute. reflexivity.
Qed.

(** C14.  With overlapping regions the image can be split between them, so that bytes read back
    wrong: the 4-byte store of bytes 0x101..0x104 goes to the second region, whose first byte is
    shadowed. *)
Theorem C14_overlap_refuted : exists w w' r,
  reachable w /\ nth_error (regions w) 1 = Some r /\ covers r 0x101 5 /\
  api (MemorySim_LoadFromFlashImage 0x101 [1;2;3;4;5] 5) w = Done tt w' /\
  outcome_of (api (readN 1 0x101) w') <> Value 1.
Proof.
  exists (after env0 [OCreate 0x100 2; OCreate 0x101 5]). eexists. eexists.
  split; [apply after_reachable; vm_compute; reflexivity|]. split; [vm_compute; reflexivity|].
  split; [unfold covers; cbn; lia|]. split; [vm_compute; reflexivity|]. vm_compute. discriminate.
Qed.

(** C15.  The memory map is the text map_text of the region list, or the call raises out-of-memory
    and changes nothing.  Missing: if the buffer has 2^31 bytes or more an assertion may fail, see
    C15_overflow_refuted. *)
Theorem C15_memory_map_partial w : reachable w ->
  match api MemorySim_GetMemoryMapXML w with
  | Done t w' => t = map_text (regions w) /\ regions w' = regions w /\ m_hits (w_mem w') = m_hits (w_mem w)
  | Raised c w' => c = outOfMemoryException /\ 0 < refusals w w' /\ w_mem w' = w_mem w
  | Crashed u => u = AbAssert /\ ~ xml_fits (regions w)
  end.
Proof. apply xml_total. Qed.

Example C15_example : xml_fits (regions w_ex) /\
  outcome_of (api MemorySim_GetMemoryMapXML (after env0 [OCreate 0x10000000 0x1F])) =
  Value (s2b "<?xml version=""1.0""?><!DOCTYPE memory-map PUBLIC ""+//IDN gnu.org//DTD GDB Memory Map V1.0//EN"" ""http://sourceware.org/gdb/gdb-memory-map.dtd""><memory-map><memory type=""ram"" start=""0x10000000"" length=""0x1F""></memory></memory-map>").
Proof. vm_compute. auto. Qed.

(** C15 fails in general: with so many regions that the text buffer is 2^31 bytes long (a dump of 160 MB
    with empty regions does) an assertion fails, because the room left is compared as an int. *)
Lemma create_step w : w_env w = env0 -> exists w', step (OCreate 0 0) w = Some w' /\ w_env w' = env0 /\ m_xml (w_mem w') = m_xml (w_mem w) /\ zlen (regions w') = zlen (regions w) + 1.
Proof.
  intro HE. unfold step, api, op_run, drop, bind, ret. rewrite CreateRegion_eq. unfold alloc_ok. change (w_env (set_exn w noException [])) with (w_env w). rewrite HE.
  change (e_malloc env0 _ _) with true. cbv zeta. cbn [negb]. eexists. split; [reflexivity|]. split; [exact HE|]. split; [reflexivity|].
  cbn [w_mem set_exn set_regions m_regions set_mem]. unfold zlen. rewrite app_length. cbn [length]. lia.
Qed.
Lemma create_many n : exists w, reachable w /\ w_env w = env0 /\ m_xml (w_mem w) = None /\ zlen (regions w) = Z.of_nat n.
Proof.
  induction n as [|n (w & HR & HE & HX & HZ)].
  - exists (w_start env0). split; [apply reach_fresh; [apply start_fresh|apply start_sane]|]. split; [reflexivity|]. split; reflexivity.
  - destruct (create_step w HE) as (w' & HS & HE' & HX' & HZ'). exists w'. split; [|split; [exact HE'|split; [congruence|lia]]].
    apply (reach_step w (OCreate 0 0)); [exact HR|cbn; unfold u32; lia|exact I|exact HS].
Qed.
Theorem C15_overflow_refuted : exists w, reachable w /\ (forall k size, e_malloc (w_env w) k size = true) /\ api MemorySim_GetMemoryMapXML w = Crashed AbAssert.
Proof.
  destruct (create_many (Z.to_nat 19600000)) as (w & HR & HE & HX & HZ). exists w. split; [exact HR|]. split; [intros; now rewrite HE|].
  rewrite Z2Nat.id in HZ by lia. unfold api, MemorySim_GetMemoryMapXML, bind, getw. set (w0 := set_exn w noException []).
  assert (HE0 : w_env w0 = env0) by exact HE. change (m_regions (w_mem w0)) with (regions w).
  assert (HA : exists b w1, realloc (option_map fst (m_xml (w_mem w0))) (zlen g_xmlHeader + 1 + (zlen g_xmlTrailer + 1) + zlen (regions w) * (zlen xmlExampleLine + 1)) w0 = Ret (Some b) w1).
  { replace (m_xml (w_mem w0)) with (@None (nat * list Z)) by (symmetry; exact HX). unfold realloc, malloc, bind. rewrite HE0. eexists _, _. reflexivity. }
  destruct HA as (b & w1 & ->). replace (build_xml (regions w) _) with (@None (list Z)); [reflexivity|].
  unfold build_xml. change (zlen g_xmlHeader) with 154. change (zlen g_xmlTrailer) with 13. change (zlen xmlExampleLine) with 109. rewrite HZ.
  replace (_ <? 154 + 1) with false by lia. destruct (regions w) as [|r rs]; [discriminate|]. cbn [appendMemoryMapRegions]. cbv zeta.
  replace (zlen (xml_region r) <? to_int _) with false; [reflexivity|]. unfold to_int, W, zlen. symmetry. apply Z.ltb_ge.
  cbn -[xml_region]. lia.
Qed.

(** C15.  The region list (type, start and length of each region, in order) can be recovered from
    the text: equal texts come from equal lists. *)
Theorem C15_recoverable w1 w2 :
  reachable w1 -> reachable w2 -> map_text (regions w1) = map_text (regions w2) ->
  map summary (regions w1) = map summary (regions w2).
Proof. apply xml_recover. Qed.

Example C15_recover_example : map summary (regions w_ex) =
  [(false, 0x10000000, 16); (true, 0, 16); (false, 0x20000000, 12); (false, 0x10000010, 7)].
Proof. vm_compute. reflexivity. Qed.

(** C16.  After a region is made read-only, and any later calls that do not make it read-only again,
    the count reported for an address is the number of 16-bit reads of its half-word since then,
    modulo 2^32. *)
Theorem C16_read_count w0 base u w a j k ops w' n :
  reachable w0 -> u32 base -> api (MemorySim_MakeRegionReadOnly base) w0 = Done u w ->
  recounts (regions w0) (OReadOnly base) j -> u32 a -> serves (regions w) a 2 j k ->
  Forall op_args ops -> all_along (fun w o => direct_alias (regions w) o /\ ~ recounts (regions w) o j) ops w ->
  run ops w = Some w' -> half_word_reads j (k / 2) w ops n ->
  exists w'', api (MemorySim_GetFlashReadCount a) w' = Done (n mod 2 ^ 32) w''.
Proof. apply read_count. Qed.

Example C16_example :
  let w0 := after env0 [OCreate 0 16; OCreate 0x10000000 16] in
  exists w w' w'', api (MemorySim_MakeRegionReadOnly 0) w0 = Done tt w /\ recounts (regions w0) (OReadOnly 0) 0 /\
  serves (regions w) 4 2 0 4 /\
  (let ops := [ORead 2 4; ORead 4 4; OAlias 0x20000000 0 8; ORead 2 0x20000004; ORead 2 6; OWrite 2 4 0] in
   run ops w = Some w' /\ half_word_reads 0 2 w ops 2) /\
  api (MemorySim_GetFlashReadCount 4) w' = Done 2 w''.
Proof.
  cbv zeta. eexists. eexists. eexists. split; [vm_compute; reflexivity|].
  split; [exists 0; apply find_serve_spec; vm_compute; reflexivity|]. split; [apply find_serve_spec; vm_compute; reflexivity|].
  split; [split; [vm_compute; reflexivity|]|vm_compute; reflexivity].
  eapply (hw_read _ _ _ _ _ _ 1); [split; [reflexivity|]; exists 4; split; [apply find_serve_spec; vm_compute; reflexivity|reflexivity]|vm_compute; reflexivity|].
  eapply hw_other; [intros (E & _); discriminate|vm_compute; reflexivity|].
  eapply hw_other; [intros []|vm_compute; reflexivity|].
  eapply (hw_read _ _ _ _ _ _ 0); [split; [reflexivity|]; exists 4; split; [apply find_serve_spec; vm_compute; reflexivity|reflexivity]|vm_compute; reflexivity|].
  eapply hw_other; [|vm_compute; reflexivity|].
  { intros (_ & k & Hs & E). apply find_serve_spec in Hs. vm_in Hs. injection Hs as <-. discriminate. }
  eapply hw_other; [intros []|vm_compute; reflexivity|]. constructor.
Qed.

(** C17.  Setting a break/watchpoint adds exactly the one named and changes nothing else. *)
Theorem C17_set_adds w a n t u w' :
  reachable w -> u32 a -> u32 n -> u32 t -> api (MemorySim_SetHardwareWatchpoint a n t) w = Done u w' ->
  exists j x, names (regions w) a n t j x /\
    Forall2 same_but_wps (regions w) (regions w') /\ m_hits (w_mem w') = m_hits (w_mem w) /\
    forall i y, installed (regions w') i y <-> installed (regions w) i y \/ (i = j /\ y = x).
Proof. intros HR Ha Hn Ht E. destruct (reachable_inv _ HR) as (R & HI). exact (proj2 (set_effect R w a n t u w' HI Ha Hn Ht E)). Qed.

Example C17_example : exists w', api (MemorySim_SetHardwareWatchpoint 0x20000000 8 1) w_ex = Done tt w' /\
  installed (regions w') 0 (mkWp 1 0x10000004 0x1000000C) /\ ~ installed (regions w_ex) 0 (mkWp 1 0x10000004 0x1000000C).
Proof.
  eexists. split; [vm_compute; reflexivity|]. split.
  - eexists. split; [vm_compute; reflexivity|]. cbn. auto.
  - intros (r & Hr & Hi). vm_in Hr. injection Hr as <-. cbn in Hi. destruct Hi as [E|[]]. discriminate.
Qed.

(** C17.  Clearing a break/watchpoint removes exactly the one named and changes nothing else. *)
Theorem C17_clear_removes w a n t u w' :
  reachable w -> u32 a -> u32 n -> u32 t -> api (MemorySim_ClearHardwareWatchpoint a n t) w = Done u w' ->
  exists j x, names (regions w) a n t j x /\
    Forall2 same_but_wps (regions w) (regions w') /\ m_hits (w_mem w') = m_hits (w_mem w) /\
    forall i y, installed (regions w') i y <-> installed (regions w) i y /\ ~ (i = j /\ y = x).
Proof. intros HR Ha Hn Ht E. destruct (reachable_inv _ HR) as (R & HI). exact (proj2 (clear_effect R w a n t u w' HI Ha Hn Ht E)). Qed.

Example C17_clear_example : exists w', api (MemorySim_ClearHardwareWatchpoint 0x20000000 4 3) w_ex = Done tt w' /\
  installed (regions w_ex) 0 (mkWp 3 0x10000004 0x10000008) /\ option_map r_wps (nth_error (regions w') 0) = Some [].
Proof.
  eexists. split; [vm_compute; reflexivity|]. split; [|vm_compute; reflexivity].
  eexists. split; [vm_compute; reflexivity|]. cbn. auto.
Qed.

(** C17.  Setting one that is installed changes nothing, and clearing one that is not does not
    either. *)
Theorem C17_set_twice w a n t j x :
  reachable w -> u32 a -> u32 n -> u32 t -> names (regions w) a n t j x -> installed (regions w) j x ->
  exists w', api (MemorySim_SetHardwareWatchpoint a n t) w = Done tt w' /\ w_mem w' = w_mem w /\ w_heap w' = w_heap w.
Proof. intros HR. destruct (reachable_inv _ HR) as (R & HI). exact (set_again R w a n t j x HI). Qed.

Theorem C17_clear_absent w a n t j x :
  reachable w -> u32 a -> u32 n -> u32 t -> names (regions w) a n t j x -> ~ installed (regions w) j x ->
  exists w', api (MemorySim_ClearHardwareWatchpoint a n t) w = Done tt w' /\ w_mem w' = w_mem w /\ w_heap w' = w_heap w.
Proof. intros HR. destruct (reachable_inv _ HR) as (R & HI). exact (clear_absent R w a n t j x HI). Qed.

Example C17_names_example : names (regions w_ex) 0x20000000 4 3 0 (mkWp 3 0x10000004 0x10000008).
Proof. exists 4. eexists. split; [apply find_serve_spec; vm_compute; reflexivity|]. split; [vm_compute; reflexivity|vm_compute; reflexivity]. Qed.

(** C17, for the calls that set and clear breakpoints. *)
Theorem C17_break_adds w a n u w' :
  reachable w -> u32 a -> u32 n -> api (MemorySim_SetHardwareBreakpoint a n) w = Done u w' ->
  exists j x, names (regions w) a n WATCHPOINT_BREAKPOINT j x /\
    Forall2 same_but_wps (regions w) (regions w') /\ m_hits (w_mem w') = m_hits (w_mem w) /\
    forall i y, installed (regions w') i y <-> installed (regions w) i y \/ (i = j /\ y = x).
Proof. intros HR Ha Hn E. apply (C17_set_adds w a n WATCHPOINT_BREAKPOINT u w' HR Ha Hn); [unfold u32, WATCHPOINT_BREAKPOINT; lia|exact E]. Qed.
Theorem C17_break_removes w a n u w' :
  reachable w -> u32 a -> u32 n -> api (MemorySim_ClearHardwareBreakpoint a n) w = Done u w' ->
  exists j x, names (regions w) a n WATCHPOINT_BREAKPOINT j x /\
    Forall2 same_but_wps (regions w) (regions w') /\ m_hits (w_mem w') = m_hits (w_mem w) /\
    forall i y, installed (regions w') i y <-> installed (regions w) i y /\ ~ (i = j /\ y = x).
Proof. intros HR Ha Hn E. apply (C17_clear_removes w a n WATCHPOINT_BREAKPOINT u w' HR Ha Hn); [unfold u32, WATCHPOINT_BREAKPOINT; lia|exact E]. Qed.
Example C17_break_example : exists w' w'', api (MemorySim_SetHardwareBreakpoint 0x20000000 8) w_ex = Done tt w' /\ api (MemorySim_ClearHardwareBreakpoint 0x10000004 8) w' = Done tt w'' /\
  regions w' <> regions w_ex /\ map r_wps (regions w'') = map r_wps (regions w_ex).
Proof. eexists _, _. split; [vm_compute; reflexivity|]. split; [vm_compute; reflexivity|]. split; [vm_compute; discriminate|vm_compute; reflexivity]. Qed.

(** C17.  Setting several in any order installs the same set. *)
Theorem C17_set_order w l l' w1 w2 :
  reachable w -> Forall set_arg l -> Permutation l l' -> set_all l w = Some w1 -> set_all l' w = Some w2 ->
  forall i y, installed (regions w1) i y <-> installed (regions w2) i y.
Proof. intros HR. destruct (reachable_inv _ HR) as (R & HI). exact (set_order R w l l' w1 w2 HI). Qed.

(** C17.  Accesses behave alike whichever order break/watchpoints were set in: the same values and
    exceptions, and after a successful access the same hit counter.  Missing: the hit counter after a
    breakpoint. *)
Theorem C17_order_effects_partial w l l' w1 w2 n a j k r :
  reachable w -> Forall set_arg l -> Permutation l l' -> set_all l w = Some w1 -> set_all l' w = Some w2 ->
  width n -> u32 a -> serves (regions w) a n j k -> nth_error (regions w) j = Some r ->
  (forall v w1', api (readN n a) w1 = Done v w1' ->
     exists w2', api (readN n a) w2 = Done v w2' /\ m_hits (w_mem w1') = m_hits (w_mem w2')) /\
  (forall c w1', api (readN n a) w1 = Raised c w1' -> exists w2', api (readN n a) w2 = Raised c w2') /\
  (forall v u w1', api (writeN n a v) w1 = Done u w1' ->
     exists w2', api (writeN n a v) w2 = Done u w2' /\ m_hits (w_mem w1') = m_hits (w_mem w2')).
Proof. apply order_effects. Qed.

Example C17_order_example : exists w1 w2,
  let l := [(0x10000000, 4, 1); (0x10000000, 8, 3); (0x10000002, 2, 2)] in
  let l' := [(0x10000002, 2, 2); (0x10000000, 8, 3); (0x10000000, 4, 1)] in
  Forall set_arg l /\ Permutation l l' /\ set_all l w_ex = Some w1 /\ set_all l' w_ex = Some w2.
Proof.
  eexists. eexists. cbv zeta. split; [repeat constructor; lia|]. split; [|split; [vm_compute; reflexivity|vm_compute; reflexivity]].
  apply (Permutation_rev [(0x10000000, 4, 1); (0x10000000, 8, 3); (0x10000002, 2, 2)]).
Qed.

(** C17.  The order does matter to the hit counter when a watchpoint and a breakpoint start at the
    same address. *)
Theorem C17_order_hits_refuted : exists w l l' w1 w2 w1' w2' w1'' w2'',
  reachable w /\ Forall set_arg l /\ Permutation l l' /\ set_all l w = Some w1 /\ set_all l' w = Some w2 /\
  api (readN 2 0) w1 = Raised hardwareBreakpointException w1' /\ api (readN 2 0) w2 = Raised hardwareBreakpointException w2' /\
  api MemorySim_WasWatchpointEncountered w1' = Done 1 w1'' /\ api MemorySim_WasWatchpointEncountered w2' = Done 0 w2''.
Proof.
  exists (after env0 [OCreate 0 16]), [(0, 4, 1); (0, 4, WATCHPOINT_BREAKPOINT)], [(0, 4, WATCHPOINT_BREAKPOINT); (0, 4, 1)].
  do 6 eexists. split; [apply after_reachable; vm_compute; reflexivity|].
  split; [repeat constructor; vm_compute; (reflexivity || discriminate)|].
  split; [apply perm_swap|]. repeat (split; [vm_compute; reflexivity|]). vm_compute. reflexivity.
Qed.

(** C18, for every access that succeeds, wherever it lies: the counter goes up by the number of
    installed watchpoints for the kind of access whose range contains it as far as 32-bit arithmetic can
    tell. *)
Theorem C18_read_counted w n a v w' j k r h w1 :
  reachable w -> width n -> u32 a -> serves (regions w) a n j k -> nth_error (regions w) j = Some r ->
  api (readN n a) w = Done v w' -> api MemorySim_WasWatchpointEncountered w = Done h w1 ->
  exists w2, api MemorySim_WasWatchpointEncountered w' = Done (h + caught_count (r_wps r) (r_base r + k) n READING) w2.
Proof. apply read_hits. Qed.
Theorem C18_write_counted w n a v u w' j k r h w1 :
  reachable w -> width n -> u32 a -> serves (regions w) a n j k -> nth_error (regions w) j = Some r ->
  api (writeN n a v) w = Done u w' -> api MemorySim_WasWatchpointEncountered w = Done h w1 ->
  exists w2, api MemorySim_WasWatchpointEncountered w' = Done (h + caught_count (r_wps r) (r_base r + k) n WRITING) w2.
Proof. apply write_hits. Qed.

(** C18.  A successful read adds to the hit counter the number of installed watchpoints for reading
    whose range contains it.  Missing: an access that ends at the top of the address space, and regions
    with a break/watchpoint that runs to it. *)
Theorem C18_read_hits_partial w n a v w' j k r h w1 :
  reachable w -> width n -> u32 a -> serves (regions w) a n j k -> nth_error (regions w) j = Some r ->
  r_base r + k + n < 2 ^ 32 -> Forall (fun x => wp_start x <= wp_end x) (r_wps r) -> api (readN n a) w = Done v w' ->
  api MemorySim_WasWatchpointEncountered w = Done h w1 ->
  exists w2, api MemorySim_WasWatchpointEncountered w' = Done (h + hit_count (r_wps r) (r_base r + k) n READING) w2.
Proof.
  intros HR Hn Ha HS Hr Hb HF E Q. destruct (place w n a j k r HR Hn Ha HS Hr) as [P1 P2].
  rewrite <- (caught_count_hits _ _ _ READING P1 P2 Hb HF). eapply C18_read_counted; eassumption.
Qed.

Example C18_example : exists r, serves (regions w_ex) 0x20000000 4 0 4 /\ nth_error (regions w_ex) 0 = Some r /\
  r_base r + 4 + 4 < 2 ^ 32 /\ r_wps r <> [] /\ Forall (fun x => wp_start x <= wp_end x) (r_wps r) /\
  hit_count (r_wps r) (r_base r + 4) 4 READING = 1 /\ hit_count (r_wps r) (r_base r + 6) 4 READING = 0.
Proof.
  eexists. split; [apply find_serve_spec; vm_compute; reflexivity|]. split; [vm_compute; reflexivity|].
  split; [vm_compute; reflexivity|]. split; [vm_compute; discriminate|]. split; [repeat constructor; vm_compute; discriminate|]. vm_compute. auto.
Qed.

(** C18.  A successful write adds to the hit counter the number of installed watchpoints for writing
    whose range contains it.  Missing as before. *)
Theorem C18_write_hits_partial w n a v u w' j k r h w1 :
  reachable w -> width n -> u32 a -> serves (regions w) a n j k -> nth_error (regions w) j = Some r ->
  r_base r + k + n < 2 ^ 32 -> Forall (fun x => wp_start x <= wp_end x) (r_wps r) -> api (writeN n a v) w = Done u w' ->
  api MemorySim_WasWatchpointEncountered w = Done h w1 ->
  exists w2, api MemorySim_WasWatchpointEncountered w' = Done (h + hit_count (r_wps r) (r_base r + k) n WRITING) w2.
Proof.
  intros HR Hn Ha HS Hr Hb HF E Q. destruct (place w n a j k r HR Hn Ha HS Hr) as [P1 P2].
  rewrite <- (caught_count_hits _ _ _ WRITING P1 P2 Hb HF). eapply C18_write_counted; eassumption.
Qed.

(** C18.  What that comes to at the top: a read or write that ends there counts every watchpoint of its
    kind that starts at or before it, and any other counts none of those that run to the top. *)
Theorem C18_top_counts x n a :
  u32 (wp_start x) -> u32 (wp_end x) -> u32 a -> 0 < n ->
  (a + n = 2 ^ 32 -> caught x a n = (wp_start x <=? a)) /\
  (a + n < 2 ^ 32 -> real_end x = 2 ^ 32 -> caught x a n = false).
Proof.
  intros Hs He Ha Hn. unfold u32 in *. split.
  - intro E. unfold caught. rewrite E, W_id by exact Ha. change (W (2 ^ 32)) with 0. lia.
  - intros L E. unfold caught, real_end in *. rewrite !W_id by (unfold u32; lia). destruct (wp_end x <? wp_start x) eqn:F; lia.
Qed.

(** C18.  The query returns the counter and clears it, and changes nothing else. *)
Theorem C18_query_clears w :
  exists w1, api MemorySim_WasWatchpointEncountered w = Done (m_hits (w_mem w)) w1 /\
    regions w1 = regions w /\ w_heap w1 = w_heap w /\ frame w w1 /\
    exists w2, api MemorySim_WasWatchpointEncountered w1 = Done 0 w2.
Proof. apply query_clears. Qed.

(** C18, over histories.  After any calls, whether they succeed or fail, the query returns exactly the
    number of hits on record before them (since the last query, if there was one in between) plus what
    each access adds: the watchpoints that contain it as far as 32-bit arithmetic can tell, up to a
    breakpoint that stops it. *)
Theorem C18_history w w' ops h w1 :
  reachable w -> Forall op_args ops -> all_along (fun w o => direct_alias (regions w) o) ops w -> run ops w = Some w' ->
  api MemorySim_WasWatchpointEncountered w = Done h w1 ->
  forall n, hits_due w h ops n <-> exists w2, api MemorySim_WasWatchpointEncountered w' = Done n w2.
Proof. apply hits_exact. Qed.

(** The hit on record is forgotten by the query.  After it a read hits one watchpoint, a 16-bit
    read is stopped by a breakpoint after hitting one, a write to another region hits one, and reads of
    unmapped memory and writes to read-only memory hit none. *)
Example C18_history_example :
  let w := after env0 [OCreate 0x10000000 16; OCreate 0 16; OReadOnly 0; OSet 0x10000000 8 1; OSet 0x10000004 2 WATCHPOINT_BREAKPOINT; OSet 0x10000006 2 1; OSet 0x10000008 4 2; OSet 0 4 2] in
  let ops := [ORead 4 0x10000000; OHits; ORead 4 0x10000000; ORead 2 0x10000004; OWrite 4 0x10000008 7; ORead 4 0x20000000; OWrite 4 0 1; OClear 0x10000000 8 1; ORead 4 0x10000000] in
  exists w', reachable w /\ Forall op_args ops /\ all_along (fun w o => direct_alias (regions w) o) ops w /\ run ops w = Some w' /\
  hits_due w 0 ops 3.
Proof.
  cbv zeta. eexists. split; [apply after_reachable; vm_compute; reflexivity|].
  split; [repeat (apply Forall_cons; [cbn; unfold width, u32; lia|]); constructor|].
  split; [cbn [all_along direct_alias]; repeat (split; [exact I|]; intros ? _); exact I|].
  split; [vm_compute; reflexivity|].
  eapply hd_call; [eapply sc_read; [apply find_serve_spec; vm_compute; reflexivity|vm_compute; reflexivity]|vm_compute; reflexivity|].
  eapply hd_query; [vm_compute; reflexivity|].
  eapply hd_call; [eapply sc_read; [apply find_serve_spec; vm_compute; reflexivity|vm_compute; reflexivity]|vm_compute; reflexivity|].
  eapply hd_call; [eapply sc_read; [apply find_serve_spec; vm_compute; reflexivity|vm_compute; reflexivity]|vm_compute; reflexivity|].
  eapply hd_call; [eapply sc_write; [apply find_serve_spec; vm_compute; reflexivity|vm_compute; reflexivity|vm_compute; reflexivity]|vm_compute; reflexivity|].
  eapply hd_call; [apply sc_read_off|vm_compute; reflexivity|].
  { intros j k S. apply find_serve_spec in S. vm_in S. discriminate. }
  eapply hd_call; [apply sc_write_off|vm_compute; reflexivity|].
  { intros (j & k & r & S & Hr & Ho). apply find_serve_spec in S. vm_in S. injection S as <- <-. vm_in Hr. injection Hr as <-. discriminate. }
  eapply hd_call; [apply sc_other; exact I|vm_compute; reflexivity|].
  eapply hd_call; [eapply sc_read; [apply find_serve_spec; vm_compute; reflexivity|vm_compute; reflexivity]|vm_compute; reflexivity|].
  match goal with |- hits_due _ ?h _ _ => replace h with 3 by (vm_compute; reflexivity) end. constructor.
Qed.

(** C18.  A watchpoint that ends at the top of the address space is missed, as its end wraps to 0. *)
Theorem C18_top_missed_refuted : exists w v w' w'' r,
  reachable w /\ nth_error (regions w) 0 = Some r /\ installed (regions w) 0 (mkWp 1 0xFFFFFFFC 0) /\
  names (regions w) 0xFFFFFFFC 4 1 0 (mkWp 1 0xFFFFFFFC 0) /\
  api (readN 2 0xFFFFFFFC) w = Done v w' /\ api MemorySim_WasWatchpointEncountered w' = Done 0 w''.
Proof.
  exists (after env0 [OCreate 0xFFFFFFF0 16; OSet 0xFFFFFFFC 4 1]). do 4 eexists.
  split; [apply after_reachable; vm_compute; reflexivity|]. split; [vm_compute; reflexivity|].
  split; [eexists; split; [vm_compute; reflexivity|left; reflexivity]|].
  split; [exists 12; eexists; split; [apply find_serve_spec; vm_compute; reflexivity|split; [vm_compute; reflexivity|vm_compute; reflexivity]]|].
  split; [vm_compute; reflexivity|vm_compute; reflexivity].
Qed.

(** C18.  An access that ends at the top of the address space hits a watchpoint below it, as the end
    of the access wraps to 0. *)
Theorem C18_top_false_hit_refuted : exists w v w' w'',
  reachable w /\ (forall j x, installed (regions w) j x -> x = mkWp 1 0xFFFFFFF0 0xFFFFFFF4) /\
  api (readN 4 0xFFFFFFFC) w = Done v w' /\ api MemorySim_WasWatchpointEncountered w' = Done 1 w''.
Proof.
  exists (after env0 [OCreate 0xFFFFFFF0 16; OSet 0xFFFFFFF0 4 1]). do 3 eexists.
  split; [apply after_reachable; vm_compute; reflexivity|]. split; [|split; [vm_compute; reflexivity|vm_compute; reflexivity]].
  intros j x (r & Hr & Hi). vm_in Hr. destruct j as [|[|]]; try discriminate. injection Hr as <-. destruct Hi as [<-|[]]. reflexivity.
Qed.

(** C19, for every mapped read, wherever it lies: it raises the breakpoint exception exactly when it is
    16 bits wide and an installed breakpoint contains it as far as 32-bit arithmetic can tell. *)
Theorem C19_read_caught w n a j k r :
  reachable w -> width n -> u32 a -> serves (regions w) a n j k -> nth_error (regions w) j = Some r ->
  (exists w', api (readN n a) w = Raised hardwareBreakpointException w') <-> caught_break (r_wps r) (r_base r + k) n = true.
Proof. apply read_caught. Qed.

(** C19.  A mapped read raises the breakpoint exception exactly when it is 16 bits wide and an
    installed breakpoint contains it.  Missing: a read that ends at the top of the address space, and
    regions with a break/watchpoint that runs to it. *)
Theorem C19_read_breaks_partial w n a j k r :
  reachable w -> width n -> u32 a -> serves (regions w) a n j k -> nth_error (regions w) j = Some r ->
  r_base r + k + n < 2 ^ 32 -> Forall (fun x => wp_start x <= wp_end x) (r_wps r) ->
  (exists w', api (readN n a) w = Raised hardwareBreakpointException w') <-> breaks_on (r_wps r) (r_base r + k) n = true.
Proof. apply read_breaks. Qed.

Example C19_example : exists r, serves (regions w_ex) 6 2 1 6 /\ nth_error (regions w_ex) 1 = Some r /\
  r_base r + 6 + 2 < 2 ^ 32 /\ r_wps r <> [] /\ Forall (fun x => wp_start x <= wp_end x) (r_wps r) /\
  breaks_on (r_wps r) (r_base r + 6) 2 = true /\ breaks_on (r_wps r) (r_base r + 7) 2 = false.
Proof.
  eexists. split; [apply find_serve_spec; vm_compute; reflexivity|]. split; [vm_compute; reflexivity|].
  split; [vm_compute; reflexivity|]. split; [vm_compute; discriminate|]. split; [repeat constructor; vm_compute; discriminate|]. vm_compute. auto.
Qed.

Lemma break_reachable w a n u w' : reachable w -> u32 a -> u32 n ->
  api (MemorySim_SetHardwareBreakpoint a n) w = Done u w' \/ api (MemorySim_ClearHardwareBreakpoint a n) w = Done u w' -> reachable w'.
Proof.
  intros HR Ha Hn [E|E].
  - eapply (reach_step w (OSet a n WATCHPOINT_BREAKPOINT)); [exact HR|repeat split; try apply Ha; try apply Hn; unfold WATCHPOINT_BREAKPOINT; lia|exact I|].
    unfold step. change (api (op_run (OSet a n WATCHPOINT_BREAKPOINT)) w) with (api (MemorySim_SetHardwareBreakpoint a n) w). now rewrite E.
  - eapply (reach_step w (OClear a n WATCHPOINT_BREAKPOINT)); [exact HR|repeat split; try apply Ha; try apply Hn; unfold WATCHPOINT_BREAKPOINT; lia|exact I|].
    unfold step. change (api (op_run (OClear a n WATCHPOINT_BREAKPOINT)) w) with (api (MemorySim_ClearHardwareBreakpoint a n) w). now rewrite E.
Qed.

(** C19.  Once a breakpoint is set, every 16-bit read it contains raises the exception.  Missing: a
    breakpoint that runs to the top of the address space. *)
Theorem C19_set_then_read_partial w a n u w' b j k k2 r :
  reachable w -> u32 a -> u32 n -> u32 b -> api (MemorySim_SetHardwareBreakpoint a n) w = Done u w' ->
  serves (regions w) a n j k -> serves (regions w) b 2 j k2 -> k <= k2 -> k2 + 2 <= k + n -> nth_error (regions w) j = Some r -> r_base r + k + n < 2 ^ 32 ->
  exists w'', api (readN 2 b) w' = Raised hardwareBreakpointException w''.
Proof.
  intros HR Ha Hn Hb E S1 S2 K1 K2 Hr HT. pose proof (break_reachable _ _ _ _ _ HR Ha Hn (or_introl E)) as HR'.
  destruct (C17_break_adds w a n u w' HR Ha Hn E) as (j0 & x & (k0 & r0 & S0 & Hr0 & ->) & HF & _ & HI). destruct (serves_unique _ _ _ _ _ _ _ S1 S0) as [<- <-].
  rewrite Hr in Hr0. injection Hr0 as <-. destruct (F2_nth _ _ _ _ _ HF Hr) as (r' & Hr' & ((B1 & B2 & _) & _)).
  destruct (reachable_inv _ HR) as (R & HInv). destruct (serves_find _ _ _ _ _ (proj1 HInv) Ha (proj1 Hn) S1) as (r1 & a1 & _ & Hr1 & _ & _ & P1 & P2 & _). rewrite Hr in Hr1. injection Hr1 as <-.
  pose proof (wr_base _ _ _ (proj1 HInv _ _ Hr)) as UB.
  apply (C19_read_caught w' 2 b j k2 r' HR'); [right; left; reflexivity|exact Hb|eapply serves_layout; [apply F2_layout; exact HF|exact S2]|exact Hr'|].
  unfold caught_break. cbn [Z.eqb Pos.eqb andb]. apply existsb_exists.
  destruct (proj2 (HI j (mkWp WATCHPOINT_BREAKPOINT (W (r_base r + k)) (W (r_base r + k + n))))) as (r2 & Hr2 & Hin); [right; auto|]. rewrite Hr' in Hr2. injection Hr2 as <-.
  eexists. split; [exact Hin|]. cbn [wp_type wp_start wp_end]. unfold caught. cbn [wp_start wp_end]. rewrite B1. unfold u32 in UB. rewrite !W_id by (unfold u32; lia). lia.
Qed.
(** C19.  Where no other breakpoint is installed, setting one and clearing it again leaves none: reads
    do not break. *)
Theorem C19_clear_then_read w a n u1 w1 u2 w2 b m :
  reachable w -> u32 a -> u32 n -> u32 b -> width m -> (forall i x, installed (regions w) i x -> wp_type x <> WATCHPOINT_BREAKPOINT) ->
  api (MemorySim_SetHardwareBreakpoint a n) w = Done u1 w1 -> api (MemorySim_ClearHardwareBreakpoint a n) w1 = Done u2 w2 ->
  forall w3, api (readN m b) w2 <> Raised hardwareBreakpointException w3.
Proof.
  intros HR Ha Hn Hb Hm HN E1 E2 w3 E3. pose proof (break_reachable _ _ _ _ _ HR Ha Hn (or_introl E1)) as HR1. pose proof (break_reachable _ _ _ _ _ HR1 Ha Hn (or_intror E2)) as HR2.
  destruct (C17_break_adds w a n u1 w1 HR Ha Hn E1) as (j1 & x1 & (k1 & r1 & S1 & Hr1 & ->) & HF1 & _ & HI1). destruct (C17_break_removes w1 a n u2 w2 HR1 Ha Hn E2) as (j2 & x2 & (k2 & r2 & S2 & Hr2 & ->) & HF2 & _ & HI2).
  pose proof (serves_layout _ _ _ _ _ _ (F2_layout _ _ HF1) S1) as S1'. destruct (serves_unique _ _ _ _ _ _ _ S1' S2) as [<- <-]. destruct (F2_nth _ _ _ _ _ HF1 Hr1) as (r1' & Hr1' & ((B1 & _) & _)). rewrite Hr2 in Hr1'. injection Hr1' as <-.
  destruct (mapped_dec _ b m (reachable_wf _ HR2) Hb (width_nn _ Hm)) as [(j & k & rb & S & Hrb & _)|U].
  2:{ rewrite (api_read_unmapped m b w2 (reachable_wf _ HR2) Hb Hm U) in E3. discriminate. }
  assert (X : caught_break (r_wps rb) (r_base rb + k) m = true) by (apply (C19_read_caught w2 m b j k rb HR2 Hm Hb S Hrb); eauto).
  unfold caught_break in X. apply andb_prop in X as [_ X]. apply existsb_exists in X as (x & Hin & X). apply andb_prop in X as [X _].
  assert (HX : installed (regions w2) j x) by (exists rb; auto). apply HI2 in HX as [HX HX']. apply HI1 in HX as [HX|[-> ->]]; [apply HN in HX; lia|]. apply HX'. split; [reflexivity|now rewrite B1].
Qed.
Example C19_set_then_read_example : exists w' w'' j k k2,
  api (MemorySim_SetHardwareBreakpoint 0x20000000 8) w_ex = Done tt w' /\ serves (regions w_ex) 0x20000000 8 j k /\ serves (regions w_ex) 0x10000006 2 j k2 /\ k <= k2 /\ k2 + 2 <= k + 8 /\
  api (readN 2 0x10000006) w' = Raised hardwareBreakpointException w''.
Proof.
  eexists _, _, 0%nat, 4, 6. split; [vm_compute; reflexivity|]. split; [apply find_serve_spec; vm_compute; reflexivity|]. split; [apply find_serve_spec; vm_compute; reflexivity|]. split; [lia|]. split; [lia|]. vm_compute. reflexivity.
Qed.

(** C19.  Writes and reads of other widths never raise the breakpoint exception. *)
Theorem C19_other_never_break w n a v w' :
  reachable w -> width n -> u32 a ->
  api (writeN n a v) w <> Raised hardwareBreakpointException w' /\
  (n <> 2 -> api (readN n a) w <> Raised hardwareBreakpointException w').
Proof. apply other_never_break. Qed.

(** C19.  A breakpoint that ends at the top of the address space never fires. *)
Theorem C19_top_missed_refuted : exists w v w',
  reachable w /\ names (regions w) 0xFFFFFFF0 16 WATCHPOINT_BREAKPOINT 0 (mkWp WATCHPOINT_BREAKPOINT 0xFFFFFFF0 0) /\
  installed (regions w) 0 (mkWp WATCHPOINT_BREAKPOINT 0xFFFFFFF0 0) /\ api (readN 2 0xFFFFFFF4) w = Done v w'.
Proof.
  exists (after env0 [OCreate 0xFFFFFFF0 16; OSet 0xFFFFFFF0 16 WATCHPOINT_BREAKPOINT]). do 2 eexists.
  split; [apply after_reachable; vm_compute; reflexivity|].
  split; [exists 0; eexists; split; [apply find_serve_spec; vm_compute; reflexivity|split; [vm_compute; reflexivity|vm_compute; reflexivity]]|].
  split; [eexists; split; [vm_compute; reflexivity|left; reflexivity]|]. vm_compute. reflexivity.
Qed.

Print Assumptions C01_read_after_write.
Print Assumptions C02_write_frame.
Print Assumptions C02_read_frame.
Print Assumptions C02_failing_access.
Print Assumptions C03_read_mapped.
Print Assumptions C03_write_mapped.
Print Assumptions C04_read_bytes.
Print Assumptions C04_write_bytes.
Print Assumptions C05_read_only_kept.
Print Assumptions C05_make_read_only.
Print Assumptions C05_map_write_writable.
Print Assumptions C06_alias_transparent.
Print Assumptions C07_alias_clamped_partial.
Print Assumptions C07_alias_inside_partial.
Print Assumptions C07_alias_of_alias_refuted.
Print Assumptions C08_no_crash_partial.
Print Assumptions C08_read_count_refuted.
Print Assumptions C08_count_exact.
Print Assumptions C08_only.
Print Assumptions C09_fresh_zero.
Print Assumptions C10_create_appends.
Print Assumptions C10_prefix_access.
Print Assumptions C11_oom_unchanged.
Print Assumptions C11_refused_raises.
Print Assumptions C11_only_refused_raises.
Print Assumptions C12_no_leak_partial.
Print Assumptions C12_read_only_twice_refuted.
Print Assumptions C12_account.
Print Assumptions C12_replaced_only.
Print Assumptions C13_flash_image_partial.
Print Assumptions C13_flash_short.
Print Assumptions C13_overlap_refuted.
Print Assumptions C14_load_effect_partial.
Print Assumptions C14_overlap_refuted.
Print Assumptions C15_memory_map_partial.
Print Assumptions C15_overflow_refuted.
Print Assumptions C15_recoverable.
Print Assumptions C16_read_count.
Print Assumptions C17_set_adds.
Print Assumptions C17_clear_removes.
Print Assumptions C17_set_twice.
Print Assumptions C17_clear_absent.
Print Assumptions C17_set_order.
Print Assumptions C17_order_effects_partial.
Print Assumptions C17_order_hits_refuted.
Print Assumptions C18_read_counted.
Print Assumptions C18_write_counted.
Print Assumptions C18_top_counts.
Print Assumptions C19_read_caught.
Print Assumptions C18_read_hits_partial.
Print Assumptions C18_write_hits_partial.
Print Assumptions C18_query_clears.
Print Assumptions C18_history.
Print Assumptions C18_top_missed_refuted.
Print Assumptions C18_top_false_hit_refuted.
Print Assumptions C19_read_breaks_partial.
Print Assumptions C19_other_never_break.
Print Assumptions C19_top_missed_refuted.
Print Assumptions C17_break_adds.
Print Assumptions C17_break_removes.
Print Assumptions C19_set_then_read_partial.
Print Assumptions C19_clear_then_read.
