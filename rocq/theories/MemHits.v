(** The count of watchpoint hits over a history of calls. *)
From Coq Require Import ZArith List Bool Lia ZifyBool ZifyNat Sorting.
From Verif Require Import Base World MemSim Sat MemSpec HitSpec MemLemmas MemInv MemHist MemHist2 MemThms MemThms2 MemThms3.
Import ListNotations.
Open Scope Z_scope.

Definition even (w w' : world) : Prop := m_hits (w_mem w') = m_hits (w_mem w).

Lemma even_pre : preorder even.
Proof. split; [intro w; reflexivity|]. intros a b c H1 H2. unfold even in *. congruence. Qed.
Lemma even_exn w w1 : even (set_exn w noException []) w1 -> even w w1.
Proof. intro H. exact H. Qed.
Lemma ev_throw {A} e : sat even (throw e : M world A).
Proof. intro w. reflexivity. Qed.
Lemma ev_throw_msg {A} e msg : sat even (throw_msg e msg : M world A).
Proof. intro w. reflexivity. Qed.
Lemma ev_rethrow {A} : sat even (rethrow : M world A).
Proof. intro w. reflexivity. Qed.
Lemma ev_code_throw {A} msg : sat even (bind getExceptionCode (fun c => throw_msg c msg) : M world A).
Proof. intro w. reflexivity. Qed.
Lemma ev_malloc n : sat even (malloc n).
Proof. intro w. unfold malloc. destruct (e_malloc _ _ _); reflexivity. Qed.
Lemma ev_zmalloc n : sat even (throwingZeroedMalloc n).
Proof. intro w. unfold throwingZeroedMalloc, bind, malloc. destruct (e_malloc _ _ _); reflexivity. Qed.
Lemma ev_free b : sat even (free b).
Proof. intro w. unfold free. destruct (is_live _ _); [reflexivity|exact I]. Qed.
Lemma ev_free_opt b : sat even (free_opt b).
Proof. destruct b; [apply ev_free|apply sat_ret, even_pre]. Qed.
Lemma ev_modw f : (forall w, m_hits (w_mem (f w)) = m_hits (w_mem w)) -> sat even (modw f).
Proof. intros H w. apply H. Qed.
Lemma ev_fmr a n : sat even (findMatchingRegion a n).
Proof. intro w. unfold findMatchingRegion. destruct (find_from _ _ _ _); reflexivity. Qed.
Lemma ev_get_region i : sat even (get_region i).
Proof. intro w. unfold get_region. destruct (nth_error _ _); [reflexivity|exact I]. Qed.
Lemma ev_upd_region i f : sat even (upd_region i f).
Proof. apply ev_modw. reflexivity. Qed.

#[export] Hint Resolve even_pre even_exn ev_throw ev_throw_msg ev_rethrow ev_malloc ev_zmalloc ev_free ev_free_opt ev_fmr ev_get_region ev_upd_region ev_code_throw : even.
#[export] Hint Extern 1 (sat even (modw _)) => apply ev_modw; reflexivity : even.

Ltac even_tac := repeat first [solve [auto 2 with even] | sat_step].

Lemma ev_realloc b n : sat even (realloc b n).
Proof. unfold realloc. even_tac. Qed.
#[export] Hint Resolve ev_realloc : even.
Lemma ev_create b s : sat even (MemorySim_CreateRegion b s).
Proof. unfold MemorySim_CreateRegion, addRegionToTail, freeNewRegion. even_tac. Qed.
Lemma ev_alias b r s : sat even (MemorySim_CreateAlias b r s).
Proof. unfold MemorySim_CreateAlias, addRegionToTail, freeNewRegion. even_tac. Qed.
Lemma ev_readonly b : sat even (MemorySim_MakeRegionReadOnly b).
Proof. unfold MemorySim_MakeRegionReadOnly, allocateReadCountArrayForReadOnlyRegion. even_tac. Qed.
Lemma ev_gdp a n t : sat even (getDataPointer a n t false).
Proof. unfold getDataPointer, incReadCount. even_tac. Qed.
Lemma ev_store p bs : sat even (store_ptr p bs).
Proof. unfold store_ptr. even_tac. Qed.
#[export] Hint Resolve ev_create ev_alias ev_readonly ev_gdp ev_store : even.
Lemma ev_load_bytes n : forall src a, sat even (load_bytes n src a).
Proof. induction n as [|n IH]; intros [|b src] a; cbn [load_bytes]; unfold load8; even_tac. Qed.
#[export] Hint Resolve ev_load_bytes : even.
Lemma ev_load_words n : forall src a, sat even (load_words n src a).
Proof.
  induction n as [n IH] using lt_wf_ind; intros src a.
  destruct n as [|[|[|[|[|m]]]]]; try apply ev_load_bytes. cbn [load_words].
  destruct src as [|b0 [|b1 [|b2 [|b3 t]]]]; try apply sat_ub. unfold load32. even_tac. all: try (apply IH; lia).
Qed.
#[export] Hint Resolve ev_load_words : even.
Lemma ev_free_last : sat even freeLastRegion.
Proof. unfold freeLastRegion, freeRegion. even_tac. Qed.
#[export] Hint Resolve ev_free_last : even.
Lemma ev_flash src n : sat even (MemorySim_CreateRegionsFromFlashImage src n).
Proof.
  unfold MemorySim_CreateRegionsFromFlashImage, MemorySim_LoadFromFlashImage. even_tac.
Qed.
Lemma ev_xml : sat even MemorySim_GetMemoryMapXML.
Proof. unfold MemorySim_GetMemoryMapXML, set_xml. even_tac. Qed.
Lemma ev_count a : sat even (MemorySim_GetFlashReadCount a).
Proof. unfold MemorySim_GetFlashReadCount. even_tac. Qed.
Lemma ev_grow i n : sat even (growWatchpointArrayIfNeeded i n).
Proof. unfold growWatchpointArrayIfNeeded. even_tac. Qed.
#[export] Hint Resolve ev_flash ev_xml ev_count ev_grow : even.
Lemma ev_set a n t : sat even (setWatchpoint a n t).
Proof. unfold setWatchpoint. even_tac. Qed.
Lemma ev_clear a n t : sat even (clearWatchpoint a n t).
Proof. unfold clearWatchpoint. even_tac. Qed.
#[export] Hint Resolve ev_set ev_clear : even.

Lemma ev_op o : no_access o -> sat even (op_run o).
Proof.
  destruct o; cbn [op_run no_access]; intro H; try contradiction; unfold drop, MemorySim_LoadFromFlashImage, MemorySim_MapForRead, MemorySim_MapForWrite,
    MemorySim_SetHardwareWatchpoint, MemorySim_ClearHardwareWatchpoint; even_tac.
Qed.

(** ** Accesses *)

Lemma scan_counts l a n h :
  StronglySorted wp_le l ->
  fst (scan_wps l (W a) (W (a + n)) n READING h) = h + caught_count (up_to_break l a n) a n READING.
Proof.
  intro HS. revert h. induction HS as [|x l HS IH HF]; intros h; cbn [scan_wps up_to_break].
  - unfold caught_count. cbn. lia.
  - change (accessInRange x (W a) (W (a + n))) with (caught x a n).
    destruct (Z.land READING (wp_type x) =? 0) eqn:E0.
    + assert (E1 : (wp_type x =? WATCHPOINT_BREAKPOINT) = false).
      { destruct (wp_type x =? WATCHPOINT_BREAKPOINT) eqn:E1; [|reflexivity]. apply Z.eqb_eq in E1. rewrite E1 in E0. discriminate. }
      rewrite E1, andb_false_r. cbn [andb]. rewrite caught_count_cons, IH. unfold watches. rewrite E0. cbn [negb andb]. lia.
    + destruct (wp_type x =? WATCHPOINT_BREAKPOINT) eqn:E1; cbn [negb andb].
      * rewrite andb_true_r. destruct ((n =? 2) && caught x a n) eqn:Ec.
        -- unfold caught_count. cbn. lia.
        -- rewrite caught_count_cons, IH. unfold watches. rewrite E1, andb_false_r. cbn [negb andb]. lia.
      * rewrite andb_false_r. cbn [andb]. rewrite caught_count_cons. unfold watches. rewrite E0, E1. cbn [negb andb].
        destruct (caught x a n) eqn:Ec; [rewrite IH; lia|]. destruct (W a <? wp_start x) eqn:El; [|rewrite IH; lia].
        assert (Z0 : caught_count (up_to_break l a n) a n READING = 0).
        { clear -HF El. induction HF as [|y l Hy HF IH]; [reflexivity|]. cbn [up_to_break].
          destruct (_ && caught y a n); [reflexivity|]. rewrite caught_count_cons, IH.
          assert (caught y a n = false) as -> by (unfold caught, wp_le in *; lia). rewrite andb_false_r. reflexivity. }
        cbn. lia.
Qed.

Lemma serves_dec rs a n : wf rs -> u32 a -> 0 <= n ->
  (exists j k r a', serves rs a n j k /\ find_from 0 rs a n = Some (j, a') /\ nth_error rs j = Some r /\ a' = W (r_base r + k)) \/
  ((forall j k, ~ serves rs a n j k) /\ find_from 0 rs a n = None).
Proof.
  intros Hwf Ha Hn. destruct (find_from 0 rs a n) as [[j a']|] eqn:F.
  - left. destruct (find_serves _ _ _ _ _ Hwf Ha Hn F) as (k & S).
    destruct (serves_find _ _ _ _ _ Hwf Ha Hn S) as (r & a2 & F2 & Hr & _ & _ & _ & _ & _ & E). rewrite F in F2. injection F2 as <-.
    exists j, k, r, a'. auto.
  - right. split; [|reflexivity]. intros j k S. destruct (serves_find _ _ _ _ _ Hwf Ha Hn S) as (r & a2 & F2 & _). congruence.
Qed.

Lemma scores_total w o : wf (regions w) -> op_args o -> o <> OHits -> exists d, scores (regions w) o d.
Proof.
  intros Hwf Ha Ho. destruct o; try (exists 0; apply sc_other; exact I); try contradiction.
  - destruct Ha as [Hn Ha]. assert (0 <= n) by (unfold width in Hn; lia).
    destruct (serves_dec _ a n Hwf Ha H) as [(j & k & r & a' & S & _ & Hr & _)|[S _]]; eexists; [eapply sc_read; eauto|apply sc_read_off; auto].
  - destruct Ha as [Hn Ha]. assert (0 <= n) by (unfold width in Hn; lia).
    destruct (serves_dec _ a n Hwf Ha H) as [(j & k & r & a' & S & _ & Hr & _)|[S _]].
    + destruct (r_ro r) eqn:E.
      * exists 0. apply sc_write_off. intros (j' & k' & r' & S' & Hr' & E'). destruct (serves_unique _ _ _ _ _ _ _ S S') as [<- <-]. congruence.
      * eexists. eapply sc_write; eauto.
    + exists 0. apply sc_write_off. intros (j' & k' & r' & S' & _). exact (S _ _ S').
Qed.

Lemma step_hits w o w' d :
  wf (regions w) -> op_args o -> scores (regions w) o d -> step o w = Some w' -> m_hits (w_mem w') = m_hits (w_mem w) + d.
Proof.
  intros Hwf Ha HS E. unfold step, api in E. set (w0 := set_exn w noException []) in *.
  change (m_hits (w_mem w)) with (m_hits (w_mem w0)). change (regions w) with (regions w0) in Hwf, HS.
  clearbody w0. clear w. rename w0 into w. inversion HS; subst; clear HS.
  - destruct Ha as [Hn Ha]. assert (Hn' : 0 <= n) by (unfold width in Hn; lia). cbn [op_run] in E. unfold drop, bind in E.
    rewrite (readN_wf n a w Hwf Ha Hn) in E.
    destruct (serves_find _ _ _ _ _ Hwf Ha Hn' H) as (r' & a' & F & Hr & _ & _ & _ & _ & _ & Ea). rewrite F, H0 in E.
    rewrite Hr in H0. injection H0 as ->. cbv zeta in E. subst a'. rewrite W_add_l in E.
    pose proof (scan_counts (r_wps r) (r_base r + k) n (m_hits (w_mem w)) (wr_sorted _ _ _ (Hwf _ _ Hr))) as SC.
    destruct (scan_wps _ _ _ _ _ _) as [h []]; cbn [fst] in SC; injection E as <-; cbn; exact SC.
  - destruct Ha as [Hn Ha]. assert (Hn' : 0 <= n) by (unfold width in Hn; lia). cbn [op_run] in E. unfold drop, bind in E.
    rewrite (readN_wf n a w Hwf Ha Hn) in E. destruct (serves_dec _ a n Hwf Ha Hn') as [(j & k & r & a' & S & _)|[_ F]].
    + destruct (H _ _ S).
    + rewrite F in E. injection E as <-. cbn. lia.
  - destruct Ha as [Hn Ha]. assert (Hn' : 0 <= n) by (unfold width in Hn; lia). cbn [op_run] in E. unfold drop, bind in E.
    rewrite (writeN_wf n a v w Hwf Ha Hn) in E.
    destruct (serves_find _ _ _ _ _ Hwf Ha Hn' H) as (r' & a' & F & Hr & _ & _ & _ & _ & _ & Ea). rewrite F, H0 in E.
    rewrite Hr in H0. injection H0 as ->. cbv zeta in E. subst a'. rewrite W_add_l, H1 in E.
    pose proof (scan_write (r_wps r) (r_base r + k) n (m_hits (w_mem w)) (wr_sorted _ _ _ (Hwf _ _ Hr))) as SC.
    destruct (scan_wps _ _ _ _ _ _) as [h []]; cbn [fst] in SC; injection E as <-; cbn; exact SC.
  - destruct Ha as [Hn Ha]. assert (Hn' : 0 <= n) by (unfold width in Hn; lia). cbn [op_run] in E. unfold drop, bind in E.
    rewrite (writeN_wf n a v w Hwf Ha Hn) in E. destruct (serves_dec _ a n Hwf Ha Hn') as [(j & k & r & a' & S & F & Hr & _)|[_ F]].
    + rewrite F, Hr in E. cbv zeta in E. destruct (r_ro r) eqn:Ero; [injection E as <-; cbn; lia|].
      destruct H. exists j, k, r. auto.
    + rewrite F in E. injection E as <-. cbn. lia.
  - pose proof (ev_op o H w) as HE. unfold even in HE. destruct (op_run o w) as [u w1|w1|]; try discriminate; injection E as <-; lia.
Qed.

Lemma query_step w : step OHits w = Some (set_hits (set_exn w noException []) 0).
Proof. reflexivity. Qed.

Lemma hits_history ops : forall w w',
  reachable w -> Forall op_args ops -> all_along (fun w o => direct_alias (regions w) o) ops w -> run ops w = Some w' ->
  hits_due w (m_hits (w_mem w)) ops (m_hits (w_mem w')) /\
  forall n, hits_due w (m_hits (w_mem w)) ops n -> n = m_hits (w_mem w').
Proof.
  induction ops as [|o ops IH]; intros w w' HR Ha HA E.
  - cbn in E. injection E as <-. split; [constructor|]. intros n H. inversion H; subst. reflexivity.
  - inversion Ha as [|? ? Ha1 Ha2]; subst. cbn in HA, E. destruct HA as [H1 H2].
    destruct (step o w) as [w1|] eqn:S; [|discriminate]. pose proof (reach_step _ _ _ HR Ha1 H1 S) as HR1.
    destruct (IH w1 w' HR1 Ha2 (H2 _ eq_refl) E) as [I1 I2]. pose proof (reachable_wf _ HR) as Hwf.
    assert (D : o = OHits \/ o <> OHits) by (destruct o; auto; right; discriminate). destruct D as [->|D].
    + rewrite query_step in S. injection S as <-. cbn in I1, I2. split.
      * eapply hd_query; [apply query_step|exact I1].
      * intros n H. inversion H as [|? ? w2 ? ? S2 H3|? ? ? ? ? ? ? SC]; subst.
        -- rewrite query_step in S2. injection S2 as <-. apply I2, H3.
        -- inversion SC; subst. contradiction.
    + split.
      * destruct (scores_total w o Hwf Ha1 D) as (d & SC). eapply hd_call; [exact SC|exact S|].
        rewrite <- (step_hits _ _ _ _ Hwf Ha1 SC S). exact I1.
      * intros n H. inversion H as [|? ? w2 ? ? S2 H3|? ? ? d w2 ? ? SC S2 H3]; subst; [congruence|].
        rewrite S in S2. injection S2 as <-. rewrite <- (step_hits _ _ _ _ Hwf Ha1 SC S) in H3. apply I2, H3.
Qed.

Lemma hits_exact w w' ops h w1 :
  reachable w -> Forall op_args ops -> all_along (fun w o => direct_alias (regions w) o) ops w -> run ops w = Some w' ->
  api MemorySim_WasWatchpointEncountered w = Done h w1 ->
  forall n, hits_due w h ops n <-> exists w2, api MemorySim_WasWatchpointEncountered w' = Done n w2.
Proof.
  intros HR Ha HA E Q n. rewrite hits_api in Q. assert (h = m_hits (w_mem w)) as -> by congruence.
  destruct (hits_history _ _ _ HR Ha HA E) as [H1 H2]. split.
  - intro H. rewrite (H2 _ H). eexists. apply hits_api.
  - intros (w2 & Q2). rewrite hits_api in Q2. injection Q2 as <- <-. exact H1.
Qed.
