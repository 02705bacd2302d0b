(** How far the count of watchpoint hits can rise. *)
From Coq Require Import ZArith List Bool Lia ZifyBool ZifyNat Sorting.
From Verif Require Import Base World MemSim BaseLemmas Sat MemSpec HitSpec MemLemmas MemInv MemHist MemHist2 MemThms MemThms2 MemThms3 MemHits.
Import ListNotations.
Open Scope Z_scope.

Definition upto (s : Z) (rs : list region) : Prop := Forall (fun r => zlen (r_wps r) <= s) rs.
(** No region has got more break/watchpoints. *)
Definition slim (w w' : world) : Prop := forall s, 0 <= s -> upto s (regions w) -> upto s (regions w').

Lemma slim_pre : preorder slim.
Proof. split; [intros w s _ H; exact H|]. intros a b c H1 H2 s Hs H. apply H2; [exact Hs|]. apply H1; auto. Qed.
Lemma slim_same w w' : regions w' = regions w -> slim w w'.
Proof. intros E s _ H. rewrite E. exact H. Qed.
Lemma slim_exn w w1 : slim (set_exn w noException []) w1 -> slim w w1.
Proof. intro H. exact H. Qed.
Lemma sl_throw {A} e : sat slim (throw e : M world A).
Proof. intro w. apply slim_same. reflexivity. Qed.
Lemma sl_throw_msg {A} e msg : sat slim (throw_msg e msg : M world A).
Proof. intro w. apply slim_same. reflexivity. Qed.
Lemma sl_rethrow {A} : sat slim (rethrow : M world A).
Proof. intro w. apply slim_same. reflexivity. Qed.
Lemma sl_code_throw {A} msg : sat slim (bind getExceptionCode (fun c => throw_msg c msg) : M world A).
Proof. intro w. apply slim_same. reflexivity. Qed.
Lemma sl_malloc n : sat slim (malloc n).
Proof. intro w. unfold malloc. destruct (e_malloc _ _ _); apply slim_same; reflexivity. Qed.
Lemma sl_zmalloc n : sat slim (throwingZeroedMalloc n).
Proof. intro w. unfold throwingZeroedMalloc, bind, malloc. destruct (e_malloc _ _ _); apply slim_same; reflexivity. Qed.
Lemma sl_free b : sat slim (free b).
Proof. intro w. unfold free. destruct (is_live _ _); [apply slim_same; reflexivity|exact I]. Qed.
Lemma sl_free_opt b : sat slim (free_opt b).
Proof. destruct b; [apply sl_free|apply sat_ret, slim_pre]. Qed.
Lemma sl_modw f : (forall w, regions (f w) = regions w) -> sat slim (modw f).
Proof. intros H w. apply slim_same, H. Qed.
Lemma sl_fmr a n : sat slim (findMatchingRegion a n).
Proof. intro w. unfold findMatchingRegion. destruct (find_from _ _ _ _); apply slim_same; reflexivity. Qed.
Lemma sl_get_region i : sat slim (get_region i).
Proof. intro w. unfold get_region. destruct (nth_error _ _); [apply slim_same; reflexivity|exact I]. Qed.
Lemma upto_upd s s' i f rs : s <= s' -> (forall r, zlen (r_wps r) <= s -> zlen (r_wps (f r)) <= s') -> upto s rs -> upto s' (upd_nth i f rs).
Proof.
  intros Hs Hf H. revert i. induction H as [|r rs Hr H IH]; intros [|i]; cbn [upd_nth]; constructor; auto; try lia.
  - eapply Forall_impl; [|exact H]. cbn. intros; lia.
  - apply IH.
Qed.
Lemma sl_upd_region i f : (forall r, zlen (r_wps (f r)) <= zlen (r_wps r)) -> sat slim (upd_region i f).
Proof. intros Hf w s _ H. unfold modw. cbn. apply (upto_upd s); [lia| |exact H]. intros r Hr. specialize (Hf r). lia. Qed.
Lemma sl_tail r : r_wps r = [] -> sat slim (addRegionToTail r).
Proof. intros E w s Hs H. cbn. apply Forall_app. split; [exact H|]. constructor; [|constructor]. rewrite E. exact Hs. Qed.

#[export] Hint Resolve slim_pre slim_exn sl_throw sl_throw_msg sl_rethrow sl_malloc sl_zmalloc sl_free sl_free_opt sl_fmr sl_get_region sl_code_throw : slim.
#[export] Hint Extern 1 (sat slim (modw _)) => apply sl_modw; reflexivity : slim.
#[export] Hint Extern 1 (sat slim (upd_region _ _)) => apply sl_upd_region; intro; reflexivity : slim.
#[export] Hint Extern 1 (sat slim (addRegionToTail _)) => apply sl_tail; reflexivity : slim.

Ltac slim_tac := repeat first [solve [auto 2 with slim] | sat_step].

Lemma sl_realloc b n : sat slim (realloc b n).
Proof. unfold realloc. slim_tac. Qed.
#[export] Hint Resolve sl_realloc : slim.
Lemma sl_create b s : sat slim (MemorySim_CreateRegion b s).
Proof. unfold MemorySim_CreateRegion, freeNewRegion. slim_tac. Qed.
Lemma sl_alias b r s : sat slim (MemorySim_CreateAlias b r s).
Proof. unfold MemorySim_CreateAlias, freeNewRegion. slim_tac. Qed.
Lemma sl_readonly b : sat slim (MemorySim_MakeRegionReadOnly b).
Proof. unfold MemorySim_MakeRegionReadOnly, allocateReadCountArrayForReadOnlyRegion. slim_tac. Qed.
Lemma sl_check r a n t : sat slim (checkForBreakWatchPoint r a n t).
Proof. intro w. unfold checkForBreakWatchPoint. destruct (scan_wps _ _ _ _ _ _) as [h []]; apply slim_same; reflexivity. Qed.
#[export] Hint Resolve sl_check : slim.
Lemma sl_gdp a n t u : sat slim (getDataPointer a n t u).
Proof. unfold getDataPointer, incReadCount. slim_tac. Qed.
Lemma sl_store p bs : sat slim (store_ptr p bs).
Proof. unfold store_ptr. slim_tac. Qed.
Lemma sl_load p n : sat slim (load_ptr p n).
Proof. unfold load_ptr. slim_tac. Qed.
#[export] Hint Resolve sl_create sl_alias sl_readonly sl_gdp sl_store sl_load : slim.
Lemma sl_load_bytes n : forall src a, sat slim (load_bytes n src a).
Proof. induction n as [|n IH]; intros [|b src] a; cbn [load_bytes]; unfold load8; slim_tac. Qed.
#[export] Hint Resolve sl_load_bytes : slim.
Lemma sl_load_words n : forall src a, sat slim (load_words n src a).
Proof.
  induction n as [n IH] using lt_wf_ind; intros src a.
  destruct n as [|[|[|[|[|m]]]]]; try apply sl_load_bytes. cbn [load_words].
  destruct src as [|b0 [|b1 [|b2 [|b3 t]]]]; try apply sat_ub. unfold load32. slim_tac. all: try (apply IH; lia).
Qed.
#[export] Hint Resolve sl_load_words : slim.
Lemma upto_removelast s rs : upto s rs -> upto s (removelast rs).
Proof. intro H. induction H as [|r [|r2 rs] Hr H IH]; cbn [removelast]; constructor; auto. Qed.
Lemma sl_free_last : sat slim freeLastRegion.
Proof.
  intro w. unfold freeLastRegion, getw, bind at 1, modw. unfold bind at 1.
  set (w1 := set_mem w _). assert (S1 : slim w w1) by (intros s Hs H; cbn; apply upto_removelast, H). clearbody w1.
  assert (S2 : forall r, sat slim (freeRegion r)) by (intro r; unfold freeRegion; slim_tac).
  destruct (rev _) as [|r l]; [exact S1|]. specialize (S2 r w1). destruct (freeRegion r w1); auto; eapply pre_trans; eauto using slim_pre.
Qed.
#[export] Hint Resolve sl_free_last : slim.
Lemma sl_flash src n : sat slim (MemorySim_CreateRegionsFromFlashImage src n).
Proof. unfold MemorySim_CreateRegionsFromFlashImage, MemorySim_LoadFromFlashImage. slim_tac. Qed.
Lemma sl_xml : sat slim MemorySim_GetMemoryMapXML.
Proof. unfold MemorySim_GetMemoryMapXML, set_xml. slim_tac. Qed.
Lemma sl_count a : sat slim (MemorySim_GetFlashReadCount a).
Proof. unfold MemorySim_GetFlashReadCount. slim_tac. Qed.
Lemma sl_grow i n : sat slim (growWatchpointArrayIfNeeded i n).
Proof. unfold growWatchpointArrayIfNeeded. slim_tac. Qed.
#[export] Hint Resolve sl_flash sl_xml sl_count sl_grow : slim.
Lemma zlen_firstn_skipn {A} k m (l : list A) : (k <= m)%nat -> zlen (firstn k l ++ skipn m l) <= zlen l.
Proof. intro H. unfold zlen. rewrite app_length, firstn_length, skipn_length. lia. Qed.
Lemma sl_clear a n t : sat slim (clearWatchpoint a n t).
Proof.
  unfold clearWatchpoint. slim_tac. apply sl_upd_region. intro r. cbn [r_wps with_wps]. apply zlen_firstn_skipn. lia.
Qed.
#[export] Hint Resolve sl_clear : slim.

(** A call other than one that sets a break/watchpoint. *)
Definition no_set (o : op) : Prop := match o with OSet _ _ _ => False | _ => True end.

Lemma sl_op o : no_set o -> sat slim (op_run o).
Proof.
  destruct o; cbn [op_run no_set]; intro H; try contradiction; unfold drop, readN, writeN, MemorySim_LoadFromFlashImage, MemorySim_MapForRead, MemorySim_MapForWrite,
    MemorySim_ClearHardwareWatchpoint, MemorySim_WasWatchpointEncountered; slim_tac. all: try (intro; apply slim_same; reflexivity).
Qed.

Lemma set_upto a n t w s :
  0 <= s -> upto s (regions w) ->
  match setWatchpoint a n t w with Ret _ w' => upto (s + 1) (regions w') | Exc w' => upto (s + 1) (regions w') | Ub _ => True end.
Proof.
  intros Hs H. assert (H1 : forall rs, upto s rs -> upto (s + 1) rs) by (intros rs Hr; eapply Forall_impl; [|exact Hr]; cbn; intros; lia).
  unfold setWatchpoint, bind at 1. pose proof (sl_fmr a n w) as Hf.
  destruct (findMatchingRegion a n w) as [[i a'] w1|w1|]; [specialize (Hf s Hs H)|apply H1, (Hf s Hs H)|exact I]. cbn [fst snd]. cbv zeta. unfold bind at 1.
  pose proof (sl_get_region i w1) as Hg. destruct (get_region i w1) as [r w2|w2|]; [specialize (Hg s Hs Hf)|apply H1, (Hg s Hs Hf)|exact I].
  destruct (findMatchingOrHigher _ _ _) as [[] k]; [apply H1, Hg| |];
    (unfold bind; pose proof (sl_grow i (zlen (r_wps r) + 1) w2) as Hw; destruct (growWatchpointArrayIfNeeded _ _ w2) as [u w3|w3|]; [specialize (Hw s Hs Hg)|apply H1, (Hw s Hs Hg)|exact I];
     cbn; apply (upto_upd s); [lia| |exact Hw]; intros r' Hr; cbn [r_wps with_wps]; unfold zlen in *;
     rewrite app_length; cbn [length]; rewrite firstn_length, skipn_length; lia).
Qed.

(** ** The bound *)

Lemma caught_count_le l a n t : 0 <= caught_count l a n t <= zlen l.
Proof.
  unfold caught_count. split; [unfold zlen; lia|]. induction l as [|x l IH]; [reflexivity|]. cbn [filter].
  destruct (_ && _); rewrite ?zlen_cons; rewrite ?zlen_cons in *; lia.
Qed.
Lemma up_to_break_le l a n : zlen (up_to_break l a n) <= zlen l.
Proof.
  induction l as [|x l IH]; [reflexivity|]. cbn [up_to_break]. destruct (_ && _); rewrite ?zlen_cons; unfold zlen in *; cbn [length] in *; lia.
Qed.
Lemma upto_nth s rs i r : upto s rs -> nth_error rs i = Some r -> zlen (r_wps r) <= s.
Proof. intros H E. unfold upto in H. rewrite Forall_forall in H. apply H. eapply nth_error_In. exact E. Qed.

Lemma scores_le rs o d s : 0 <= s -> upto s rs -> scores rs o d -> 0 <= d <= accesses [o] * s.
Proof.
  intros Hs H HS. inversion HS; subst; cbn [accesses is_access].
  - pose proof (upto_nth _ _ _ _ H H1). pose proof (up_to_break_le (r_wps r) (r_base r + k) n).
    pose proof (caught_count_le (up_to_break (r_wps r) (r_base r + k) n) (r_base r + k) n READING). lia.
  - lia.
  - pose proof (upto_nth _ _ _ _ H H1). pose proof (caught_count_le (r_wps r) (r_base r + k) n WRITING). lia.
  - lia.
  - destruct o; cbn in *; lia.
Qed.

Lemma step_upto o w w' s : 0 <= s -> upto s (regions w) -> step o w = Some w' -> upto (s + sets [o]) (regions w').
Proof.
  intros Hs H E. unfold step, api in E. set (w0 := set_exn w noException []) in *. change (regions w) with (regions w0) in H. clearbody w0.
  assert (D : no_set o \/ ~ no_set o) by (destruct o; cbn; auto). destruct D as [D|D].
  - pose proof (sl_op o D w0) as HS.
    assert (Z0 : sets [o] = 0) by (destruct o; try contradiction; reflexivity). rewrite Z0, Z.add_0_r.
    destruct (op_run o w0) as [u w1|w1|]; try discriminate; injection E as <-; exact (HS s Hs H).
  - destruct o; cbn [no_set] in D; try (destruct D; exact I). cbn [sets is_set op_run] in *.
    pose proof (set_upto a n type w0 s Hs H) as HS. unfold MemorySim_SetHardwareWatchpoint in E. replace (s + (1 + 0)) with (s + 1) by lia.
    destruct (setWatchpoint a n type w0) as [u w1|w1|]; try discriminate; injection E as <-; auto.
Qed.

Lemma counts_pos ops : 0 <= accesses ops /\ 0 <= sets ops.
Proof. induction ops as [|o ops IH]; [cbn; lia|]. cbn [accesses sets]. destruct (is_access o), (is_set o); lia. Qed.

Lemma hits_bound ops : forall w w' s,
  reachable w -> 0 <= s -> upto s (regions w) -> 0 <= m_hits (w_mem w) ->
  Forall op_args ops -> all_along (fun w o => direct_alias (regions w) o) ops w -> run ops w = Some w' ->
  0 <= m_hits (w_mem w') <= m_hits (w_mem w) + accesses ops * (s + sets ops).
Proof.
  induction ops as [|o ops IH]; intros w w' s HR Hs HU Hh Ha HA E.
  - cbn in E. injection E as <-. cbn. lia.
  - inversion Ha as [|? ? Ha1 Ha2]; subst. cbn in HA, E. destruct HA as [H1 H2].
    destruct (step o w) as [w1|] eqn:S; [|discriminate]. pose proof (reach_step _ _ _ HR Ha1 H1 S) as HR1.
    pose proof (step_upto _ _ _ _ Hs HU S) as HU1. pose proof (counts_pos ops) as [P1 P2].
    assert (P3 : 0 <= sets [o] <= 1) by (cbn [sets]; destruct (is_set o); lia).
    assert (P4 : accesses (o :: ops) = accesses [o] + accesses ops) by (cbn [accesses]; lia).
    assert (P5 : sets (o :: ops) = sets [o] + sets ops) by (cbn [sets]; lia).
    assert (P6 : 0 <= accesses [o]) by apply counts_pos.
    assert (B : 0 <= m_hits (w_mem w1) <= m_hits (w_mem w) + accesses [o] * s).
    { assert (D : o = OHits \/ o <> OHits) by (destruct o; auto; right; discriminate). destruct D as [->|D].
      - rewrite query_step in S. injection S as <-. cbn. lia.
      - destruct (scores_total w o (reachable_wf _ HR) Ha1 D) as (d & SC).
        rewrite (step_hits _ _ _ _ (reachable_wf _ HR) Ha1 SC S). pose proof (scores_le _ _ _ _ Hs HU SC). lia. }
    specialize (IH w1 w' (s + sets [o]) HR1 ltac:(lia) HU1 ltac:(lia) Ha2 (H2 _ eq_refl) E).
    rewrite P4, P5. nia.
Qed.

Lemma hits_bound_fresh ops w w' :
  fresh w -> heap_sane w -> Forall op_args ops -> all_along (fun w o => direct_alias (regions w) o) ops w -> run ops w = Some w' ->
  exists h w1, api MemorySim_WasWatchpointEncountered w' = Done h w1 /\ 0 <= h <= accesses ops * sets ops.
Proof.
  intros HF HS Ha HA E. eexists _, _. split; [apply hits_api|].
  pose proof (reach_fresh w HF HS) as HR. unfold fresh in HF.
  pose proof (hits_bound ops w w' 0 HR ltac:(lia)) as B. rewrite HF in B. cbn [m_hits m_regions] in B.
  specialize (B (Forall_nil _) ltac:(lia) Ha HA E). lia.
Qed.
