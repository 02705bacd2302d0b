(** Proofs of the memory simulator theorems stated in PropMem.v: memory map, read counts,
    break/watchpoints. *)
From Coq Require Import String ZArith List Bool Lia ZifyBool ZifyNat Permutation Sorted.
From Verif Require Import Base World MemSim BaseLemmas TextLemmas MemSpec MemLemmas MemInv MemOps MemOps2 MemOps3 MemHist MemHist2 MemThms MemThms2 Sat MemFair.
Import ListNotations.
Open Scope Z_scope.

(** ** C15 *)

Lemma map_line_eq r : map_line r = xml_region r.
Proof. unfold map_line, xml_region. destruct (r_ro r); reflexivity. Qed.

Lemma map_text_eq rs : map_text rs = xml_text rs.
Proof. unfold map_text, xml_text. f_equal. f_equal. induction rs as [|r rs IH]; [reflexivity|]. cbn [flat_map]. now rewrite IH, map_line_eq. Qed.

Lemma xml_api w :
  reachable w -> xml_fits (regions w) ->
  (exists w', api MemorySim_GetMemoryMapXML w = Done (map_text (regions w)) w' /\ regions w' = regions w /\
              m_hits (w_mem w') = m_hits (w_mem w)) \/
  (exists w', api MemorySim_GetMemoryMapXML w = Raised outOfMemoryException w' /\ 0 < refusals w w' /\ w_mem w' = w_mem w /\
              h_live (w_heap w') = h_live (w_heap w) /\ frame w w').
Proof.
  intros HR HF. pose proof (fun w' => fair_api _ w w' sat_xml) as HO. unfold api in HO. rewrite map_text_eq. destruct (reachable_inv _ HR) as (R & HI).
  assert (HX : xml_alloc (regions w) < 2147483648).
  { unfold xml_fits in HF. replace (xml_alloc (regions w)) with (155 + 14 + zlen (regions w) * 110) by reflexivity. lia. }
  pose proof (Xml_post R (set_exn w noException []) (Inv_exn _ _ _ _ HI) HX) as P. unfold post in P. unfold api.
  destruct (MemorySim_GetMemoryMapXML _) as [t w'|w'|]; [| |contradiction].
  - left. destruct P as (-> & _ & _ & E1 & E2 & _). eauto.
  - right. destruct P as (_ & F & E1 & E2 & C). exists w'. rewrite C in *. auto 6.
Qed.

Lemma append_text rs : forall acc room t, appendMemoryMapRegions rs acc room = Some t -> fst t = acc ++ flat_map xml_region rs.
Proof.
  induction rs as [|r rs IH]; intros acc room t H; cbn [appendMemoryMapRegions flat_map] in *; [injection H as <-; now rewrite app_nil_r|].
  cbv zeta in H. destruct (_ <? _); [|discriminate]. apply IH in H. now rewrite H, <- app_assoc.
Qed.
Lemma build_text rs n t : build_xml rs n = Some t -> t = xml_text rs.
Proof.
  unfold build_xml, xml_text. destruct (_ <? _); [discriminate|]. destruct (appendMemoryMapRegions _ _ _) as [[txt room]|] eqn:E; [|discriminate].
  apply append_text in E. cbn [fst] in E. destruct (_ <? _); [discriminate|]. intro H. injection H as <-. now rewrite E, <- app_assoc.
Qed.
Lemma xml_value w x w1 : api MemorySim_GetMemoryMapXML w = Done x w1 -> x = xml_text (regions w).
Proof.
  unfold api, MemorySim_GetMemoryMapXML, bind, getw. change (regions (set_exn w noException [])) with (regions w). destruct (realloc _ _ _) as [[b|] w2|w2|u]; [|discriminate..].
  destruct (build_xml _ _) as [t|] eqn:E; [|discriminate]. apply build_text in E. unfold set_xml, modw, ret. intro H. injection H as <- _. exact E.
Qed.

Lemma xml_cases R w : Inv R w ->
  match MemorySim_GetMemoryMapXML w with
  | Ret t w' => regions w' = regions w /\ m_hits (w_mem w') = m_hits (w_mem w)
  | Exc w' => w_mem w' = w_mem w /\ w_code w' = Z.max outOfMemoryException (w_code w)
  | Ub u => u = AbAssert /\ build_xml (regions w) (xml_alloc (regions w)) = None
  end.
Proof.
  intros [Hwf Hh]. unfold MemorySim_GetMemoryMapXML, getw. unfold bind at 1. fold (xml_alloc (regions w)).
  generalize (xml_alloc (regions w)). intro size. unfold bind at 1. unfold realloc. unfold bind at 1. unfold malloc. destruct (e_malloc _ _ _).
  - destr_world w. cbn in Hwf, Hh. unfold blocks in Hh. cbn in Hh. set (w1 := set_heap _ _).
    destruct (free_opt_hp (option_map fst xml) (nxt :: flat_map rblocks rs ++ R) w1) as (h' & Ef & Hf & _).
    { cbn. eapply hp_perm; [apply (hp_malloc (mkHeap live nxt calls szs)); exact Hh|]. cbn. rewrite <- app_assoc. apply Permutation_middle. }
    cbn [m_xml w_mem]. unfold bind at 1. rewrite Ef. cbn [ret m_regions h_next w_heap]. destruct (build_xml _ _); [|split; reflexivity].
    unfold bind, set_xml, modw, ret. split; reflexivity.
  - split; reflexivity.
Qed.

Lemma xml_total w : reachable w ->
  match api MemorySim_GetMemoryMapXML w with
  | Done t w' => t = map_text (regions w) /\ regions w' = regions w /\ m_hits (w_mem w') = m_hits (w_mem w)
  | Raised c w' => c = outOfMemoryException /\ 0 < refusals w w' /\ w_mem w' = w_mem w
  | Crashed u => u = AbAssert /\ ~ xml_fits (regions w)
  end.
Proof.
  intro HR. destruct (reachable_inv _ HR) as (R & HI). pose proof (xml_cases R _ (Inv_exn _ _ noException [] HI)) as P.
  pose proof (xml_value w) as V. pose proof (fun w' => fair_api _ w w' sat_xml) as HO. unfold api in *.
  destruct (MemorySim_GetMemoryMapXML _) as [t w'|w'|u].
  - split; [rewrite map_text_eq; eapply V; reflexivity|exact P].
  - destruct P as (P1 & P2). cbn [w_code set_exn] in P2. split; [exact P2|]. split; [|exact P1]. apply HO. rewrite P2. reflexivity.
  - destruct P as (-> & P2). split; [reflexivity|]. intro X. unfold xml_fits in X. destruct HI as [Hwf _].
    assert (HX : xml_alloc (regions w) < 2147483648) by (replace (xml_alloc (regions w)) with (155 + 14 + zlen (regions w) * 110) by reflexivity; lia).
    pose proof (build_xml_ok _ (wf_u32 _ Hwf) HX) as B. change (regions (set_exn w noException [])) with (regions w) in P2. congruence.
Qed.

Lemma xml_region_inj r r' x y :
  u32 (r_base r) -> u32 (r_size r) -> u32 (r_base r') -> u32 (r_size r') ->
  xml_region r ++ x = xml_region r' ++ y ->
  r_ro r = r_ro r' /\ r_base r = r_base r' /\ r_size r = r_size r' /\ x = y.
Proof.
  intros H1 H2 H3 H4 E. unfold xml_region in E. rewrite <- !app_assoc in E.
  apply app_inv_head in E.
  destruct (r_ro r) eqn:R1, (r_ro r') eqn:R2; try (cbn in E; discriminate).
  - apply app_inv_head in E. apply app_inv_head in E. apply fmtX_inj in E as [B E]; auto; try exact I.
    apply app_inv_head in E. apply fmtX_inj in E as [S E]; auto; try exact I.
    do 3 apply app_inv_head in E. auto.
  - apply app_inv_head in E. apply app_inv_head in E. apply fmtX_inj in E as [B E]; auto; try exact I.
    apply app_inv_head in E. apply fmtX_inj in E as [S E]; auto; try exact I.
    do 3 apply app_inv_head in E. auto.
Qed.

Lemma xml_regions_inj rs : forall rs',
  Forall (fun r => u32 (r_base r) /\ u32 (r_size r)) rs -> Forall (fun r => u32 (r_base r) /\ u32 (r_size r)) rs' ->
  flat_map xml_region rs ++ g_xmlTrailer = flat_map xml_region rs' ++ g_xmlTrailer -> map summary rs = map summary rs'.
Proof.
  induction rs as [|r rs IH]; intros [|r' rs'] H H' E; [reflexivity| | |]; cbn [flat_map] in E.
  - exfalso. rewrite <- app_assoc in E. discriminate.
  - exfalso. rewrite <- app_assoc in E. discriminate.
  - inversion H as [|? ? [A1 A2] A3]; subst. inversion H' as [|? ? [B1 B2] B3]; subst. rewrite <- !app_assoc in E.
    apply xml_region_inj in E as (C1 & C2 & C3 & C4); auto. cbn [map]. unfold summary at 1 3. rewrite C1, C2, C3. f_equal. auto.
Qed.

Lemma xml_recover w1 w2 :
  reachable w1 -> reachable w2 -> map_text (regions w1) = map_text (regions w2) ->
  map summary (regions w1) = map summary (regions w2).
Proof.
  intros H1 H2 E. rewrite !map_text_eq in E. unfold xml_text in E. apply app_inv_head in E.
  apply xml_regions_inj; auto using wf_u32, reachable_wf.
Qed.

(** ** C16 *)

Definition counter (w : world) (j : nat) (h : Z) : option Z :=
  match nth_error (regions w) j with
  | Some r => match r_rc r with Some (_, c) => nth_error c (Z.to_nat h) | None => None end
  | None => None
  end.

Lemma counter_eff o R w w' j h v :
  Inv R w -> 0 <= h -> eff o R w w' -> ~ recounts (regions w) o j -> counter w j h = Some v ->
  (counts_read (regions w) o j h -> counter w' j h = Some (W (v + 1))) /\
  (~ counts_read (regions w) o j h -> counter w' j h = Some v).
Proof.
  intros HI Hh (_ & _ & E) HN HC. unfold counter in *. destruct (nth_error (regions w) j) as [r|] eqn:Hj; [|discriminate].
  destruct (E _ _ Hj) as (r' & -> & HE). destruct (re_rc _ _ _ _ _ HE HN) as [_ HE'].
  destruct (r_rc r) as [[b c]|]; [|discriminate]. destruct HE' as (c' & -> & _ & Hc).
  specialize (Hc (Z.to_nat h)). rewrite Z2Nat.id in Hc by exact Hh. rewrite HC in Hc. exact Hc.
Qed.

Lemma counter_history ops : forall R w w' j h v n,
  Inv R w -> 0 <= h -> Forall op_args ops ->
  all_along (fun w o => direct_alias (regions w) o /\ ~ recounts (regions w) o j) ops w ->
  run ops w = Some w' -> half_word_reads j h w ops n -> counter w j h = Some v -> u32 v ->
  (exists R', Inv R' w') /\ counter w' j h = Some (W (v + n)).
Proof.
  induction ops as [|o ops IH]; intros R w w' j h v n HI Hh Ha HA HR HN HC Hv.
  - inversion HN; subst. cbn in HR. injection HR as <-. rewrite Z.add_0_r, W_id by exact Hv. eauto.
  - inversion Ha as [|? ? Ha1 Ha2]; subst. cbn in HA, HR. destruct HA as [[H1 H2] H3].
    inversion HN as [|? ? ? w1 n' Hc HS HN'|? ? ? w1 n' Hc HS HN']; subst; rewrite HS in HR;
      pose proof (step_eff _ _ _ _ HI Ha1 H1 HS) as HE; destruct (counter_eff _ _ _ _ _ _ _ HI Hh HE H2 HC) as [C1 C2];
      pose proof HE as (_ & (L & HI' & _) & _).
    + destruct (IH (L ++ R) w1 w' j h (W (v + 1)) n') as [X Y]; auto using W_u32.
      split; [exact X|]. rewrite Y. f_equal. rewrite W_add_l. f_equal. lia.
    + apply (IH (L ++ R) w1 w' j h v n); auto.
Qed.

Lemma run_serves ops : forall R w w' a n j k,
  Inv R w -> Forall op_args ops -> all_along (fun w o => direct_alias (regions w) o) ops w -> run ops w = Some w' ->
  serves (regions w) a n j k -> serves (regions w') a n j k.
Proof.
  induction ops as [|o ops IH]; intros R w w' a n j k HI Ha HA HR HS.
  - cbn in HR. injection HR as <-. exact HS.
  - inversion Ha as [|? ? Ha1 Ha2]; subst. cbn in HA, HR. destruct HA as [H1 H2].
    destruct (step o w) as [w1|] eqn:S; [|discriminate]. pose proof (step_eff _ _ _ _ HI Ha1 H1 S) as HE.
    pose proof HE as (_ & (L & HI' & _) & _). eapply IH; eauto. eapply eff_serves; eauto.
Qed.

Lemma all_along_impl (P Q : world -> op -> Prop) ops : (forall w o, P w o -> Q w o) -> forall w, all_along P ops w -> all_along Q ops w.
Proof. intro H. induction ops as [|o ops IH]; intros w; cbn; [auto|]. intros [H1 H2]. split; auto. Qed.

Lemma ro_kept ops R w w' j r :
  Inv R w -> Forall op_args ops -> all_along (fun w o => direct_alias (regions w) o) ops w -> run ops w = Some w' ->
  nth_error (regions w) j = Some r -> r_ro r = true -> exists r', nth_error (regions w') j = Some r' /\ r_ro r' = true.
Proof.
  intros HI Ha HA HR Hj Hro.
  apply (history (fun _ _ => True) (fun w => exists r', nth_error (regions w) j = Some r' /\ r_ro r' = true))
    with (ops := ops) (R := R) (w := w) (w' := w'); eauto.
  - intros R1 w1 o w2 _ _ _ HE (r1 & H1 & H2). destruct HE as (_ & _ & HE). destruct (HE _ _ H1) as (r2 & H4 & H5).
    exists r2. split; [exact H4|]. now apply (re_ro _ _ _ _ _ H5).
  - eapply all_along_impl; [|exact HA]. auto.
Qed.

Lemma read_count_api R w a j k v :
  Inv R w -> u32 a -> serves (regions w) a 2 j k -> counter w j (k / 2) = Some v ->
  (exists r, nth_error (regions w) j = Some r /\ r_ro r = true) ->
  api (MemorySim_GetFlashReadCount a) w = Done v (set_exn w noException []).
Proof.
  intros HI Ha HS HC (r & Hr & Hro). unfold api, MemorySim_GetFlashReadCount. unfold bind at 1. unfold findMatchingRegion.
  change (regions (set_exn w _ _)) with (regions w).
  destruct (serves_find _ _ _ _ _ (proj1 HI) Ha (proj1 (Z.leb_le 0 2) eq_refl) HS) as (r' & a' & F & Hr' & _ & L & _).
  rewrite F. rewrite Hr in Hr'. injection Hr' as <-. unfold bind, get_region. cbn [fst snd].
  change (regions (set_exn w _ _)) with (regions w). rewrite Hr. unfold roff in L. rewrite L, Hro. cbn [negb].
  unfold counter in HC. rewrite Hr in HC. destruct (r_rc r) as [[b c]|]; [|discriminate]. rewrite HC. reflexivity.
Qed.

Lemma read_count w0 base u w a j k ops w' n :
  reachable w0 -> u32 base -> api (MemorySim_MakeRegionReadOnly base) w0 = Done u w ->
  recounts (regions w0) (OReadOnly base) j -> u32 a -> serves (regions w) a 2 j k ->
  Forall op_args ops -> all_along (fun w o => direct_alias (regions w) o /\ ~ recounts (regions w) o j) ops w ->
  run ops w = Some w' -> half_word_reads j (k / 2) w ops n ->
  exists w'', api (MemorySim_GetFlashReadCount a) w' = Done (n mod 2 ^ 32) w''.
Proof.
  intros HR Hb E (k0 & HS0) Ha HS Hargs HA Hrun HN. destruct (reachable_inv _ HR) as (R & HI). unfold api in E.
  pose proof (MakeRO_post base R (set_exn w0 noException []) (Inv_exn _ _ _ _ HI)) as P. unfold post in P.
  destruct (MemorySim_MakeRegionReadOnly base _) as [x w1|w1|]; try discriminate. injection E as -> ->.
  destruct P as (j1 & t & a1 & F & Hj & Ht & HI1 & _ & Er & _).
  change (regions (set_exn w0 noException [])) with (regions w0) in *.
  destruct (serves_find _ _ _ _ _ (proj1 HI) Hb Z.le_0_1 HS0) as (r' & a' & F' & _). rewrite F in F'. injection F' as -> _.
  destruct (serves_region _ _ _ _ _ (proj1 HI1) Ha (proj1 (Z.leb_le 0 2) eq_refl) HS) as (r & Hr & _ & K1 & K2 & K3).
  assert (Er' : r = with_rc (with_ro t true) (Some (h_next (w_heap (set_exn w0 noException [])), zeros (r_size t / 2)))).
  { rewrite Er, nth_error_upd_nth, Nat.eqb_refl, Hj in Hr. cbn [option_map] in Hr. injection Hr as <-. reflexivity. }
  assert (HC : counter w j (k / 2) = Some 0).
  { unfold counter. rewrite Hr, Er'. cbn. unfold zeros. apply nth_error_repeat.
    rewrite Er' in K2. cbn in K2. assert (k / 2 < r_size t / 2) by lia. lia. }
  destruct (counter_history ops _ w w' j (k / 2) 0 n HI1) as [(R' & HI') HC']; auto; [lia|unfold u32; lia|].
  exists (set_exn w' noException []). rewrite Z.add_0_l in HC'. change (n mod 2 ^ 32) with (W n).
  eapply read_count_api; eauto.
  - eapply run_serves with (w := w); eauto. eapply all_along_impl; [|exact HA]. cbn. tauto.
  - eapply ro_kept with (r := r) (w := w); eauto; [eapply all_along_impl; [|exact HA]; cbn; tauto|]. rewrite Er'. reflexivity.
Qed.

(** ** C17 *)

Lemma names_find rs a n t j a' :
  wf rs -> u32 a -> u32 n -> find_from 0 rs a n = Some (j, a') ->
  names rs a n t j (mkWp t a' (W (a' + n))).
Proof.
  intros Hwf Ha Hn F. unfold u32 in Hn.
  destruct (locate _ _ _ _ _ Hwf Ha (proj1 Hn) F) as (r & k & L1 & L2 & L3 & L4 & L5 & L6 & L7 & L8 & _).
  exists k, r. split; [exact L3|]. split; [exact L1|]. rewrite L8. rewrite W_add_l. reflexivity.
Qed.

Lemma names_unique rs a n t j x j' x' : names rs a n t j x -> names rs a n t j' x' -> j = j' /\ x = x'.
Proof.
  intros (k & r & S & H & ->) (k' & r' & S' & H' & ->). destruct (serves_unique _ _ _ _ _ _ _ S S') as [<- <-].
  rewrite H in H'. injection H' as <-. auto.
Qed.

Lemma good_region rs j r : wf rs -> nth_error rs j = Some r -> good (r_wps r).
Proof. intros H Hj. destruct (H _ _ Hj). split; assumption. Qed.

Definition wps_only (w w' : world) (j : nat) : Prop :=
  Forall2 same_but_wps (regions w) (regions w') /\ m_hits (w_mem w') = m_hits (w_mem w) /\
  forall i y, i <> j -> installed (regions w') i y <-> installed (regions w) i y.

Lemma upd_wps_only rs j f :
  (forall r, same_but_wps r (f r)) -> Forall2 same_but_wps rs (upd_nth j f rs).
Proof.
  intro H. revert j. induction rs as [|r rs IH]; intros [|j]; cbn; constructor; auto.
  - clear. induction rs; constructor; auto. repeat split.
  - repeat split.
Qed.

Lemma installed_upd_other rs j f i y : i <> j -> installed (upd_nth j f rs) i y <-> installed rs i y.
Proof.
  intro H. unfold installed. rewrite nth_error_upd_nth, (proj2 (Nat.eqb_neq _ _)) by congruence. reflexivity.
Qed.

Lemma installed_upd_same rs j f r y :
  nth_error rs j = Some r -> installed (upd_nth j f rs) j y <-> In y (r_wps (f r)).
Proof.
  intro H. unfold installed. rewrite nth_error_upd_nth, Nat.eqb_refl, H. cbn. split.
  - intros (r' & E & Hi). injection E as <-. exact Hi.
  - intro Hi. eauto.
Qed.

Lemma installed_in rs j r y : nth_error rs j = Some r -> installed rs j y <-> In y (r_wps r).
Proof. intro H. unfold installed. rewrite H. split; [intros (r' & E & Hi); injection E as <-; auto|eauto]. Qed.

Lemma set_effect R w a n t u w' :
  Inv R w -> u32 a -> u32 n -> u32 t -> api (MemorySim_SetHardwareWatchpoint a n t) w = Done u w' ->
  Inv R w' /\ exists j x, names (regions w) a n t j x /\
    Forall2 same_but_wps (regions w) (regions w') /\ m_hits (w_mem w') = m_hits (w_mem w) /\
    forall i y, installed (regions w') i y <-> installed (regions w) i y \/ (i = j /\ y = x).
Proof.
  intros HI Ha Hn Ht E. unfold api, MemorySim_SetHardwareWatchpoint in E.
  pose proof (setWatchpoint_post a n t R (set_exn w noException []) (Inv_exn _ _ _ _ HI) Ha Hn Ht) as P. unfold post in P.
  destruct (setWatchpoint a n t _) as [z w1|w1|]; try discriminate. injection E as -> ->.
  destruct P as (HI' & _ & (Hs & _) & _ & _ & j & a' & al & b & F & Er).
  change (regions (set_exn w noException [])) with (regions w) in *. split; [exact HI'|].
  pose proof (proj1 HI) as Hwf.
  exists j, (mkWp t a' (W (a' + n))). split; [now apply names_find|].
  split; [rewrite Er; apply upd_wps_only; intro; repeat split|]. split; [exact Hs|].
  pose proof (names_find _ _ _ t _ _ Hwf Ha Hn F) as (k & r & _ & Hr & _).
  destruct (wps_set_spec _ (mkWp t a' (W (a' + n))) (good_region _ _ _ Hwf Hr)) as [_ HM].
  intros i y. rewrite Er. destruct (Nat.eq_dec i j) as [->|Hij].
  - rewrite (installed_upd_same _ _ _ _ _ Hr), (installed_in _ _ _ _ Hr). cbn [r_wps with_wps with_wparray].
    rewrite HM. tauto.
  - rewrite installed_upd_other by exact Hij. tauto.
Qed.

Lemma clear_effect R w a n t u w' :
  Inv R w -> u32 a -> u32 n -> u32 t -> api (MemorySim_ClearHardwareWatchpoint a n t) w = Done u w' ->
  Inv R w' /\ exists j x, names (regions w) a n t j x /\
    Forall2 same_but_wps (regions w) (regions w') /\ m_hits (w_mem w') = m_hits (w_mem w) /\
    forall i y, installed (regions w') i y <-> installed (regions w) i y /\ ~ (i = j /\ y = x).
Proof.
  intros HI Ha Hn Ht E. unfold api, MemorySim_ClearHardwareWatchpoint in E.
  pose proof (clearWatchpoint_post a n t R (set_exn w noException []) (Inv_exn _ _ _ _ HI) Ha Hn Ht) as P. unfold post in P.
  destruct (clearWatchpoint a n t _) as [z w1|w1|]; try discriminate. injection E as -> ->.
  destruct P as (HI' & _ & (Hs & _) & _ & _ & _ & j & a' & F & Er).
  change (regions (set_exn w noException [])) with (regions w) in *. split; [exact HI'|].
  pose proof (proj1 HI) as Hwf.
  exists j, (mkWp t a' (W (a' + n))). split; [now apply names_find|].
  split; [rewrite Er; apply upd_wps_only; intro; repeat split|]. split; [exact Hs|].
  pose proof (names_find _ _ _ t _ _ Hwf Ha Hn F) as (k & r & _ & Hr & _).
  destruct (wps_clear_spec _ (mkWp t a' (W (a' + n))) (good_region _ _ _ Hwf Hr)) as [_ HM].
  intros i y. rewrite Er. destruct (Nat.eq_dec i j) as [->|Hij].
  - rewrite (installed_upd_same _ _ _ _ _ Hr), (installed_in _ _ _ _ Hr). cbn [r_wps with_wps].
    rewrite HM. tauto.
  - rewrite installed_upd_other by exact Hij. tauto.
Qed.

(** Clearing something that is not installed changes nothing, and setting something installed does
    not either. *)
Lemma set_again R w a n t j x :
  Inv R w -> u32 a -> u32 n -> u32 t -> names (regions w) a n t j x -> installed (regions w) j x ->
  exists w', api (MemorySim_SetHardwareWatchpoint a n t) w = Done tt w' /\ w_mem w' = w_mem w /\ w_heap w' = w_heap w.
Proof.
  intros HI Ha Hn Ht (k & r & HS & Hr & ->) Hin. rewrite (installed_in _ _ _ _ Hr) in Hin.
  destruct (serves_find _ _ _ _ _ (proj1 HI) Ha (proj1 Hn) HS) as (r' & a' & F & Hr' & _ & _ & _ & _ & _ & Ea).
  rewrite Hr in Hr'. injection Hr' as <-.
  unfold api, MemorySim_SetHardwareWatchpoint, setWatchpoint. unfold bind at 1. unfold findMatchingRegion.
  change (regions (set_exn w noException [])) with (regions w). rewrite F. cbn [fst snd].
  unfold bind at 1, get_region. change (regions (set_exn w noException [])) with (regions w). rewrite Hr.
  replace (mkWp t a' (W (a' + n))) with (mkWp t (W (r_base r + k)) (W (r_base r + k + n))).
  2:{ rewrite Ea, W_add_l. reflexivity. }
  destruct (findMatchingOrHigher (r_wps r) _ 0) as [m z] eqn:E.
  pose proof (fmh_spec (r_wps r) (mkWp t (W (r_base r + k)) (W (r_base r + k + n))) 0) as Q.
  specialize (Q (wr_sorted _ _ _ (proj1 HI _ _ Hr))). rewrite E in Q.
  destruct m; [| |]; cbn [ret]; [eauto| |]; exfalso; tauto.
Qed.

Lemma clear_absent R w a n t j x :
  Inv R w -> u32 a -> u32 n -> u32 t -> names (regions w) a n t j x -> ~ installed (regions w) j x ->
  exists w', api (MemorySim_ClearHardwareWatchpoint a n t) w = Done tt w' /\ w_mem w' = w_mem w /\ w_heap w' = w_heap w.
Proof.
  intros HI Ha Hn Ht (k & r & HS & Hr & ->) Hin. rewrite (installed_in _ _ _ _ Hr) in Hin.
  destruct (serves_find _ _ _ _ _ (proj1 HI) Ha (proj1 Hn) HS) as (r' & a' & F & Hr' & _ & _ & _ & _ & _ & Ea).
  rewrite Hr in Hr'. injection Hr' as <-.
  unfold api, MemorySim_ClearHardwareWatchpoint, clearWatchpoint. unfold bind at 1. unfold findMatchingRegion.
  change (regions (set_exn w noException [])) with (regions w). rewrite F. cbn [fst snd].
  unfold bind at 1, get_region. change (regions (set_exn w noException [])) with (regions w). rewrite Hr.
  replace (mkWp t a' (W (a' + n))) with (mkWp t (W (r_base r + k)) (W (r_base r + k + n))).
  2:{ rewrite Ea, W_add_l. reflexivity. }
  destruct (findMatchingOrHigher (r_wps r) _ 0) as [m z] eqn:E.
  pose proof (fmh_spec (r_wps r) (mkWp t (W (r_base r + k)) (W (r_base r + k + n))) 0) as Q.
  specialize (Q (wr_sorted _ _ _ (proj1 HI _ _ Hr))). rewrite E in Q.
  destruct m; [| |]; cbn [ret]; [|eauto|eauto]. exfalso. apply Hin. eapply nth_error_In. apply Q.
Qed.

Lemma same_but_wps_layout r r' : same_but_wps r r' -> same_layout r r'.
Proof. intro H. apply H. Qed.

Lemma F2_layout rs rs' : Forall2 same_but_wps rs rs' -> Forall2 same_layout rs rs'.
Proof. induction 1; constructor; auto using same_but_wps_layout. Qed.

Lemma same_but_wps_sym r r' : same_but_wps r r' -> same_but_wps r' r.
Proof. intros ((A & B & C & D) & E & F & G). repeat split; congruence. Qed.

Lemma same_but_wps_trans r1 r2 r3 : same_but_wps r1 r2 -> same_but_wps r2 r3 -> same_but_wps r1 r3.
Proof. intros ((A & B & C & D) & E & F & G) ((A' & B' & C' & D') & E' & F' & G'). repeat split; congruence. Qed.

Lemma F2_sym {A} (P : A -> A -> Prop) l l' : (forall x y, P x y -> P y x) -> Forall2 P l l' -> Forall2 P l' l.
Proof. intro H. induction 1; constructor; auto. Qed.

Lemma F2_trans {A} (P : A -> A -> Prop) l l' l'' :
  (forall x y z, P x y -> P y z -> P x z) -> Forall2 P l l' -> Forall2 P l' l'' -> Forall2 P l l''.
Proof.
  intros H H1. revert l''. induction H1; intros l'' H2; inversion H2; subst; constructor; eauto.
Qed.

Lemma F2_nth {A B} (P : A -> B -> Prop) l l' i x :
  Forall2 P l l' -> nth_error l i = Some x -> exists y, nth_error l' i = Some y /\ P x y.
Proof.
  intro H. revert i. induction H; intros [|i] E; try discriminate; cbn in *.
  - injection E as <-. eauto.
  - eauto.
Qed.

Lemma names_same rs rs' a n t j x : Forall2 same_but_wps rs rs' -> names rs a n t j x -> names rs' a n t j x.
Proof.
  intros H (k & r & S & Hr & ->). destruct (F2_nth _ _ _ _ _ H Hr) as (r' & Hr' & (B & _) & _).
  exists k, r'. rewrite B. split; [eapply serves_layout; [apply F2_layout; exact H|exact S]|auto].
Qed.

Lemma set_all_effect l : forall R w w', Inv R w -> Forall set_arg l -> set_all l w = Some w' ->
  Inv R w' /\ Forall2 same_but_wps (regions w) (regions w') /\ m_hits (w_mem w') = m_hits (w_mem w) /\
  forall i y, installed (regions w') i y <->
    installed (regions w) i y \/ exists a n t, In (a, n, t) l /\ names (regions w) a n t i y.
Proof.
  induction l as [|[[a n] t] l IH]; intros R w w' HI HA E; cbn [set_all] in E.
  - injection E as <-. split; [exact HI|]. split; [|split; [reflexivity|]].
    + clear. induction (regions w); constructor; auto. repeat split.
    + intros i y. split; [auto|]. intros [H|(? & ? & ? & [] & _)]. exact H.
  - inversion HA as [|? ? H1 H2]; subst. destruct H1 as (Ha & Hn & Ht).
    destruct (api _ w) as [u w1| |] eqn:EA; try discriminate.
    destruct (set_effect _ _ _ _ _ _ _ HI Ha Hn Ht EA) as (HI1 & j & x & N & F & Hh & Hi).
    destruct (IH _ _ _ HI1 H2 E) as (HI' & F' & Hh' & Hi').
    split; [exact HI'|]. split; [eapply F2_trans; eauto using same_but_wps_trans|]. split; [congruence|].
    intros i y. rewrite Hi', Hi. split.
    + intros [[H|[-> ->]]|(a' & n' & t' & H & Hn')]; [auto| |].
      * right. exists a, n, t. split; [now left|exact N].
      * right. exists a', n', t'. split; [now right|]. eapply names_same; [|exact Hn'].
        eapply F2_sym; [apply same_but_wps_sym|exact F].
    + intros [H|(a' & n' & t' & [H|H] & Hn')]; [auto| |].
      * injection H as <- <- <-. destruct (names_unique _ _ _ _ _ _ _ _ N Hn') as [<- <-]. auto.
      * right. exists a', n', t'. split; [exact H|]. eapply names_same; eauto.
Qed.

Lemma set_order R w l l' w1 w2 :
  Inv R w -> Forall set_arg l -> Permutation l l' -> set_all l w = Some w1 -> set_all l' w = Some w2 ->
  forall i y, installed (regions w1) i y <-> installed (regions w2) i y.
Proof.
  intros HI HA HP E1 E2 i y. assert (HA' : Forall set_arg l') by (eapply Permutation_Forall; eauto).
  destruct (set_all_effect _ _ _ _ HI HA E1) as (_ & _ & _ & H1).
  destruct (set_all_effect _ _ _ _ HI HA' E2) as (_ & _ & _ & H2). rewrite H1, H2. split.
  - intros [H|(a & n & t & H & N)]; [auto|]. right. exists a, n, t. split; [eapply Permutation_in; eauto|exact N].
  - intros [H|(a & n & t & H & N)]; [auto|]. right. exists a, n, t.
    split; [eapply Permutation_in; [apply Permutation_sym; exact HP|exact H]|exact N].
Qed.

(** ** C18, C19 *)

Lemma caught_count_cons x l a n kind :
  caught_count (x :: l) a n kind = (if watches x kind && caught x a n then 1 else 0) + caught_count l a n kind.
Proof. unfold caught_count. cbn [filter]. destruct (_ && _); [rewrite zlen_cons; lia|lia]. Qed.

Lemma later_miss l a n kind x :
  Forall (wp_le x) l -> W a < wp_start x ->
  caught_count l a n kind = 0 /\ existsb (fun x => (wp_type x =? WATCHPOINT_BREAKPOINT) && caught x a n) l = false.
Proof.
  intros H Hx. induction H as [|y l Hy H IH]; [split; reflexivity|]. unfold wp_le in Hy.
  assert (caught y a n = false) by (unfold caught; lia).
  rewrite caught_count_cons. cbn [existsb]. rewrite H0, !andb_false_r. exact IH.
Qed.

Lemma scan_read l a n h h' brk :
  StronglySorted wp_le l -> scan_wps l (W a) (W (a + n)) n READING h = (h', brk) ->
  brk = caught_break l a n /\ (brk = false -> h' = h + caught_count l a n READING).
Proof.
  intro HS. revert h. induction HS as [|x l HS IH HF]; intros h E; cbn [scan_wps] in E.
  - injection E as <- <-. unfold caught_break. cbn. rewrite andb_false_r. split; [reflexivity|]. intros _. unfold caught_count. cbn. lia.
  - rewrite caught_count_cons. unfold watches. change (accessInRange x (W a) (W (a + n))) with (caught x a n) in E.
    unfold caught_break in *. cbn [existsb]. destruct (Z.land READING (wp_type x) =? 0) eqn:E0.
    + cbn [negb andb]. destruct (IH _ E) as [H1 H2]. split; [|intro H; rewrite (H2 H); lia].
      destruct (wp_type x =? WATCHPOINT_BREAKPOINT) eqn:E1; [|exact H1].
      exfalso. apply Z.eqb_eq in E1. rewrite E1 in E0. discriminate.
    + cbn [negb andb]. destruct (wp_type x =? WATCHPOINT_BREAKPOINT) eqn:E1; cbn [negb andb].
      * destruct (n =? 2) eqn:En; cbn [andb] in *; [destruct (caught x a n) eqn:Ec|]; cbn [orb].
        -- injection E as <- <-. split; [reflexivity|discriminate].
        -- destruct (IH _ E) as [H1 H2]. split; [exact H1|]. intro H; rewrite (H2 H); lia.
        -- destruct (IH _ E) as [H1 H2]. split; [exact H1|]. intro H; rewrite (H2 H); lia.
      * cbn [orb]. destruct (caught x a n) eqn:Ec.
        -- destruct (IH _ E) as [H1 H2]. split; [exact H1|]. intro H; rewrite (H2 H); lia.
        -- destruct (W a <? wp_start x) eqn:El.
           ++ destruct (later_miss l a n READING x HF) as [H1 H2]; [lia|]. injection E as <- <-. rewrite H1, H2, andb_false_r.
              split; [reflexivity|]. intros _. lia.
           ++ destruct (IH _ E) as [H1 H2]. split; [exact H1|]. intro H; rewrite (H2 H); lia.
Qed.

Lemma scan_write l a n h :
  StronglySorted wp_le l -> fst (scan_wps l (W a) (W (a + n)) n WRITING h) = h + caught_count l a n WRITING.
Proof.
  intro HS. revert h. induction HS as [|x l HS IH HF]; intros h; cbn [scan_wps].
  - cbn. lia.
  - rewrite caught_count_cons. unfold watches. change (accessInRange x (W a) (W (a + n))) with (caught x a n).
    destruct (Z.land WRITING (wp_type x) =? 0) eqn:E0; cbn [negb andb]; [rewrite IH; lia|].
    destruct (wp_type x =? WATCHPOINT_BREAKPOINT) eqn:E1; cbn [negb andb].
    + exfalso. apply Z.eqb_eq in E1. rewrite E1 in E0. discriminate.
    + destruct (caught x a n) eqn:Ec; [rewrite IH; lia|]. destruct (W a <? wp_start x) eqn:El; [|rewrite IH; lia].
      destruct (later_miss l a n WRITING x HF) as [H1 _]; [lia|]. cbn. lia.
Qed.

Lemma hits_api w : api MemorySim_WasWatchpointEncountered w = Done (m_hits (w_mem w)) (set_hits (set_exn w noException []) 0).
Proof. reflexivity. Qed.

Lemma W_add_l a n : W (W a + n) = W (a + n).
Proof. unfold W. apply Zplus_mod_idemp_l. Qed.

(** Away from the top of the address space, 32-bit arithmetic gets it right. *)
Lemma caught_contains x a n : 0 <= a -> 0 <= n -> a + n < 2 ^ 32 -> wp_start x <= wp_end x -> caught x a n = contains x a n.
Proof. intros Ha Hn Hs Hx. unfold caught, contains, real_end. rewrite !W_id by (unfold u32; lia). assert (E : (wp_end x <? wp_start x) = false) by lia. rewrite E. reflexivity. Qed.
Lemma caught_count_hits l a n kind : 0 <= a -> 0 <= n -> a + n < 2 ^ 32 -> Forall (fun x => wp_start x <= wp_end x) l -> caught_count l a n kind = hit_count l a n kind.
Proof.
  intros Ha Hn Hs H. unfold caught_count, hit_count. f_equal. induction H as [|x l Hx H IH]; [reflexivity|]. cbn [filter]. rewrite (caught_contains x a n Ha Hn Hs Hx), IH. reflexivity.
Qed.
Lemma caught_breaks l a n : 0 <= a -> 0 <= n -> a + n < 2 ^ 32 -> Forall (fun x => wp_start x <= wp_end x) l -> caught_break l a n = breaks_on l a n.
Proof.
  intros Ha Hn Hs H. unfold caught_break, breaks_on. f_equal. induction H as [|x l Hx H IH]; [reflexivity|]. cbn [existsb]. rewrite (caught_contains x a n Ha Hn Hs Hx), IH. reflexivity.
Qed.

Lemma read_scan w n a j k r :
  wf (regions w) -> width n -> u32 a -> serves (regions w) a n j k -> nth_error (regions w) j = Some r ->
  if caught_break (r_wps r) (r_base r + k) n
  then exists w', api (readN n a) w = Raised hardwareBreakpointException w'
  else exists w', api (readN n a) w = Done (of_le (slice (r_data r) k n)) w' /\
         m_hits (w_mem w') = m_hits (w_mem w) + caught_count (r_wps r) (r_base r + k) n READING.
Proof.
  intros Hwf Hn Ha HS Hr.
  assert (Hn' : 0 < n) by (unfold width in Hn; lia).
  destruct (serves_region _ _ _ _ _ Hwf Ha (Z.lt_le_incl _ _ Hn') HS) as (r' & Hr' & _ & K1 & K2 & _).
  rewrite Hr in Hr'. injection Hr' as <-. pose proof (wr_base _ _ _ (Hwf _ _ Hr)) as WB. pose proof (wr_sorted _ _ _ (Hwf _ _ Hr)) as WS.
  rewrite (api_read n a w j k r Hwf Ha Hn HS Hr). cbv zeta. rewrite W_add_l.
  destruct (scan_wps (r_wps r) _ _ n READING _) as [h brk] eqn:E.
  destruct (scan_read _ _ _ _ _ _ WS E) as [H1 H2]. rewrite <- H1. destruct brk.
  - eauto.
  - eexists. split; [reflexivity|]. cbn. auto.
Qed.

Lemma write_scan w n a v j k r u w' :
  wf (regions w) -> width n -> u32 a -> serves (regions w) a n j k -> nth_error (regions w) j = Some r ->
  api (writeN n a v) w = Done u w' ->
  m_hits (w_mem w') = m_hits (w_mem w) + caught_count (r_wps r) (r_base r + k) n WRITING.
Proof.
  intros Hwf Hn Ha HS Hr.
  assert (Hn' : 0 < n) by (unfold width in Hn; lia).
  destruct (serves_region _ _ _ _ _ Hwf Ha (Z.lt_le_incl _ _ Hn') HS) as (r' & Hr' & _ & K1 & K2 & _).
  rewrite Hr in Hr'. injection Hr' as <-. pose proof (wr_base _ _ _ (Hwf _ _ Hr)) as WB. pose proof (wr_sorted _ _ _ (Hwf _ _ Hr)) as WS.
  rewrite (api_write n a v w j k r Hwf Ha Hn HS Hr). cbv zeta. rewrite W_add_l.
  destruct (r_ro r); [discriminate|]. intro E. injection E as <- <-. cbn. apply scan_write. exact WS.
Qed.

Lemma same_set_perm l l' : good l -> good l' -> (forall x, In x l <-> In x l') -> Permutation l l'.
Proof. intros [_ H] [_ H'] HE. apply NoDup_Permutation; assumption. Qed.

Lemma filter_perm {A} (f : A -> bool) l l' : Permutation l l' -> Permutation (filter f l) (filter f l').
Proof.
  induction 1; cbn; auto.
  - destruct (f x); auto.
  - destruct (f x), (f y); auto. apply perm_swap.
  - eapply perm_trans; eauto.
Qed.

Lemma caught_count_perm l l' a n kind : Permutation l l' -> caught_count l a n kind = caught_count l' a n kind.
Proof. intro H. unfold caught_count, zlen. f_equal. apply Permutation_length. now apply filter_perm. Qed.

Lemma caught_break_perm l l' a n : Permutation l l' -> caught_break l a n = caught_break l' a n.
Proof.
  intro H. unfold caught_break. f_equal. apply eq_true_iff_eq. rewrite !existsb_exists.
  split; intros (x & Hx & E); exists x; (split; [|exact E]); eauto using Permutation_in, Permutation_sym.
Qed.

Lemma order_effects w l l' w1 w2 n a j k r :
  reachable w -> Forall set_arg l -> Permutation l l' -> set_all l w = Some w1 -> set_all l' w = Some w2 ->
  width n -> u32 a -> serves (regions w) a n j k -> nth_error (regions w) j = Some r ->
  (forall v w1', api (readN n a) w1 = Done v w1' ->
     exists w2', api (readN n a) w2 = Done v w2' /\ m_hits (w_mem w1') = m_hits (w_mem w2')) /\
  (forall c w1', api (readN n a) w1 = Raised c w1' -> exists w2', api (readN n a) w2 = Raised c w2') /\
  (forall v u w1', api (writeN n a v) w1 = Done u w1' ->
     exists w2', api (writeN n a v) w2 = Done u w2' /\ m_hits (w_mem w1') = m_hits (w_mem w2')).
Proof.
  intros HR HA HP E1 E2 Hn Ha HS Hr. destruct (reachable_inv _ HR) as (R & HI).
  assert (HA' : Forall set_arg l') by (eapply Permutation_Forall; eauto).
  pose proof (set_order _ _ _ _ _ _ HI HA HP E1 E2) as HO.
  destruct (set_all_effect _ _ _ _ HI HA E1) as (I1 & F1 & H1 & _).
  destruct (set_all_effect _ _ _ _ HI HA' E2) as (I2 & F2 & H2 & _).
  destruct (F2_nth _ _ _ _ _ F1 Hr) as (r1 & Hr1 & (B1 & S1 & _) & D1 & RO1 & _).
  destruct (F2_nth _ _ _ _ _ F2 Hr) as (r2 & Hr2 & (B2 & S2 & _) & D2 & RO2 & _).
  assert (P : Permutation (r_wps r1) (r_wps r2)).
  { apply same_set_perm; [eapply good_region; [apply I1|eauto]|eapply good_region; [apply I2|eauto]|].
    intro x. rewrite <- (installed_in _ _ _ x Hr1), <- (installed_in _ _ _ x Hr2). apply HO. }
  pose proof (serves_layout _ _ _ _ _ _ (F2_layout _ _ F1) HS) as HS1.
  pose proof (serves_layout _ _ _ _ _ _ (F2_layout _ _ F2) HS) as HS2.
  pose proof (read_scan w1 n a j k r1 (proj1 I1) Hn Ha HS1 Hr1) as Q1.
  pose proof (read_scan w2 n a j k r2 (proj1 I2) Hn Ha HS2 Hr2) as Q2.
  rewrite B1, D1 in Q1. rewrite B2, D2 in Q2.
  rewrite (caught_break_perm _ _ (r_base r + k) n P) in Q1. rewrite (caught_count_perm _ _ (r_base r + k) n READING P) in Q1.
  split; [|split].
  - intros v w1' E. destruct (caught_break _ _ _).
    + destruct Q1 as (w' & Q1). congruence.
    + destruct Q1 as (w' & Q1 & Q1'). destruct Q2 as (w'' & Q2 & Q2'). rewrite Q1 in E. injection E as <- <-.
      exists w''. split; [exact Q2|]. rewrite Q1', Q2', H1, H2. reflexivity.
  - intros c w1' E. destruct (caught_break _ _ _).
    + destruct Q1 as (w' & Q1). destruct Q2 as (w'' & Q2). rewrite Q1 in E. injection E as <- <-. eauto.
    + destruct Q1 as (w' & Q1 & _). congruence.
  - intros v u w1' E. pose proof (write_scan w1 n a v j k r1 u w1' (proj1 I1) Hn Ha HS1 Hr1 E) as X1.
    rewrite (api_write n a v w1 j k r1 (proj1 I1) Ha Hn HS1 Hr1) in E. cbv zeta in E.
    assert (exists w2', api (writeN n a v) w2 = Done u w2') as (w2' & E').
    { rewrite (api_write n a v w2 j k r2 (proj1 I2) Ha Hn HS2 Hr2). cbv zeta. rewrite RO1 in E. rewrite RO2.
      destruct (r_ro r); [discriminate|]. destruct u. eauto. }
    exists w2'. split; [exact E'|].
    pose proof (write_scan w2 n a v j k r2 u w2' (proj1 I2) Hn Ha HS2 Hr2 E') as X2.
    rewrite X1, X2, B1, B2, H1, H2, (caught_count_perm _ _ _ _ _ P). reflexivity.
Qed.

(** ** Reads change no bytes (C02) *)

Lemma read_frame_wf w n a v w1 :
  wf (regions w) -> width n -> u32 a -> api (readN n a) w = Done v w1 ->
  (forall j k, storage (regions w1) j k = storage (regions w) j k) /\
  w_heap w1 = w_heap w /\ m_xml (w_mem w1) = m_xml (w_mem w) /\ frame w w1.
Proof.
  intros Hwf Hn Ha. pose proof (width_nn _ Hn) as Hn'.
  destruct (mapped_dec _ a n Hwf Ha Hn') as [(j & k & r & HS & Hr & _ & K1 & K2 & K3)|H].
  - rewrite (api_read n a w j k r) by assumption. cbv zeta.
    destruct (scan_wps _ _ _ _ _ _) as [h brk]. destruct brk; [discriminate|]. intro E. injection E as <- <-.
    split; [|destr_world w; repeat split]. intros j' k'.
    change (regions (set_hits (set_regions _ ?x) _)) with x.
    unfold counted_regions, storage. destruct (_ && _); [|reflexivity].
    rewrite bump_nth by exact Hr. destruct (Nat.eqb_spec j j') as [<-|]; [|reflexivity]. rewrite Hr.
    destruct (r_rc r) as [[b x]|]; reflexivity.
  - rewrite api_read_unmapped by assumption. discriminate.
Qed.
Lemma read_frame w n a v w1 :
  reachable w -> width n -> u32 a -> api (readN n a) w = Done v w1 ->
  (forall j k, storage (regions w1) j k = storage (regions w) j k) /\
  w_heap w1 = w_heap w /\ m_xml (w_mem w1) = m_xml (w_mem w) /\ frame w w1.
Proof. intro HR. apply read_frame_wf. now apply reachable_wf. Qed.

(** ** The breakpoint and watchpoint theorems *)

Lemma read_caught w n a j k r :
  reachable w -> width n -> u32 a -> serves (regions w) a n j k -> nth_error (regions w) j = Some r ->
  (exists w', api (readN n a) w = Raised hardwareBreakpointException w') <-> caught_break (r_wps r) (r_base r + k) n = true.
Proof.
  intros HR Hn Ha HS Hr. pose proof (read_scan w n a j k r (reachable_wf _ HR) Hn Ha HS Hr) as P.
  destruct (caught_break _ _ _); [tauto|]. destruct P as (w' & P & _). split; [|discriminate].
  intros (w'' & E). congruence.
Qed.

Lemma place w n a j k r :
  reachable w -> width n -> u32 a -> serves (regions w) a n j k -> nth_error (regions w) j = Some r -> 0 <= r_base r + k /\ 0 <= n.
Proof.
  intros HR Hn Ha HS Hr. pose proof (reachable_wf _ HR) as Hwf. pose proof (width_pos _ Hn) as Hn'.
  destruct (serves_region _ _ _ _ _ Hwf Ha (Z.lt_le_incl _ _ Hn') HS) as (r' & Hr' & _ & K1 & K2 & _).
  rewrite Hr in Hr'. injection Hr' as <-. pose proof (wr_base _ _ _ (Hwf _ _ Hr)) as WB. unfold u32 in WB. lia.
Qed.

Lemma read_breaks w n a j k r :
  reachable w -> width n -> u32 a -> serves (regions w) a n j k -> nth_error (regions w) j = Some r ->
  r_base r + k + n < 2 ^ 32 -> Forall (fun x => wp_start x <= wp_end x) (r_wps r) ->
  (exists w', api (readN n a) w = Raised hardwareBreakpointException w') <-> breaks_on (r_wps r) (r_base r + k) n = true.
Proof.
  intros HR Hn Ha HS Hr Hb HF. destruct (place w n a j k r HR Hn Ha HS Hr) as [P1 P2].
  rewrite <- (caught_breaks _ _ _ P1 P2 Hb HF). exact (read_caught w n a j k r HR Hn Ha HS Hr).
Qed.

Lemma other_never_break w n a v w' :
  reachable w -> width n -> u32 a ->
  api (writeN n a v) w <> Raised hardwareBreakpointException w' /\
  (n <> 2 -> api (readN n a) w <> Raised hardwareBreakpointException w').
Proof.
  intros HR Hn Ha. split.
  - intro E. apply (failing_access w w' _ n a v HR Hn Ha) in E as [E _]. discriminate.
  - intros N E. apply (failing_access w w' _ n a v HR Hn Ha) in E as [[E _]|(_ & E & _)]; [discriminate|contradiction].
Qed.

Lemma read_hits w n a v w' j k r h w1 :
  reachable w -> width n -> u32 a -> serves (regions w) a n j k -> nth_error (regions w) j = Some r ->
  api (readN n a) w = Done v w' -> api MemorySim_WasWatchpointEncountered w = Done h w1 ->
  exists w2, api MemorySim_WasWatchpointEncountered w' = Done (h + caught_count (r_wps r) (r_base r + k) n READING) w2.
Proof.
  intros HR Hn Ha HS Hr E Q. rewrite hits_api in *. injection Q as <- _.
  pose proof (read_scan w n a j k r (reachable_wf _ HR) Hn Ha HS Hr) as P.
  destruct (caught_break _ _ _); [destruct P as (? & P); congruence|]. destruct P as (w3 & P & P'). rewrite P in E. injection E as <- <-.
  rewrite P'. eauto.
Qed.

Lemma write_hits w n a v u w' j k r h w1 :
  reachable w -> width n -> u32 a -> serves (regions w) a n j k -> nth_error (regions w) j = Some r ->
  api (writeN n a v) w = Done u w' -> api MemorySim_WasWatchpointEncountered w = Done h w1 ->
  exists w2, api MemorySim_WasWatchpointEncountered w' = Done (h + caught_count (r_wps r) (r_base r + k) n WRITING) w2.
Proof.
  intros HR Hn Ha HS Hr E Q. rewrite hits_api in *. injection Q as <- _.
  pose proof (write_scan w n a v j k r u w' (reachable_wf _ HR) Hn Ha HS Hr E) as P. rewrite P. eauto.
Qed.

Lemma query_clears w :
  exists w1, api MemorySim_WasWatchpointEncountered w = Done (m_hits (w_mem w)) w1 /\
    regions w1 = regions w /\ w_heap w1 = w_heap w /\ frame w w1 /\
    exists w2, api MemorySim_WasWatchpointEncountered w1 = Done 0 w2.
Proof. rewrite hits_api. eexists. split; [reflexivity|]. destr_world w. repeat split. eexists. reflexivity. Qed.

Lemma alias_transparent w i r j t a n :
  reachable w -> u32 a -> first_cover (regions w) a n i r -> r_redir r = Some j ->
  let a2 := r_raddr r + (a - r_base r) in
  u32 a2 -> first_cover (regions w) a2 n j t ->
  (api (readN n a) w = api (readN n a2) w) /\
  (forall v, api (writeN n a v) w = api (writeN n a2 v) w) /\
  (api (MemorySim_MapForRead a n) w = api (MemorySim_MapForRead a2 n) w) /\
  (api (MemorySim_MapForWrite a n) w = api (MemorySim_MapForWrite a2 n) w) /\
  (forall t, api (MemorySim_SetHardwareWatchpoint a n t) w = api (MemorySim_SetHardwareWatchpoint a2 n t) w) /\
  (forall t, api (MemorySim_ClearHardwareWatchpoint a n t) w = api (MemorySim_ClearHardwareWatchpoint a2 n t) w) /\
  (api (MemorySim_SetHardwareBreakpoint a n) w = api (MemorySim_SetHardwareBreakpoint a2 n) w) /\
  (api (MemorySim_ClearHardwareBreakpoint a n) w = api (MemorySim_ClearHardwareBreakpoint a2 n) w) /\
  (n = 2 -> api (MemorySim_GetFlashReadCount a) w = api (MemorySim_GetFlashReadCount a2) w) /\
  (n = 1 -> api (MemorySim_MakeRegionReadOnly a) w = api (MemorySim_MakeRegionReadOnly a2) w).
Proof.
  intros HR Ha F Hr a2 Ha2 F2. pose proof (reachable_wf _ HR) as Hwf. apply same_find_calls.
  destruct (alias_target _ _ _ _ Hwf (proj1 F) Hr) as (t' & Ht & Htr & _).
  assert (t' = t) by (pose proof (proj1 F2); congruence). subst t'.
  eapply alias_find; eauto.
Qed.

(** ** Making a region read-only *)

Lemma make_read_only w base : reachable w -> u32 base ->
  match api (MemorySim_MakeRegionReadOnly base) w with
  | Done _ w' => exists j k r r', serves (regions w) base 1 j k /\ nth_error (regions w) j = Some r /\
      nth_error (regions w') j = Some r' /\ r_ro r' = true /\ r_data r' = r_data r /\
      (exists id, r_rc r' = Some (id, zeros (r_size r / 2))) /\
      forall i, i <> j -> nth_error (regions w') i = nth_error (regions w) i
  | Raised c w' =>
      c = busErrorException /\ (forall r, In r (regions w) -> ~ covers r base 1) /\ regions w' = regions w \/
      c = outOfMemoryException /\ exists j k r r', serves (regions w) base 1 j k /\ nth_error (regions w) j = Some r /\
      nth_error (regions w') j = Some r' /\ r_ro r' = true /\ r_data r' = r_data r /\
      forall i, i <> j -> nth_error (regions w') i = nth_error (regions w) i
  | Crashed _ => False
  end.
Proof.
  intros HR Hb. destruct (reachable_inv _ HR) as (R & HI). unfold api.
  pose proof (MakeRO_post base R _ (Inv_exn _ _ noException [] HI)) as P. unfold post in P. cbn [w_code set_exn] in P.
  change (regions (set_exn w noException [])) with (regions w) in P.
  destruct (mapped_dec (regions w) base 1 (proj1 HI) Hb Z.le_0_1) as [(j & k & r & HS & Hr & _)|HN].
  - destruct (serves_find _ _ _ _ _ (proj1 HI) Hb Z.le_0_1 HS) as (r1 & a1 & F & Hr1 & _). rewrite F in P.
    destruct (MemorySim_MakeRegionReadOnly base _) as [[] w'|w'|]; [| |exact P].
    + destruct P as (j0 & t & a' & E & Ht & _ & _ & _ & Eq & _). injection E as <- <-. rewrite Ht in Hr. injection Hr as <-.
      exists j, k, t. eexists. split; [exact HS|]. split; [exact Ht|]. rewrite Eq. split; [rewrite nth_error_upd_nth, Nat.eqb_refl, Ht; reflexivity|].
      split; [reflexivity|]. split; [reflexivity|]. split; [eexists; reflexivity|]. intros i Hi. rewrite nth_error_upd_nth. destruct (Nat.eqb_spec j i); congruence.
    + destruct P as (_ & _ & _ & _ & _ & [(X & _)|(j0 & t & a' & E & Ht & _ & Eq & C)]); [discriminate X|]. injection E as <- <-.
      rewrite Ht in Hr. injection Hr as <-. right. split; [exact C|]. exists j, k, t. eexists. split; [exact HS|]. split; [exact Ht|]. rewrite Eq.
      split; [rewrite nth_error_upd_nth, Nat.eqb_refl, Ht; reflexivity|]. split; [reflexivity|]. split; [reflexivity|].
      intros i Hi. rewrite nth_error_upd_nth. destruct (Nat.eqb_spec j i); congruence.
  - assert (F : find_from 0 (regions w) base 1 = None).
    { now apply none_find. }
    rewrite F in P. destruct (MemorySim_MakeRegionReadOnly base _) as [[] w'|w'|]; [| |exact P].
    + destruct P as (? & ? & ? & X & _). discriminate X.
    + destruct P as (_ & _ & _ & _ & _ & [(_ & M & C)|(? & ? & ? & X & _)]); [|discriminate X]. left. split; [exact C|]. split; [exact HN|].
      unfold regions. now rewrite M.
Qed.
