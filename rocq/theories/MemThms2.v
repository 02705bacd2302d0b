(** Proofs of the memory simulator theorems stated in PropMem.v, continued. *)
From Coq Require Import String ZArith List Bool Lia ZifyBool ZifyNat Permutation Sorted.
From Verif Require Import Base World MemSim BaseLemmas MemSpec MemLemmas MemInv MemOps MemOps2 MemOps3 MemHist MemHist2 MemThms Sat MemFair.
Import ListNotations.
Open Scope Z_scope.

(** ** C11 *)

Lemma oom_unchanged w o c w' :
  reachable w -> op_args o -> direct_alias (regions w) o -> allocating o ->
  api (op_run o) w = Raised c w' ->
  w_mem w' = w_mem w /\ h_live (w_heap w') = h_live (w_heap w) /\ frame w w' /\
  (c = outOfMemoryException \/ c = busErrorException).
Proof.
  intros HR Ha Hd Ho E. destruct (reachable_inv _ HR) as (R & HI). unfold api in E.
  destruct o; cbn in Ho; try contradiction; cbn in Ha; cbn [op_run] in E.
  - destruct Ha as [Hb Hs].
    pose proof (CreateRegion_post base size R (set_exn w noException []) (Inv_exn _ _ _ _ HI) Hb Hs) as P.
    unfold post in P. destruct (MemorySim_CreateRegion _ _ _) as [x w2|w2|]; try discriminate. injection E as <- <-.
    destruct P as (_ & F & M & C & L). auto.
  - destruct Ha as (Hb & Hr & Hs).
    pose proof (CreateAlias_post base redirect size R (set_exn w noException []) (Inv_exn _ _ _ _ HI) Hb Hr Hs Hd) as P.
    unfold post in P. destruct (MemorySim_CreateAlias _ _ _ _) as [x w2|w2|]; try discriminate. injection E as <- <-.
    destruct P as (_ & F & M & L & [[C _]|C]); auto.
  - destruct Ha as (Hb & Hr & Hs). unfold MemorySim_SetHardwareWatchpoint in E.
    pose proof (setWatchpoint_post a n type R (set_exn w noException []) (Inv_exn _ _ _ _ HI) Hb Hr Hs) as P.
    unfold post in P. destruct (setWatchpoint _ _ _ _) as [x w2|w2|]; try discriminate. injection E as <- <-.
    destruct P as (_ & F & M & L & [[_ C]|[_ C]]); rewrite C; auto.
Qed.

Lemma free_counts b w : match free b w with Ret _ w' => h_calls (w_heap w') = h_calls (w_heap w) /\ h_next (w_heap w') = h_next (w_heap w) | _ => True end.
Proof. unfold free. destruct (is_live _ _); cbn; auto. Qed.

Lemma free_opt_counts b w : match free_opt b w with Ret _ w' => h_calls (w_heap w') = h_calls (w_heap w) /\ h_next (w_heap w') = h_next (w_heap w) | _ => True end.
Proof. unfold free_opt. destruct b; [apply free_counts|cbn; auto]. Qed.

Lemma free_exc b w w' : free b w <> Exc w'.
Proof. unfold free. destruct (is_live _ _); discriminate. Qed.

Lemma set_refusals a n t w :
  match setWatchpoint a n t w with
  | Ret _ w' => refusals w w' = 0
  | Exc w' => 0 < refusals w w' -> w_code w' = Z.max outOfMemoryException (w_code w)
  | Ub _ => True
  end.
Proof.
  unfold setWatchpoint, bind at 1. unfold findMatchingRegion.
  destruct (find_from 0 (regions w) a n) as [[j a']|]; [|unfold refusals; cbn -[Z.of_nat]; lia]. cbn [fst snd].
  unfold bind at 1. unfold get_region at 1. destruct (nth_error (regions w) j) as [r|]; [|exact I].
  destruct (findMatchingOrHigher _ _ _) as [m k].
  assert (HG : match bind (growWatchpointArrayIfNeeded j (zlen (r_wps r) + 1))
       (fun _ => upd_region j (fun r0 => with_wps r0 (firstn k (r_wps r0) ++ mkWp t a' (W (a' + n)) :: skipn k (r_wps r0)))) w with
  | Ret _ w' => refusals w w' = 0
  | Exc w' => 0 < refusals w w' -> w_code w' = Z.max outOfMemoryException (w_code w)
  | Ub _ => True
  end).
  { unfold growWatchpointArrayIfNeeded, bind, get_region. destruct (nth_error (regions w) j) as [r'|]; [|exact I].
    destruct (_ <? _); [|unfold refusals; cbn -[Z.of_nat]; lia].
    unfold realloc, malloc, bind. destruct (e_malloc _ _ _).
    - match goal with |- context [free_opt ?b ?x] => pose proof (free_opt_counts b x) as C; destruct (free_opt b x) as [u w1|w1|] eqn:Ef end.
      + cbn in C. unfold refusals. cbn -[Z.of_nat]. lia.
      + destruct (r_bwp r') as [b|]; [|discriminate]. exfalso. eapply free_exc; exact Ef.
      + exact I.
    - cbn. intros _. reflexivity. }
  destruct m; [unfold refusals; cbn -[Z.of_nat]; lia|exact HG|exact HG].
Qed.

Lemma refused_raises w o w' :
  op_args o -> allocating o -> step o w = Some w' -> 0 < refusals w w' ->
  api (op_run o) w = Raised outOfMemoryException w'.
Proof.
  intros Ha Ho E Hr. unfold step in E. unfold api in *.
  destruct o; cbn in Ho; try contradiction; cbn in Ha; cbn [op_run] in *.
  - rewrite CreateRegion_eq in *. cbv zeta in *. destruct (negb (alloc_ok _ _ _)); [injection E as <-; reflexivity|].
    destruct (negb (alloc_ok _ _ _)); injection E as <-; [reflexivity|]. unfold refusals in Hr. cbn -[Z.of_nat] in Hr. lia.
  - rewrite CreateAlias_eq in *. cbv zeta in *. destruct (negb (alloc_ok _ _ _)); [injection E as <-; reflexivity|].
    destruct (find_from _ _ _ _) as [[j a']|].
    2:{ injection E as <-. unfold refusals in Hr. cbn -[Z.of_nat] in Hr. lia. }
    destruct (nth_error _ j) as [t|]; [|discriminate].
    destruct (negb (alloc_ok _ _ _)); injection E as <-; [reflexivity|]. unfold refusals in Hr. cbn -[Z.of_nat] in Hr. lia.
  - unfold MemorySim_SetHardwareWatchpoint in *. pose proof (set_refusals a n type (set_exn w noException [])) as S.
    destruct (setWatchpoint _ _ _ _) as [u w1|w1|]; try discriminate; injection E as <-.
    + change (refusals (set_exn w noException []) w1) with (refusals w w1) in S. lia.
    + rewrite S by exact Hr. reflexivity.
Qed.

(** ** C08, C12 *)

Lemma safe_history ops : forall R w,
  Inv R w -> Forall op_args ops -> all_along safe ops w ->
  exists L w', run ops w = Some w' /\ Inv (L ++ R) w'.
Proof.
  induction ops as [|o ops IH]; intros R w HI Ha HA; cbn in *.
  - exists [], w. auto.
  - inversion Ha as [|? ? Ha1 Ha2]; subst. destruct HA as [H1 H2].
    destruct (step_safe o R w HI Ha1 H1) as (w1 & E & HE). rewrite E in *.
    destruct HE as (_ & (L & HI1 & _) & _). destruct (IH (L ++ R) w1 HI1 Ha2 (H2 _ eq_refl)) as (L' & w' & E' & HI').
    exists (L' ++ L), w'. split; [exact E'|]. now rewrite <- app_assoc.
Qed.

Lemma clean_history ops : forall R w,
  Inv R w -> Forall op_args ops -> all_along (fun w o => safe w o /\ no_recount (regions w) o) ops w ->
  exists w', run ops w = Some w' /\ Inv R w'.
Proof.
  induction ops as [|o ops IH]; intros R w HI Ha HA; cbn in *.
  - exists w. auto.
  - inversion Ha as [|? ? Ha1 Ha2]; subst. destruct HA as [[H1 H1'] H2].
    destruct (step_safe o R w HI Ha1 H1) as (w1 & E & HE). rewrite E in *.
    destruct HE as (_ & (L & HI1 & HL) & _). rewrite (spill_none _ _ _ _ H1' HL) in HI1. apply (IH R w1 HI1 Ha2 (H2 _ eq_refl)).
Qed.

Lemma uninit_api R w :
  Inv R w -> exists w', api MemorySim_Uninit w = Done tt w' /\ hp (w_heap w') R /\ regions w' = [] /\ m_xml (w_mem w') = None.
Proof.
  intro HI. pose proof (Uninit_post R (set_exn w noException []) (Inv_exn _ _ _ _ HI)) as P. unfold post in P. unfold api.
  destruct (MemorySim_Uninit _) as [[] w'|w'|]; try contradiction. destruct P as (H1 & _ & H2 & _).
  exists w'. split; [reflexivity|]. rewrite H2. auto.
Qed.

Lemma no_crash w ops :
  fresh w -> heap_sane w -> Forall op_args ops -> all_along safe ops w ->
  exists w' w'', run ops w = Some w' /\ api MemorySim_Uninit w' = Done tt w''.
Proof.
  intros HF HS Ha HA. destruct (safe_history ops _ w (fresh_inv _ HF HS) Ha HA) as (L & w' & E & HI).
  destruct (uninit_api _ _ HI) as (w'' & E' & _). eauto.
Qed.

Lemma no_leak w ops :
  fresh w -> heap_sane w -> Forall op_args ops ->
  all_along (fun w o => safe w o /\ no_recount (regions w) o) ops w ->
  exists w' w'', run ops w = Some w' /\ api MemorySim_Uninit w' = Done tt w'' /\
                 Permutation (h_live (w_heap w'')) (h_live (w_heap w)).
Proof.
  intros HF HS Ha HA. destruct (clean_history ops _ w (fresh_inv _ HF HS) Ha HA) as (w' & E & HI).
  destruct (uninit_api _ _ HI) as (w'' & E' & (_ & _ & H) & _). eauto 10.
Qed.

Lemma block_new R w b j r b' c' : Inv (b :: R) w -> nth_error (regions w) j = Some r -> r_rc r = Some (b', c') -> b' <> b.
Proof.
  intros (_ & ND & _ & P) Hj Hr ->. apply (Permutation_NoDup P) in ND. apply NoDup_remove_2 in ND. apply ND. apply in_or_app. left.
  unfold blocks. apply in_or_app. right. apply in_flat_map. exists r. split; [eapply nth_error_In; exact Hj|]. unfold rblocks. rewrite Hr. now left.
Qed.

(** What a step spills are the arrays it replaced. *)
Lemma spill_replaced o R w w' L : Inv (L ++ R) w' -> spill (regions w) (regions w') o L ->
  (L = [] /\ forall j b, ~ replaced_array w w' j b) \/
  (exists b, L = [b] /\ (exists j, replaced_array w w' j b) /\ forall j b', replaced_array w w' j b' -> b' = b).
Proof.
  intros HI [[->|(j & r & b & c & r' & [b' c'] & _ & H2 & H3 & H4 & H5 & ->)] HS].
  - left. split; [reflexivity|]. intros j b (r & c & r' & b' & c' & H1 & H2 & H3 & H4 & N). destruct (HS _ _ _ _ _ _ _ H1 H2 H3 H4); [contradiction|discriminate].
  - right. exists b. split; [reflexivity|]. split.
    + exists j, r, c, r', b', c'. repeat (split; [assumption|]). eapply block_new; eauto.
    + intros j' b2 (r2 & c2 & r2' & b2' & c2' & K1 & K2 & K3 & K4 & N). destruct (HS _ _ _ _ _ _ _ K1 K2 K3 K4) as [E|E]; [contradiction|]. now injection E.
Qed.

Lemma spill_history ops : forall R w,
  Inv R w -> Forall op_args ops -> all_along safe ops w ->
  exists L w', run ops w = Some w' /\ Inv (L ++ R) w' /\ (exists l, arrays_replaced w ops l) /\
    forall l, arrays_replaced w ops l -> Permutation l L.
Proof.
  induction ops as [|o ops IH]; intros R w HI Ha HA; cbn in *.
  - exists [], w. split; [reflexivity|]. split; [exact HI|]. split; [exists []; constructor|]. intros l H. inversion H. reflexivity.
  - inversion Ha as [|? ? Ha1 Ha2]; subst. destruct HA as [H1 H2].
    destruct (step_safe o R w HI Ha1 H1) as (w1 & E & HE). rewrite E in *.
    destruct HE as (_ & (L & HI1 & HS) & _). destruct (IH (L ++ R) w1 HI1 Ha2 (H2 _ eq_refl)) as (L' & w' & E' & HI' & (l & Hl) & HU).
    exists (L' ++ L), w'. split; [exact E'|]. split; [now rewrite <- app_assoc|].
    destruct (spill_replaced _ _ _ _ _ HI1 HS) as [[-> HN]|(b & -> & (j & Hj) & HB)].
    + split; [exists l; eapply ar_none; eauto|]. intros l2 Hl2. rewrite app_nil_r. inversion Hl2; subst; rewrite E in *.
      * match goal with X : Some _ = Some _ |- _ => injection X as <- end. exfalso. eapply HN; eauto.
      * match goal with X : Some _ = Some _ |- _ => injection X as <- end. auto.
    + split; [exists (b :: l); eapply ar_one; eauto|]. intros l2 Hl2. rewrite Permutation_app_comm. cbn. inversion Hl2; subst; rewrite E in *.
      * match goal with X : Some _ = Some _ |- _ => injection X as <- end. match goal with X : replaced_array _ _ _ _ |- _ => rewrite (HB _ _ X) end. constructor. auto.
      * match goal with X : Some _ = Some _ |- _ => injection X as <- end. exfalso. match goal with X : forall j b, ~ replaced_array _ _ j b |- _ => eapply X; exact Hj end.
Qed.

Lemma leak_account w ops :
  fresh w -> heap_sane w -> Forall op_args ops -> all_along safe ops w ->
  exists w' w'', run ops w = Some w' /\ api MemorySim_Uninit w' = Done tt w'' /\
    (exists l, arrays_replaced w ops l) /\
    forall l, arrays_replaced w ops l -> Permutation (h_live (w_heap w'')) (l ++ h_live (w_heap w)).
Proof.
  intros HF HS Ha HA. destruct (spill_history ops _ w (fresh_inv _ HF HS) Ha HA) as (L & w' & E & HI & Hl & HU).
  destruct (uninit_api _ _ HI) as (w'' & E' & (_ & _ & P) & _). exists w', w''. split; [exact E|]. split; [exact E'|]. split; [exact Hl|].
  intros l H. rewrite P, (HU l H). reflexivity.
Qed.

Lemma replaced_only o w w' j b : reachable w -> op_args o -> direct_alias (regions w) o -> step o w = Some w' ->
  replaced_array w w' j b -> recounts (regions w) o j.
Proof.
  intros HR Ha Hd Hs (r & c & r' & b' & c' & H1 & H2 & H3 & H4 & N). destruct (reachable_inv _ HR) as (R & HI).
  destruct (step_eff _ _ _ _ HI Ha Hd Hs) as (_ & (L & HI' & [HL HS]) & HA).
  destruct (HS _ _ _ _ _ _ _ H1 H2 H3 H4) as [E|E]; [contradiction|]. subst L.
  destruct HL as [E|(j2 & r2 & b2 & c2 & r2' & x & K1 & K2 & K3 & _ & _ & E)]; [discriminate|]. injection E as <-.
  replace j with j2; [exact K1|]. 
  destruct (Nat.eq_dec j2 j) as [E|NE]; [exact E|]. exfalso.
  destruct (HA j r H1) as (r3 & E3 & K). rewrite H3 in E3. injection E3 as <-. 
  assert (~ recounts (regions w) o j).
  { intro C. apply NE. destruct o; cbn in C, K1; try contradiction; destruct C as (k & C), K1 as (k2 & K1); destruct (serves_unique _ _ _ _ _ _ _ C K1); congruence. }
  pose proof (re_rc _ _ _ _ _ K H) as (_ & Q). rewrite H2 in Q. destruct Q as (c3 & Q & _). congruence.
Qed.

(** ** C14 *)

Lemma serves_target rs a n j k :
  wf rs -> u32 a -> a + n <= 4294967296 -> 0 < n -> non_overlapping rs -> serves rs a n j k -> target rs a n j k.
Proof.
  intros Hwf Ha Hw Hn HN HS. destruct (serves_region _ _ _ _ _ Hwf Ha (Z.lt_le_incl _ _ Hn) HS) as (r & Hr & Hd & K1 & K2 & K3).
  exists r. split; [exact Hr|]. split; [exact K1|]. split; [lia|]. intros b m H1 H2 H3.
  pose proof (serves_part rs a n j k (b - a) m HN HS ltac:(lia) H2 ltac:(lia)) as HS'.
  replace (a + (b - a)) with b in HS' by lia.
  destruct (serves_find rs b m j (k + (b - a)) Hwf ltac:(unfold u32 in *; lia) ltac:(lia) HS') as (r' & a' & F & Hr' & _ & L & _).
  rewrite Hr in Hr'. injection Hr' as <-. exists a'. auto.
Qed.

Lemma load_exact w a src n j k :
  reachable w -> non_overlapping (regions w) -> u32 a -> 0 < n -> a + n <= 4294967296 -> Forall byte src -> n <= zlen src ->
  serves (regions w) a n j k ->
  exists w', api (MemorySim_LoadFromFlashImage a src n) w = Done tt w' /\
             w' = set_regions (set_exn w noException []) (put (regions w) j k (firstn (Z.to_nat n) src)).
Proof.
  intros HR HN Ha Hn Hw Hb Hl HS. destruct (reachable_inv _ HR) as (R & HI). unfold api, MemorySim_LoadFromFlashImage.
  rewrite (load_words_exact R (Z.to_nat n) src a (set_exn w noException []) j k); auto.
  - eauto.
  - lia.
  - unfold zlen in Hl. lia.
  - rewrite Z2Nat.id by lia. apply serves_target; auto. apply HI.
Qed.

Lemma load_effect w a src n r i :
  reachable w -> non_overlapping (regions w) -> u32 a -> u32 n -> 0 < n -> a + n <= 4294967296 -> Forall byte src -> n <= zlen src ->
  nth_error (regions w) i = Some r -> covers r a n ->
  exists w', api (MemorySim_LoadFromFlashImage a src n) w = Done tt w' /\
    (forall x b, nth_error src x = Some b -> Z.of_nat x < n -> exists w'', api (readN 1 (a + Z.of_nat x)) w' = Done b w'') /\
    (exists j k, serves (regions w) a n j k /\
       forall j' k', ~ (j' = j /\ k <= k' < k + n) -> storage (regions w') j' k' = storage (regions w) j' k') /\
    Forall2 same_settings (regions w) (regions w') /\
    m_hits (w_mem w') = m_hits (w_mem w) /\ m_xml (w_mem w') = m_xml (w_mem w) /\ w_heap w' = w_heap w /\ frame w w'.
Proof.
  intros HR HN Ha Hun Hn Hw Hb Hl Hi Hc. pose proof (reachable_wf _ HR) as Hwf.
  destruct (mapped_dec _ a n Hwf Ha ltac:(lia)) as [(j & k & t & HS & Ht & _ & K1 & K2 & K3)|H].
  2:{ exfalso. eapply H; [eapply nth_error_In|]; eauto. }
  destruct (load_exact w a src n j k) as (w' & E & Ew); auto. exists w'. split; [exact E|].
  assert (Z : zlen (firstn (Z.to_nat n) src) = n) by (unfold zlen in *; rewrite firstn_length; lia).
  assert (Er : regions w' = put (regions w) j k (firstn (Z.to_nat n) src)) by (rewrite Ew; reflexivity).
  assert (F : Forall2 same_but_data (regions w) (regions w')) by (rewrite Er; eapply put_same_but_data; eauto; lia).
  assert (HR' : reachable w').
  { eapply reach_step with (o := OLoad a src n); [exact HR| |exact I|].
    - cbn. split; [exact Ha|]. split; [|split; assumption]. exact Hun.
    - unfold step. cbn [op_run]. rewrite E. reflexivity. }
  split; [|split; [|split; [|rewrite Ew; repeat split]]].
  - intros x b Hx Hxn.
    assert (Ht' : nth_error (regions w') j = Some (with_data t (splice (r_data t) k (firstn (Z.to_nat n) src)))).
    { rewrite Er. unfold put. rewrite nth_error_upd_nth, Nat.eqb_refl, Ht. reflexivity. }
    set (t' := with_data t _) in Ht'.
    destruct (api_read1 (a + Z.of_nat x) w' j (k + Z.of_nat x) t' (reachable_wf _ HR')) as (b' & w2 & Hb' & E2).
    + unfold u32 in *. lia.
    + eapply serves_layout; [eapply Forall2_impl; [intros ? ?; apply same_but_data_layout|exact F]|].
      eapply serves_part; eauto; lia.
    + exact Ht'.
    + exists w2. unfold t' in Hb'. cbn [r_data with_data] in Hb'. rewrite nth_error_splice in Hb' by lia.
      replace ((k <=? Z.of_nat (Z.to_nat (k + Z.of_nat x))) && (Z.of_nat (Z.to_nat (k + Z.of_nat x)) <? k + zlen (firstn (Z.to_nat n) src))) with true in Hb' by lia.
      replace (Z.to_nat (k + Z.of_nat x) - Z.to_nat k)%nat with x in Hb' by lia.
      rewrite nth_error_firstn in Hb' by lia. congruence.
  - exists j, k. split; [exact HS|]. intros j' k' Hne. rewrite Er. eapply storage_put; eauto; [lia|].
    intros <- Hk. apply Hne. split; [reflexivity|]. lia.
  - eapply Forall2_impl; [|exact F]. intros x y (d & -> & Hd). repeat split. exact (eq_sym Hd).
Qed.

(** ** C13 *)

Lemma snoc_first_cover rs fl b m :
  (forall r, In r rs -> ~ covers r b m) -> covers fl b m -> first_cover (rs ++ [fl]) b m (length rs) fl.
Proof.
  intros H C. split; [rewrite nth_error_app2, Nat.sub_diag by lia; reflexivity|]. split; [exact C|].
  intros i r Hi Hr. rewrite nth_error_app1 in Hr by exact Hi. apply H. eapply nth_error_In; eauto.
Qed.

Lemma nth_snoc {A} (l : list A) x : nth_error (l ++ [x]) (length l) = Some x.
Proof. rewrite nth_error_app2, Nat.sub_diag by lia. reflexivity. Qed.

Lemma flash_short w src size : size < 4 ->
  api (MemorySim_CreateRegionsFromFlashImage src size) w = Raised bufferOverrunException (set_exn w bufferOverrunException []).
Proof.
  intro H. unfold api, MemorySim_CreateRegionsFromFlashImage. replace (size <? 4) with true by lia. reflexivity.
Qed.

Lemma splice_whole (l bs : list Z) : length bs = length l -> splice l 0 bs = bs.
Proof.
  intro H. unfold splice. cbn [Z.to_nat firstn app].
  rewrite skipn_all2 by (unfold zlen; lia). apply app_nil_r.
Qed.

Lemma flash_post R w src size :
  Inv R w -> u32 size -> Forall byte src -> 4 <= size <= zlen src ->
  (forall r, In r (regions w) -> r_size r = 0 \/ size <= r_base r) ->
  post (MemorySim_CreateRegionsFromFlashImage src size) w
    (fun _ w' => Inv R w' /\ frame w w' /\ w_code w' = 0 /\ exists flash ram, flash_done w w' src size flash ram)
    (fun w' => Inv R w' /\ frame w w' /\ w_code w' = outOfMemoryException /\ w_mem w' = w_mem w).
Proof.
  intros HI Hs Hb Hl Hno. unfold post, MemorySim_CreateRegionsFromFlashImage, FLASH_BASE_ADDRESS.
  replace (size <? 4) with false by lia. assert (H0 : u32 0) by (unfold u32; lia).
  pose proof (CreateRegion_post 0 size R w HI H0 Hs) as PC. unfold post in PC. unfold bind at 1.
  destruct (MemorySim_CreateRegion 0 size w) as [[] w0|w0|]; [| |contradiction].
  2:{ destruct PC as (I0 & F0 & E0 & C0 & _). auto. }
  destruct PC as (I0 & F0 & E0 & _ & Hh0 & Hx0). set (fl := new_region w 0 size) in *.
  assert (FC : forall d b m, 0 <= b -> 0 < m -> b + m <= size -> first_cover (regions w ++ [with_data fl d]) b m (length (regions w)) (with_data fl d)).
  { intros d b m H1 H2 H3. apply snoc_first_cover.
    - intros r Hr [C1 C2]. destruct (Hno r Hr); lia.
    - unfold covers. cbn. lia. }
  assert (FF : forall d b m, 0 <= b -> 0 < m -> b + m <= size -> find_from 0 (regions w ++ [with_data fl d]) b m = Some (length (regions w), b)).
  { intros d b m H1 H2 H3. rewrite (find_first 0 _ _ _ _ _ (FC d b m H1 H2 H3)). reflexivity. }
  assert (Efl : fl = with_data fl (zeros size)) by reflexivity.
  unfold bind at 1. unfold MemorySim_LoadFromFlashImage.
  assert (Zl : zlen (firstn (Z.to_nat size) src) = size) by (unfold zlen in *; rewrite firstn_length; lia).
  rewrite (load_words_exact R (Z.to_nat size) src 0 w0 (length (regions w)) 0); auto; [|unfold u32 in *; lia|unfold zlen in *; lia|].
  2:{ exists fl. rewrite E0. split; [apply nth_snoc|]. split; [lia|]. cbn [r_data fl new_region]. unfold fl. cbn [r_data new_region].
      rewrite zeros_zlen by (unfold u32 in Hs; lia). split; [lia|]. intros b m H1 H2 H3. exists b. fold fl. rewrite Efl. split.
      - apply FF; lia.
      - unfold roff. cbn [r_base with_data fl new_region]. rewrite W_id; unfold fl; cbn; unfold u32 in *; lia. }
  rewrite E0. unfold put. rewrite upd_nth_app_r.
  replace (splice (r_data fl) 0 (firstn (Z.to_nat size) src)) with (firstn (Z.to_nat size) src).
  2:{ symmetry. apply splice_whole. cbn. unfold zeros. rewrite repeat_length. unfold zlen in Zl. lia. }
  set (fl1 := with_data fl (firstn (Z.to_nat size) src)).
  set (w1 := set_regions w0 _).
  assert (E1 : regions w1 = regions w ++ [fl1]) by reflexivity.
  assert (I1 : Inv R w1).
  { unfold w1, fl1. rewrite <- (splice_whole (r_data fl) (firstn (Z.to_nat size) src)).
    2:{ cbn. unfold zeros. rewrite repeat_length. unfold zlen in Zl. lia. }
    replace (regions w ++ [with_data fl (splice (r_data fl) 0 (firstn (Z.to_nat size) src))])
      with (put (regions w0) (length (regions w)) 0 (firstn (Z.to_nat size) src))
      by (rewrite E0; unfold put; rewrite upd_nth_app_r; reflexivity).
    eapply Inv_put; [exact I0|rewrite E0; apply nth_snoc|lia| |apply (Forall_slice byte src 0 size Hb)].
    unfold fl. cbn [r_data new_region]. rewrite zeros_zlen by (unfold u32 in Hs; lia). lia. }
  assert (Hh1 : m_hits (w_mem w1) = m_hits (w_mem w)) by exact Hh0.
  assert (Hx1 : m_xml (w_mem w1) = m_xml (w_mem w)) by exact Hx0.
  assert (F1 : frame w w1) by (eapply frame_trans; [exact F0|]; destr_world w0; repeat split).
  clearbody w1. rewrite try0_eq. set (w1' := set_exn w1 noException []).
  assert (I1' : Inv R w1') by now apply Inv_exn.
  assert (F1' : frame w w1') by (eapply frame_trans; [exact F1|]; destr_world w1; repeat split).
  pose proof (MakeRO_post 0 R w1' I1') as PM. unfold post in PM. unfold bind at 1.
  assert (FF1 : find_from 0 (regions w1) 0 1 = Some (length (regions w), 0)) by (rewrite E1; apply FF; lia).
  change (regions w1') with (regions w1) in PM. rewrite FF1, E1 in PM.
  destruct (MemorySim_MakeRegionReadOnly 0 w1') as [[] w2|w2|]; [| |contradiction].
  - destruct PM as (j & t & a' & Ef & Hj & _ & I2 & F2 & E2 & Hh2 & Hx2 & C2 & _). injection Ef as <- <-.
    rewrite nth_snoc in Hj. injection Hj as <-. rewrite upd_nth_app_r in E2.
    replace (lost fl1) with (@nil nat) in I2 by reflexivity. cbn [app] in I2.
    replace (zlen src <? 4) with false by lia.
    destruct (ram_facts src Hb) as (Rb & Rs & Hrb & Hrs).
    pose proof (CreateRegion_post (ram_base src) (ram_size src) R w2 I2 Hrb Hrs) as PC.
    unfold post in PC. cbv zeta. fold (ram_base src). fold (ram_size src).
    destruct (MemorySim_CreateRegion _ _ w2) as [[] w3|w3|]; [| |contradiction].
    + destruct PC as (I3 & F3 & E3 & C3 & Hh3 & Hx3). rewrite C3. cbn [Z.eqb].
      split; [exact I3|]. split; [eauto using frame_trans|]. split; [exact C3|].
      set (f2 := with_rc _ _) in E2. set (r2 := new_region w2 _ _) in E3. exists f2, r2.
      split; [rewrite E3, E2, <- app_assoc; reflexivity|].
      split; [repeat split|]. split; [cbn; unfold zeros; rewrite Rb, Rs; repeat split|].
      split; [rewrite Hh3, Hh2; exact Hh1|rewrite Hx3, Hx2; exact Hx1].
    + destruct PC as (I3 & F3 & E3 & C3 & _). rewrite C3. change (outOfMemoryException =? 0) with false. cbv iota.
      assert (E4 : regions w3 = regions w ++ [with_rc (with_ro fl1 true) (Some (h_next (w_heap w1'), zeros (r_size fl1 / 2)))])
        by (rewrite E3; exact E2).
      pose proof (freeLast_rethrow R w3 _ _ I3 E4) as PF. unfold post in PF.
      destruct (bind freeLastRegion _ w3) as [u w4|w4|]; [contradiction| |contradiction].
      destruct PF as (I4 & F4 & E5 & C5). split; [exact I4|]. split; [eauto using frame_trans|]. split; [congruence|].
      rewrite E5, E3, Hh2, Hx2. change (m_hits (w_mem w1')) with (m_hits (w_mem w1)).
        change (m_xml (w_mem w1')) with (m_xml (w_mem w1)). rewrite Hh1, Hx1. destruct (w_mem w); reflexivity.
  - destruct PM as (I2 & F2 & Hh2 & Hx2 & _ & [(Ef & _)|(j & t & a' & Ef & Hj & _ & E2 & C2)]); [discriminate|].
    injection Ef as <- <-. change (w_code w1') with 0 in C2. change (Z.max outOfMemoryException 0) with outOfMemoryException in C2.
    rewrite C2. change (outOfMemoryException =? 0) with false. cbv iota.
    rewrite upd_nth_app_r in E2.
    pose proof (freeLast_rethrow R w2 _ _ I2 E2) as PF. unfold post in PF.
    destruct (bind freeLastRegion _ w2) as [u w4|w4|]; [contradiction| |contradiction].
    destruct PF as (I4 & F4 & E5 & C5). split; [exact I4|]. split; [eauto using frame_trans|]. split; [congruence|].
    rewrite E5, Hh2, Hx2. change (m_hits (w_mem w1')) with (m_hits (w_mem w1)).
      change (m_xml (w_mem w1')) with (m_xml (w_mem w1)). rewrite Hh1, Hx1. destruct (w_mem w); reflexivity.
Qed.

Lemma flash_image w src size :
  reachable w -> u32 size -> Forall byte src -> 4 <= size <= zlen src ->
  (forall r, In r (regions w) -> r_size r = 0 \/ size <= r_base r) ->
  (exists w' flash ram,
     api (MemorySim_CreateRegionsFromFlashImage src size) w = Done tt w' /\ flash_done w w' src size flash ram) \/
  (exists w', api (MemorySim_CreateRegionsFromFlashImage src size) w = Raised outOfMemoryException w' /\
     0 < refusals w w' /\ w_mem w' = w_mem w /\ Permutation (h_live (w_heap w')) (h_live (w_heap w))).
Proof.
  intros HR Hs Hb Hl Hno. pose proof (fun w' => fair_api _ w w' (sat_flash src size)) as HF. unfold api in HF. destruct (reachable_inv _ HR) as (R & HI).
  pose proof (flash_post R (set_exn w noException []) src size (Inv_exn _ _ _ _ HI) Hs Hb Hl Hno) as P.
  unfold post in P. unfold api. destruct (MemorySim_CreateRegionsFromFlashImage _ _ _) as [[] w'|w'|]; [| |contradiction].
  - left. destruct P as (_ & _ & _ & flash & ram & P). exists w', flash, ram. auto.
  - right. destruct P as (HI' & _ & C & E). exists w'. rewrite C in *. split; [reflexivity|]. split; [now apply HF|]. split; [exact E|].
    destruct HI as [_ (_ & _ & P')], HI' as [_ (_ & _ & P)]. rewrite E in P. rewrite P. symmetry. exact P'.
Qed.
