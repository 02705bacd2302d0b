(** Continuation of MemOps2.v: exact effect of loads, image regions, memory map, shutdown. *)
From Coq Require Import String ZArith List Bool Lia ZifyBool ZifyNat Permutation Sorted.
From Verif Require Import Base World MemSim BaseLemmas MemSpec MemLemmas MemInv MemOps MemOps2.
Import ListNotations.
Open Scope Z_scope.

(** ** Exact effect of a load *)

(** All of [a, a+n) is served by the storage of region [j] from offset [off]. *)
Definition target (rs : list region) (a n : Z) (j : nat) (off : Z) : Prop :=
  exists r, nth_error rs j = Some r /\ 0 <= off /\ off + n <= zlen (r_data r) /\
  forall b m, a <= b -> 0 < m -> b + m <= a + n ->
    exists a', find_from 0 rs b m = Some (j, a') /\ roff r a' = off + (b - a).

Definition put (rs : list region) (j : nat) (off : Z) (bs : list Z) : list region :=
  upd_nth j (fun r => with_data r (splice (r_data r) off bs)) rs.

Lemma put_nil rs j off : put rs j off [] = rs.
Proof.
  unfold put. destruct (nth_error rs j) as [r|] eqn:E.
  - eapply upd_nth_id; [exact E|]. rewrite splice_nil. destruct r; reflexivity.
  - apply nth_error_None in E. revert j E. induction rs as [|x rs IH]; intros [|j] E; cbn in *; auto; try lia.
    f_equal. apply IH. lia.
Qed.

Lemma put_put rs j off b1 b2 r :
  nth_error rs j = Some r -> 0 <= off -> off + zlen b1 + zlen b2 <= zlen (r_data r) ->
  put (put rs j off b1) j (off + zlen b1) b2 = put rs j off (b1 ++ b2).
Proof.
  intros H H1 H2. unfold put. rewrite upd_nth_upd_nth. eapply upd_nth_ext; [exact H|]. cbn.
  rewrite splice_app by assumption. reflexivity.
Qed.

Lemma put_same_but_data rs j off bs r :
  nth_error rs j = Some r -> 0 <= off -> off + zlen bs <= zlen (r_data r) ->
  Forall2 same_but_data rs (put rs j off bs).
Proof.
  intros H H1 H2. apply Forall2_upd_nth; [apply same_but_data_refl|].
  intros x Hx. rewrite H in Hx. injection Hx as <-. eexists. split; [reflexivity|]. now apply splice_length.
Qed.

Lemma target_put rs a n j off m bs :
  target rs a n j off -> 0 <= m <= n -> zlen bs = m -> target (put rs j off bs) (a + m) (n - m) j (off + m).
Proof.
  intros (r & H1 & H2 & H3 & H4) Hm Hb.
  exists (with_data r (splice (r_data r) off bs)). split.
  { unfold put. now apply nth_error_upd_same with (f := fun r => with_data r (splice (r_data r) off bs)). }
  cbn [with_data r_data]. rewrite splice_zlen by lia. split; [lia|]. split; [lia|].
  intros b k Hb1 Hk Hb2. destruct (H4 b k) as (a' & F & E); try lia. exists a'. split.
  - rewrite (find_from_data _ rs); [exact F|]. eapply put_same_but_data; eauto. lia.
  - change (roff (with_data r (splice (r_data r) off bs)) a') with (roff r a'). lia.
Qed.

Lemma loadN_exact R a bs w j off :
  Inv R w -> u32 a -> zlen bs <> 2 -> 0 < zlen bs -> Forall byte bs -> target (regions w) a (zlen bs) j off ->
  loadN a bs w = Ret tt (set_regions w (put (regions w) j off bs)).
Proof.
  intros HI Ha Hn Hp Hb (r & H1 & H2 & H3 & H4). rewrite loadN_wf by (apply HI || assumption).
  destruct (H4 a (zlen bs)) as (a' & F & E); try lia. rewrite F, H1.
  do 2 f_equal. unfold put. eapply upd_nth_ext; [exact H1|]. rewrite E.
  replace (off + (a - a)) with off by lia. reflexivity.
Qed.

Lemma Inv_put R w j off bs r :
  Inv R w -> nth_error (regions w) j = Some r -> 0 <= off -> off + zlen bs <= zlen (r_data r) -> Forall byte bs ->
  Inv R (set_regions w (put (regions w) j off bs)).
Proof.
  intros HI Hj H1 H2 Hb. rewrite <- (set_hits_same (set_regions _ _)). eapply Inv_upd; eauto.
  intro H. now apply wf_splice.
Qed.

Lemma set_regions_twice w a b : set_regions (set_regions w a) b = set_regions w b.
Proof. destr_world w. reflexivity. Qed.

Lemma load_bytes_exact R n src a w j off :
  Inv R w -> u32 a -> a + Z.of_nat n <= 4294967296 -> Forall byte src -> (n <= length src)%nat ->
  target (regions w) a (Z.of_nat n) j off ->
  load_bytes n src a w = Ret tt (set_regions w (put (regions w) j off (firstn n src))).
Proof.
  revert src a w off. induction n as [|n IH]; intros src a w off HI Ha Hw Hb Hl T; cbn [load_bytes].
  - cbn [firstn]. rewrite put_nil, set_regions_same. reflexivity.
  - destruct src as [|b t]; [cbn in Hl; lia|]. inversion Hb as [|? ? Hb0 Hbt]; subst. rewrite load8_eq. unfold bind.
    pose proof T as (r & T1 & T2 & T3 & T4).
    rewrite (loadN_exact R a [b] w j off); auto; try (unfold zlen; cbn [length]; lia).
    2:{ exists r. repeat split; try assumption; try lia. - rewrite zlen_cons, zlen_nil; lia.
        - intros. apply T4; rewrite ?zlen_cons, ?zlen_nil in *; lia. }
    destruct n as [|n'].
    { cbn [load_bytes firstn]. reflexivity. }
    assert (Ea : W (a + 1) = a + 1) by (apply W_id; unfold u32 in *; lia). rewrite Ea.
    rewrite (IH t (a + 1) _ (off + 1)); auto; try (unfold u32 in *; cbn in Hl; lia).
    + rewrite set_regions_twice. change (regions (set_regions w ?x)) with x.
      pose proof (put_put (regions w) j off [b] (firstn (S n') t) r T1 T2) as P.
      change (zlen [b]) with 1 in P. rewrite P; [reflexivity|].
      pose proof (firstn_le_length (S n') t). unfold zlen at 1. lia.
    + eapply Inv_put; eauto. change (zlen [b]) with 1. lia.
    + change (regions (set_regions w ?x)) with x.
      replace (Z.of_nat (S n')) with (Z.of_nat (S (S n')) - 1) by lia. apply target_put; [exact T|lia|reflexivity].
Qed.

Lemma load_words_exact R n src a w j off :
  Inv R w -> u32 a -> a + Z.of_nat n <= 4294967296 -> Forall byte src -> (n <= length src)%nat ->
  target (regions w) a (Z.of_nat n) j off ->
  load_words n src a w = Ret tt (set_regions w (put (regions w) j off (firstn n src))).
Proof.
  revert src a w off. induction n as [n IH] using (well_founded_induction lt_wf). intros src a w off HI Ha Hw Hb Hl T.
  destruct n as [|[|[|[|[|m]]]]]; try (eapply load_bytes_exact; eassumption).
  do 4 (destruct src as [|?b src]; [cbn in Hl; lia|]).
  pose proof Hb as Hball.
  do 4 (inversion Hb as [|?x ?y ?Hx Hb']; subst; clear Hb; rename Hb' into Hb).
  rewrite load_words_step. unfold bind.
  pose proof T as (r & T1 & T2 & T3 & T4).
  rewrite (loadN_exact R a [b; b0; b1; b2] w j off); auto; try (unfold zlen; cbn [length]; lia).
  2:{ exists r. repeat split; try assumption; try lia. - rewrite !zlen_cons, zlen_nil; lia.
      - intros. apply T4; rewrite ?zlen_cons, ?zlen_nil in *; lia. }
  assert (Ea : W (a + 4) = a + 4) by (apply W_id; unfold u32 in *; lia). rewrite Ea.
  rewrite (IH (S m) ltac:(lia) src (a + 4) _ (off + 4)); auto; try (unfold u32 in *; cbn in Hl; lia).
  - rewrite set_regions_twice. change (regions (set_regions w ?x)) with x.
    pose proof (put_put (regions w) j off [b; b0; b1; b2] (firstn (S m) src) r T1 T2) as P.
    change (zlen [b; b0; b1; b2]) with 4 in P. rewrite P; [reflexivity|].
    pose proof (firstn_le_length (S m) src). unfold zlen at 1. lia.
  - eapply Inv_put; eauto. change (zlen [b; b0; b1; b2]) with 4. lia.
  - change (regions (set_regions w ?x)) with x.
    replace (Z.of_nat (S m)) with (Z.of_nat (S (S (S (S (S m))))) - 4) by lia. apply target_put; [exact T|lia|reflexivity].
Qed.

(** ** Image regions *)

Lemma CreateRegion_find w rs r b s :
  rs = regions w ++ [new_region w b s] -> r = new_region w b s -> nth_error rs (length (regions w)) = Some r.
Proof. intros -> ->. rewrite nth_error_app2, Nat.sub_diag by lia. reflexivity. Qed.

Lemma Forall2_nth {A B} (P : A -> B -> Prop) l l' i x :
  Forall2 P l l' -> nth_error l i = Some x -> exists y, nth_error l' i = Some y /\ P x y.
Proof.
  intro H. revert i. induction H; intros [|i] E; cbn in E |- *; try discriminate; eauto.
  injection E as <-. eauto.
Qed.

Lemma Forall2_snoc {A B} (P : A -> B -> Prop) l x l' :
  Forall2 P (l ++ [x]) l' -> exists m y, l' = m ++ [y] /\ Forall2 P l m /\ P x y.
Proof.
  intro H. apply Forall2_app_inv_l in H as (m & t & H1 & H2 & ->). inversion H2 as [|? y ? ? H3 H4]; subst.
  inversion H4; subst. eauto.
Qed.

Lemma snoc_cases {A} (l : list A) n : length l = S n -> exists m x, l = m ++ [x] /\ length m = n.
Proof.
  intro H. destruct l as [|a l] using rev_ind; [discriminate|]. exists l, a. split; [reflexivity|].
  rewrite app_length in H. cbn in H. lia.
Qed.

Definition ram_base (src : list Z) : Z := Z.land (of_le (firstn 4 src)) RAM_ADDRESS_MASK.
Definition ram_size (src : list Z) : Z := W (of_le (firstn 4 src) - ram_base src).

Lemma land_mask x : 0 <= x < 4294967296 -> Z.land x RAM_ADDRESS_MASK = x / 268435456 * 268435456.
Proof.
  intro H. change RAM_ADDRESS_MASK with (Z.shiftl (Z.ones 4) 28).
  change 268435456 with (2 ^ 28). rewrite <- Z.shiftr_div_pow2, <- Z.shiftl_mul_pow2 by lia.
  assert (E : Z.shiftr x 28 = Z.land (Z.shiftr x 28) (Z.ones 4)).
  { rewrite Z.land_ones by lia. rewrite Z.shiftr_div_pow2 by lia. symmetry. apply Z.mod_small.
    change (2 ^ 28) with 268435456. change (2 ^ 4) with 16. lia. }
  rewrite E. apply Z.bits_inj'. intros n Hn. rewrite Z.land_spec.
  destruct (Z.lt_ge_cases n 28) as [L|L].
  - rewrite !Z.shiftl_spec_low by lia. apply andb_false_r.
  - rewrite !Z.shiftl_spec_high by lia. rewrite Z.land_spec, Z.shiftr_spec by lia.
    replace (n - 28 + 28) with n by lia. reflexivity.
Qed.

Lemma sp_range src : Forall byte src -> 0 <= of_le (firstn 4 src) < 4294967296.
Proof.
  intro H. assert (Hb : Forall byte (firstn 4 src)) by (apply (Forall_slice byte src 0 4 H)).
  pose proof (of_le_range _ Hb) as Hr.
  assert (H4 : zlen (firstn 4 src) <= 4) by (unfold zlen; pose proof (firstn_le_length 4 src); lia).
  pose proof (Z.pow_le_mono_r 256 _ _ eq_refl H4) as Hp. replace (256 ^ 4) with 4294967296 in Hp by reflexivity. lia.
Qed.

Lemma ram_facts src : Forall byte src ->
  ram_base src = of_le (firstn 4 src) / 268435456 * 268435456 /\
  ram_size src = of_le (firstn 4 src) mod 268435456 /\ u32 (ram_base src) /\ u32 (ram_size src).
Proof.
  intro H. apply sp_range in H. unfold ram_size, ram_base. rewrite land_mask by exact H.
  set (x := of_le (firstn 4 src)) in *. clearbody x. unfold u32.
  assert (E : x - x / 268435456 * 268435456 = x mod 268435456) by lia. rewrite E.
  rewrite (W_id (x mod 268435456)) by (unfold u32; lia). repeat split; lia.
Qed.

(** Free the last region and rethrow. *)
Lemma freeLast_rethrow R w rs r :
  Inv R w -> regions w = rs ++ [r] ->
  post (bind freeLastRegion (fun _ => @rethrow unit)) w (fun _ _ => False)
    (fun w' => Inv R w' /\ frame w w' /\ w_mem w' = mkMem rs (m_xml (w_mem w)) (m_hits (w_mem w)) /\ w_code w' = w_code w).
Proof.
  intros HI E. pose proof (freeLastRegion_post R w rs r HI E) as H. unfold post, bind in *.
  destruct (freeLastRegion w) as [u w'|w'|]; try tauto.
  destruct H as (H1 & H2 & H3 & H4 & H5). cbn. split; [now apply Inv_exn|].
  split; [destr_world w'; exact H2|]. split; [exact H3|]. rewrite Z.max_id. exact H4.
Qed.

Lemma Inv_set_exn_iff R w c m : Inv R (set_exn w c m) -> Inv R w.
Proof. destr_world w. exact (fun H => H). Qed.

(** ** Which bytes a load may change *)

Lemma Forall2_nth_r {A B} (P : A -> B -> Prop) l l' i y :
  Forall2 P l l' -> nth_error l' i = Some y -> exists x, nth_error l i = Some x /\ P x y.
Proof.
  intro H. revert i. induction H; intros [|i] E; cbn in E |- *; try discriminate; eauto.
  injection E as <-. eauto.
Qed.

Lemma same_layout_sym r r' : same_layout r r' -> same_layout r' r.
Proof. unfold same_layout. intuition congruence. Qed.

Lemma Forall2_sym {A} (P : A -> A -> Prop) l l' : (forall x y, P x y -> P y x) -> Forall2 P l l' -> Forall2 P l' l.
Proof. intros HS H. induction H; auto. Qed.

Lemma Forall2_impl {A B} (P Q : A -> B -> Prop) l l' : (forall x y, P x y -> Q x y) -> Forall2 P l l' -> Forall2 Q l l'.
Proof. intros HS H. induction H; auto. Qed.

Lemma covers_layout r r' a n : same_layout r r' -> covers r a n -> covers r' a n.
Proof. unfold same_layout, covers. intros (-> & -> & _). auto. Qed.

Lemma first_cover_layout rs rs' a n i r :
  Forall2 same_layout rs rs' -> first_cover rs a n i r ->
  exists r', same_layout r r' /\ first_cover rs' a n i r'.
Proof.
  intros F (H1 & H2 & H3). destruct (Forall2_nth _ _ _ _ _ F H1) as (r' & E & L).
  exists r'. split; [exact L|]. split; [exact E|]. split; [eapply covers_layout; eauto|].
  intros i' x' Hi Hx' Hc. destruct (Forall2_nth_r _ _ _ _ _ F Hx') as (x & Hx & Lx).
  apply (H3 i' x Hi Hx). eapply covers_layout; [apply same_layout_sym, Lx|exact Hc].
Qed.

Lemma serves_layout rs rs' a n j k : Forall2 same_layout rs rs' -> serves rs a n j k -> serves rs' a n j k.
Proof.
  intros F (i & r & H & E). destruct (first_cover_layout _ _ _ _ _ _ F H) as (r' & L & H').
  exists i, r'. split; [exact H'|]. destruct L as (-> & _ & -> & ->). destruct (r_redir r) as [t|]; [|exact E].
  destruct E as [-> (rt & Ht & ->)]. split; [reflexivity|].
  destruct (Forall2_nth _ _ _ _ _ F Ht) as (rt' & Ht' & (E1 & _)). exists rt'. rewrite E1. auto.
Qed.

Lemma same_but_data_layout r r' : same_but_data r r' -> same_layout r r'.
Proof. intros (d & -> & _). repeat split. Qed.

Lemma storage_nth rs rs' j k : nth_error rs' j = nth_error rs j -> storage rs' j k = storage rs j k.
Proof. unfold storage. intros ->. reflexivity. Qed.

Lemma storage_put rs j off bs r j' k :
  nth_error rs j = Some r -> 0 <= off -> off + zlen bs <= zlen (r_data r) ->
  (j = j' -> ~ (off <= k < off + zlen bs)) ->
  storage (put rs j off bs) j' k = storage rs j' k.
Proof.
  intros H H1 H2 H3. unfold storage, put. rewrite nth_error_upd_nth.
  destruct (Nat.eqb_spec j j') as [<-|N]; [|reflexivity]. rewrite H. cbn.
  destruct (0 <=? k) eqn:E; [|reflexivity]. rewrite nth_error_splice by assumption.
  rewrite Z2Nat.id by lia. destruct (_ && _) eqn:Q; [|reflexivity]. exfalso. apply H3; [reflexivity|lia].
Qed.

Definition spares (m : M world unit) (w : world) (a n : Z) : Prop :=
  forall j k, ~ load_touches (regions w) a n j k ->
  post m w (fun _ w' => storage (regions w') j k = storage (regions w) j k)
           (fun w' => storage (regions w') j k = storage (regions w) j k).

Lemma loadN_spares R a bs w :
  Inv R w -> u32 a -> zlen bs = 1 \/ zlen bs = 4 -> Forall byte bs -> spares (loadN a bs) w a (zlen bs).
Proof.
  intros HI Ha Hn Hb j k Hk. unfold post. rewrite loadN_wf by (apply HI || lia || assumption).
  destruct (find_from 0 (regions w) a (zlen bs)) as [[i a']|] eqn:F; [|reflexivity].
  destruct (locate _ _ _ _ _ (proj1 HI) Ha (zlen_nonneg bs) F) as (r & k' & L1 & L2 & L3 & L4 & L5 & L6 & L7 & L8 & _).
  rewrite L1. change (regions (set_regions w ?x)) with x.
  rewrite (upd_nth_ext _ _ (fun r => with_data r (splice (r_data r) k' bs)) _ _ L1) by (rewrite L4; reflexivity).
  eapply storage_put; eauto; try lia. intros <- Hin. apply Hk. exists 0, (zlen bs), k'.
  rewrite Z.add_0_r, W_id by exact Ha. repeat split; auto; lia.
Qed.

Lemma load_bytes_spares R n src a w :
  Inv R w -> u32 a -> Forall byte src -> (n <= length src)%nat -> spares (load_bytes n src a) w a (Z.of_nat n).
Proof.
  revert src a w. induction n as [|n IH]; intros src a w HI Ha Hb Hl j k Hk; cbn [load_bytes].
  - reflexivity.
  - destruct src as [|b t]; [cbn in Hl; lia|]. inversion Hb; subst. rewrite load8_eq.
    apply post_bind.
    pose proof (loadN_spares R a [b] w HI Ha ltac:(left; reflexivity) ltac:(auto) j k) as S1.
    pose proof (loadN_loads R a [b] w HI Ha ltac:(cbv; discriminate) ltac:(auto)) as L1.
    unfold loads, post in *. destruct (loadN a [b] w) as [[] w1|w1|]; auto.
    + destruct L1 as (HI1 & _ & HD & _).
      assert (S1' : storage (regions w1) j k = storage (regions w) j k).
      { apply S1. intros (i & m & k' & Hm1 & H3 & H4 & H5 & H6). apply Hk. exists i, m, k'.
        rewrite zlen_cons, zlen_nil in H4. repeat split; auto; lia. }
      specialize (IH t (W (a + 1)) w1 HI1 (W_u32 _) H2 ltac:(cbn in Hl; lia) j k).
      unfold post in IH. rewrite <- S1'. apply IH.
      intros (i & m & k' & H3 & H4 & H5 & H6 & H7). apply Hk. exists (i + 1), m, k'.
      split; [exact H3|]. split; [lia|]. split; [lia|]. split; [|exact H7].
      rewrite W_add_l in H6. replace (a + (i + 1)) with (a + 1 + i) by lia.
      eapply serves_layout; [|exact H6]. apply Forall2_sym; [apply same_layout_sym|].
      eapply Forall2_impl; [apply same_but_data_layout|apply HD].
    + apply S1. intros (i & m & k' & H1' & H3 & H4 & H5 & H6). apply Hk. exists i, m, k'.
      rewrite zlen_cons, zlen_nil in H4. repeat split; auto; lia.
Qed.

Lemma load_words_spares R n src a w :
  Inv R w -> u32 a -> Forall byte src -> (n <= length src)%nat -> spares (load_words n src a) w a (Z.of_nat n).
Proof.
  revert src a w. induction n as [n IH] using (well_founded_induction lt_wf). intros src a w HI Ha Hb Hl j k Hk.
  destruct n as [|[|[|[|[|m]]]]]; try (eapply load_bytes_spares; eassumption).
  do 4 (destruct src as [|?b src]; [cbn in Hl; lia|]).
  do 4 (inversion Hb as [|?x ?y ?Hx Hb']; subst; clear Hb; rename Hb' into Hb).
  rewrite load_words_step. apply post_bind. set (bs := [b; b0; b1; b2]).
  assert (Hbs : Forall byte bs) by (unfold bs; auto).
  pose proof (loadN_spares R a bs w HI Ha ltac:(right; reflexivity) Hbs j k) as S1.
  pose proof (loadN_loads R a bs w HI Ha ltac:(cbv; discriminate) Hbs) as L1.
  change (zlen bs) with 4 in S1.
  unfold loads, post in *. destruct (loadN a bs w) as [[] w1|w1|]; auto.
  - destruct L1 as (HI1 & _ & HD & _).
    assert (S1' : storage (regions w1) j k = storage (regions w) j k).
    { apply S1. intros (i & m' & k' & H1 & H3 & H4 & H5 & H6). apply Hk. exists i, m', k'.
      repeat split; auto; lia. }
    specialize (IH (S m) ltac:(lia) src (W (a + 4)) w1 HI1 (W_u32 _) Hb ltac:(cbn in Hl; lia) j k).
    unfold post in IH. rewrite <- S1'. apply IH.
    intros (i & m' & k' & H3 & H4 & H5 & H6 & H7). apply Hk. exists (i + 4), m', k'.
    split; [exact H3|]. split; [lia|]. split; [lia|]. split; [|exact H7].
    rewrite W_add_l in H6. replace (a + (i + 4)) with (a + 4 + i) by lia.
    eapply serves_layout; [|exact H6]. apply Forall2_sym; [apply same_layout_sym|].
    eapply Forall2_impl; [apply same_but_data_layout|apply HD].
  - apply S1. intros (i & m' & k' & H1' & H3 & H4 & H5 & H6). apply Hk. exists i, m', k'.
    repeat split; auto; lia.
Qed.

(** ** Memory map *)

Lemma digits_length fuel b v : (length (digits fuel b v) <= S fuel)%nat.
Proof.
  revert v. induction fuel; intro v; cbn [digits]; [cbn; lia|].
  destruct (v <? b); [cbn; lia|]. rewrite app_length. cbn [length]. specialize (IHfuel (v / b)). lia.
Qed.

Lemma digits_bound k b v fuel :
  2 <= b -> (k <= fuel)%nat -> 0 <= v < b ^ Z.of_nat k -> (length (digits fuel b v) <= Nat.max 1 k)%nat.
Proof.
  intros Hb. revert v fuel. induction k as [|k IH]; intros v fuel Hk Hv.
  - change (b ^ Z.of_nat 0) with 1 in Hv. destruct fuel; cbn [digits]; [cbn; lia|].
    destruct (v <? b) eqn:E; [cbn; lia|lia].
  - destruct fuel as [|fuel]; [lia|]. cbn [digits]. destruct (v <? b) eqn:E; [cbn; lia|].
    rewrite app_length. cbn [length]. rewrite Nat2Z.inj_succ, Z.pow_succ_r in Hv by lia.
    assert (0 <= v / b < b ^ Z.of_nat k).
    { split; [apply Z.div_pos; lia|]. apply Z.div_lt_upper_bound; lia. }
    specialize (IH (v / b) fuel ltac:(lia) H). destruct k as [|k].
    + change (b ^ Z.of_nat 0) with 1 in H. assert (1 <= v / b) by (apply Z.div_le_lower_bound; lia). lia.
    + lia.
Qed.

Lemma fmtX_length v : u32 v -> zlen (fmtX v) <= 8.
Proof.
  intro H. unfold fmtX. rewrite zlen_map. unfold zlen.
  pose proof (digits_bound 8 16 v 8 ltac:(lia) ltac:(lia)) as B.
  change (16 ^ Z.of_nat 8) with 4294967296 in B. specialize (B H). lia.
Qed.

Lemma xml_region_length r : u32 (r_base r) -> u32 (r_size r) -> zlen (xml_region r) <= zlen xmlExampleLine.
Proof.
  intros Hb Hs. apply fmtX_length in Hb, Hs. unfold xml_region. rewrite !zlen_app.
  change (zlen xmlExampleLine) with 109.
  change (zlen (s2b "<memory type=""")) with 14. change (zlen (s2b """ start=""0x")) with 11.
  change (zlen (s2b """ length=""0x")) with 12. change (zlen (s2b """>")) with 2.
  change (zlen (s2b "</memory>")) with 9.
  destruct (r_ro r).
  - change (zlen (s2b "flash")) with 5. change (zlen (s2b " <property name=""blocksize"">1</property>")) with 40. lia.
  - change (zlen (s2b "ram")) with 3. rewrite zlen_nil. lia.
Qed.

(** The text a memory map should have. *)
Definition xml_text (rs : list region) : list Z := g_xmlHeader ++ flat_map xml_region rs ++ g_xmlTrailer.
Definition xml_alloc (rs : list region) : Z :=
  (zlen g_xmlHeader + 1) + (zlen g_xmlTrailer + 1) + zlen rs * (zlen xmlExampleLine + 1).

Lemma append_ok rs acc room :
  Forall (fun r => u32 (r_base r) /\ u32 (r_size r)) rs ->
  zlen rs * 110 + 15 <= room -> room < 2147483648 ->
  exists room', appendMemoryMapRegions rs acc room = Some (acc ++ flat_map xml_region rs, room') /\ 15 <= room'.
Proof.
  intro H. revert acc room. induction H as [|r rs [Hb Hs] H IH]; intros acc room H1 H2; cbn [appendMemoryMapRegions flat_map].
  - rewrite app_nil_r. change (zlen (@nil region)) with 0 in H1. exists room. split; [reflexivity|lia].
  - rewrite zlen_cons in H1. pose proof (xml_region_length r Hb Hs) as L. change (zlen xmlExampleLine) with 109 in L.
    pose proof (zlen_nonneg rs). pose proof (zlen_nonneg (xml_region r)).
    assert (Hi : to_int room = room).
    { unfold to_int. rewrite (W_id room) by (unfold u32; lia). replace (room <? 2147483648) with true by lia. reflexivity. }
    rewrite Hi. replace (zlen (xml_region r) <? room) with true by lia.
    rewrite app_assoc. apply IH; lia.
Qed.

Lemma build_xml_ok rs :
  Forall (fun r => u32 (r_base r) /\ u32 (r_size r)) rs -> xml_alloc rs < 2147483648 ->
  build_xml rs (xml_alloc rs) = Some (xml_text rs).
Proof.
  intros H Hlt. unfold build_xml. pose proof (zlen_nonneg rs).
  assert (Eh : zlen g_xmlHeader = 154) by reflexivity. assert (Et : zlen g_xmlTrailer = 13) by reflexivity.
  assert (Ea : xml_alloc rs = 155 + 14 + zlen rs * 110) by reflexivity.
  replace (xml_alloc rs <? zlen g_xmlHeader + 1) with false by lia.
  destruct (append_ok rs g_xmlHeader (xml_alloc rs - zlen g_xmlHeader) H) as (room' & -> & Hr); try lia.
  replace (room' <? zlen g_xmlTrailer + 1) with false by lia. unfold xml_text. rewrite app_assoc. reflexivity.
Qed.

Lemma wf_u32 rs : wf rs -> Forall (fun r => u32 (r_base r) /\ u32 (r_size r)) rs.
Proof.
  intro H. apply Forall_forall. intros r Hr. apply In_nth_error in Hr as [i Hi]. destruct (H _ _ Hi). auto.
Qed.

Lemma Xml_post R w :
  Inv R w -> xml_alloc (regions w) < 2147483648 ->
  post MemorySim_GetMemoryMapXML w
    (fun t w' => t = xml_text (regions w) /\ Inv R w' /\ frame w w' /\ regions w' = regions w /\
                 m_hits (w_mem w') = m_hits (w_mem w) /\ w_code w' = w_code w)
    (fun w' => Inv R w' /\ frame w w' /\ w_mem w' = w_mem w /\ h_live (w_heap w') = h_live (w_heap w) /\
               w_code w' = Z.max outOfMemoryException (w_code w)).
Proof.
  intros [Hwf Hh] Hlt. unfold post, MemorySim_GetMemoryMapXML, getw. unfold bind at 1.
  fold (xml_alloc (regions w)).
  pose proof (build_xml_ok _ (wf_u32 _ Hwf) Hlt) as HB. clear Hlt. generalize dependent (xml_alloc (regions w)). intros size HB.
  unfold bind at 1. unfold realloc. unfold bind at 1. unfold malloc.
  destruct (e_malloc _ _ _).
  - destr_world w. cbn in Hwf, Hh, HB. unfold blocks in Hh. cbn in Hh.
    set (w1 := set_heap _ _).
    destruct (free_opt_hp (option_map fst xml) (nxt :: flat_map rblocks rs ++ R) w1) as (h' & Ef & Hf & _).
    { cbn. eapply hp_perm; [apply (hp_malloc (mkHeap live nxt calls szs)); exact Hh|]. cbn.
      rewrite <- app_assoc. apply Permutation_middle. }
    cbn [m_xml w_mem]. unfold bind at 1. rewrite Ef. cbn [ret m_regions h_next w_heap]. rewrite HB.
    unfold bind, set_xml, modw, ret. split; [reflexivity|]. split; [|repeat split]. split; [exact Hwf|].
    cbn. unfold blocks. cbn. exact Hf.
  - destr_world w. cbn in *. split; [|repeat split]. split; [exact Hwf|]. cbn.
    eapply hp_calls; [exact Hh|reflexivity|cbn; lia].
Qed.

(** ** Read counts *)

Lemma Count_post R w a :
  Inv R w -> u32 a -> counted (regions w) ->
  post (MemorySim_GetFlashReadCount a) w
    (fun v w' => w' = w /\ exists j k r b c, serves (regions w) a 2 j k /\ nth_error (regions w) j = Some r /\
                 r_ro r = true /\ r_rc r = Some (b, c) /\ nth_error c (Z.to_nat (k / 2)) = Some v)
    (fun w' => w' = set_exn w (Z.max busErrorException (w_code w)) (w_msg w) /\
               ((forall r, In r (regions w) -> ~ covers r a 2) \/
                exists j k r, serves (regions w) a 2 j k /\ nth_error (regions w) j = Some r /\ r_ro r = false)).
Proof.
  intros [Hwf Hh] Ha Hc. unfold post, MemorySim_GetFlashReadCount. unfold bind at 1. unfold findMatchingRegion.
  destruct (find_from 0 (regions w) a 2) as [[j a']|] eqn:F.
  - destruct (locate _ _ _ _ _ Hwf Ha (proj1 (Z.leb_le 0 2) eq_refl) F) as (r & k & L1 & L2 & L3 & L4 & L5 & L6 & L7 & L8 & _).
    unfold bind, get_region. cbn [fst snd]. rewrite L1. unfold roff in L4. rewrite L4.
    destruct (r_ro r) eqn:Ero; cbn [negb].
    + destruct (r_rc r) as [[b c]|] eqn:C; [|exfalso; eapply Hc; eauto].
      destruct (Hwf _ _ L1). destruct (wr_rc _ _ C) as [Z1 _].
      destruct (nth_error c (Z.to_nat (k / 2))) as [v|] eqn:N.
      * cbn. split; [reflexivity|]. exists j, k, r, b, c. auto.
      * apply nth_error_None in N. unfold zlen in Z1. lia.
    + split; [reflexivity|]. right. eauto 10.
  - split; [reflexivity|]. left. eapply find_none; eauto.
Qed.

(** ** Shutdown *)

Lemma freeRegions_hp rs l w :
  hp (w_heap w) (flat_map rblocks rs ++ l) ->
  exists h', freeRegions rs w = Ret tt (set_heap w h') /\ hp h' l.
Proof.
  revert w. induction rs as [|r rs IH]; intros w H; cbn [freeRegions flat_map] in *.
  - exists (w_heap w). rewrite set_heap_same. auto.
  - rewrite <- app_assoc in H. apply freeRegion_hp in H as (h1 & E & H & _). unfold bind. rewrite E.
    destruct (IH (set_heap w h1) H) as (h2 & E2 & H2). rewrite E2. exists h2. destr_world w. auto.
Qed.

Lemma Uninit_post R w :
  Inv R w ->
  post MemorySim_Uninit w
    (fun _ w' => hp (w_heap w') R /\ frame w w' /\ w_mem w' = mkMem [] None (m_hits (w_mem w)) /\
                 w_code w' = w_code w /\ w_msg w' = w_msg w)
    (fun _ => False).
Proof.
  intros [Hwf Hh]. unfold post, MemorySim_Uninit, getw. unfold bind at 1. unfold bind at 1.
  assert (P : hp (w_heap w) (flat_map rblocks (regions w) ++ olist (option_map fst (m_xml (w_mem w))) ++ R)).
  { eapply hp_perm; [exact Hh|]. unfold blocks. rewrite !app_assoc. apply Permutation_app_tail, Permutation_app_comm. }
  apply freeRegions_hp in P as (h1 & E1 & H1). rewrite E1. unfold bind at 1.
  destruct (free_opt_hp _ _ (set_heap w h1) H1) as (h2 & E2 & H2 & _). rewrite E2. destr_world w.
  cbn. split; [exact H2|]. repeat split.
Qed.
