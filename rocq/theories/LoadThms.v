(** The exact effect of loading an image. *)
From Coq Require Import ZArith List Bool Lia ZifyBool ZifyNat.
From Verif Require Import Base World MemSim BaseLemmas MemSpec LoadSpec MemLemmas MemInv MemOps MemOps2 MemOps3 MemHist MemHist2 MemThms MemThms2 MemThms3 MemHits.
Import ListNotations.
Open Scope Z_scope.

Fixpoint load_list (ps : list (Z * list Z)) : M world unit :=
  match ps with [] => ret tt | p :: t => loadN (fst p) (snd p) ;;; load_list t end.

Lemma load_bytes_list n : forall src a ps w, (n <= 4)%nat -> (n <= length src)%nat -> pieces a (firstn n src) ps -> load_bytes n src a w = load_list ps w.
Proof.
  induction n as [|n IH]; intros src a ps w H4 Hl HP.
  - inversion HP; subst. reflexivity.
  - destruct src as [|b t]; [cbn in Hl; lia|]. cbn [firstn] in HP. cbn [length] in Hl.
    remember (firstn n t) as u eqn:Eu. assert (Lu : length u = n) by (rewrite Eu, firstn_length; lia).
    inversion HP as [|? ? ? l Ht HP'|? ? ? ? ? t0 l Hn HP']; subst a0.
    + subst. cbn [load_bytes load_list fst snd]. rewrite load8_eq. unfold bind. destruct (loadN a [b] w); auto. apply IH; auto; lia.
    + exfalso. match goal with H : _ :: _ = u |- _ => rewrite <- H in Lu end. destruct t0; [congruence|]. cbn in Lu. lia.
Qed.

Lemma load_words_list n : forall src a ps w, (n <= length src)%nat -> pieces a (firstn n src) ps -> load_words n src a w = load_list ps w.
Proof.
  induction n as [n IH] using lt_wf_ind. intros src a ps w Hl HP.
  destruct n as [|[|[|[|[|m]]]]]; try (apply load_bytes_list; [lia|exact Hl|exact HP]).
  destruct src as [|b0 [|b1 [|b2 [|b3 t]]]]; cbn [length] in Hl; try lia. rewrite load_words_step.
  change (firstn (S (S (S (S (S m))))) (b0 :: b1 :: b2 :: b3 :: t)) with (b0 :: b1 :: b2 :: b3 :: firstn (S m) t) in HP.
  remember (firstn (S m) t) as u eqn:Eu. assert (Lu : length u = S m) by (rewrite Eu, firstn_length; lia).
  inversion HP as [|? ? ? l Ht HP'|? ? ? ? ? t0 l Hn HP']; subst a0.
  - exfalso. subst t0. cbn [length] in Ht. lia.
  - subst. cbn [load_list fst snd]. unfold bind. destruct (loadN a _ w); auto. apply IH; auto; lia.
Qed.

Lemma pieces_exist n : forall a bs, length bs = n -> u32 a -> exists ps, pieces a bs ps.
Proof.
  induction n as [n IH] using lt_wf_ind. intros a bs E Ha. destruct (Nat.lt_ge_cases 4 n) as [H|H].
  - destruct bs as [|b0 [|b1 [|b2 [|b3 t]]]]; cbn [length] in E; try lia.
    destruct (IH (length t) ltac:(lia) (W (a + 4)) t eq_refl (W_u32 _)) as (l & P).
    eexists. apply pc_word; [|exact P]. destruct t; [cbn in E; lia|discriminate].
  - destruct bs as [|b t]; [eexists; constructor|]. cbn [length] in E.
    destruct (IH (length t) ltac:(lia) (W (a + 1)) t eq_refl (W_u32 _)) as (l & P). eexists. apply pc_byte; [lia|exact P].
Qed.
Lemma pieces_unique a bs ps : pieces a bs ps -> forall ps', pieces a bs ps' -> ps' = ps.
Proof.
  induction 1 as [a|a b t l Ht HP IH|a b0 b1 b2 b3 t l Hn HP IH]; intros ps' H'.
  - inversion H'. reflexivity.
  - inversion H' as [|? ? ? l' Ht' HP'|? ? ? ? ? t0 l' Hn' HP' E]; subst; [f_equal; auto|]. cbn [length] in Ht. destruct t0; [congruence|cbn [length] in Ht; lia].
  - inversion H' as [|? ? ? l' Ht' HP'|? ? ? ? ? t0 l' Hn' HP' E]; subst; [|f_equal; auto]. cbn [length] in Ht'. destruct t; [congruence|cbn [length] in Ht'; lia].
Qed.
(** The pieces, end to end, are the image. *)
Lemma pieces_concat a bs ps : pieces a bs ps -> concat (map snd ps) = bs.
Proof. induction 1; cbn [map snd concat app]; congruence. Qed.

Lemma storage_put_all rs j off bs r j' k :
  nth_error rs j = Some r -> 0 <= off -> off + zlen bs <= zlen (r_data r) ->
  storage (put rs j off bs) j' k = if (j' =? j)%nat && (off <=? k) && (k <? off + zlen bs) then nth_error bs (Z.to_nat (k - off)) else storage rs j' k.
Proof.
  intros H H1 H2. unfold storage, put. rewrite nth_error_upd_nth. destruct (Nat.eqb_spec j j') as [<-|N].
  - rewrite Nat.eqb_refl, H. cbn [option_map r_data with_data andb]. destruct (0 <=? k) eqn:E.
    + rewrite nth_error_splice by assumption. rewrite Z2Nat.id by lia. destruct (off <=? k) eqn:E1; [|reflexivity]. cbn [andb].
      destruct (k <? off + zlen bs) eqn:E2; [|reflexivity]. f_equal. lia.
    + replace (off <=? k) with false by lia. reflexivity.
  - replace (j' =? j)%nat with false by lia. reflexivity.
Qed.

Definition sound_piece (p : Z * list Z) : Prop := u32 (fst p) /\ (zlen (snd p) = 1 \/ zlen (snd p) = 4) /\ Forall byte (snd p).

Lemma pieces_sound a bs ps : pieces a bs ps -> u32 a -> Forall byte bs -> Forall sound_piece ps.
Proof.
  induction 1 as [a|a b t l Ht HP IH|a b0 b1 b2 b3 t l Hn HP IH]; intros Ha HB; constructor.
  - inversion HB; subst. split; [exact Ha|]. split; [left; reflexivity|]. cbn [snd]. auto.
  - inversion HB; subst. apply IH; auto using W_u32.
  - split; [exact Ha|]. split; [right; reflexivity|]. cbn [snd]. do 4 (inversion HB as [|? ? ? HB']; subst; clear HB; rename HB' into HB). auto.
  - do 4 (inversion HB as [|? ? ? HB']; subst; clear HB; rename HB' into HB). apply IH; auto using W_u32.
Qed.

Lemma list_exact R ps : forall w, Inv R w -> Forall sound_piece ps ->
  match load_list ps w with
  | Ret _ w' => data_only w w' /\ frame w w' /\ exists qs, Forall2 (placed (regions w)) ps qs /\ stored w w' qs
  | Exc w' => data_only w w' /\ frame w w' /\ w_code w' = Z.max busErrorException (w_code w) /\
      exists ps1 p ps2 qs, ps = ps1 ++ p :: ps2 /\ Forall2 (placed (regions w)) ps1 qs /\ unplaced (regions w) p /\ stored w w' qs
  | Ub _ => False
  end.
Proof.
  induction ps as [|[a bs] ps IH]; intros w HI HS; cbn [load_list fst snd].
  - split; [apply data_only_refl|]. split; [apply frame_refl|]. exists []. split; [constructor|]. intros j k. reflexivity.
  - inversion HS as [|? ? [Ha [Hn HB]] HS']; subst. cbn [fst snd] in *. unfold bind.
    assert (N2 : zlen bs <> 2) by lia.
    pose proof (loadN_loads R a bs w HI Ha N2 HB) as L. unfold loads, post in L.
    destruct (serves_dec (regions w) a (zlen bs) (proj1 HI) Ha (zlen_nonneg bs)) as [(j & k & r & a' & S & F & Hr & Ea)|[S F]].
    + destruct (serves_find _ _ _ _ _ (proj1 HI) Ha (zlen_nonneg bs) S) as (r' & a2 & F2 & Hr2 & _ & Ek & K0 & K1 & K2 & _).
      rewrite F in F2. injection F2 as <-. rewrite Hr in Hr2. injection Hr2 as <-.
      assert (E1 : loadN a bs w = Ret tt (set_regions w (put (regions w) j k bs))).
      { rewrite loadN_wf by (apply HI || assumption). rewrite F, Hr. do 2 f_equal. unfold put. eapply upd_nth_ext; [exact Hr|]. rewrite Ek. reflexivity. }
      rewrite E1 in L |- *. destruct L as (I1 & F1 & D1 & C1 & M1). set (w1 := set_regions _ _) in *.
      assert (SV : forall a n j k, serves (regions w1) a n j k <-> serves (regions w) a n j k).
      { intros a0 n0 j0 k0. assert (LY : Forall2 same_layout (regions w) (regions w1)) by (eapply Forall2_impl; [apply same_but_data_layout|apply D1]).
        split; apply serves_layout; [apply Forall2_sym; [apply same_layout_sym|exact LY]|exact LY]. }
      assert (PL : forall p q, placed (regions w1) p q <-> placed (regions w) p q) by (intros p [[j0 k0] bs0]; unfold placed; rewrite SV; reflexivity).
      assert (UP : forall p, unplaced (regions w1) p <-> unplaced (regions w) p) by (intros p; unfold unplaced; split; intros H x y HX; apply (H x y), SV, HX).
      assert (ST : forall w2 qs, stored w1 w2 qs -> stored w w2 ((j, k, bs) :: qs)).
      { intros w2 qs H j0 k0. rewrite H. cbn [cell_after]. f_equal. change (regions w1) with (put (regions w) j k bs).
        apply (storage_put_all _ _ _ _ r); auto; lia. }
      assert (P0 : placed (regions w) (a, bs) (j, k, bs)) by (cbn; auto).
      specialize (IH w1 I1 HS'). destruct (load_list ps w1) as [u w2|w2|]; [| |exact IH].
      * destruct IH as (D2 & F2 & qs & Q1 & Q2). split; [eapply data_only_trans; eauto|]. split; [eapply frame_trans; eauto|].
        exists ((j, k, bs) :: qs). split; [|apply ST, Q2]. constructor; [exact P0|]. eapply Forall2_impl; [|exact Q1]. intros p q; apply PL.
      * destruct IH as (D2 & F2 & C2 & ps1 & p & ps2 & qs & -> & Q1 & Q2 & Q3). split; [eapply data_only_trans; eauto|]. split; [eapply frame_trans; eauto|].
        split; [congruence|]. exists ((a, bs) :: ps1), p, ps2, ((j, k, bs) :: qs). split; [reflexivity|]. split; [|split; [apply UP, Q2|apply ST, Q3]].
        constructor; [exact P0|]. eapply Forall2_impl; [|exact Q1]. intros p0 q; apply PL.
    + assert (E1 : loadN a bs w = Exc (set_exn w (Z.max busErrorException (w_code w)) (w_msg w))) by (rewrite loadN_wf by (apply HI || assumption); rewrite F; reflexivity).
      rewrite E1 in L |- *. destruct L as (I1 & F1 & D1 & C1 & M1). split; [exact D1|]. split; [exact F1|]. split; [exact C1|].
      exists [], (a, bs), ps, []. split; [reflexivity|]. split; [constructor|]. split; [exact S|]. intros j k. reflexivity.
Qed.

Lemma load_exact w a src n ps :
  reachable w -> u32 a -> 0 <= n <= zlen src -> Forall byte src -> pieces a (firstn (Z.to_nat n) src) ps ->
  match api (MemorySim_LoadFromFlashImage a src n) w with
  | Done _ w' => data_only w w' /\ frame w w' /\ exists qs, Forall2 (placed (regions w)) ps qs /\ stored w w' qs
  | Raised e w' => e = busErrorException /\ data_only w w' /\ frame w w' /\
      exists ps1 p ps2 qs, ps = ps1 ++ p :: ps2 /\ Forall2 (placed (regions w)) ps1 qs /\ unplaced (regions w) p /\ stored w w' qs
  | Crashed _ => False
  end.
Proof.
  intros HR Ha Hn HB HP. destruct (reachable_inv _ HR) as (R & HI). unfold api, MemorySim_LoadFromFlashImage.
  set (w0 := set_exn w noException []). assert (HI0 : Inv R w0) by (apply Inv_exn; exact HI).
  rewrite (load_words_list _ _ _ ps w0) by (unfold zlen in Hn; lia || exact HP).
  assert (HB' : Forall byte (firstn (Z.to_nat n) src)) by (rewrite <- (firstn_skipn (Z.to_nat n) src) in HB; apply Forall_app in HB; apply HB).
  pose proof (list_exact R ps w0 HI0 (pieces_sound _ _ _ HP Ha HB')) as L.
  change (regions w0) with (regions w) in L. change (stored w0) with (stored w) in L. change (data_only w0) with (data_only w) in L. change (frame w0) with (frame w) in L.
  destruct (load_list ps w0) as [u w'|w'|]; [exact L| |destruct L].
  destruct L as (D & F & C & L). split; [rewrite C; reflexivity|]. auto.
Qed.
