(** Lemmas for PropFlash.v. *)
From Coq Require Import ZArith List Bool Lia ZifyBool ZifyNat Permutation.
From Verif Require Import Base World MemSim BaseLemmas MemSpec LoadSpec FlashSpec Sat MemLemmas MemInv MemOps MemOps2 MemOps3 MemHist MemHist2 MemFair MemThms MemThms2 MemHits LoadThms.
Import ListNotations.
Open Scope Z_scope.

Lemma pieces_within a bs ps : pieces a bs ps -> 0 <= a -> a + zlen bs < 4294967296 ->
  Forall (fun p => a <= fst p /\ 0 < zlen (snd p) /\ fst p + zlen (snd p) <= a + zlen bs) ps.
Proof.
  induction 1 as [a|a b t l Ht HP IH|a b0 b1 b2 b3 t l Hn HP IH]; intros H0 H1; constructor.
  - cbn [fst snd]. unfold zlen in *. cbn [length] in *. lia.
  - assert (L : zlen (b :: t) = 1 + zlen t) by (unfold zlen; cbn [length]; lia). pose proof (zlen_nonneg t). rewrite W_id in IH by (unfold u32; lia). eapply Forall_impl; [|apply IH; lia]. cbn beta. intros p X. lia.
  - cbn [fst snd]. unfold zlen in *. cbn [length] in *. lia.
  - assert (L : zlen (b0 :: b1 :: b2 :: b3 :: t) = 4 + zlen t) by (unfold zlen; cbn [length]; lia). pose proof (zlen_nonneg t). rewrite W_id in IH by (unfold u32; lia). eapply Forall_impl; [|apply IH; lia]. cbn beta. intros p X. lia.
Qed.

Lemma same_data_place r r' : same_but_data r r' -> same_place r r'.
Proof. intros (d & -> & E). repeat split. unfold zlen. cbn. now rewrite E. Qed.
Lemma same_place_refl r : same_place r r.
Proof. repeat split. Qed.
Lemma same_place_trans r1 r2 r3 : same_place r1 r2 -> same_place r2 r3 -> same_place r1 r3.
Proof. unfold same_place. intuition congruence. Qed.
Lemma place_upd l j f : (forall r, same_place r (f r)) -> Forall2 same_place l (upd_nth j f l).
Proof.
  intro H. revert j. induction l as [|x l IH]; intros [|j]; cbn [upd_nth]; constructor; auto using same_place_refl.
  clear. induction l; constructor; auto using same_place_refl.
Qed.
Lemma place_butlast l x l' y : Forall2 same_place (l ++ [x]) (l' ++ [y]) -> Forall2 same_place l l'.
Proof.
  intro H. apply Forall2_app_inv_l in H as (l1 & l2 & H1 & H2 & E). inversion H2 as [|? ? ? ? _ H3]; subst. inversion H3; subst.
  apply app_inj_tail in E as (-> & _). exact H1.
Qed.
Lemma snoc_of {A B} (P : A -> B -> Prop) l x l' : Forall2 P (l ++ [x]) l' -> exists l1 y, l' = l1 ++ [y] /\ Forall2 P l l1 /\ P x y.
Proof. intro H. apply Forall2_app_inv_l in H as (l1 & l2 & H1 & H2 & ->). inversion H2 as [|? ? ? ? H4 H3]; subst. inversion H3; subst. eauto. Qed.

Lemma storage_upd l j f i k : (forall r, r_data (f r) = r_data r) -> storage (upd_nth j f l) i k = storage l i k.
Proof. intro H. unfold storage. rewrite nth_error_upd_nth. destruct (Nat.eqb j i); [|reflexivity]. destruct (nth_error l i) as [r|]; cbn [option_map]; [|reflexivity]. now rewrite H. Qed.

Definition flashed (w : world) (src : list Z) (size : Z) (ps : list (Z * list Z)) (w' : world) : Prop :=
  exists old flash ram new qs p k,
    regions w' = old ++ [flash; ram] /\ blank_region new 0 size /\
    Forall2 (placed (regions w ++ [new])) ps qs /\ serves (regions w ++ [new]) 0 1 p k /\
    Forall2 same_place (regions w ++ [new]) (old ++ [flash]) /\
    (forall j k, storage (old ++ [flash]) j k = cell_after qs j k (storage (regions w ++ [new]) j k)) /\
    (forall j r, nth_error (old ++ [flash]) j = Some r -> (r_ro r = true <-> j = p \/ exists r0, nth_error (regions w) j = Some r0 /\ r_ro r0 = true)) /\
    blank_region ram (of_le (firstn 4 src) / 268435456 * 268435456) (of_le (firstn 4 src) mod 268435456) /\
    m_hits (w_mem w') = m_hits (w_mem w) /\ m_xml (w_mem w') = m_xml (w_mem w).

Lemma flash_any R w src size ps :
  Inv R w -> u32 size -> Forall byte src -> 4 <= size <= zlen src -> pieces 0 (firstn (Z.to_nat size) src) ps ->
  post (MemorySim_CreateRegionsFromFlashImage src size) w
    (fun _ w' => flashed w src size ps w')
    (fun w' => w_code w' = outOfMemoryException /\ Forall2 same_place (regions w) (regions w') /\
       m_hits (w_mem w') = m_hits (w_mem w) /\ m_xml (w_mem w') = m_xml (w_mem w)).
Proof.
  intros HI Hs Hb Hl HP. unfold post, MemorySim_CreateRegionsFromFlashImage, FLASH_BASE_ADDRESS.
  replace (size <? 4) with false by lia. assert (H0 : u32 0) by (unfold u32; lia).
  pose proof (CreateRegion_post 0 size R w HI H0 Hs) as PC. unfold post in PC. unfold bind at 1.
  destruct (MemorySim_CreateRegion 0 size w) as [[] w0|w0|]; [| |contradiction].
  2:{ destruct PC as (I0 & F0 & E0 & C0 & _). rewrite E0. repeat split; auto. clear. induction (regions w); constructor; auto using same_place_refl. }
  destruct PC as (I0 & F0 & E0 & C0 & Hh0 & Hx0). set (fl := new_region w 0 size) in *.
  assert (BL : blank_region fl 0 size) by (repeat split).
  assert (Zl : zlen (firstn (Z.to_nat size) src) = size) by (unfold zlen in *; rewrite firstn_length; lia).
  assert (HB' : Forall byte (firstn (Z.to_nat size) src)) by (rewrite <- (firstn_skipn (Z.to_nat size) src) in Hb; apply Forall_app in Hb; apply Hb).
  pose proof (pieces_within _ _ _ HP ltac:(lia) ltac:(unfold u32 in Hs; lia)) as PW. rewrite Zl in PW.
  pose proof (pieces_sound _ _ _ HP H0 HB') as PS.
  pose proof (list_exact R ps w0 I0 PS) as LE. pose proof (Load_eff R w0 0 src size I0 H0 Hb ltac:(unfold zlen in *; lia)) as LD. unfold post in LD. 
  unfold bind at 1. unfold MemorySim_LoadFromFlashImage in *. rewrite (load_words_list _ _ _ ps w0) in * by (unfold zlen in Hl; lia || exact HP).
  destruct (load_list ps w0) as [[] w1|w1|]; [| |destruct LE].
  2:{ exfalso. destruct LE as (_ & _ & _ & ps1 & p & ps2 & qs & -> & _ & U & _). apply Forall_app in PW as (_ & PW). inversion PW as [|? ? (Q1 & Q2 & Q3) _]; subst.
      apply Forall_app in PS as (_ & PS). inversion PS as [|? ? (Q4 & _) _]; subst.
      destruct (serves_dec (regions w0) (fst p) (zlen (snd p)) (proj1 I0) Q4 (zlen_nonneg _)) as [(j & k & r & a' & S & _)|[_ F]]; [exact (U _ _ S)|].
      apply (find_none _ _ _ _ F fl); [rewrite E0; apply in_or_app; right; now left|]. unfold covers, fl. cbn. lia. }
  destruct LE as (D1 & F1 & qs & Q1 & Q2). destruct LD as (I1 & _). rewrite E0 in Q1.
  destruct D1 as (D1 & Dx & Dh & _). rewrite E0 in D1. unfold stored in Q2. rewrite E0 in Q2.
  rewrite try0_eq. set (w1' := set_exn w1 noException []).
  assert (I1' : Inv R w1') by now apply Inv_exn.
  pose proof (MakeRO_post 0 R w1' I1') as PM. unfold post in PM. unfold bind at 1.
  change (regions w1') with (regions w1) in PM. change (m_hits (w_mem w1')) with (m_hits (w_mem w1)) in PM. change (m_xml (w_mem w1')) with (m_xml (w_mem w1)) in PM.
  rewrite (find_from_data 0 _ _ 0 1 D1) in PM.
  destruct (serves_dec (regions w0) 0 1 (proj1 I0) H0 ltac:(lia)) as [(p & k & r & a' & S & FF & _)|[_ F]].
  2:{ exfalso. apply (find_none _ _ _ _ F fl); [rewrite E0; apply in_or_app; right; now left|]. unfold covers, fl. cbn. lia. }
  rewrite E0 in S, FF. rewrite FF in PM.
  assert (P1 : Forall2 same_place (regions w ++ [fl]) (regions w1)) by (eapply Forall2_impl; [apply same_data_place|exact D1]).
  destruct (MemorySim_MakeRegionReadOnly 0 w1') as [[] w2|w2|]; [| |contradiction].
  - destruct PM as (j & t & a2 & Ef & Hj & _ & I2 & F2 & E2 & Hh2 & Hx2 & C2 & _). injection Ef as <- <-.
    replace (zlen src <? 4) with false by lia.
    assert (P2 : Forall2 same_place (regions w ++ [fl]) (regions w2)).
    { eapply Forall2_trans; [apply same_place_trans|exact P1|]. rewrite E2. apply place_upd. intro; repeat split. }
    destruct (snoc_of _ _ _ _ P2) as (old & flash & E3 & P3 & P4).
    destruct (ram_facts src Hb) as (Rb & Rs & Hrb & Hrs).
    pose proof (CreateRegion_post (ram_base src) (ram_size src) _ w2 I2 Hrb Hrs) as PC.
    unfold post in PC. cbv zeta. fold (ram_base src). fold (ram_size src).
    destruct (MemorySim_CreateRegion _ _ w2) as [[] w3|w3|]; [| |contradiction].
    + destruct PC as (I3 & F3 & E4 & C3 & Hh3 & Hx3). rewrite C3. cbn [Z.eqb].
      exists old, flash, (new_region w2 (ram_base src) (ram_size src)), fl, qs, p, k.
      split; [rewrite E4, E3, <- app_assoc; reflexivity|]. split; [exact BL|]. split; [exact Q1|]. split; [exact S|]. rewrite <- E3.
      split; [exact P2|].
      split; [intros i c; rewrite E2, storage_upd by reflexivity; apply Q2|].
      split; [|split; [rewrite <- Rb, <- Rs; repeat split|split; [rewrite Hh3, Hh2, Dh; exact Hh0|rewrite Hx3, Hx2, Dx; exact Hx0]]].
      intros i q Hq. rewrite E2, nth_error_upd_nth in Hq. destruct (Nat.eqb p i) eqn:EP.
      * apply Nat.eqb_eq in EP. subst i. rewrite Hj in Hq. injection Hq as <-. cbn. split; auto.
      * apply Nat.eqb_neq in EP. assert (OL : exists q0, nth_error (regions w ++ [fl]) i = Some q0 /\ r_ro q = r_ro q0).
        { destruct (Forall2_nth_r _ _ _ _ _ D1 Hq) as (q0 & Hq0 & (d & -> & _)). exists q0. split; [exact Hq0|reflexivity]. }
        destruct OL as (q0 & Hq0 & ->). destruct (Nat.lt_ge_cases i (length (regions w))) as [L|L].
        { rewrite nth_error_app1 in Hq0 by exact L. split; [intro X; right; eauto|]. intros [X|(r0 & X & Y)]; [congruence|]. rewrite Hq0 in X. now injection X as ->. }
        { rewrite nth_error_app2 in Hq0 by exact L. destruct (i - length (regions w))%nat as [|[|?]]; try discriminate. injection Hq0 as <-. split; [discriminate|].
          intros [X|(r0 & X & _)]; [congruence|]. pose proof (proj1 (nth_error_Some (regions w) i) ltac:(congruence)). lia. }
    + destruct PC as (I3 & F3 & E4 & C3 & _). rewrite C3. change (outOfMemoryException =? 0) with false. cbv iota.
      assert (E5 : regions w3 = old ++ [flash]) by (rewrite E4; exact E3).
      pose proof (freeLast_rethrow _ w3 _ _ I3 E5) as PF. unfold post in PF.
      destruct (bind freeLastRegion _ w3) as [u w4|w4|]; [contradiction| |contradiction].
      destruct PF as (_ & _ & E6 & C5). split; [congruence|]. rewrite E6. cbn [m_regions m_hits m_xml]. split; [exact P3|]. rewrite E4. split; [rewrite Hh2, Dh; exact Hh0|rewrite Hx2, Dx; exact Hx0].
  - destruct PM as (I2 & F2 & Hh2 & Hx2 & _ & [(Ef & _)|(j & t & a2 & Ef & Hj & _ & E2 & C2)]); [discriminate|].
    injection Ef as <- <-. change (w_code w1') with 0 in C2. change (Z.max outOfMemoryException 0) with outOfMemoryException in C2.
    rewrite C2. change (outOfMemoryException =? 0) with false. cbv iota.
    assert (P2 : Forall2 same_place (regions w ++ [fl]) (regions w2)).
    { eapply Forall2_trans; [apply same_place_trans|exact P1|]. rewrite E2. apply place_upd. intro; repeat split. }
    destruct (snoc_of _ _ _ _ P2) as (old & flash & E3 & P3 & P4).
    pose proof (freeLast_rethrow R w2 _ _ I2 E3) as PF. unfold post in PF.
    destruct (bind freeLastRegion _ w2) as [u w4|w4|]; [contradiction| |contradiction].
    destruct PF as (_ & _ & E6 & C5). split; [congruence|]. rewrite E6. cbn [m_regions m_hits m_xml]. split; [exact P3|]. split; [rewrite Hh2, Dh; exact Hh0|rewrite Hx2, Dx; exact Hx0].
Qed.

Lemma flash_every w src size ps :
  reachable w -> u32 size -> Forall byte src -> 4 <= size <= zlen src -> pieces 0 (firstn (Z.to_nat size) src) ps ->
  match api (MemorySim_CreateRegionsFromFlashImage src size) w with
  | Done _ w' => flashed w src size ps w'
  | Raised c w' => c = outOfMemoryException /\ 0 < refusals w w' /\ Forall2 same_place (regions w) (regions w') /\
      m_hits (w_mem w') = m_hits (w_mem w) /\ m_xml (w_mem w') = m_xml (w_mem w)
  | Crashed _ => False
  end.
Proof.
  intros HR Hs Hb Hl HP. pose proof (fun w' => fair_api _ w w' (sat_flash src size)) as HF. unfold api in HF. destruct (reachable_inv _ HR) as (R & HI).
  pose proof (flash_any R (set_exn w noException []) src size ps (Inv_exn _ _ _ _ HI) Hs Hb Hl HP) as P.
  unfold post in P. unfold api. destruct (MemorySim_CreateRegionsFromFlashImage _ _ _) as [[] w'|w'|]; [exact P| |contradiction].
  destruct P as (C & P). rewrite C in *. split; [reflexivity|]. split; [now apply HF|]. exact P.
Qed.
