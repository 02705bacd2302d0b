(** Proofs of the memory simulator theorems stated in PropMem.v. *)
From Coq Require Import String ZArith List Bool Lia ZifyBool ZifyNat Permutation Sorted.
From Verif Require Import Base World MemSim BaseLemmas MemSpec MemLemmas MemInv MemOps MemOps2 MemOps3 MemHist MemHist2.
Import ListNotations.
Open Scope Z_scope.

(** ** Reads and writes as seen by a caller *)

Lemma mapped_dec rs a n :
  wf rs -> u32 a -> 0 <= n ->
  (exists j k r, serves rs a n j k /\ nth_error rs j = Some r /\ r_redir r = None /\ 0 <= k /\ k + n <= r_size r /\ zlen (r_data r) = r_size r) \/
  (forall r, In r rs -> ~ covers r a n).
Proof.
  intros Hwf Ha Hn. destruct (find_from 0 rs a n) as [[j a']|] eqn:F.
  - left. destruct (locate _ _ _ _ _ Hwf Ha Hn F) as (r & k & L1 & L2 & L3 & L4 & L5 & L6 & L7 & L8 & _). eauto 12.
  - right. eapply find_none; eauto.
Qed.

Lemma none_find rs a n : (forall r, In r rs -> ~ covers r a n) -> find_from 0 rs a n = None.
Proof.
  intro H. destruct (find_from 0 rs a n) as [p|] eqn:F; [|reflexivity].
  apply find_some in F as (i & r & (H1 & H2 & _) & _). exfalso. eapply H; [eapply nth_error_In|]; eauto.
Qed.

Lemma api_read_unmapped n a w :
  wf (regions w) -> u32 a -> width n -> (forall r, In r (regions w) -> ~ covers r a n) ->
  api (readN n a) w = Raised busErrorException (set_exn w busErrorException []).
Proof.
  intros Hwf Ha Hn H. unfold api. rewrite readN_wf by assumption.
  change (regions (set_exn w _ _)) with (regions w). rewrite none_find by exact H. reflexivity.
Qed.

Lemma api_write_unmapped n a v w :
  wf (regions w) -> u32 a -> width n -> (forall r, In r (regions w) -> ~ covers r a n) ->
  api (writeN n a v) w = Raised busErrorException (set_exn w busErrorException []).
Proof.
  intros Hwf Ha Hn H. unfold api. rewrite writeN_wf by assumption.
  change (regions (set_exn w _ _)) with (regions w). rewrite none_find by exact H. reflexivity.
Qed.

Lemma api_read n a w j k r :
  wf (regions w) -> u32 a -> width n -> serves (regions w) a n j k -> nth_error (regions w) j = Some r ->
  api (readN n a) w =
  let a' := W (r_base r + k) in
  let w1 := set_regions (set_exn w noException []) (counted_regions (regions w) j r n k READING) in
  let (h, brk) := scan_wps (r_wps r) a' (W (a' + n)) n READING (m_hits (w_mem w)) in
  if brk then Raised hardwareBreakpointException (set_exn (set_hits w1 h) hardwareBreakpointException [])
  else Done (of_le (slice (r_data r) k n)) (set_hits w1 h).
Proof.
  intros Hwf Ha Hn HS Hr. unfold api. rewrite readN_wf by assumption.
  change (regions (set_exn w _ _)) with (regions w).
  assert (Hn' : 0 <= n) by (unfold width in Hn; lia).
  destruct (serves_find _ _ _ _ _ Hwf Ha Hn' HS) as (r' & a' & F & Hr' & _ & L1 & L2 & L3 & L4 & L5).
  rewrite Hr in Hr'. injection Hr' as <-. rewrite F, Hr. cbv zeta. rewrite L1, L5.
  change (m_hits (w_mem (set_exn w noException []))) with (m_hits (w_mem w)).
  destruct (scan_wps _ _ _ _ _ _) as [h brk]. destruct brk; reflexivity.
Qed.

Lemma scan_writing l a e n h : snd (scan_wps l a e n WRITING h) = false.
Proof.
  revert h. induction l as [|x l IH]; intro h; [reflexivity|]. cbn [scan_wps].
  destruct (_ =? 0) eqn:E; [apply IH|]. destruct (wp_type x =? WATCHPOINT_BREAKPOINT) eqn:E2.
  - apply Z.eqb_eq in E2. rewrite E2 in E. discriminate.
  - destruct (accessInRange x a e); [apply IH|]. destruct (_ <? _); [reflexivity|apply IH].
Qed.

Lemma scan_width l a e n t h : n <> 2 -> snd (scan_wps l a e n t h) = false.
Proof.
  intro Hn. revert h. induction l as [|x l IH]; intro h; [reflexivity|]. cbn [scan_wps].
  destruct (_ =? 0) eqn:E; [apply IH|]. destruct (wp_type x =? WATCHPOINT_BREAKPOINT) eqn:E2.
  - replace (n =? 2) with false by lia. apply IH.
  - destruct (accessInRange x a e); [apply IH|]. destruct (_ <? _); [reflexivity|apply IH].
Qed.

Lemma api_write n a v w j k r :
  wf (regions w) -> u32 a -> width n -> serves (regions w) a n j k -> nth_error (regions w) j = Some r ->
  api (writeN n a v) w =
  let a' := W (r_base r + k) in
  if r_ro r then Raised busErrorException (set_exn w busErrorException [])
  else Done tt (set_hits (set_regions (set_exn w noException []) (put (regions w) j k (le (Z.to_nat n) v)))
                         (fst (scan_wps (r_wps r) a' (W (a' + n)) n WRITING (m_hits (w_mem w))))).
Proof.
  intros Hwf Ha Hn HS Hr. unfold api. rewrite writeN_wf by assumption.
  change (regions (set_exn w _ _)) with (regions w).
  assert (Hn' : 0 <= n) by (unfold width in Hn; lia).
  destruct (serves_find _ _ _ _ _ Hwf Ha Hn' HS) as (r' & a' & F & Hr' & _ & L1 & L2 & L3 & L4 & L5).
  rewrite Hr in Hr'. injection Hr' as <-. rewrite F, Hr. cbv zeta. rewrite L1, L5.
  destruct (r_ro r); [reflexivity|].
  change (m_hits (w_mem (set_exn w noException []))) with (m_hits (w_mem w)).
  pose proof (scan_writing (r_wps r) (W (r_base r + k)) (W (W (r_base r + k) + n)) n (m_hits (w_mem w))) as S.
  destruct (scan_wps _ _ _ _ _ _) as [h brk]. cbn in S |- *. subst brk. reflexivity.
Qed.

Lemma serves_region rs a n j k :
  wf rs -> u32 a -> 0 <= n -> serves rs a n j k ->
  exists r, nth_error rs j = Some r /\ r_redir r = None /\ 0 <= k /\ k + n <= r_size r /\ zlen (r_data r) = r_size r.
Proof.
  intros Hwf Ha Hn HS. destruct (serves_find _ _ _ _ _ Hwf Ha Hn HS) as (r & a' & F & Hr & H1 & L1 & L2 & L3 & L4 & L5).
  eauto 10.
Qed.

Lemma width_pos n : width n -> 0 < n.
Proof. unfold width. lia. Qed.
Lemma width_nn n : width n -> 0 <= n.
Proof. unfold width. lia. Qed.
Lemma width_pow n : width n -> 256 ^ Z.of_nat (Z.to_nat n) = 2 ^ (8 * n).
Proof. intros [ -> |[ -> | -> ]]; reflexivity. Qed.

(** What a read of served bytes can do. *)
Lemma read_served n a w j k r :
  wf (regions w) -> u32 a -> width n -> serves (regions w) a n j k -> nth_error (regions w) j = Some r ->
  exists w', api (readN n a) w = Done (of_le (slice (r_data r) k n)) w' \/
             (n = 2 /\ api (readN n a) w = Raised hardwareBreakpointException w').
Proof.
  intros Hwf Ha Hn HS Hr. rewrite (api_read n a w j k r) by assumption. cbv zeta.
  destruct (Z.eq_dec n 2) as [->|N].
  - destruct (scan_wps _ _ _ _ _ _) as [h brk]. destruct brk; eauto.
  - pose proof (scan_width (r_wps r) (W (r_base r + k)) (W (W (r_base r + k) + n)) n READING (m_hits (w_mem w)) N) as S.
    destruct (scan_wps _ _ _ _ _ _) as [h brk]. cbn in S. subst brk. eauto.
Qed.

(** ** C01 *)

Lemma slice_ext {A} (l m : list A) off n :
  0 <= off -> length l = length m ->
  (forall i, (Z.to_nat off <= i < Z.to_nat off + Z.to_nat n)%nat -> nth_error l i = nth_error m i) ->
  slice l off n = slice m off n.
Proof.
  intros Ho Hl H. apply nth_error_ext. intro i. destruct (Nat.lt_ge_cases i (Z.to_nat n)) as [L|L].
  - rewrite !nth_error_slice by assumption. apply H. lia.
  - assert (E : forall x : list A, nth_error (slice x off n) i = None).
    { intro x. apply nth_error_None. unfold slice. rewrite firstn_length. lia. }
    now rewrite !E.
Qed.

Definition holds (a n : Z) (bs : list Z) (j : nat) (k : Z) (w : world) : Prop :=
  serves (regions w) a n j k /\ exists r, nth_error (regions w) j = Some r /\ slice (r_data r) k n = bs.

Lemma holds_eff a n bs j k R w o w' :
  u32 a -> 0 <= n -> Inv R w -> quiet a n w o -> eff o R w w' -> holds a n bs j k w -> holds a n bs j k w'.
Proof.
  intros Ha Hn HI HQ HE (HS & r & Hr & Hb). split; [eapply eff_serves; eauto|].
  destruct (serves_region _ _ _ _ _ (proj1 HI) Ha Hn HS) as (r1 & Hr1 & _ & K1 & K2 & K3).
  rewrite Hr in Hr1. injection Hr1 as <-.
  destruct HE as (_ & _ & E). destruct (E _ _ Hr) as (r' & Hr' & HE). exists r'. split; [exact Hr'|]. rewrite <- Hb.
  pose proof (re_len _ _ _ _ _ HE) as Z.
  apply slice_ext; [exact K1|exact Z|]. intros i Hi.
  apply (re_data _ _ _ _ _ HE). eapply HQ; eauto. lia.
Qed.

Lemma write_holds n a v w u w1 :
  wf (regions w) -> u32 a -> width n -> api (writeN n a v) w = Done u w1 ->
  exists j k, holds a n (le (Z.to_nat n) v) j k w1.
Proof.
  intros Hwf Ha Hn E. pose proof (width_nn _ Hn) as Hn'.
  destruct (mapped_dec _ a n Hwf Ha Hn') as [(j & k & r & HS & Hr & _ & K1 & K2 & K3)|H].
  2:{ rewrite api_write_unmapped in E by assumption. discriminate. }
  rewrite (api_write n a v w j k r) in E by assumption. cbv zeta in E. destruct (r_ro r); [discriminate|].
  injection E as <- <-. exists j, k. split.
  - change (regions (set_hits (set_regions _ ?x) _)) with x.
    eapply serves_layout; [|exact HS]. eapply Forall2_impl; [intros ? ?; apply same_but_data_layout|eapply put_same_but_data; eauto; rewrite le_zlen; lia].
  - change (regions (set_hits (set_regions _ ?x) _)) with x. unfold put. rewrite nth_error_upd_nth, Nat.eqb_refl, Hr.
    eexists. split; [reflexivity|]. cbn. rewrite <- (Z2Nat.id n) at 2 by lia. rewrite <- (le_zlen (Z.to_nat n) v).
    apply slice_splice_same; rewrite ?le_zlen; lia.
Qed.

Lemma read_after_write w n a v u w1 ops w2 :
  reachable w -> width n -> u32 a -> api (writeN n a v) w = Done u w1 ->
  Forall op_args ops -> all_along (fun w o => direct_alias (regions w) o /\ quiet a n w o) ops w1 ->
  run ops w1 = Some w2 ->
  exists w3, api (readN n a) w2 = Done (v mod 2 ^ (8 * n)) w3 \/
             (n = 2 /\ api (readN n a) w2 = Raised hardwareBreakpointException w3).
Proof.
  intros HR Hn Ha HW Hargs HA Hrun. pose proof (width_nn _ Hn) as Hn'.
  destruct (write_holds n a v w u w1 (reachable_wf _ HR) Ha Hn HW) as (j & k & HH).
  assert (HR1 : reachable w1).
  { eapply reach_step with (o := OWrite n a v); [exact HR|split; assumption|exact I|].
    unfold step. cbn [op_run]. rewrite HW. reflexivity. }
  destruct (reachable_inv _ HR1) as (R & HI).
  destruct (history (quiet a n) (holds a n (le (Z.to_nat n) v) j k)) with (ops := ops) (R := R) (w := w1) (w' := w2)
    as ((R' & HI') & HS & r & Hr & Hb); auto.
  { intros. eapply holds_eff; eauto. }
  destruct (read_served n a w2 j k r (proj1 HI') Ha Hn HS Hr) as (w3 & H).
  exists w3. rewrite Hb, of_le_le, width_pow in H by exact Hn. exact H.
Qed.

(** ** C02 *)

Lemma write_frame w n a v u w1 :
  reachable w -> width n -> u32 a -> api (writeN n a v) w = Done u w1 ->
  exists j k, serves (regions w) a n j k /\
    (forall i, 0 <= i < n -> storage (regions w1) j (k + i) = Some (v / 2 ^ (8 * i) mod 256)) /\
    (forall j' k', ~ (j' = j /\ k <= k' < k + n) -> storage (regions w1) j' k' = storage (regions w) j' k') /\
    Forall2 same_settings (regions w) (regions w1) /\
    m_xml (w_mem w1) = m_xml (w_mem w) /\ w_heap w1 = w_heap w /\ frame w w1.
Proof.
  intros HR Hn Ha E. pose proof (width_nn _ Hn) as Hn'. pose proof (reachable_wf _ HR) as Hwf.
  destruct (mapped_dec _ a n Hwf Ha Hn') as [(j & k & r & HS & Hr & _ & K1 & K2 & K3)|H].
  2:{ rewrite api_write_unmapped in E by assumption. discriminate. }
  rewrite (api_write n a v w j k r) in E by assumption. cbv zeta in E. destruct (r_ro r); [discriminate|].
  injection E as <- <-. exists j, k. split; [exact HS|].
  change (regions (set_hits (set_regions _ ?x) _)) with x.
  assert (Hz : k + zlen (le (Z.to_nat n) v) <= zlen (r_data r)) by (rewrite le_zlen; lia).
  split; [|split; [|split; [|repeat split]]].
  - intros i Hi. unfold storage, put. rewrite nth_error_upd_nth, Nat.eqb_refl, Hr. cbn [option_map r_data with_data].
    replace (0 <=? k + i) with true by lia. rewrite nth_error_splice by (rewrite ?le_zlen; lia).
    rewrite le_zlen. replace ((k <=? Z.of_nat (Z.to_nat (k + i))) && (Z.of_nat (Z.to_nat (k + i)) <? k + Z.of_nat (Z.to_nat n))) with true by lia.
    replace (Z.to_nat (k + i) - Z.to_nat k)%nat with (Z.to_nat i) by lia.
    apply le_nth; [lia|lia].
  - intros j' k' Hne. unfold storage, put. rewrite nth_error_upd_nth. destruct (Nat.eqb_spec j j') as [<-|N]; [|reflexivity].
    rewrite Hr. cbn [option_map r_data with_data]. destruct (0 <=? k') eqn:Q; [|reflexivity].
    rewrite nth_error_splice by (rewrite ?le_zlen; lia). destruct (_ && _) eqn:Q2; [|reflexivity].
    exfalso. apply Hne. rewrite le_zlen in Q2. split; [reflexivity|]. lia.
  - eapply Forall2_impl; [|eapply put_same_but_data; eauto]. intros x y (d & -> & Hd). repeat split. exact (eq_sym Hd).
Qed.

Lemma failing_access_wf w w1 c (n a v : Z) :
  wf (regions w) -> width n -> u32 a ->
  (api (writeN n a v) w = Raised c w1 -> c = busErrorException /\ w1 = set_exn w busErrorException []) /\
  (api (readN n a) w = Raised c w1 ->
     (c = busErrorException /\ w1 = set_exn w busErrorException []) \/
     (c = hardwareBreakpointException /\ n = 2 /\
      forall j k, storage (regions w1) j k = storage (regions w) j k)).
Proof.
  intros Hwf Hn Ha. pose proof (width_nn _ Hn) as Hn'.
  destruct (mapped_dec _ a n Hwf Ha Hn') as [(j & k & r & HS & Hr & _ & K1 & K2 & K3)|H].
  - rewrite (api_write n a v w j k r), (api_read n a w j k r) by assumption. cbv zeta. split.
    + destruct (r_ro r); intro E; [|discriminate]. injection E as <- <-. auto.
    + destruct (Z.eq_dec n 2) as [->|N].
      2:{ pose proof (scan_width (r_wps r) (W (r_base r + k)) (W (W (r_base r + k) + n)) n READING (m_hits (w_mem w)) N) as S.
          destruct (scan_wps _ _ _ _ _ _) as [h brk]. cbn in S. subst brk. discriminate. }
      destruct (scan_wps _ _ _ _ _ _) as [h brk]. destruct brk; [|discriminate]. intro E. injection E as <- <-.
      right. split; [reflexivity|]. split; [reflexivity|]. intros j' k'.
      change (regions (set_exn (set_hits (set_regions _ ?x) _) _ _)) with x.
      unfold counted_regions, storage. change ((READING =? READING) && (2 =? 2)) with true. cbv iota.
      rewrite bump_nth by exact Hr. destruct (Nat.eqb_spec j j') as [<-|]; [|reflexivity]. rewrite Hr.
      destruct (r_rc r) as [[b x]|]; reflexivity.
  - rewrite api_write_unmapped, api_read_unmapped by assumption. split; intro E; injection E as <- <-; auto.
Qed.
Lemma failing_access w w1 c (n a v : Z) :
  reachable w -> width n -> u32 a ->
  (api (writeN n a v) w = Raised c w1 -> c = busErrorException /\ w1 = set_exn w busErrorException []) /\
  (api (readN n a) w = Raised c w1 ->
     (c = busErrorException /\ w1 = set_exn w busErrorException []) \/
     (c = hardwareBreakpointException /\ n = 2 /\
      forall j k, storage (regions w1) j k = storage (regions w) j k)).
Proof. intro HR. apply failing_access_wf. now apply reachable_wf. Qed.

(** ** C03 *)

Lemma read_mapped w n a :
  reachable w -> width n -> u32 a ->
  ((exists r, In r (regions w) /\ covers r a n) ->
     exists w', (exists v, 0 <= v < 2 ^ (8 * n) /\ api (readN n a) w = Done v w') \/
                (n = 2 /\ api (readN n a) w = Raised hardwareBreakpointException w')) /\
  (~ (exists r, In r (regions w) /\ covers r a n) ->
     api (readN n a) w = Raised busErrorException (set_exn w busErrorException [])).
Proof.
  intros HR Hn Ha. pose proof (width_nn _ Hn) as Hn'. pose proof (reachable_wf _ HR) as Hwf.
  destruct (mapped_dec _ a n Hwf Ha Hn') as [(j & k & r & HS & Hr & _ & K1 & K2 & K3)|H].
  - split.
    + intros _. destruct (read_served n a w j k r Hwf Ha Hn HS Hr) as (w' & [E|E]); exists w'; [left|right; exact E].
      eexists. split; [|exact E]. destruct (Hwf _ _ Hr).
      pose proof (of_le_range (slice (r_data r) k n) (Forall_slice _ _ _ _ wr_bytes)) as B.
      rewrite slice_zlen in B by lia. rewrite <- (width_pow n Hn), Z2Nat.id by lia. exact B.
    + intro N. exfalso. apply N. destruct HS as (i & x & (H1 & H2 & _) & _). exists x. split; [eapply nth_error_In; eauto|exact H2].
  - split; [intros (r & H1 & H2); exfalso; eapply H; eauto|]. intros _. now apply api_read_unmapped.
Qed.

Lemma write_mapped w n a v :
  reachable w -> width n -> u32 a ->
  (writable (regions w) a n -> exists w', api (writeN n a v) w = Done tt w') /\
  (~ writable (regions w) a n -> api (writeN n a v) w = Raised busErrorException (set_exn w busErrorException [])).
Proof.
  intros HR Hn Ha. pose proof (width_nn _ Hn) as Hn'. pose proof (reachable_wf _ HR) as Hwf.
  destruct (mapped_dec _ a n Hwf Ha Hn') as [(j & k & r & HS & Hr & _ & K1 & K2 & K3)|H].
  - rewrite (api_write n a v w j k r) by assumption. cbv zeta. split.
    + intros (j' & k' & r' & HS' & Hr' & Hro). destruct (serves_unique _ _ _ _ _ _ _ HS HS') as [<- <-].
      rewrite Hr in Hr'. injection Hr' as <-. rewrite Hro. eauto.
    + intro N. destruct (r_ro r) eqn:E; [reflexivity|]. exfalso. apply N. exists j, k, r. auto.
  - split; [|intros _; now apply api_write_unmapped]. intros (j & k & r & (i & x & (H1 & H2 & _) & _) & _).
    exfalso. eapply H; [eapply nth_error_In|]; eauto.
Qed.

(** ** C04 *)

Lemma serves_part rs a n j k i m :
  non_overlapping rs -> serves rs a n j k -> 0 <= i -> 0 < m -> i + m <= n -> serves rs (a + i) m j (k + i).
Proof.
  intros HN (x & r & (H1 & (H2 & H2') & H3) & E) Hi Hm Him. exists x, r. split.
  - split; [exact H1|]. split; [split; lia|]. intros x' r' Hx Hr [C1 C2].
    destruct (HN x' x r' r) as [D|[D|[D|D]]]; auto; lia.
  - destruct (r_redir r) as [t|].
    + destruct E as [-> (rt & Ht & ->)]. split; [reflexivity|]. exists rt. split; [exact Ht|]. lia.
    + destruct E as [-> ->]. split; [reflexivity|]. lia.
Qed.

Lemma api_read1 a w j k r :
  wf (regions w) -> u32 a -> serves (regions w) a 1 j k -> nth_error (regions w) j = Some r ->
  exists b w', nth_error (r_data r) (Z.to_nat k) = Some b /\ api (readN 1 a) w = Done b w'.
Proof.
  intros Hwf Ha HS Hr. assert (Hw : width 1) by (left; reflexivity).
  destruct (serves_region _ _ _ _ _ Hwf Ha Z.le_0_1 HS) as (r1 & Hr1 & _ & K1 & K2 & K3).
  rewrite Hr in Hr1. injection Hr1 as <-.
  destruct (read_served 1 a w j k r Hwf Ha Hw HS Hr) as (w' & [E|[E _]]); [|discriminate].
  destruct (nth_error (r_data r) (Z.to_nat k)) as [b|] eqn:N.
  2:{ apply nth_error_None in N. unfold zlen in K3. lia. }
  exists b, w'. split; [reflexivity|]. rewrite (slice_1 _ _ b) in E by (assumption || lia).
  cbn in E. rewrite Z.add_0_r in E. exact E.
Qed.

Lemma read_bytes w n a v w' :
  reachable w -> non_overlapping (regions w) -> width n -> u32 a -> a + n <= 4294967296 ->
  api (readN n a) w = Done v w' ->
  exists bs, zlen bs = n /\ v = of_le bs /\
    forall i b, nth_error bs i = Some b -> exists w'', api (readN 1 (a + Z.of_nat i)) w = Done b w''.
Proof.
  intros HR HN Hn Ha Hw E. pose proof (width_nn _ Hn) as Hn'. pose proof (reachable_wf _ HR) as Hwf.
  destruct (mapped_dec _ a n Hwf Ha Hn') as [(j & k & r & HS & Hr & _ & K1 & K2 & K3)|H].
  2:{ rewrite api_read_unmapped in E by assumption. discriminate. }
  destruct (read_served n a w j k r Hwf Ha Hn HS Hr) as (w1 & [E1|[_ E1]]); [|congruence].
  assert (v = of_le (slice (r_data r) k n)) as -> by congruence.
  exists (slice (r_data r) k n). split; [rewrite slice_zlen; lia|]. split; [reflexivity|].
  intros i b Hb. assert (L : (i < Z.to_nat n)%nat).
  { assert (i < length (slice (r_data r) k n))%nat by (apply nth_error_Some; congruence).
    unfold slice in *. rewrite firstn_length in *. lia. }
  rewrite nth_error_slice in Hb by lia.
  destruct (api_read1 (a + Z.of_nat i) w j (k + Z.of_nat i) r Hwf) as (b' & w2 & Hb' & E2); auto.
  - unfold u32 in *. lia.
  - eapply serves_part; eauto; lia.
  - replace (Z.to_nat (k + Z.of_nat i)) with (Z.to_nat k + i)%nat in Hb' by lia.
    exists w2. congruence.
Qed.

Lemma write_reachable w n a v u w1 :
  reachable w -> width n -> u32 a -> api (writeN n a v) w = Done u w1 -> reachable w1.
Proof.
  intros HR Hn Ha E. eapply reach_step with (o := OWrite n a v); [exact HR|split; assumption|exact I|].
  unfold step. cbn [op_run]. rewrite E. reflexivity.
Qed.

Lemma non_overlapping_layout rs rs' : Forall2 same_layout rs rs' -> non_overlapping rs -> non_overlapping rs'.
Proof.
  intros F H i j r s N Hi Hj. destruct (Forall2_nth_r _ _ _ _ _ F Hi) as (r0 & Hr & L1).
  destruct (Forall2_nth_r _ _ _ _ _ F Hj) as (s0 & Hs & L2). destruct L1 as (B1 & S1 & _), L2 as (B2 & S2 & _).
  unfold disjoint. rewrite B1, S1, B2, S2. eapply H; eauto.
Qed.

Lemma byte_le1 b : byte b -> le (Z.to_nat 1) b = [b].
Proof. intro H. change (le (Z.to_nat 1) b) with [b mod 256]. f_equal. unfold byte in H. lia. Qed.

Lemma write_each_put bs : forall a w j k r,
  reachable w -> non_overlapping (regions w) -> Forall byte bs -> u32 a -> a + zlen bs <= 4294967296 ->
  (bs <> [] -> serves (regions w) a (zlen bs) j k) -> nth_error (regions w) j = Some r -> r_ro r = false ->
  0 <= k -> k + zlen bs <= zlen (r_data r) ->
  exists w', write_each a bs w = Some w' /\ regions w' = put (regions w) j k bs.
Proof.
  induction bs as [|b bs IH]; intros a w j k r HR HN Hb Ha Hw HS Hr Hro Hk Hz.
  - exists w. split; [reflexivity|]. now rewrite put_nil.
  - inversion Hb as [|? ? Hb1 Hb2]; subst. rewrite zlen_cons in *. pose proof (zlen_nonneg bs).
    specialize (HS ltac:(discriminate)). cbn [write_each].
    assert (HS1 : serves (regions w) a 1 j k).
    { rewrite <- (Z.add_0_r a), <- (Z.add_0_r k). eapply serves_part; eauto; lia. }
    assert (Hw1 : width 1) by (left; reflexivity).
    pose proof (api_write 1 a b w j k r (reachable_wf _ HR) Ha Hw1 HS1 Hr) as E. cbv zeta in E. rewrite Hro in E.
    rewrite byte_le1 in E by exact Hb1. pose proof (write_reachable _ _ _ _ _ _ HR Hw1 Ha E) as HR1. rewrite E.
    set (w1 := set_hits _ _) in *. assert (E1 : regions w1 = put (regions w) j k [b]) by reflexivity. clearbody w1.
    assert (F : Forall2 same_layout (regions w) (regions w1)).
    { rewrite E1. eapply Forall2_impl; [intros ? ?; apply same_but_data_layout|eapply put_same_but_data; eauto; change (zlen [b]) with 1; lia]. }
    destruct bs as [|b' bs].
    { exists w1. auto. }
    destruct (IH (a + 1) w1 j (k + 1) (with_data r (splice (r_data r) k [b]))) as (w' & E' & P'); auto.
    + eapply non_overlapping_layout; eauto.
    + rewrite zlen_cons in *. pose proof (zlen_nonneg bs). unfold u32 in *. lia.
    + lia.
    + intros _. eapply serves_layout; [exact F|]. eapply serves_part; [exact HN|exact HS|..]; rewrite ?zlen_cons in *; pose proof (zlen_nonneg bs); lia.
    + rewrite E1. unfold put. rewrite nth_error_upd_nth, Nat.eqb_refl, Hr. reflexivity.
    + lia.
    + cbn [r_data with_data]. rewrite splice_zlen; unfold zlen in *; cbn [length] in *; lia.
    + exists w'. split; [exact E'|]. rewrite P', E1. change 1 with (zlen [b]). rewrite (put_put _ _ _ _ _ r); auto.
      unfold zlen in *; cbn [length] in *; lia.
Qed.

Lemma write_bytes w n a v u w' :
  reachable w -> non_overlapping (regions w) -> width n -> u32 a -> a + n <= 4294967296 ->
  api (writeN n a v) w = Done u w' ->
  exists w'', write_each a (le (Z.to_nat n) v) w = Some w'' /\ regions w'' = regions w'.
Proof.
  intros HR HN Hn Ha Hw E. pose proof (width_nn _ Hn) as Hn'. pose proof (reachable_wf _ HR) as Hwf.
  destruct (mapped_dec _ a n Hwf Ha Hn') as [(j & k & r & HS & Hr & _ & K1 & K2 & K3)|H].
  2:{ rewrite api_write_unmapped in E by assumption. discriminate. }
  rewrite (api_write n a v w j k r) in E by assumption. cbv zeta in E. destruct (r_ro r) eqn:Ero; [discriminate|].
  injection E as <- <-. assert (Z : zlen (le (Z.to_nat n) v) = n) by (rewrite le_zlen; lia).
  apply write_each_put with (r := r); rewrite ?Z; auto using le_bytes. lia.
Qed.

(** ** C05 *)

Lemma read_only_kept w j r ops w' :
  reachable w -> nth_error (regions w) j = Some r -> r_ro r = true ->
  Forall op_args ops -> all_along (fun w o => direct_alias (regions w) o /\ ~ is_load o) ops w -> run ops w = Some w' ->
  exists r', nth_error (regions w') j = Some r' /\ r_ro r' = true /\ r_data r' = r_data r.
Proof.
  intros HR Hr Hro Ha HA E. destruct (reachable_inv _ HR) as (R & HI).
  apply (history (fun _ o => ~ is_load o) (fun w => exists r', nth_error (regions w) j = Some r' /\ r_ro r' = true /\ r_data r' = r_data r))
    with (ops := ops) (R := R) (w := w) (w' := w'); auto; [|eauto].
  intros R1 w1 o w2 _ _ Hl HE (r1 & H1 & H2 & H3). destruct HE as (_ & _ & HE). destruct (HE _ _ H1) as (r2 & H4 & H5).
  exists r2. split; [exact H4|]. split; [now apply (re_ro _ _ _ _ _ H5)|]. rewrite <- H3. now apply (re_rodata _ _ _ _ _ H5).
Qed.

Lemma map_write_writable w a n j k w' :
  reachable w -> u32 a -> u32 n -> api (MemorySim_MapForWrite a n) w = Done (j, k) w' ->
  exists r, serves (regions w) a n j k /\ nth_error (regions w) j = Some r /\ r_ro r = false /\ 0 <= k /\ k + n <= zlen (r_data r).
Proof.
  intros HR Ha Hn E. pose proof (reachable_wf _ HR) as Hwf. unfold api, MemorySim_MapForWrite in E.
  rewrite getDataPointer_wf in E by (assumption || apply Hn). change (regions (set_exn w _ _)) with (regions w) in E.
  destruct (find_from 0 (regions w) a n) as [[j' a']|] eqn:F; [|discriminate].
  destruct (locate _ _ _ _ _ Hwf Ha (proj1 Hn) F) as (r & k' & L1 & L2 & L3 & L4 & L5 & L6 & L7 & L8 & _).
  rewrite L1 in E. cbv zeta in E. rewrite L4 in E. change (WRITING =? WRITING) with true in E. cbn [andb] in E.
  destruct (r_ro r) eqn:Ero; [discriminate|]. injection E as <- <- _. exists r. repeat (split; [assumption|]). lia.
Qed.

(** ** C06 *)

Lemma alias_find rs a n i r j t :
  wf rs -> u32 a -> first_cover rs a n i r -> r_redir r = Some j ->
  let a2 := r_raddr r + (a - r_base r) in
  u32 a2 -> first_cover rs a2 n j t -> r_redir t = None ->
  find_from 0 rs a n = find_from 0 rs a2 n.
Proof.
  intros Hwf Ha F Hr a2 Ha2 F2 Ht. rewrite (find_first 0 _ _ _ _ _ F), (find_first 0 _ _ _ _ _ F2), Hr, Ht.
  cbn [Nat.add]. do 2 f_equal. rewrite <- (W_id a2 Ha2). f_equal. unfold a2. lia.
Qed.

Definition same_find (w : world) (a a2 n : Z) : Prop := find_from 0 (regions w) a n = find_from 0 (regions w) a2 n.

Lemma fmr_same w a a2 n : same_find w a a2 n -> findMatchingRegion a n w = findMatchingRegion a2 n w.
Proof. unfold same_find, findMatchingRegion. intros ->. reflexivity. Qed.

Lemma gdp_same w a a2 n t c : same_find w a a2 n -> getDataPointer a n t c w = getDataPointer a2 n t c w.
Proof. intro H. unfold getDataPointer. unfold bind at 1. unfold bind at 4. now rewrite (fmr_same _ _ _ _ H). Qed.

(** Every address-taking call at [a] behaves as the same call at [a2]. *)
Lemma same_find_calls w a a2 n :
  same_find w a a2 n ->
  (api (readN n a) w = api (readN n a2) w) /\
  (forall v, api (writeN n a v) w = api (writeN n a2 v) w) /\
  (api (MemorySim_MapForRead a n) w = api (MemorySim_MapForRead a2 n) w) /\
  (api (MemorySim_MapForWrite a n) w = api (MemorySim_MapForWrite a2 n) w) /\
  (forall t, api (MemorySim_SetHardwareWatchpoint a n t) w = api (MemorySim_SetHardwareWatchpoint a2 n t) w) /\
  (forall t, api (MemorySim_ClearHardwareWatchpoint a n t) w = api (MemorySim_ClearHardwareWatchpoint a2 n t) w) /\
  (api (MemorySim_SetHardwareBreakpoint a n) w = api (MemorySim_SetHardwareBreakpoint a2 n) w) /\
  (api (MemorySim_ClearHardwareBreakpoint a n) w = api (MemorySim_ClearHardwareBreakpoint a2 n) w) /\
  (n = 2 -> api (MemorySim_GetFlashReadCount a) w = api (MemorySim_GetFlashReadCount a2) w) /\
  (n = 1 -> api (MemorySim_MakeRegionReadOnly a) w = api (MemorySim_MakeRegionReadOnly a2) w).
Proof.
  intro H. assert (H' : same_find (set_exn w noException []) a a2 n) by exact H. unfold api.
  assert (G : forall t c, getDataPointer a n t c (set_exn w noException []) = getDataPointer a2 n t c (set_exn w noException []))
    by (intros; now apply gdp_same).
  assert (F := fmr_same _ _ _ _ H').
  assert (S : forall t, setWatchpoint a n t (set_exn w noException []) = setWatchpoint a2 n t (set_exn w noException [])).
  { intro t. unfold setWatchpoint. unfold bind at 1. unfold bind at 3. now rewrite F. }
  assert (C : forall t, clearWatchpoint a n t (set_exn w noException []) = clearWatchpoint a2 n t (set_exn w noException [])).
  { intro t. unfold clearWatchpoint. unfold bind at 1. unfold bind at 2. now rewrite F. }
  split; [unfold readN, bind; now rewrite G|]. split; [intro; unfold writeN, bind; now rewrite G|].
  split; [unfold MemorySim_MapForRead; now rewrite G|]. split; [unfold MemorySim_MapForWrite; now rewrite G|].
  unfold MemorySim_SetHardwareWatchpoint, MemorySim_ClearHardwareWatchpoint, MemorySim_SetHardwareBreakpoint, MemorySim_ClearHardwareBreakpoint.
  split; [intro; now rewrite S|]. split; [intro; now rewrite C|]. split; [now rewrite S|]. split; [now rewrite C|].
  split; intros ->.
  - unfold MemorySim_GetFlashReadCount. unfold bind at 1. unfold bind at 2. now rewrite F.
  - unfold MemorySim_MakeRegionReadOnly. unfold bind at 1. unfold bind at 4. now rewrite F.
Qed.

Lemma disjoint_first_cover rs i r a n :
  non_overlapping rs -> nth_error rs i = Some r -> covers r a n -> 0 < n -> first_cover rs a n i r.
Proof.
  intros HN Hi [C1 C2] Hn. split; [exact Hi|]. split; [split; assumption|]. intros i' r' Hlt Hr' [D1 D2].
  destruct (HN i' i r' r) as [D|[D|[D|D]]]; auto; lia.
Qed.

Lemma alias_target rs i r j :
  wf rs -> nth_error rs i = Some r -> r_redir r = Some j ->
  exists t, nth_error rs j = Some t /\ r_redir t = None /\ r_base t <= r_raddr r /\ u32 (r_raddr r) /\
            r_raddr r + r_size r <= r_base t + r_size t.
Proof.
  intros Hwf Hi Hr. destruct (Hwf _ _ Hi). destruct (wr_redir _ Hr) as (t & Ht & Htr & _ & S & [C1 C2] & U).
  exists t. destruct (Hwf _ _ Ht). repeat (split; [assumption|]). unfold u32 in *. rewrite W_id in S by (unfold u32; lia). lia.
Qed.

Lemma alias_same_find w i r j n k :
  reachable w -> non_overlapping (regions w) -> nth_error (regions w) i = Some r -> r_redir r = Some j ->
  0 <= k -> 0 < n -> k + n <= r_size r -> u32 (r_base r + k) -> u32 (r_raddr r + k) ->
  same_find w (r_base r + k) (r_raddr r + k) n.
Proof.
  intros HR HN Hi Hr Hk Hn Hkn Ha Ha2. pose proof (reachable_wf _ HR) as Hwf.
  destruct (alias_target _ _ _ _ Hwf Hi Hr) as (t & Ht & Htr & B & U & S).
  replace (r_raddr r + k) with (r_raddr r + (r_base r + k - r_base r)) in * by lia.
  unfold same_find. apply (alias_find _ _ _ i r j t); auto.
  - apply disjoint_first_cover; auto. split; lia.
  - apply disjoint_first_cover; auto. split; lia.
Qed.

(** ** C07 *)

Lemma alias_clamped w base red size u w' :
  reachable w -> u32 base -> u32 red -> u32 size -> direct_alias (regions w) (OAlias base red size) ->
  api (MemorySim_CreateAlias base red size) w = Done u w' ->
  exists j t r, first_cover (regions w) red 1 j t /\ regions w' = regions w ++ [r] /\
    r_base r = base /\ r_redir r = Some j /\ r_raddr r = red /\ r_ro r = r_ro t /\
    r_size r = Z.min size (r_base t + r_size t - red).
Proof.
  intros HR Hb Hr Hs Hd E. destruct (reachable_inv _ HR) as (R & HI). unfold api in E.
  pose proof (CreateAlias_post base red size R (set_exn w noException []) (Inv_exn _ _ _ _ HI) Hb Hr Hs Hd) as P.
  unfold post in P. destruct (MemorySim_CreateAlias base red size _) as [x w1|w1|]; try discriminate.
  injection E as -> ->. destruct P as (_ & _ & _ & _ & _ & j & t & F & Ht & Er).
  exists j, t, (new_alias (set_exn w noException []) base red size j t). split; [exact F|]. split; [exact Er|].
  repeat (split; [reflexivity|]). cbn -[Z.ltb]. destruct F as (F1 & (C1 & C2) & _).
  destruct (proj1 HI _ _ F1). unfold u32 in *. rewrite W_id by (unfold u32; lia).
  destruct (_ <? _) eqn:Q; lia.
Qed.

Lemma alias_inside w a n i r j :
  reachable w -> u32 a -> 0 <= n -> first_cover (regions w) a n i r -> r_redir r = Some j ->
  exists k t, serves (regions w) a n j k /\ nth_error (regions w) j = Some t /\ 0 <= k /\ k + n <= zlen (r_data t) /\
              k = (r_raddr r + (a - r_base r)) - r_base t.
Proof.
  intros HR Ha Hn F Hr. pose proof (reachable_wf _ HR) as Hwf. pose proof F as (H1 & (H2 & H2') & _).
  destruct (Hwf _ _ H1). destruct (wr_redir _ Hr) as (t & Ht & Htr & _ & S & [C1 C2] & U).
  pose proof (Hwf _ _ Ht) as T. destruct T. unfold u32 in *.
  assert (EW : W (r_raddr r - r_base t) = r_raddr r - r_base t) by (apply W_id; unfold u32; lia).
  exists (a - r_base r + W (r_raddr r - r_base t)), t. split.
  { exists i, r. split; [exact F|]. rewrite Hr. split; [reflexivity|]. eauto. }
  split; [exact Ht|]. rewrite EW in *. rewrite wr_len0 by exact Htr. lia.
Qed.

(** ** C09 *)

Lemma created_holds w base size u w1 a :
  reachable w -> u32 base -> u32 size -> u32 a -> base <= a < base + size ->
  (forall r, In r (regions w) -> ~ covers r a 1) ->
  api (MemorySim_CreateRegion base size) w = Done u w1 ->
  reachable w1 /\ exists j k, holds a 1 [0] j k w1.
Proof.
  intros HR Hb Hs Ha Hin Hno E. destruct (reachable_inv _ HR) as (R & HI). split.
  { eapply reach_step with (o := OCreate base size); [exact HR|split; assumption|exact I|].
    unfold step. cbn [op_run]. rewrite E. reflexivity. }
  unfold api in E.
  pose proof (CreateRegion_post base size R (set_exn w noException []) (Inv_exn _ _ _ _ HI) Hb Hs) as P.
  unfold post in P. destruct (MemorySim_CreateRegion base size _) as [x w2|w2|]; try discriminate.
  injection E as -> ->. destruct P as (_ & _ & Er & _). change (regions (set_exn w _ _)) with (regions w) in Er.
  set (x := new_region _ base size) in *. exists (length (regions w)), (a - base).
  assert (Hx : nth_error (regions w1) (length (regions w)) = Some x).
  { rewrite Er, nth_error_app2, Nat.sub_diag by lia. reflexivity. }
  split.
  - exists (length (regions w)), x. split; [|split; reflexivity]. split; [exact Hx|]. split; [unfold covers; cbn; lia|].
    intros i r Hi Hr. rewrite Er, nth_error_app1 in Hr by exact Hi. apply Hno. eapply nth_error_In; eauto.
  - exists x. split; [exact Hx|]. cbn. unfold zeros. apply slice_1; [lia|]. apply nth_error_repeat. lia.
Qed.

Lemma fresh_zero w base size u w1 a ops w2 :
  reachable w -> u32 base -> u32 size -> u32 a -> base <= a < base + size ->
  (forall r, In r (regions w) -> ~ covers r a 1) ->
  api (MemorySim_CreateRegion base size) w = Done u w1 ->
  Forall op_args ops -> all_along (fun w o => direct_alias (regions w) o /\ quiet a 1 w o) ops w1 ->
  run ops w1 = Some w2 ->
  exists w3, api (readN 1 a) w2 = Done 0 w3.
Proof.
  intros HR Hb Hs Ha Hin Hno E Hargs HA Hrun.
  destruct (created_holds w base size u w1 a) as (HR1 & j & k & HH); auto.
  destruct (reachable_inv _ HR1) as (R & HI).
  destruct (history (quiet a 1) (holds a 1 [0] j k)) with (ops := ops) (R := R) (w := w1) (w' := w2)
    as ((R' & HI') & HS & r & Hr & Hbb); auto.
  { intros. eapply holds_eff; eauto. lia. }
  destruct (read_served 1 a w2 j k r (proj1 HI') Ha (or_introl eq_refl) HS Hr) as (w3 & [H|[H _]]); [|discriminate].
  rewrite Hbb in H. cbn in H. eauto.
Qed.

(** ** C10 *)

Lemma create_appends w o w' :
  reachable w -> op_args o -> direct_alias (regions w) o ->
  (exists b s, o = OCreate b s) \/ (exists b r s, o = OAlias b r s) -> step o w = Some w' ->
  (regions w' = regions w \/ exists x, regions w' = regions w ++ [x]) /\ m_hits (w_mem w') = m_hits (w_mem w).
Proof.
  intros HR Ha Hd Ho E. destruct (reachable_inv _ HR) as (R & HI). unfold step, api in E.
  destruct Ho as [(b & s & ->)|(b & rd & s & ->)]; cbn in Ha; cbn [op_run] in E.
  - destruct Ha as [Hb Hs]. pose proof (CreateRegion_post b s R (set_exn w noException []) (Inv_exn _ _ _ _ HI) Hb Hs) as P.
    unfold post in P. destruct (MemorySim_CreateRegion b s _) as [x w2|w2|]; try discriminate; injection E as ->.
    + destruct P as (_ & _ & P & _ & H & _). split; [right; eauto|exact H].
    + destruct P as (_ & _ & P & _). rewrite P. auto.
  - destruct Ha as (Hb & Hr & Hs).
    pose proof (CreateAlias_post b rd s R (set_exn w noException []) (Inv_exn _ _ _ _ HI) Hb Hr Hs Hd) as P.
    unfold post in P. destruct (MemorySim_CreateAlias b rd s _) as [x w2|w2|]; try discriminate; injection E as ->.
    + destruct P as (_ & _ & _ & H & _ & j & t & _ & _ & P). split; [right; eauto|exact H].
    + destruct P as (_ & _ & P & _). rewrite P. auto.
Qed.

Lemma prefix_access w w' n a :
  reachable w -> reachable w' -> width n -> u32 a ->
  (exists x, regions w' = regions w ++ x) -> m_hits (w_mem w') = m_hits (w_mem w) ->
  (exists r, In r (regions w) /\ covers r a n) ->
  outcome_of (api (readN n a) w') = outcome_of (api (readN n a) w) /\
  forall v, outcome_of (api (writeN n a v) w') = outcome_of (api (writeN n a v) w).
Proof.
  intros HR HR' Hn Ha (x & Ex) Hh (r0 & Hin & Hc). pose proof (width_nn _ Hn) as Hn'.
  pose proof (reachable_wf _ HR) as Hwf. pose proof (reachable_wf _ HR') as Hwf'.
  destruct (mapped_dec _ a n Hwf Ha Hn') as [(j & k & r & HS & Hr & _ & K1 & K2 & K3)|H].
  2:{ exfalso. eapply H; eauto. }
  assert (HS' : serves (regions w') a n j k) by (rewrite Ex; now apply serves_app).
  assert (Hr' : nth_error (regions w') j = Some r).
  { rewrite Ex, nth_error_app1; [exact Hr|]. apply nth_error_Some. congruence. }
  split; [|intro v].
  - rewrite (api_read n a w j k r), (api_read n a w' j k r) by assumption. cbv zeta. rewrite Hh.
    destruct (scan_wps _ _ _ _ _ _) as [h brk]. destruct brk; reflexivity.
  - rewrite (api_write n a v w j k r), (api_write n a v w' j k r) by assumption. cbv zeta.
    destruct (r_ro r); reflexivity.
Qed.
