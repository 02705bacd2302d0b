(** Proofs about host pointers and about what the memory map says of single regions. *)
From Coq Require Import String ZArith List Bool Lia ZifyBool ZifyNat.
From Verif Require Import Base BaseLemmas World MemSim Sat MemSpec MemLemmas MemInv MemOps MemOps3 MemHist MemHist2 MemThms MapSpec.
Import ListNotations.
Open Scope Z_scope.

(** ** Host pointers *)

Lemma counted_data rs j r n k type i :
  option_map r_data (nth_error (counted_regions rs j r n k type) i) = option_map r_data (nth_error rs i).
Proof.
  unfold counted_regions. destruct (_ && _); [|reflexivity]. unfold bump. destruct (r_rc r) as [[b c]|]; [|reflexivity].
  rewrite nth_error_upd_nth. destruct (Nat.eqb j i); [|reflexivity]. destruct (nth_error rs i); reflexivity.
Qed.
Lemma counted_other rs j r n k type : n <> 2 -> counted_regions rs j r n k type = rs.
Proof. intro N. unfold counted_regions. replace (n =? 2) with false by lia. now rewrite andb_false_r. Qed.

Lemma storage_data rs rs' : (forall i, option_map r_data (nth_error rs' i) = option_map r_data (nth_error rs i)) -> forall j k, storage rs' j k = storage rs j k.
Proof. intros H j k. unfold storage. specialize (H j). destruct (nth_error rs' j), (nth_error rs j); cbn in H; try discriminate; [injection H as ->|]; reflexivity. Qed.
Lemma host_data w w' p n : (forall i, option_map r_data (nth_error (regions w') i) = option_map r_data (nth_error (regions w) i)) -> host_bytes w' p n = host_bytes w p n.
Proof. intros H. unfold host_bytes. specialize (H (fst p)). destruct (nth_error (regions w') _), (nth_error (regions w) _); cbn in H; try discriminate; [injection H as ->|]; reflexivity. Qed.

Lemma map_read_eq w a n j k r :
  wf (regions w) -> u32 a -> 0 <= n -> serves (regions w) a n j k -> nth_error (regions w) j = Some r ->
  api (MemorySim_MapForRead a n) w = Done (j, k) (set_hits (set_regions (set_exn w noException []) (counted_regions (regions w) j r n k READING)) (m_hits (w_mem w))).
Proof.
  intros Hwf Ha Hn HS Hr. unfold api, MemorySim_MapForRead. rewrite getDataPointer_wf by assumption.
  change (regions (set_exn w _ _)) with (regions w).
  destruct (serves_find _ _ _ _ _ Hwf Ha Hn HS) as (r' & a' & F & Hr' & _ & L1 & L2 & L3 & L4 & L5).
  rewrite Hr in Hr'. injection Hr' as <-. rewrite F, Hr. cbv zeta. rewrite L1. reflexivity.
Qed.
Lemma map_write_eq w a n j k r :
  wf (regions w) -> u32 a -> 0 <= n -> serves (regions w) a n j k -> nth_error (regions w) j = Some r ->
  api (MemorySim_MapForWrite a n) w = if r_ro r then Raised busErrorException (set_exn w busErrorException []) else Done (j, k) (set_exn w noException []).
Proof.
  intros Hwf Ha Hn HS Hr. unfold api, MemorySim_MapForWrite. rewrite getDataPointer_wf by assumption.
  change (regions (set_exn w _ _)) with (regions w).
  destruct (serves_find _ _ _ _ _ Hwf Ha Hn HS) as (r' & a' & F & Hr' & _ & L1 & L2 & L3 & L4 & L5).
  rewrite Hr in Hr'. injection Hr' as <-. rewrite F, Hr. cbv zeta. rewrite L1. change (WRITING =? WRITING) with true. cbn [andb].
  destruct (r_ro r); [reflexivity|]. do 2 f_equal. unfold counted_regions. change (WRITING =? READING) with false. cbn [andb].
  destruct w as [m ? ? ? ? ? ? ? ? ? ?]; destruct m; reflexivity.
Qed.
Lemma map_unmapped w a n t : wf (regions w) -> u32 a -> 0 <= n -> (forall r, In r (regions w) -> ~ covers r a n) ->
  api (getDataPointer a n t false) w = Raised busErrorException (set_exn w busErrorException []).
Proof.
  intros Hwf Ha Hn H. unfold api. rewrite getDataPointer_wf by assumption. change (regions (set_exn w _ _)) with (regions w). rewrite none_find by exact H. reflexivity.
Qed.

Lemma host_served w a n j k r : serves (regions w) a n j k -> nth_error (regions w) j = Some r -> 0 <= k -> k + n <= zlen (r_data r) ->
  host_bytes w (j, k) n = Some (slice (r_data r) k n).
Proof. intros HS Hr H1 H2. unfold host_bytes. cbn [fst snd]. rewrite Hr. destruct (_ && _) eqn:E; [reflexivity|lia]. Qed.

Lemma map_read w a n : reachable w -> u32 a -> u32 n ->
  ((exists r, In r (regions w) /\ covers r a n) ->
   exists p w' bs, api (MemorySim_MapForRead a n) w = Done p w' /\ host_bytes w' p n = Some bs /\ zlen bs = n /\
     (forall j k, storage (regions w') j k = storage (regions w) j k) /\ m_hits (w_mem w') = m_hits (w_mem w) /\
     (n <> 2 -> w_mem w' = w_mem w)) /\
  (~ (exists r, In r (regions w) /\ covers r a n) ->
   api (MemorySim_MapForRead a n) w = Raised busErrorException (set_exn w busErrorException [])).
Proof.
  intros HR Ha Hn. pose proof (reachable_wf _ HR) as Hwf. split.
  - intros (x & Hx & Cx). destruct (mapped_dec _ a n Hwf Ha (proj1 Hn)) as [(j & k & r & HS & Hr & _ & K1 & K2 & K3)|H].
    2:{ exfalso. eapply H; eauto. }
    eexists (j, k), _, (slice (r_data r) k n). split; [apply map_read_eq; eauto; apply Hn|]. split; [|split; [|split; [|split]]].
    + rewrite (host_data w). 2:{ intro i. apply counted_data. } eapply host_served; eauto. lia.
    + apply slice_zlen; try lia. apply Hn.
    + apply storage_data. intro i. apply counted_data.
    + reflexivity.
    + intro N. rewrite counted_other by exact N. destruct w as [m ? ? ? ? ? ? ? ? ? ?]; destruct m; reflexivity.
  - intro N. apply map_unmapped; auto; [apply Hn|]. intros r Hr C. apply N. eauto.
Qed.

Lemma map_write w a n : reachable w -> u32 a -> u32 n ->
  (writable (regions w) a n -> exists p bs, api (MemorySim_MapForWrite a n) w = Done p (set_exn w noException []) /\ host_bytes w p n = Some bs /\ zlen bs = n) /\
  (~ writable (regions w) a n -> api (MemorySim_MapForWrite a n) w = Raised busErrorException (set_exn w busErrorException [])).
Proof.
  intros HR Ha Hn. pose proof (reachable_wf _ HR) as Hwf.
  destruct (mapped_dec _ a n Hwf Ha (proj1 Hn)) as [(j & k & r & HS & Hr & _ & K1 & K2 & K3)|H].
  - rewrite (map_write_eq w a n j k r) by (assumption || apply Hn). split.
    + intros (j' & k' & r' & HS' & Hr' & Hro). destruct (serves_unique _ _ _ _ _ _ _ HS HS') as [<- <-]. rewrite Hr in Hr'. injection Hr' as <-. rewrite Hro.
      exists (j, k), (slice (r_data r) k n). split; [reflexivity|]. split; [eapply host_served; eauto; lia|apply slice_zlen; try lia; apply Hn].
    + intro N. destruct (r_ro r) eqn:E; [reflexivity|]. exfalso. apply N. exists j, k, r. auto.
  - split.
    + intros (j & k & r & (i & x & (H1 & H2 & _) & _) & _). exfalso. eapply H; [eapply nth_error_In|]; eauto.
    + intros _. apply map_unmapped; auto. apply Hn.
Qed.

(** A pointer for reading leads to the storage of the access. *)
Lemma map_read_serves w a n p w' : reachable w -> u32 a -> u32 n -> api (MemorySim_MapForRead a n) w = Done p w' ->
  exists r, serves (regions w) a n (fst p) (snd p) /\ nth_error (regions w) (fst p) = Some r /\ 0 <= snd p /\ snd p + n <= zlen (r_data r) /\
  host_bytes w' p n = host_bytes w p n.
Proof.
  intros HR Ha Hn E. pose proof (reachable_wf _ HR) as Hwf.
  destruct (mapped_dec _ a n Hwf Ha (proj1 Hn)) as [(j & k & r & HS & Hr & _ & K1 & K2 & K3)|H].
  2:{ unfold MemorySim_MapForRead in E. rewrite map_unmapped in E by (assumption || apply Hn). discriminate. }
  rewrite (map_read_eq w a n j k r) in E by (assumption || apply Hn). injection E as <- <-. exists r. cbn [fst snd].
  do 3 (split; [assumption|]). split; [lia|]. apply host_data. intro i. apply counted_data.
Qed.

Lemma map_value w a n p w' : reachable w -> width n -> u32 a -> api (MemorySim_MapForRead a n) w = Done p w' ->
  exists bs w2, host_bytes w' p n = Some bs /\ (api (readN n a) w = Done (of_le bs) w2 \/ (n = 2 /\ api (readN n a) w = Raised hardwareBreakpointException w2)).
Proof.
  intros HR Hn Ha E. assert (Hu : u32 n) by (unfold width, u32 in *; lia). destruct (map_read_serves _ _ _ _ _ HR Ha Hu E) as (r & HS & Hr & K1 & K2 & HB).
  destruct p as [j k]. cbn [fst snd] in *. destruct (read_served n a w j k r (reachable_wf _ HR) Ha Hn HS Hr) as (w2 & H).
  exists (slice (r_data r) k n), w2. split; [|exact H]. rewrite HB. eapply host_served; eauto.
Qed.

Lemma map_bytes w a n p w' bs i b : reachable w -> non_overlapping (regions w) -> u32 a -> u32 n -> a + n <= 4294967296 ->
  api (MemorySim_MapForRead a n) w = Done p w' -> host_bytes w' p n = Some bs -> nth_error bs i = Some b ->
  exists w2, api (readN 1 (a + Z.of_nat i)) w = Done b w2.
Proof.
  intros HR HN Ha Hn Hw E HB Hb. destruct (map_read_serves _ _ _ _ _ HR Ha Hn E) as (r & HS & Hr & K1 & K2 & HX).
  destruct p as [j k]. cbn [fst snd] in *. rewrite HX, (host_served w a n j k r) in HB by assumption. injection HB as <-.
  assert (L : (i < Z.to_nat n)%nat).
  { assert (i < length (slice (r_data r) k n))%nat by (apply nth_error_Some; congruence). unfold slice in *. rewrite firstn_length in *. lia. }
  rewrite nth_error_slice in Hb by lia.
  destruct (api_read1 (a + Z.of_nat i) w j (k + Z.of_nat i) r (reachable_wf _ HR)) as (b' & w2 & Hb' & E2).
  - unfold u32 in *. lia.
  - eapply serves_part; eauto; lia.
  - exact Hr.
  - exists w2. rewrite E2. replace (Z.to_nat (k + Z.of_nat i)) with (Z.to_nat k + i)%nat in Hb' by lia. congruence.
Qed.

(** ** Storing through a pointer *)

Lemma host_store_eq w j k i bs r : nth_error (regions w) j = Some r -> 0 <= k + i -> k + i + zlen bs <= zlen (r_data r) ->
  api (host_store (j, k) i bs) w = Done tt (set_regions (set_exn w noException []) (put (regions w) j (k + i) bs)).
Proof.
  intros Hr H1 H2. unfold api, host_store, store_ptr, bind, get_region. cbn [fst snd]. change (regions (set_exn w _ _)) with (regions w). rewrite Hr.
  destruct (_ && _) eqn:E; [|lia]. reflexivity.
Qed.

Lemma same_data_layout r r' : same_but_data r r' -> same_layout r r'.
Proof. intros (d & -> & _). repeat split. Qed.

Lemma F2_weaken {A} (P Q : A -> A -> Prop) l m : (forall x y, P x y -> Q x y) -> Forall2 P l m -> Forall2 Q l m.
Proof. intros H. induction 1; constructor; auto. Qed.

Lemma map_store w a n p w' i bs : reachable w -> non_overlapping (regions w) -> u32 a -> u32 n -> a + n <= 4294967296 ->
  api (MemorySim_MapForWrite a n) w = Done p w' -> 0 <= i -> i + zlen bs <= n -> Forall byte bs ->
  exists w2, api (host_store p i bs) w' = Done tt w2 /\
    (forall x b, nth_error bs x = Some b -> exists w3, api (readN 1 (a + i + Z.of_nat x)) w2 = Done b w3) /\
    (forall j k, ~ (j = fst p /\ snd p + i <= k < snd p + i + zlen bs) -> storage (regions w2) j k = storage (regions w) j k) /\
    Forall2 same_settings (regions w) (regions w2).
Proof.
  intros HR HN Ha Hn Hw E Hi Hb HB. pose proof (reachable_wf _ HR) as Hwf. destruct (reachable_inv _ HR) as (R & HI).
  destruct p as [j k]. destruct (map_write_writable _ _ _ _ _ _ HR Ha Hn E) as (r & HS & Hr & Hro & K1 & K2).
  rewrite (map_write_eq w a n j k r), Hro in E by (assumption || apply Hn). injection E as <-.
  assert (0 <= zlen bs) by (unfold zlen; lia).
  assert (S : Forall2 same_but_data (regions w) (put (regions w) j (k + i) bs)) by (eapply put_same_but_data; eauto; lia).
  eexists. split; [apply host_store_eq with (r := r); [exact Hr|lia|lia]|]. cbn [fst snd]. split; [|split].
  - intros x b Hx. set (w2 := set_regions _ _). assert (X : (x < length bs)%nat) by (apply nth_error_Some; congruence).
    assert (HI2 : Inv R w2). { eapply (Inv_put R (set_exn w noException [])); eauto; try lia; exact HI. }
    assert (HS2 : serves (regions w2) (a + (i + Z.of_nat x)) 1 j (k + (i + Z.of_nat x))).
    { eapply serves_layout; [|eapply serves_part; eauto; unfold zlen in *; lia]. exact (F2_weaken _ _ _ _ same_data_layout S). }
    assert (Hr2 : nth_error (regions w2) j = Some (with_data r (splice (r_data r) (k + i) bs))).
    { unfold w2, put. cbn -[splice]. now apply nth_error_upd_same with (f := fun r => with_data r (splice (r_data r) (k + i) bs)). }
    destruct (fun U => api_read1 (a + (i + Z.of_nat x)) w2 j _ _ (proj1 HI2) U HS2 Hr2) as (b' & w3 & Hb' & E3).
    { unfold u32, zlen in *. lia. }
    exists w3. rewrite <- Z.add_assoc, E3. cbn [r_data with_data] in Hb'. rewrite nth_error_splice in Hb' by lia.
    destruct (_ && _) eqn:Q in Hb'; [|unfold zlen in *; lia]. replace (_ - _)%nat with x in Hb' by lia. congruence.
  - intros j' k' N. eapply storage_put; eauto; try lia.
  - refine (F2_weaken _ _ _ _ _ S). intros x y (d & -> & L). repeat split. cbn. congruence.
Qed.
