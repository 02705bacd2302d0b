(** The effect of every simulator call on every region, and histories of calls. *)
From Coq Require Import String ZArith List Bool Lia ZifyBool ZifyNat Permutation Sorted.
From Verif Require Import Base World MemSim BaseLemmas MemSpec MemLemmas MemInv MemOps MemOps2 MemOps3.
Import ListNotations.
Open Scope Z_scope.

(** ** Effect on one region *)

Definition rc_eff (rs : list region) (o : op) (j : nat) (r r' : region) : Prop :=
  r_ro r' = r_ro r /\
  match r_rc r with
  | None => r_rc r' = None
  | Some (b, c) => exists c', r_rc r' = Some (b, c') /\ length c' = length c /\
      forall h, (counts_read rs o j (Z.of_nat h) -> nth_error c' h = option_map (fun x => W (x + 1)) (nth_error c h)) /\
                (~ counts_read rs o j (Z.of_nat h) -> nth_error c' h = nth_error c h)
  end.

Record region_eff (rs : list region) (o : op) (j : nat) (r r' : region) : Prop := {
  re_layout : same_layout r r';
  re_len : length (r_data r') = length (r_data r);
  re_ro : r_ro r = true -> r_ro r' = true;
  re_data : forall k, ~ touches rs o j (Z.of_nat k) -> nth_error (r_data r') k = nth_error (r_data r) k;
  re_rodata : r_ro r = true -> ~ is_load o -> r_data r' = r_data r;
  re_wps : ~ is_wp_op o -> r_wps r' = r_wps r;
  re_rc : ~ recounts rs o j -> rc_eff rs o j r r';
  re_rcs : r_rc r <> None -> r_rc r' <> None }.

Definition all_regions (rs rs' : list region) (P : nat -> region -> region -> Prop) : Prop :=
  forall j r, nth_error rs j = Some r -> exists r', nth_error rs' j = Some r' /\ P j r r'.

(** The blocks [L] that became unreachable: the counter array that a new one took the place of. *)
Definition spill (rs rs' : list region) (o : op) (L : list nat) : Prop :=
  (L = [] \/ exists j r b c r' x, recounts rs o j /\ nth_error rs j = Some r /\ r_rc r = Some (b, c) /\
     nth_error rs' j = Some r' /\ r_rc r' = Some x /\ L = [b]) /\
  (forall j r b c r' b' c', nth_error rs j = Some r -> r_rc r = Some (b, c) -> nth_error rs' j = Some r' ->
     r_rc r' = Some (b', c') -> b' = b \/ L = [b]).

Definition eff (o : op) (R : list nat) (w w' : world) : Prop :=
  frame w w' /\ (exists L, Inv (L ++ R) w' /\ spill (regions w) (regions w') o L) /\
  all_regions (regions w) (regions w') (region_eff (regions w) o).

Lemma spill_same rs rs' o : (forall j r r', nth_error rs j = Some r -> nth_error rs' j = Some r' -> option_map fst (r_rc r') = option_map fst (r_rc r)) -> spill rs rs' o [].
Proof.
  intro H. split; [now left|]. intros j r b c r' b' c' H1 H2 H3 H4. left. specialize (H j r r' H1 H3). rewrite H2, H4 in H. cbn in H. congruence.
Qed.

Lemma spill_none rs rs' o L : no_recount rs o -> spill rs rs' o L -> L = [].
Proof.
  intros HN [[H|(j & r & b & c & r' & x & H1 & H2 & H3 & _)] _]; [exact H|]. rewrite (HN j r H1 H2) in H3. discriminate.
Qed.

Lemma eff_intro o R w w' : frame w w' -> Inv R w' -> (forall j, ~ recounts (regions w) o j) ->
  all_regions (regions w) (regions w') (region_eff (regions w) o) -> eff o R w w'.
Proof.
  intros H1 H2 H3 H4. split; [exact H1|]. split; [|exact H4]. exists []. split; [exact H2|]. apply spill_same.
  intros j r r' Hr Hr'. destruct (H4 j r Hr) as (r2 & E & K). rewrite Hr' in E. injection E as <-.
  destruct (re_rc _ _ _ _ _ K (H3 j)) as (_ & C). destruct (r_rc r) as [[b c]|].
  - destruct C as (c' & -> & _). reflexivity.
  - rewrite C. reflexivity.
Qed.

Lemma same_layout_refl r : same_layout r r.
Proof. repeat split. Qed.

Lemma rc_eff_same rs o j r r' :
  r_ro r' = r_ro r -> r_rc r' = r_rc r -> (forall h, ~ counts_read rs o j h) -> rc_eff rs o j r r'.
Proof.
  intros H1 H2 H3. split; [exact H1|]. destruct (r_rc r) as [[b c]|]; [|exact H2].
  exists c. split; [exact H2|]. split; [reflexivity|]. intro h. split; [|auto]. intro Hc. exfalso. eapply H3; eauto.
Qed.

Lemma region_eff_refl rs o j r : (forall h, ~ counts_read rs o j h) -> region_eff rs o j r r.
Proof.
  intro H. constructor; auto using same_layout_refl. intros _. now apply rc_eff_same.
Qed.

Lemma all_refl rs o : (forall j h, ~ counts_read rs o j h) -> all_regions rs rs (region_eff rs o).
Proof. intros H j r Hj. exists r. split; [exact Hj|]. apply region_eff_refl. auto. Qed.

Lemma all_app rs rs' o x : all_regions rs rs' (region_eff rs o) -> all_regions rs (rs' ++ x) (region_eff rs o).
Proof.
  intros H j r Hj. destruct (H j r Hj) as (r' & H1 & H2). exists r'. split; [|exact H2].
  rewrite nth_error_app1; [exact H1|]. apply nth_error_Some. congruence.
Qed.

Lemma all_upd rs o i f :
  (forall j h, ~ counts_read rs o j h) -> (forall r, nth_error rs i = Some r -> region_eff rs o i r (f r)) ->
  all_regions rs (upd_nth i f rs) (region_eff rs o).
Proof.
  intros Hc H j r Hj. rewrite nth_error_upd_nth. destruct (Nat.eqb_spec i j) as [<-|N].
  - rewrite Hj. exists (f r). auto.
  - exists r. split; [exact Hj|]. apply region_eff_refl. auto.
Qed.

(** ** Reads *)

Lemma eff_same o R w w' :
  Inv R w' -> frame w w' -> regions w' = regions w -> (forall j h, ~ counts_read (regions w) o j h) -> eff o R w w'.
Proof.
  intros H1 H2 H3 H4. split; [exact H2|]. rewrite H3. split; [|now apply all_refl]. exists []. split; [exact H1|]. apply spill_same. congruence.
Qed.

Lemma counted_all rs j r n k o a :
  wf rs -> nth_error rs j = Some r -> serves rs a n j k -> 0 <= k -> k + n <= r_size r ->
  (forall j' h, counts_read rs o j' h <-> n = 2 /\ exists k', serves rs a n j' k' /\ h = k' / 2) ->
  all_regions rs (counted_regions rs j r n k READING) (region_eff rs o).
Proof.
  intros Hwf Hj HS Hk Hkn Hc i x Hi. unfold counted_regions.
  change (READING =? READING) with true. cbn [andb].
  destruct (n =? 2) eqn:En.
  - rewrite bump_nth by exact Hj. destruct (Nat.eqb_spec j i) as [<-|N].
    + rewrite Hj in Hi. injection Hi as <-. eexists. split; [reflexivity|].
      destruct (r_rc r) as [[b c]|] eqn:C.
      * constructor; cbn; try (repeat split; fail); auto; try discriminate.
        intros _. split; [reflexivity|]. rewrite C. cbn.
        exists (upd_nth (Z.to_nat (k / 2)) (fun x => W (x + 1)) c). split; [reflexivity|].
        split; [apply upd_nth_length|]. intro h. rewrite nth_error_upd_nth. split; intro H.
        -- apply Hc in H as (_ & k' & HS' & E). destruct (serves_unique _ _ _ _ _ _ _ HS HS') as [_ <-].
           rewrite <- E, Nat2Z.id, Nat.eqb_refl. reflexivity.
        -- destruct (Nat.eqb_spec (Z.to_nat (k / 2)) h) as [<-|N]; [|reflexivity].
           exfalso. apply H. apply Hc. split; [lia|]. exists k. split; [exact HS|]. lia.
      * constructor; try (repeat split; fail); auto. intros _. split; [reflexivity|]. rewrite C. reflexivity.
    + exists x. split; [exact Hi|]. apply region_eff_refl. intros h H. apply Hc in H as (_ & k' & HS' & _).
      destruct (serves_unique _ _ _ _ _ _ _ HS HS'). congruence.
  - exists x. split; [exact Hi|]. apply region_eff_refl. intros h H. apply Hc in H as (H & _). lia.
Qed.

Lemma find_none_no_read rs a n : find_from 0 rs a n = None -> forall j k, ~ serves rs a n j k.
Proof.
  intros F j k (i & r & (H1 & H2 & _) & _). eapply find_none; eauto. eapply nth_error_In; eauto.
Qed.

Lemma read_all w a n o h j r k :
  wf (regions w) -> nth_error (regions w) j = Some r -> serves (regions w) a n j k -> 0 <= k -> k + n <= r_size r ->
  (forall j' h, counts_read (regions w) o j' h <-> n = 2 /\ exists k', serves (regions w) a n j' k' /\ h = k' / 2) ->
  all_regions (regions w) (regions (set_hits (set_regions w (counted_regions (regions w) j r n k READING)) h)) (region_eff (regions w) o).
Proof.
  intros. change (regions (set_hits (set_regions w ?x) h)) with x. eapply counted_all; eauto.
Qed.

Lemma drop_post {A} (m : M world A) w (P : world -> Prop) :
  post m w (fun _ w' => P w') P -> post (drop m) w (fun _ w' => P w') P.
Proof. unfold post, drop, bind, ret. destruct (m w); auto. Qed.

Definition op_ok (o : op) (R : list nat) (w : world) : Prop :=
  post (op_run o) w (fun _ w' => eff o R w w') (fun w' => eff o R w w').

Lemma ORead_ok R w n a : Inv R w -> width n -> u32 a -> op_ok (ORead n a) R w.
Proof.
  intros HI Hn Ha. apply drop_post. pose proof (readN_keeps R n a w HI Ha Hn) as K.
  unfold keeps, post in *. rewrite readN_wf in * by (apply HI || assumption).
  assert (Hn' : 0 <= n) by (unfold width in Hn; lia).
  destruct (find_from 0 (regions w) a n) as [[j a']|] eqn:F.
  - destruct (locate _ _ _ _ _ (proj1 HI) Ha Hn' F) as (r & k & L1 & L2 & L3 & L4 & L5 & L6 & L7 & L8 & _).
    rewrite L1 in *. cbv zeta in *. rewrite L4 in *. destruct (scan_wps _ _ _ _ _ _) as [h brk]. destruct brk.
    + destruct K as [K1 K2]. apply eff_intro; [exact K2|auto|cbn; auto|].
      change (regions (set_exn ?x _ _)) with (regions x). apply read_all with (a := a); auto; [apply HI|].
      intros. reflexivity.
    + destruct K as [K1 K2]. apply eff_intro; [exact K2|auto|cbn; auto|].
      apply read_all with (a := a); auto; [apply HI|]. intros. reflexivity.
  - destruct K as [K1 K2]. apply eff_same; auto. intros j h (_ & k & S & _). eapply find_none_no_read; eauto.
Qed.

Lemma OMapRead_ok R w n a : Inv R w -> u32 n -> u32 a -> op_ok (OMapRead a n) R w.
Proof.
  intros HI Hn Ha. apply drop_post. unfold MemorySim_MapForRead.
  pose proof (getDataPointer_keeps R a n READING false w HI Ha (proj1 Hn)) as K.
  unfold keeps, post in *. rewrite getDataPointer_wf in * by (apply HI || apply Hn || assumption).
  destruct (find_from 0 (regions w) a n) as [[j a']|] eqn:F.
  - destruct (locate _ _ _ _ _ (proj1 HI) Ha (proj1 Hn) F) as (r & k & L1 & L2 & L3 & L4 & L5 & L6 & L7 & L8 & _).
    rewrite L1 in *. cbv zeta in *. rewrite L4 in *. change (READING =? WRITING) with false in *. cbn [andb] in *.
    destruct K as [K1 K2]. apply eff_intro; [exact K2|auto|cbn; auto|].
    apply read_all with (a := a); auto; [apply HI|]. intros. reflexivity.
  - destruct K as [K1 K2]. apply eff_same; auto. intros j h (_ & k & S & _). eapply find_none_no_read; eauto.
Qed.

Lemma OMapWrite_ok R w n a : Inv R w -> u32 n -> u32 a -> op_ok (OMapWrite a n) R w.
Proof.
  intros HI Hn Ha. apply drop_post. unfold MemorySim_MapForWrite.
  pose proof (getDataPointer_keeps R a n WRITING false w HI Ha (proj1 Hn)) as K.
  unfold keeps, post in *. rewrite getDataPointer_wf in * by (apply HI || apply Hn || assumption).
  destruct (find_from 0 (regions w) a n) as [[j a']|] eqn:F.
  - destruct (find_valid _ _ _ _ _ (proj1 HI) F) as (r & Hj & _). rewrite Hj in *. cbv zeta in *.
    destruct (_ && _).
    + destruct K. apply eff_same; auto.
    + destruct K. apply eff_same; auto.
  - destruct K. apply eff_same; auto.
Qed.

(** ** Writes *)

Lemma put_all rs o j off bs r :
  (forall j' h, ~ counts_read rs o j' h) -> nth_error rs j = Some r -> 0 <= off -> off + zlen bs <= zlen (r_data r) ->
  (forall k, ~ touches rs o j k -> ~ (off <= k < off + zlen bs)) -> r_ro r = false ->
  all_regions rs (put rs j off bs) (region_eff rs o).
Proof.
  intros Hc Hj H1 H2 Ht Hro. apply all_upd; [exact Hc|]. intros x Hx. rewrite Hj in Hx. injection Hx as <-.
  constructor; cbn; try (repeat split; fail); auto.
  - now apply splice_length.
  - intros k Hk. rewrite nth_error_splice by assumption. destruct (_ && _) eqn:Q; [|reflexivity].
    exfalso. eapply Ht; [exact Hk|]. lia.
  - congruence.
  - intros _. now apply rc_eff_same.
Qed.

Lemma OWrite_ok R w n a v : Inv R w -> width n -> u32 a -> op_ok (OWrite n a v) R w.
Proof.
  intros HI Hn Ha. unfold op_ok, op_run. pose proof (writeN_keeps R n a v w HI Ha Hn) as K.
  unfold keeps, post in *. rewrite writeN_wf in * by (apply HI || assumption).
  assert (Hn' : 0 <= n) by (unfold width in Hn; lia).
  destruct (find_from 0 (regions w) a n) as [[j a']|] eqn:F.
  - destruct (locate _ _ _ _ _ (proj1 HI) Ha Hn' F) as (r & k & L1 & L2 & L3 & L4 & L5 & L6 & L7 & L8 & _).
    rewrite L1 in *. cbv zeta in *. rewrite L4 in *. destruct (r_ro r) eqn:Ero.
    + destruct K. apply eff_same; auto.
    + destruct (scan_wps _ _ _ _ _ _) as [h brk]. destruct brk.
      * destruct K. apply eff_same; auto.
      * destruct K as [K1 K2]. apply eff_intro; [exact K2|auto|cbn; auto|].
        change (regions (set_hits (set_regions w ?x) h)) with x.
        change (upd_nth j _ (regions w)) with (put (regions w) j k (le (Z.to_nat n) v)).
        eapply put_all; eauto; rewrite ?le_zlen; try lia.
        intros k' Hk Hin. apply Hk. exists k. split; [exact L3|]. lia.
  - destruct K. apply eff_same; auto.
Qed.

(** ** Loads *)

Lemma storage_data rs rs' j r r' k :
  nth_error rs j = Some r -> nth_error rs' j = Some r' -> storage rs' j (Z.of_nat k) = storage rs j (Z.of_nat k) ->
  nth_error (r_data r') k = nth_error (r_data r) k.
Proof.
  intros H H' E. unfold storage in E. rewrite H, H' in E.
  replace (0 <=? Z.of_nat k) with true in E by lia. rewrite Nat2Z.id in E. exact E.
Qed.

(** The combined effect of a successful or failing load. *)
Lemma Load_eff R w base src size :
  Inv R w -> u32 base -> Forall byte src -> 0 <= size <= zlen src ->
  post (MemorySim_LoadFromFlashImage base src size) w
    (fun _ w' => Inv R w' /\ frame w w' /\ data_only w w' /\ w_code w' = w_code w /\
       (forall j k, ~ load_touches (regions w) base size j k -> storage (regions w') j k = storage (regions w) j k))
    (fun w' => Inv R w' /\ frame w w' /\ data_only w w' /\ w_code w' = Z.max busErrorException (w_code w) /\
       (forall j k, ~ load_touches (regions w) base size j k -> storage (regions w') j k = storage (regions w) j k)).
Proof.
  intros HI Hb Hs Hl. unfold MemorySim_LoadFromFlashImage.
  assert (Hn : (Z.to_nat size <= length src)%nat) by (unfold zlen in Hl; lia).
  pose proof (load_words_loads R (Z.to_nat size) src base w HI Hb Hs Hn) as L.
  pose proof (load_words_spares R (Z.to_nat size) src base w HI Hb Hs Hn) as S.
  rewrite Z2Nat.id in S by lia. unfold loads, spares, post in *.
  destruct (load_words (Z.to_nat size) src base w) as [[] w'|w'|].
  - destruct L as (H1 & H2 & H3 & H4 & _). auto.
  - destruct L as (H1 & H2 & H3 & H4 & _). auto.
  - contradiction.
Qed.

Lemma data_region rs o j r r' d :
  r' = with_data r d -> length d = length (r_data r) -> (forall h, ~ counts_read rs o j h) ->
  (forall k, ~ touches rs o j (Z.of_nat k) -> nth_error d k = nth_error (r_data r) k) -> is_load o ->
  region_eff rs o j r r'.
Proof.
  intros -> Hl Hc Ht Hi. constructor; cbn; try (repeat split; fail); auto; try tauto. intros _. now apply rc_eff_same.
Qed.

Lemma OLoad_ok R w base src size :
  Inv R w -> u32 base -> u32 size -> Forall byte src -> size <= zlen src -> op_ok (OLoad base src size) R w.
Proof.
  intros HI Hb Hs Hsrc Hl. unfold op_ok, op_run.
  assert (HE : forall w', Inv R w' -> frame w w' -> data_only w w' ->
    (forall j k, ~ load_touches (regions w) base size j k -> storage (regions w') j k = storage (regions w) j k) ->
    eff (OLoad base src size) R w w').
  { intros w' H1 H2 H3 H4. apply eff_intro; [exact H2|auto|cbn; auto|].
    intros j r Hj. destruct (Forall2_nth _ _ _ _ _ (proj1 H3) Hj) as (r' & Hj' & d & E & Hd).
    exists r'. split; [exact Hj'|]. eapply data_region; eauto; [|exact I]. intros k Hk.
    change d with (r_data (with_data r d)). rewrite <- E. eapply storage_data; eauto. }
  eapply post_weaken; [apply (Load_eff R w base src size); auto; split; [apply Hs|exact Hl]| |].
  - cbn. intros _ w' (H1 & H2 & H3 & H4 & H5). auto.
  - cbn. intros w' (H1 & H2 & H3 & H4 & H5). auto.
Qed.

(** ** Layout changes *)

Lemma OCreate_ok R w base size : Inv R w -> u32 base -> u32 size -> op_ok (OCreate base size) R w.
Proof.
  intros HI Hb Hs. unfold op_ok, op_run. eapply post_weaken; [apply (CreateRegion_post base size R w HI Hb Hs)| |].
  - cbn. intros _ w' (H1 & H2 & H3 & _). apply eff_intro; [exact H2|auto|cbn; auto|]. rewrite H3. apply all_app, all_refl. auto.
  - cbn. intros w' (H1 & H2 & H3 & _). apply eff_same; auto. rewrite H3. reflexivity.
Qed.

Lemma OAlias_ok R w base red size :
  Inv R w -> u32 base -> u32 red -> u32 size -> direct_alias (regions w) (OAlias base red size) -> op_ok (OAlias base red size) R w.
Proof.
  intros HI Hb Hr Hs Hd. unfold op_ok, op_run. eapply post_weaken; [apply (CreateAlias_post base red size R w HI Hb Hr Hs Hd)| |].
  - cbn. intros _ w' (H1 & H2 & _ & _ & _ & j & t & _ & _ & H3). apply eff_intro; [exact H2|auto|cbn; auto|].
    rewrite H3. apply all_app, all_refl. auto.
  - cbn. intros w' (H1 & H2 & H3 & _). apply eff_same; auto. rewrite H3. reflexivity.
Qed.

Lemma find_serves rs a n j a' : wf rs -> u32 a -> 0 <= n -> find_from 0 rs a n = Some (j, a') -> exists k, serves rs a n j k.
Proof. intros H1 H2 H3 F. destruct (locate _ _ _ _ _ H1 H2 H3 F) as (r & k & _ & _ & S & _). eauto. Qed.

Lemma lost_nil t : r_rc t = None -> lost t = [].
Proof. unfold lost. intros ->. reflexivity. Qed.

Lemma spill_upd rs o j t x : nth_error rs j = Some t -> recounts rs o j ->
  spill rs (upd_nth j (fun r => with_rc (with_ro r true) (Some x)) rs) o (lost t).
Proof.
  intros Hj HR. split.
  - unfold lost. destruct (r_rc t) as [[b c]|] eqn:E; [|now left]. right. exists j, t, b, c, (with_rc (with_ro t true) (Some x)), x.
    rewrite nth_error_upd_nth, Nat.eqb_refl, Hj. repeat split; auto.
  - intros i r b c r' b' c' H1 H2 H3 H4. rewrite nth_error_upd_nth in H3. destruct (Nat.eqb_spec j i) as [->|N].
    + rewrite Hj in H1. injection H1 as <-. right. unfold lost. rewrite H2. reflexivity.
    + left. congruence.
Qed.

Lemma spill_prefix rs rs1 rs2 o L : (forall i, (i < length rs)%nat -> nth_error rs2 i = nth_error rs1 i) -> spill rs rs1 o L -> spill rs rs2 o L.
Proof.
  intros E [H1 H2]. split.
  - destruct H1 as [H1|(j & r & b & c & r' & x & K1 & K2 & K3 & K4 & K5)]; [now left|]. right. exists j, r, b, c, r', x.
    rewrite E by (apply nth_error_Some; congruence). auto.
  - intros j r b c r' b' c' K1 K2 K3 K4. rewrite E in K3 by (apply nth_error_Some; congruence). eauto.
Qed.

Lemma OReadOnly_ok R w base : Inv R w -> u32 base -> op_ok (OReadOnly base) R w.
Proof.
  intros HI Hb. unfold op_ok, op_run. eapply post_weaken; [apply (MakeRO_post base R w HI)| |].
  - cbn. intros _ w' (j & t & a' & F & Hj & Ht & H1 & H2 & H3 & _). split; [exact H2|].
    destruct (find_serves _ _ _ _ _ (proj1 HI) Hb (Z.le_0_1) F) as (k & HS). split.
    { exists (lost t). split; [exact H1|]. rewrite H3. apply spill_upd; [exact Hj|]. exists k. exact HS. }
    rewrite H3. apply all_upd; [cbn; auto|]. intros r Hr. rewrite Hj in Hr. injection Hr as <-.
    constructor; cbn; try (repeat split; fail); auto; try discriminate. intro Hn. exfalso. apply Hn. exists k. exact HS.
  - cbn. intros w' (H1 & H2 & _ & _ & _ & H3). destruct H3 as [(F & H3 & _)|(j & t & a' & F & Hj & Ht & H3 & _)].
    + apply eff_same; auto. rewrite H3. reflexivity.
    + split; [exact H2|]. rewrite H3. split.
      { exists []. split; [exact H1|]. apply spill_same. intros i r r' Hr Hr'. rewrite nth_error_upd_nth, Hr in Hr'. destruct (Nat.eqb j i); injection Hr' as <-; reflexivity. }
      apply all_upd; [cbn; auto|].
      intros r Hr. destruct (find_serves _ _ _ _ _ (proj1 HI) Hb (Z.le_0_1) F) as (k & HS).
      constructor; cbn; try (repeat split; fail); auto. intro Hn. exfalso. apply Hn. exists k. exact HS.
Qed.

(** ** Watchpoints and queries *)

Lemma OSet_ok R w a n t : Inv R w -> u32 a -> u32 n -> u32 t -> op_ok (OSet a n t) R w.
Proof.
  intros HI Ha Hn Ht. unfold op_ok, op_run, MemorySim_SetHardwareWatchpoint.
  eapply post_weaken; [apply (setWatchpoint_post a n t R w HI Ha Hn Ht)| |].
  - cbn. intros _ w' (H1 & H2 & _ & _ & _ & j & a' & al & b & F & H3). apply eff_intro; [exact H2|auto|cbn; auto|].
    rewrite H3. apply all_upd; [cbn; auto|]. intros r Hr.
    constructor; cbn; try (repeat split; fail); auto; try tauto. intros _. now apply rc_eff_same.
  - cbn. intros w' (H1 & H2 & H3 & _). apply eff_same; auto. rewrite H3. reflexivity.
Qed.

Lemma OClear_ok R w a n t : Inv R w -> u32 a -> u32 n -> u32 t -> op_ok (OClear a n t) R w.
Proof.
  intros HI Ha Hn Ht. unfold op_ok, op_run, MemorySim_ClearHardwareWatchpoint.
  eapply post_weaken; [apply (clearWatchpoint_post a n t R w HI Ha Hn Ht)| |].
  - cbn. intros _ w' (H1 & H2 & _ & _ & _ & _ & j & a' & F & H3). apply eff_intro; [exact H2|auto|cbn; auto|].
    rewrite H3. apply all_upd; [cbn; auto|]. intros r Hr.
    constructor; cbn; try (repeat split; fail); auto; try tauto. intros _. now apply rc_eff_same.
  - cbn. intros w' (-> & H2 & _). apply eff_same; auto. destr_world w. repeat split.
Qed.

Lemma OXml_ok R w : Inv R w -> xml_alloc (regions w) < 2147483648 -> op_ok OXml R w.
Proof.
  intros HI Hx. apply drop_post. eapply post_weaken; [apply (Xml_post R w HI Hx)| |].
  - cbn. intros t w' (_ & H1 & H2 & H3 & _). apply eff_same; auto.
  - cbn. intros w' (H1 & H2 & H3 & _). apply eff_same; auto. rewrite H3. reflexivity.
Qed.

Lemma OCount_ok R w a : Inv R w -> u32 a -> counted (regions w) -> op_ok (OCount a) R w.
Proof.
  intros HI Ha Hc. apply drop_post. eapply post_weaken; [apply (Count_post R w a HI Ha Hc)| |].
  - cbn. intros t w' (-> & _). apply eff_same; auto. apply frame_refl.
  - cbn. intros w' (-> & _). apply eff_same; auto. destr_world w. repeat split.
Qed.

Lemma OHits_ok R w : Inv R w -> op_ok OHits R w.
Proof.
  intros HI. apply drop_post. cbn. apply eff_same; auto.
  destr_world w. repeat split.
Qed.

(** ** Image regions *)

Lemma first_cover_app rs x a n i r :
  first_cover (rs ++ x) a n i r -> (i < length rs)%nat -> first_cover rs a n i r.
Proof.
  intros (H1 & H2 & H3) L. split; [rewrite nth_error_app1 in H1; assumption|]. split; [exact H2|].
  intros i' r' Hi Hr. apply (H3 i'); [exact Hi|]. rewrite nth_error_app1; [exact Hr|lia].
Qed.

Lemma first_cover_app' rs x a n i r :
  first_cover rs a n i r -> first_cover (rs ++ x) a n i r.
Proof.
  intros (H1 & H2 & H3). assert (L : (i < length rs)%nat) by (apply nth_error_Some; congruence).
  split; [rewrite nth_error_app1; assumption|]. split; [exact H2|].
  intros i' r' Hi Hr. apply (H3 i'); [exact Hi|]. rewrite nth_error_app1 in Hr; [exact Hr|lia].
Qed.

Lemma serves_app rs x a n j k : serves rs a n j k -> serves (rs ++ x) a n j k.
Proof.
  intros (i & r & F & E). exists i, r. split; [now apply first_cover_app'|].
  destruct (r_redir r) as [t|]; [|exact E]. destruct E as [-> (rt & Ht & ->)]. split; [reflexivity|]. exists rt.
  split; [|reflexivity]. rewrite nth_error_app1; [exact Ht|]. apply nth_error_Some. congruence.
Qed.

Lemma serves_app_inv rs x a n j k :
  serves (rs ++ [x]) a n j k -> r_redir x = None -> (j < length rs)%nat -> serves rs a n j k.
Proof.
  intros (i & r & F & E) Hx L.
  assert (Li : (i < length rs)%nat).
  { destruct (Nat.lt_ge_cases i (length rs)) as [H|H]; [exact H|]. destruct F as (F & _).
    rewrite nth_error_app2 in F by exact H. destruct (i - length rs)%nat as [|q] eqn:Q; [|destruct q; discriminate].
    injection F as ->. rewrite Hx in E. destruct E. lia. }
  exists i, r. split; [now apply first_cover_app with (x := [x])|].
  destruct (r_redir r) as [t|]; [|exact E]. destruct E as [-> (rt & Ht & ->)]. split; [reflexivity|]. exists rt.
  split; [|reflexivity]. rewrite nth_error_app1 in Ht; [exact Ht|exact L].
Qed.

Lemma Forall2_len {A B} (P : A -> B -> Prop) l l' : Forall2 P l l' -> length l = length l'.
Proof. induction 1; cbn; congruence. Qed.

Lemma removelast_nth {A} (l : list A) x i y : nth_error (l ++ [x]) i = Some y -> (i < length l)%nat -> nth_error l i = Some y.
Proof. intros H L. rewrite nth_error_app1 in H; assumption. Qed.

Section Flash.
  Variables (src : list Z) (size : Z).
  Let o := OFlash src size.

  (** A region after the load and (perhaps) the read-only step. *)
  Lemma flash_region rs fl rs1 j r d f rs2 j0 :
    nth_error rs j = Some r -> r_redir fl = None -> nth_error rs1 j = Some (with_data r d) -> length d = length (r_data r) ->
    (forall k, ~ load_touches (rs ++ [fl]) 0 size j (Z.of_nat k) -> nth_error d k = nth_error (r_data r) k) ->
    (j = j0 -> exists k, serves (rs ++ [fl]) 0 1 j k) ->
    (exists x, forall r, f r = with_ro r true \/ f r = with_rc (with_ro r true) (Some x)) ->
    rs2 = upd_nth j0 f rs1 ->
    exists r', nth_error rs2 j = Some r' /\ region_eff rs o j r r'.
  Proof.
    intros Hj Hfl Hj1 Hd Ht Hs (x & Hf) ->. assert (L : (j < length rs)%nat) by (apply nth_error_Some; congruence).
    assert (Ht' : forall k, ~ touches rs o j (Z.of_nat k) -> nth_error d k = nth_error (r_data r) k).
    { intros k Hk. apply Ht. intros (i & m & k' & H1 & H2 & H3 & H4 & H5). apply Hk.
      exists i, m, k'. repeat (split; [assumption|]). split; [|exact H5]. eapply serves_app_inv; eauto. }
    rewrite nth_error_upd_nth. destruct (Nat.eqb_spec j0 j) as [->|N].
    - rewrite Hj1. eexists. split; [reflexivity|]. destruct (Hs eq_refl) as (k & HS).
      assert (HR : recounts rs o j) by (exists k; eapply serves_app_inv; eauto).
      destruct (Hf (with_data r d)) as [-> | ->]; constructor; cbn; try (repeat split; fail); auto; try tauto; try discriminate.
    - exists (with_data r d). split; [exact Hj1|]. eapply data_region; eauto. exact I.
  Qed.
End Flash.

Lemma OFlash_ok R w src size :
  Inv R w -> u32 size -> Forall byte src -> size <= zlen src -> op_ok (OFlash src size) R w.
Proof.
  intros HI Hs Hb Hl. unfold op_ok, op_run, MemorySim_CreateRegionsFromFlashImage, FLASH_BASE_ADDRESS.
  destruct (size <? 4) eqn:E4.
  { cbn. apply eff_same; auto. destr_world w. repeat split. }
  assert (H0 : u32 0) by (unfold u32; lia).
  apply post_bind. eapply post_weaken; [apply (CreateRegion_post 0 size R w HI H0 Hs)| |].
  2:{ cbn. intros w' (H1 & H2 & H3 & _). apply eff_same; auto. rewrite H3. reflexivity. }
  cbn. intros _ w0 (I0 & F0 & E0 & C0 & X0). set (fl := new_region w 0 size) in *.
  apply post_bind.
  pose proof (Load_eff R w0 0 src size I0 H0 Hb ltac:(unfold u32 in Hs; lia)) as PL.
  assert (NX : forall w', MemorySim_LoadFromFlashImage 0 src size w0 <> Exc w').
  { apply (load_words_ok R); auto; try (unfold u32 in *; unfold zlen in *; lia).
    eapply covered_finds with (r := fl); [rewrite E0; apply in_or_app; right; now left|].
    unfold covers. cbn. unfold u32 in Hs. lia. }
  unfold post in PL |- *. destruct (MemorySim_LoadFromFlashImage 0 src size w0) as [[] w1|w1|]; try tauto.
  2:{ exfalso. eapply NX; reflexivity. }
  clear NX. destruct PL as (I1 & F1 & D1 & C1 & S1). rewrite try0_eq.
  set (w1' := set_exn w1 noException []).
  assert (I1' : Inv R w1') by now apply Inv_exn.
  pose proof (MakeRO_post 0 R w1' I1') as PM. unfold post in PM. unfold bind at 1.
  destruct D1 as (D1 & _). rewrite E0 in D1.
  assert (Hlen : length (regions w1) = S (length (regions w))).
  { rewrite <- (Forall2_len _ _ _ D1), app_length. cbn. lia. }
  assert (FR : frame w w1').
  { eapply frame_trans; [exact F0|]. eapply frame_trans; [exact F1|]. destr_world w1. repeat split. }
  assert (HL : forall t j, nth_error (regions w1) j = Some t -> (exists a', find_from 0 (regions w1) 0 1 = Some (j, a')) ->
      (exists k, serves (regions w ++ [fl]) 0 1 j k) /\
      (forall x, spill (regions w) (upd_nth j (fun r => with_rc (with_ro r true) (Some x)) (regions w1)) (OFlash src size) (lost t))).
  { intros t j Hj (a' & F). rewrite (find_from_data _ _ _ _ _ D1) in F.
    assert (Wf : wf (regions w ++ [fl])) by (rewrite <- E0; apply I0).
    destruct (find_serves _ _ _ _ _ Wf H0 Z.le_0_1 F) as (k & HS). split; [eauto|]. intro x.
    destruct (Forall2_nth_r _ _ _ _ _ D1 Hj) as (r & Hr & d & -> & Hd). split.
    - unfold lost. cbn [with_data r_rc]. destruct (r_rc r) as [[b c]|] eqn:Erc; [|now left]. right.
      assert (L : (j < length (regions w))%nat).
      { destruct (Nat.lt_ge_cases j (length (regions w))) as [L|L]; [exact L|]. exfalso.
        rewrite nth_error_app2 in Hr by exact L. destruct (j - length (regions w))%nat as [|q]; [|destruct q; discriminate].
        injection Hr as <-. discriminate Erc. }
      exists j, r, b, c. eexists. exists x. split; [exists k; eapply serves_app_inv; eauto|].
      split; [now apply removelast_nth in Hr|]. split; [exact Erc|]. rewrite nth_error_upd_nth, Nat.eqb_refl, Hj. cbn. auto.
    - intros i r0 b c r' b' c' K1 K2 K3 K4.
      assert (Hi : nth_error (regions w ++ [fl]) i = Some r0) by (rewrite nth_error_app1; [exact K1|apply nth_error_Some; congruence]).
      rewrite nth_error_upd_nth in K3. destruct (Nat.eqb_spec j i) as [->|N].
      + rewrite Hi in Hr. injection Hr as <-. right. unfold lost. cbn [with_data r_rc]. rewrite K2. reflexivity.
      + destruct (Forall2_nth _ _ _ _ _ D1 Hi) as (r1 & Hr1 & d' & -> & _). rewrite Hr1 in K3. injection K3 as <-. cbn in K4. left. congruence. }
  assert (HR : forall j0 f rs2, (exists x, forall r, f r = with_ro r true \/ f r = with_rc (with_ro r true) (Some x)) ->
      (exists a', find_from 0 (regions w1) 0 1 = Some (j0, a')) -> (exists t, nth_error (regions w1) j0 = Some t) ->
      rs2 = upd_nth j0 f (regions w1) -> all_regions (regions w) rs2 (region_eff (regions w) (OFlash src size))).
  { intros j0 f rs2 Hf (a' & F) (t & Ht) E j r Hj.
    assert (Hj' : nth_error (regions w ++ [fl]) j = Some r).
    { rewrite nth_error_app1; [exact Hj|]. apply nth_error_Some. congruence. }
    destruct (Forall2_nth _ _ _ _ _ D1 Hj') as (r1 & Hr1 & d & -> & Hd).
    eapply flash_region with (rs1 := regions w1) (fl := fl) (j0 := j0); eauto.
    - intros k Hk. change d with (r_data (with_data r d)). eapply storage_data; [exact Hj|exact Hr1|].
      rewrite S1 by (rewrite E0; exact Hk). rewrite E0. apply storage_nth. rewrite nth_error_app1; [reflexivity|].
      apply nth_error_Some. congruence.
    - intros ->. eapply HL; eauto. }
  destruct (MemorySim_MakeRegionReadOnly 0 w1') as [[] w2|w2|]; [| |contradiction].
  - destruct PM as (j & t & a' & Fd & Hj & Ht & I2 & F2 & E2 & _ & _ & C2 & _).
    change (regions w1') with (regions w1) in *.
    destruct (HL t j Hj (ex_intro _ a' Fd)) as [HLs HLl].
    replace (zlen src <? 4) with false by lia.
    destruct (ram_facts src Hb) as (_ & _ & Hrb & Hrs).
    pose proof (CreateRegion_post (ram_base src) (ram_size src) (lost t ++ R) w2 I2 Hrb Hrs) as PC.
    unfold ram_size, ram_base in PC. unfold post in PC. cbv zeta.
    destruct (MemorySim_CreateRegion _ _ w2) as [[] w3|w3|]; [| |contradiction].
    + destruct PC as (I3 & F3 & E3 & C3 & _). rewrite C3. cbn [Z.eqb].
      split; [eauto using frame_trans|]. split.
      { exists (lost t). split; [exact I3|]. eapply spill_prefix; [|apply HLl]. intros i Li. rewrite E3, E2, nth_error_app1; [reflexivity|]. rewrite upd_nth_length. lia. }
      rewrite E3. apply all_app. eapply HR; [|eexists; exact Fd|eexists; exact Hj|exact E2].
      eexists. intro r. right. reflexivity.
    + destruct PC as (I3 & F3 & E3 & C3 & _). rewrite C3. change (outOfMemoryException =? 0) with false. cbv iota.
      assert (E3' : regions w3 = regions w2) by (rewrite E3; reflexivity).
      destruct (snoc_cases (regions w3) (length (regions w))) as (rs3 & last & E4' & Hl3).
      { rewrite E3', E2, upd_nth_length. exact Hlen. }
      pose proof (freeLast_rethrow (lost t ++ R) w3 rs3 last I3 E4') as PF. unfold post in PF.
      destruct (bind freeLastRegion _ w3) as [u w4|w4|]; [contradiction| |contradiction].
      destruct PF as (I4 & F4 & E5 & _). split; [eauto using frame_trans|]. split.
      { exists (lost t). split; [exact I4|]. eapply spill_prefix; [|apply HLl]. intros i Li. rewrite E5. cbn [m_regions].
        rewrite <- E2, <- E3', E4', nth_error_app1 by lia. reflexivity. }
      rewrite E5. cbn [m_regions].
      assert (HA : all_regions (regions w) (rs3 ++ [last]) (region_eff (regions w) (OFlash src size))).
      { rewrite <- E4', E3'. eapply HR; [|eexists; exact Fd|eexists; exact Hj|exact E2]. eexists. intro r. right. reflexivity. }
      intros i r Hi. destruct (HA i r Hi) as (r' & Hr' & Eff). exists r'. split; [|exact Eff].
      eapply removelast_nth; [exact Hr'|]. rewrite Hl3. apply nth_error_Some. congruence.
  - destruct PM as (I2 & F2 & _ & _ & _ & PM). change (regions w1') with (regions w1) in *.
    assert (NF : find_from 0 (regions w1) 0 1 <> None).
    { rewrite (find_from_data _ _ _ _ _ D1). intro F. eapply find_none with (r := fl) in F;
        [|apply in_or_app; right; now left]. apply F. unfold covers, fl. cbn. unfold u32 in Hs. lia. }
    destruct PM as [(Fd & _)|(j & t & a' & Fd & Hj & Ht & E2 & C2)]; [contradiction|].
    change (w_code w1') with 0 in C2. change (Z.max outOfMemoryException 0) with outOfMemoryException in C2.
    rewrite C2. change (outOfMemoryException =? 0) with false. cbv iota.
    destruct (snoc_cases (regions w2) (length (regions w))) as (rs3 & last & E4' & Hl3).
    { rewrite E2, upd_nth_length. exact Hlen. }
    pose proof (freeLast_rethrow R w2 rs3 last I2 E4') as PF. unfold post in PF.
    destruct (bind freeLastRegion _ w2) as [u w4|w4|]; [contradiction| |contradiction].
    destruct PF as (I4 & F4 & E5 & _). split; [eauto using frame_trans|]. split.
    { exists []. split; [exact I4|]. apply spill_same. intros i r r' Hr Hr'. rewrite E5 in Hr'. cbn [m_regions] in Hr'.
      assert (Li : (i < length (regions w))%nat) by (apply nth_error_Some; congruence).
      assert (Hi : nth_error (regions w ++ [fl]) i = Some r) by (rewrite nth_error_app1; assumption).
      destruct (Forall2_nth _ _ _ _ _ D1 Hi) as (r1 & Hr1 & d' & -> & _).
      assert (E6 : nth_error (rs3 ++ [last]) i = Some r') by (rewrite nth_error_app1 by lia; exact Hr').
      rewrite <- E4', E2, nth_error_upd_nth, Hr1 in E6. destruct (Nat.eqb j i); injection E6 as <-; reflexivity. }
    rewrite E5. cbn [m_regions].
    assert (HA : all_regions (regions w) (rs3 ++ [last]) (region_eff (regions w) (OFlash src size))).
    { rewrite <- E4'. eapply HR; [|eexists; exact Fd|eexists; exact Hj|exact E2]. exists (O, []). intro r. left. reflexivity. }
    intros i r Hi. destruct (HA i r Hi) as (r' & Hr' & Eff). exists r'. split; [|exact Eff].
    eapply removelast_nth; [exact Hr'|]. rewrite Hl3. apply nth_error_Some. congruence.
Qed.
