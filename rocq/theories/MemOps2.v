(** Continuation of MemOps.v: image regions, memory map, watchpoints, shutdown, histories. *)
From Coq Require Import String ZArith List Bool Lia ZifyBool ZifyNat Permutation Sorted.
From Verif Require Import Base World MemSim BaseLemmas MemSpec MemLemmas MemInv MemOps.
Import ListNotations.
Open Scope Z_scope.

(** ** Watchpoint lists *)

Lemma match_eq x y : watchpointsMatch x y = true <-> x = y.
Proof.
  unfold watchpointsMatch. destruct x, y; cbn. rewrite !andb_true_iff, !Z.eqb_eq.
  split; [intros [[-> ->] ->]; reflexivity|intro H; injection H as -> -> ->; auto].
Qed.

Lemma fmh_spec l key i :
  StronglySorted wp_le l ->
  match findMatchingOrHigher l key i with
  | (FOUND, k) => (i <= k)%nat /\ nth_error l (k - i) = Some key
  | (_, k) => (i <= k)%nat /\ (k - i <= length l)%nat /\ ~ In key l /\
              Forall (fun x => wp_le x key) (firstn (k - i) l) /\
              Forall (fun x => wp_start key < wp_start x) (skipn (k - i) l)
  end.
Proof.
  revert i. induction l as [|x l IH]; intros i HS; cbn [findMatchingOrHigher].
  - rewrite Nat.sub_diag. cbn. repeat split; auto.
  - inversion HS as [|? ? HS' HF]; subst.
    destruct (watchpointsMatch key x) eqn:E.
    + apply match_eq in E. subst. rewrite Nat.sub_diag. auto.
    + assert (N : x <> key) by (intros ->; rewrite (proj2 (match_eq key key) eq_refl) in E; discriminate).
      destruct (wp_start key <? wp_start x) eqn:L.
      * rewrite Nat.sub_diag. cbn [firstn skipn].
        assert (HA : Forall (fun y => wp_start key < wp_start y) (x :: l)).
        { constructor; [lia|]. eapply Forall_impl; [|exact HF]. unfold wp_le. cbn. intros. lia. }
        repeat split; auto.
        -- lia.
        -- intro HI. rewrite Forall_forall in HA. apply HA in HI. lia.
      * specialize (IH (S i) HS'). destruct (findMatchingOrHigher l key (S i)) as [m k].
        destruct m.
        -- destruct IH as [H1 H2]. split; [lia|]. replace (k - i)%nat with (S (k - S i)) by lia. exact H2.
        -- destruct IH as (H1 & H2 & H3 & H4 & H5). replace (k - i)%nat with (S (k - S i)) by lia.
           cbn [firstn skipn length]. repeat split; auto; try lia.
           ++ intros [Hi|Hi]; auto.
           ++ constructor; [unfold wp_le; lia|exact H4].
        -- destruct IH as (H1 & H2 & H3 & H4 & H5). replace (k - i)%nat with (S (k - S i)) by lia.
           cbn [firstn skipn length]. repeat split; auto; try lia.
           ++ intros [Hi|Hi]; auto.
           ++ constructor; [unfold wp_le; lia|exact H4].
Qed.

(** The array after setting / clearing [x]. *)
Definition wps_set (l : list wp) (x : wp) : list wp :=
  match findMatchingOrHigher l x 0 with
  | (FOUND, _) => l
  | (_, k) => firstn k l ++ x :: skipn k l
  end.
Definition wps_clear (l : list wp) (x : wp) : list wp :=
  match findMatchingOrHigher l x 0 with
  | (FOUND, k) => firstn k l ++ skipn (S k) l
  | _ => l
  end.

Definition good (l : list wp) : Prop := StronglySorted wp_le l /\ NoDup l.

Lemma sorted_app l m :
  StronglySorted wp_le (l ++ m) <->
  StronglySorted wp_le l /\ StronglySorted wp_le m /\ (forall x y, In x l -> In y m -> wp_le x y).
Proof.
  induction l as [|a l IH]; cbn.
  - split; [intro H; repeat split; auto; [constructor|tauto]|tauto].
  - split.
    + intro H. inversion H as [|? ? H1 H2]; subst. apply IH in H1 as (A & B & C).
      apply Forall_app in H2 as [D E]. repeat split; auto.
      * constructor; auto.
      * intros x y [<-|Hx] Hy; [rewrite Forall_forall in E; auto|auto].
    + intros (A & B & C). inversion A; subst. constructor.
      * apply IH. repeat split; auto.
      * apply Forall_app. split; [assumption|]. apply Forall_forall. auto.
Qed.

Lemma wps_set_spec l x :
  good l -> good (wps_set l x) /\ (forall y, In y (wps_set l x) <-> y = x \/ In y l).
Proof.
  intros [HS HN]. unfold wps_set. pose proof (fmh_spec l x 0 HS) as H.
  destruct (findMatchingOrHigher l x 0) as [m k].
  assert (Hins : (0 <= k)%nat /\ (k - 0 <= length l)%nat /\ ~ In x l /\
              Forall (fun y => wp_le y x) (firstn (k - 0) l) /\
              Forall (fun y => wp_start x < wp_start y) (skipn (k - 0) l) ->
    good (firstn k l ++ x :: skipn k l) /\ (forall y, In y (firstn k l ++ x :: skipn k l) <-> y = x \/ In y l)).
  { rewrite Nat.sub_0_r. intros (_ & H2 & H3 & H4 & H5).
    rewrite Forall_forall in H4, H5.
    assert (P : Permutation (x :: l) (firstn k l ++ x :: skipn k l)).
    { rewrite <- (firstn_skipn k l) at 1. apply Permutation_middle. }
    split.
    - split.
      + rewrite <- (firstn_skipn k l) in HS. apply sorted_app in HS as (A & B & C). apply sorted_app.
        repeat split; auto.
        * constructor; [exact B|]. apply Forall_forall. intros y Hy. apply H5 in Hy. unfold wp_le. lia.
        * intros y z Hy [<-|Hz]; [auto|]. auto.
      + eapply Permutation_NoDup; [exact P|]. constructor; assumption.
    - intro y. split; intro Hy.
      + apply (Permutation_in _ (Permutation_sym P)) in Hy. destruct Hy; auto.
      + apply (Permutation_in _ P). destruct Hy; [left|right]; auto. }
  destruct m; [|apply Hins, H|apply Hins, H].
  split; [split; assumption|]. intro y. destruct H as [_ H]. apply nth_error_In in H.
  split; [auto|]. intros [->|Hy]; auto.
Qed.

Lemma wps_clear_spec l x :
  good l -> good (wps_clear l x) /\ (forall y, In y (wps_clear l x) <-> y <> x /\ In y l).
Proof.
  intros [HS HN]. unfold wps_clear. pose proof (fmh_spec l x 0 HS) as H.
  destruct (findMatchingOrHigher l x 0) as [m k]. destruct m.
  - destruct H as [_ H]. rewrite Nat.sub_0_r in H.
    apply nth_error_split in H as (l1 & l2 & -> & <-).
    rewrite firstn_app, firstn_all, Nat.sub_diag. cbn [firstn]. rewrite app_nil_r.
    replace (skipn (S (length l1)) (l1 ++ x :: l2)) with l2
      by (rewrite skipn_app, skipn_all2 by lia; replace (S (length l1) - length l1)%nat with 1%nat by lia; reflexivity).
    apply sorted_app in HS as (A & B & C). inversion B; subst.
    pose proof (NoDup_remove_1 _ _ _ HN) as HN1. pose proof (NoDup_remove_2 _ _ _ HN) as HN2. split.
    + split; [|exact HN1]. apply sorted_app. repeat split; auto. intros y z Hy Hz. apply C; [exact Hy|now right].
    + intro y. rewrite !in_app_iff. cbn [In]. split.
      * intro Hy. split; [intros ->; apply HN2, in_app_iff; exact Hy|tauto].
      * intros [Hne [Hy|[->|Hy]]]; tauto.
  - split; [split; assumption|]. intro y. split; [intro Hy; split; [intros ->; tauto|exact Hy]|tauto].
  - split; [split; assumption|]. intro y. split; [intro Hy; split; [intros ->; tauto|exact Hy]|tauto].
Qed.

Lemma wps_set_length l x : zlen (wps_set l x) <= zlen l + 1.
Proof.
  unfold wps_set. destruct (findMatchingOrHigher l x 0) as [[] k]; [lia| |];
  rewrite zlen_app, zlen_cons; rewrite <- (firstn_skipn k l) at 3; rewrite zlen_app; lia.
Qed.

Lemma wps_clear_length l x : zlen (wps_clear l x) <= zlen l.
Proof.
  unfold wps_clear. destruct (findMatchingOrHigher l x 0) as [[] k]; try lia.
  unfold zlen. rewrite app_length, firstn_length, skipn_length. lia.
Qed.

(** The break/watchpoint a call for [n] bytes at [a] names, in storage-region coordinates. *)
Lemma wp_ok_found rs a n j a' type :
  wf rs -> u32 a -> u32 n -> u32 type -> find_from 0 rs a n = Some (j, a') ->
  exists r, nth_error rs j = Some r /\ r_redir r = None /\ wp_ok r (mkWp type a' (W (a' + n))).
Proof.
  intros Hwf Ha Hn Ht F.
  destruct (locate _ _ _ _ _ Hwf Ha (proj1 Hn) F) as (r & k & L1 & L2 & L3 & L4 & L5 & L6 & L7 & L8 & _).
  exists r. split; [exact L1|]. split; [exact L2|]. unfold u32 in Hn. exists k, n. cbn.
  repeat (split; [lia || assumption|]). rewrite L8, W_add_l. auto.
Qed.

Definition wp_same (w w' : world) : Prop :=
  m_hits (w_mem w') = m_hits (w_mem w) /\ m_xml (w_mem w') = m_xml (w_mem w).

Lemma wf_with_wps rs j r l al b :
  good l -> Forall (wp_ok r) l -> zlen l <= al -> wf_region rs j r -> wf_region rs j (with_wps (with_wparray r al b) l).
Proof. intros [A B] C D []. constructor; cbn; auto. Qed.

Lemma upd_nth_same {A} j f (l : list A) r : nth_error l j = Some r -> f r = r -> upd_nth j f l = l.
Proof. intros. eapply upd_nth_id; eauto. Qed.

(** The insertion branch of setWatchpoint. *)
Definition wp_insert (j : nat) (r : region) (x : wp) (k : nat) : M world unit :=
  bind (growWatchpointArrayIfNeeded j (zlen (r_wps r) + 1))
       (fun _ => upd_region j (fun r => with_wps r (firstn k (r_wps r) ++ x :: skipn k (r_wps r)))).

Lemma wp_insert_post R w j r x k :
  Inv R w -> nth_error (regions w) j = Some r -> wp_ok r x ->
  wps_set (r_wps r) x = firstn k (r_wps r) ++ x :: skipn k (r_wps r) ->
  post (wp_insert j r x k) w
    (fun _ w' => Inv R w' /\ frame w w' /\ wp_same w w' /\ w_code w' = w_code w /\ w_msg w' = w_msg w /\
       exists al b, regions w' = upd_nth j (fun r => with_wps (with_wparray r al b) (wps_set (r_wps r) x)) (regions w))
    (fun w' => Inv R w' /\ frame w w' /\ w_mem w' = w_mem w /\ h_live (w_heap w') = h_live (w_heap w) /\
       w_code w' = Z.max outOfMemoryException (w_code w)).
Proof.
  intros HI Hj Hok Hset. pose proof HI as [Hwf Hh].
  pose proof (Hwf _ _ Hj) as WR. pose proof WR as WR'. destruct WR'.
  assert (HG : good (r_wps r)) by (split; assumption).
  destruct (wps_set_spec _ x HG) as [HG' Hmem].
  assert (Hoks : Forall (wp_ok r) (wps_set (r_wps r) x)).
  { apply Forall_forall. intros y Hy. apply Hmem in Hy as [->|Hy]; [exact Hok|]. rewrite Forall_forall in wr_wps. auto. }
  assert (Hlen := wps_set_length (r_wps r) x).
  unfold post, wp_insert, growWatchpointArrayIfNeeded, bind, get_region. rewrite Hj.
  destruct (r_wpalloc r <? zlen (r_wps r) + 1) eqn:G.
  - unfold realloc, bind, malloc.
    destruct (e_malloc _ _ _).
    + destr_world w. cbn in Hj, Hh, Hwf |- *.
      destruct (blocks_upd rs xml hits j (fun r0 => with_wps (with_wparray r0 (zlen (r_wps r) + 1) (Some nxt)) (wps_set (r_wps r0) x)) r Hj)
        as (rest & P & Q).
      set (w1 := mkW (mkMem rs xml hits) (mkHeap (nxt :: live) (S nxt) (S calls) ((nxt, SIZEOF_WATCHPOINT * (zlen (r_wps r) + 1)) :: szs)) fs code msg ctx err fl gdb con env).
      destruct (free_opt_hp (r_bwp r) (nxt :: olist (option_map fst (r_rc r)) ++ [r_bdata r; r_bself r] ++ rest ++ R) w1)
        as (h' & Ef & Hf & _).
      { cbn. eapply hp_perm; [apply (hp_malloc (mkHeap live nxt calls szs)); exact Hh|]. cbn.
        etransitivity; [|apply Permutation_middle]. apply perm_skip. rewrite P. unfold rblocks.
        change (r_bdata r :: r_bself r :: rest ++ R) with ([r_bdata r; r_bself r] ++ rest ++ R).
        rewrite !app_assoc. do 3 apply Permutation_app_tail. apply Permutation_app_comm. }
      change (set_heap _ _) with w1. rewrite Ef. unfold upd_region, modw, ret. cbn.
      assert (Hreg : upd_nth j (fun r0 => with_wps r0 (firstn k (r_wps r0) ++ x :: skipn k (r_wps r0)))
           (upd_nth j (fun r0 => with_wparray r0 (zlen (r_wps r) + 1) (Some nxt)) rs) =
           upd_nth j (fun r0 => with_wps (with_wparray r0 (zlen (r_wps r) + 1) (Some nxt)) (wps_set (r_wps r0) x)) rs).
      { rewrite upd_nth_upd_nth. eapply upd_nth_ext; [exact Hj|]. cbn. rewrite Hset. reflexivity. }
      rewrite Hreg. split; [|split; [repeat split|]; split; [repeat split|]; split; [reflexivity|]; split; [reflexivity|]].
      * split; cbn.
        -- eapply wf_upd; eauto. cbn. intros _. apply wf_with_wps; auto.
        -- eapply hp_perm; [exact Hf|]. rewrite Q. unfold rblocks. cbn. rewrite <- !app_assoc.
           etransitivity; [apply Permutation_middle|]. reflexivity.
      * exists (zlen (r_wps r) + 1), (Some nxt). reflexivity.
    + destr_world w. cbn in *. split; [|repeat split].
      split; [exact Hwf|]. eapply hp_calls; [exact Hh|reflexivity|cbn; lia].
  - cbn [ret]. unfold upd_region, modw.
    split; [|split; [destr_world w; repeat split|]; split; [destr_world w; repeat split|];
             split; [destr_world w; reflexivity|]; split; [destr_world w; reflexivity|]].
    + change (set_mem w (mkMem (upd_nth j ?f (regions w)) (m_xml (w_mem w)) (m_hits (w_mem w))))
        with (set_hits (set_regions w (upd_nth j f (regions w))) (m_hits (w_mem w))).
      eapply Inv_upd; eauto. intros _. rewrite <- Hset.
      replace (with_wps r (wps_set (r_wps r) x)) with (with_wps (with_wparray r (r_wpalloc r) (r_bwp r)) (wps_set (r_wps r) x))
        by (destruct r; reflexivity).
      apply wf_with_wps; auto. lia.
    + exists (r_wpalloc r), (r_bwp r).
      destr_world w. cbn in *. eapply upd_nth_ext; [exact Hj|]. rewrite Hset. destruct r; reflexivity.
Qed.

Lemma setWatchpoint_post a n type R w :
  Inv R w -> u32 a -> u32 n -> u32 type ->
  post (setWatchpoint a n type) w
    (fun _ w' => Inv R w' /\ frame w w' /\ wp_same w w' /\ w_code w' = w_code w /\ w_msg w' = w_msg w /\
       exists j a' al b, find_from 0 (regions w) a n = Some (j, a') /\
         regions w' = upd_nth j (fun r => with_wps (with_wparray r al b) (wps_set (r_wps r) (mkWp type a' (W (a' + n))))) (regions w))
    (fun w' => Inv R w' /\ frame w w' /\ w_mem w' = w_mem w /\ h_live (w_heap w') = h_live (w_heap w) /\
       ((find_from 0 (regions w) a n = None /\ w_code w' = Z.max busErrorException (w_code w)) \/
        (find_from 0 (regions w) a n <> None /\ w_code w' = Z.max outOfMemoryException (w_code w)))).
Proof.
  intros HI Ha Hn Ht. pose proof HI as [Hwf Hh].
  unfold post, setWatchpoint. unfold bind at 1. unfold findMatchingRegion.
  destruct (find_from 0 (regions w) a n) as [[j a']|] eqn:F; cbn [fst snd].
  2:{ destr_world w. cbn. split; [exact HI|]. repeat split. left. auto. }
  destruct (wp_ok_found _ _ _ _ _ type Hwf Ha Hn Ht F) as (r & Hj & Hr & Hok).
  unfold bind at 1, get_region. rewrite Hj. set (x := mkWp type a' (W (a' + n))) in *.
  destruct (findMatchingOrHigher (r_wps r) x 0) as [m k] eqn:E.
  assert (Hcase : wps_set (r_wps r) x = firstn k (r_wps r) ++ x :: skipn k (r_wps r) ->
     post (wp_insert j r x k) w
    (fun _ w' => Inv R w' /\ frame w w' /\ wp_same w w' /\ w_code w' = w_code w /\ w_msg w' = w_msg w /\
       exists j0 a'0 al b, Some (j, a') = Some (j0, a'0) /\
         regions w' = upd_nth j0 (fun r => with_wps (with_wparray r al b) (wps_set (r_wps r) (mkWp type a'0 (W (a'0 + n))))) (regions w))
    (fun w' => Inv R w' /\ frame w w' /\ w_mem w' = w_mem w /\ h_live (w_heap w') = h_live (w_heap w) /\
       ((Some (j, a') = None /\ w_code w' = Z.max busErrorException (w_code w)) \/
        (Some (j, a') <> None /\ w_code w' = Z.max outOfMemoryException (w_code w))))).
  { intro Hset. eapply post_weaken; [eapply wp_insert_post; eauto| |].
    - cbn. intros _ w' (H1 & H2 & H3 & H4 & H5 & al & b & H6). repeat (split; [assumption|]).
      exists j, a', al, b. split; [reflexivity|exact H6].
    - cbn. intros w' (H1 & H2 & H3 & H4 & H5). repeat (split; [assumption|]). right. split; [discriminate|exact H5]. }
  destruct m.
  - cbn [ret]. split; [exact HI|]. split; [apply frame_refl|]. split; [split; reflexivity|]. split; [reflexivity|].
    split; [reflexivity|].
    exists j, a', (r_wpalloc r), (r_bwp r). split; [reflexivity|]. symmetry. eapply upd_nth_same; [exact Hj|].
    fold x. unfold wps_set. rewrite E. destruct r; reflexivity.
  - apply Hcase. unfold wps_set. rewrite E. reflexivity.
  - apply Hcase. unfold wps_set. rewrite E. reflexivity.
Qed.

Lemma clearWatchpoint_post a n type R w :
  Inv R w -> u32 a -> u32 n -> u32 type ->
  post (clearWatchpoint a n type) w
    (fun _ w' => Inv R w' /\ frame w w' /\ wp_same w w' /\ w_code w' = w_code w /\ w_msg w' = w_msg w /\
       w_heap w' = w_heap w /\
       exists j a', find_from 0 (regions w) a n = Some (j, a') /\
         regions w' = upd_nth j (fun r => with_wps r (wps_clear (r_wps r) (mkWp type a' (W (a' + n))))) (regions w))
    (fun w' => w' = set_exn w (Z.max busErrorException (w_code w)) (w_msg w) /\ Inv R w' /\ find_from 0 (regions w) a n = None).
Proof.
  intros HI Ha Hn Ht. pose proof HI as [Hwf Hh].
  unfold post, clearWatchpoint. unfold bind at 1. unfold findMatchingRegion.
  destruct (find_from 0 (regions w) a n) as [[j a']|] eqn:F; cbn [fst snd].
  2:{ destr_world w. cbn. split; [reflexivity|]. split; [exact HI|reflexivity]. }
  destruct (wp_ok_found _ _ _ _ _ type Hwf Ha Hn Ht F) as (r & Hj & Hr & Hok).
  unfold bind at 1, get_region. rewrite Hj. set (x := mkWp type a' (W (a' + n))) in *.
  pose proof (Hwf _ _ Hj) as WR. pose proof WR as WR'. destruct WR'.
  assert (HG : good (r_wps r)) by (split; assumption).
  destruct (wps_clear_spec _ x HG) as [HG' Hmem].
  assert (Hoks : Forall (wp_ok r) (wps_clear (r_wps r) x)).
  { apply Forall_forall. intros y Hy. apply Hmem in Hy as [_ Hy]. rewrite Forall_forall in wr_wps. auto. }
  assert (Hlen := wps_clear_length (r_wps r) x).
  assert (Hsame : wps_clear (r_wps r) x = r_wps r -> 
     regions w = upd_nth j (fun r => with_wps r (wps_clear (r_wps r) (mkWp type a' (W (a' + n))))) (regions w)).
  { intro H. symmetry. eapply upd_nth_same; [exact Hj|]. fold x. rewrite H. destruct r; reflexivity. }
  destruct (findMatchingOrHigher (r_wps r) x 0) as [m k] eqn:E.
  destruct m.
  - unfold upd_region, modw.
    assert (Hset : wps_clear (r_wps r) x = firstn k (r_wps r) ++ skipn (S k) (r_wps r)) by (unfold wps_clear; rewrite E; reflexivity).
    split; [|split; [destr_world w; repeat split|]; split; [destr_world w; repeat split|];
             split; [destr_world w; reflexivity|]; split; [destr_world w; reflexivity|]; split; [destr_world w; reflexivity|]].
    + change (set_mem w (mkMem (upd_nth j ?f (regions w)) (m_xml (w_mem w)) (m_hits (w_mem w))))
        with (set_hits (set_regions w (upd_nth j f (regions w))) (m_hits (w_mem w))).
      eapply Inv_upd; eauto. intros _. rewrite <- Hset.
      replace (with_wps r (wps_clear (r_wps r) x)) with (with_wps (with_wparray r (r_wpalloc r) (r_bwp r)) (wps_clear (r_wps r) x))
        by (destruct r; reflexivity).
      apply wf_with_wps; auto. lia.
    + exists j, a'. split; [reflexivity|].
      destr_world w. cbn in *. eapply upd_nth_ext; [exact Hj|]. fold x. rewrite Hset. reflexivity.
  - cbn [ret]. split; [exact HI|]. split; [apply frame_refl|]. split; [split; reflexivity|]. repeat (split; [reflexivity|]).
    exists j, a'. split; [reflexivity|]. apply Hsame. unfold wps_clear. rewrite E. reflexivity.
  - cbn [ret]. split; [exact HI|]. split; [apply frame_refl|]. split; [split; reflexivity|]. repeat (split; [reflexivity|]).
    exists j, a'. split; [reflexivity|]. apply Hsame. unfold wps_clear. rewrite E. reflexivity.
Qed.
