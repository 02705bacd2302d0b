(** Every simulator call keeps the simulator well formed and its heap blocks accounted for. *)
From Coq Require Import String ZArith List Bool Lia ZifyBool ZifyNat Permutation Sorted.
From Verif Require Import Base World MemSim BaseLemmas MemSpec MemLemmas MemInv.
Import ListNotations.
Open Scope Z_scope.

(** ** Heap bookkeeping *)

(** The live blocks of [h] are exactly [l], each once, and all are older than the next block. *)
Definition hp (h : heap) (l : list nat) : Prop :=
  NoDup (h_live h) /\ Forall (fun b => (b < h_next h)%nat) (h_live h) /\ Permutation (h_live h) l.

Lemma hp_perm h l l' : hp h l -> Permutation l l' -> hp h l'.
Proof. intros (A & B & C) H. split; [exact A|]. split; [exact B|]. etransitivity; eauto. Qed.

Lemma hp_calls h l live next c s : hp h l -> live = h_live h -> (h_next h <= next)%nat -> hp (mkHeap live next c s) l.
Proof.
  intros (A & B & C) -> H. split; [exact A|]. split; [|exact C]. cbn.
  eapply Forall_impl; [|exact B]. cbn. lia.
Qed.

Lemma hp_malloc h l c s : hp h l -> hp (mkHeap (h_next h :: h_live h) (S (h_next h)) c s) (h_next h :: l).
Proof.
  intros (A & B & C). split; [|split]; cbn.
  - constructor; [|exact A]. intro H. rewrite Forall_forall in B. apply B in H. lia.
  - constructor; [lia|]. eapply Forall_impl; [|exact B]. cbn. lia.
  - constructor. exact C.
Qed.

Lemma remove1_perm b l : In b l -> Permutation l (b :: remove1 b l).
Proof.
  induction l as [|x l IH]; cbn; [tauto|]. intro H.
  destruct (Nat.eqb_spec b x) as [->|N]; [reflexivity|].
  destruct H as [H|H]; [congruence|]. etransitivity; [apply perm_skip, IH, H|]. apply perm_swap.
Qed.

Lemma hp_free h b l c s : hp h (b :: l) -> is_live b h = true /\ hp (mkHeap (remove1 b (h_live h)) (h_next h) c s) l.
Proof.
  intros (A & B & C).
  assert (Hin : In b (h_live h)) by (eapply Permutation_in; [symmetry; exact C|now left]).
  split.
  - unfold is_live. apply existsb_exists. exists b. split; [exact Hin|apply Nat.eqb_refl].
  - pose proof (remove1_perm _ _ Hin) as P. split; [|split]; cbn.
    + eapply Permutation_NoDup in A; [|exact P]. now inversion A.
    + eapply Permutation_Forall in B; [|exact P]. now inversion B.
    + eapply Permutation_cons_inv. etransitivity; [symmetry; exact P|exact C].
Qed.

Lemma free_hp b l w :
  hp (w_heap w) (b :: l) -> exists h', free b w = Ret tt (set_heap w h') /\ hp h' l /\ h_next h' = h_next (w_heap w)
    /\ h_calls h' = h_calls (w_heap w).
Proof.
  intro H. eapply hp_free in H as [H1 H2]. unfold free. rewrite H1. eauto.
Qed.

Definition olist (b : option nat) : list nat := match b with Some x => [x] | None => [] end.

Lemma set_heap_same w : set_heap w (w_heap w) = w.
Proof. destruct w; reflexivity. Qed.

Lemma free_opt_hp b l w :
  hp (w_heap w) (olist b ++ l) ->
  exists h', free_opt b w = Ret tt (set_heap w h') /\ hp h' l /\ h_next h' = h_next (w_heap w)
    /\ h_calls h' = h_calls (w_heap w).
Proof.
  destruct b as [b|]; intro H; [now apply free_hp|].
  exists (w_heap w). rewrite set_heap_same. cbn in H. auto.
Qed.

(** Heap blocks of a region and of the simulator. *)
Definition rblocks (r : region) : list nat :=
  olist (option_map fst (r_rc r)) ++ olist (r_bwp r) ++ [r_bdata r; r_bself r].
Definition blocks (m : mem) : list nat :=
  olist (option_map fst (m_xml m)) ++ flat_map rblocks (m_regions m).

Lemma freeRegion_hp r l w :
  hp (w_heap w) (rblocks r ++ l) ->
  exists h', freeRegion r w = Ret tt (set_heap w h') /\ hp h' l /\ h_next h' = h_next (w_heap w)
    /\ h_calls h' = h_calls (w_heap w).
Proof.
  unfold rblocks. rewrite <- !app_assoc. intro H.
  apply free_opt_hp in H as (h1 & E1 & H1 & N1 & C1).
  unfold freeRegion, bind. rewrite E1.
  destruct (free_opt_hp (r_bwp r) _ (set_heap w h1) H1) as (h2 & E2 & H2 & N2 & C2). rewrite E2.
  destruct (free_hp (r_bdata r) _ (set_heap (set_heap w h1) h2) H2) as (h3 & E3 & H3 & N3 & C3). rewrite E3.
  destruct (free_hp (r_bself r) _ (set_heap (set_heap (set_heap w h1) h2) h3) H3) as (h4 & E4 & H4 & N4 & C4).
  rewrite E4. exists h4. destr_world w. cbn in *. repeat split; congruence || auto; apply H4.
Qed.

Lemma flat_map_upd {A B} (g : A -> list B) j rs r :
  nth_error rs j = Some r ->
  exists rest, Permutation (flat_map g rs) (g r ++ rest) /\
               forall f, Permutation (flat_map g (upd_nth j f rs)) (g (f r) ++ rest).
Proof.
  revert j. induction rs as [|x rs IH]; intros [|j] H; cbn in H; try discriminate.
  - injection H as ->. exists (flat_map g rs). split; [reflexivity|]. intro f. reflexivity.
  - apply IH in H as (rest & P & Q). exists (g x ++ rest). cbn. split.
    + rewrite P, !app_assoc. apply Permutation_app_tail, Permutation_app_comm.
    + intro f. rewrite Q, !app_assoc. apply Permutation_app_tail, Permutation_app_comm.
Qed.

(** ** The invariant *)

(** [R]: live blocks that do not belong to the simulator. *)
Definition Inv (R : list nat) (w : world) : Prop :=
  wf (regions w) /\ hp (w_heap w) (blocks (w_mem w) ++ R).

(** Only the simulator, the heap and the exception state differ. *)
Lemma frame_refl w : frame w w.
Proof. repeat split. Qed.
Lemma frame_trans w1 w2 w3 : frame w1 w2 -> frame w2 w3 -> frame w1 w3.
Proof. unfold frame. intuition congruence. Qed.

(** ** Preservation of well-formedness by list changes *)

Lemma wf_region_ctx rs rs' i r :
  (forall j t, nth_error rs j = Some t -> exists t', nth_error rs' j = Some t' /\ r_redir t' = r_redir t /\
        r_base t' = r_base t /\ r_size t' = r_size t) ->
  wf_region rs i r -> wf_region rs' i r.
Proof.
  intros H []. constructor; auto. intros j Hj. destruct (wr_redir j Hj) as (t & H1 & H2 & H3 & H4).
  destruct (H _ _ H1) as (t' & H1' & H2' & H3' & H4'). exists t'. unfold covers. rewrite H2', H3', H4'. auto.
Qed.

Lemma wf_upd rs j f r :
  wf rs -> nth_error rs j = Some r ->
  r_base (f r) = r_base r -> r_size (f r) = r_size r -> r_redir (f r) = r_redir r ->
  (wf_region rs j r -> wf_region rs j (f r)) -> wf (upd_nth j f rs).
Proof.
  intros Hwf Hj Hb Hs Hr Hf i x Hx.
  eapply wf_region_ctx with (rs := rs).
  { intros k t Ht. rewrite nth_error_upd_nth. destruct (Nat.eqb_spec j k) as [<-|N].
    - rewrite Ht. rewrite Hj in Ht. injection Ht as <-. exists (f r). auto.
    - exists t. auto. }
  rewrite nth_error_upd_nth in Hx. destruct (Nat.eqb_spec j i) as [<-|N].
  - rewrite Hj in Hx. injection Hx as <-. apply Hf, Hwf, Hj.
  - apply Hwf, Hx.
Qed.

Lemma wf_app rs r : wf rs -> wf_region (rs ++ [r]) (length rs) r -> wf (rs ++ [r]).
Proof.
  intros Hwf Hr i x Hx. destruct (Nat.lt_ge_cases i (length rs)) as [L|L].
  - rewrite nth_error_app1 in Hx by exact L. eapply wf_region_ctx; [|apply Hwf, Hx].
    intros j t Ht. exists t. rewrite nth_error_app1; [auto|]. apply nth_error_Some. congruence.
  - rewrite nth_error_app2 in Hx by exact L.
    destruct (i - length rs)%nat eqn:E; cbn in Hx; [|destruct n; discriminate].
    injection Hx as <-. replace i with (length rs) by lia. exact Hr.
Qed.

Lemma wf_removelast rs r : wf (rs ++ [r]) -> wf rs.
Proof.
  intros Hwf i x Hx. assert (L : (i < length rs)%nat) by (apply nth_error_Some; congruence).
  assert (H : wf_region (rs ++ [r]) i x) by (apply Hwf; rewrite nth_error_app1; assumption).
  destruct H. constructor; auto. intros j Hj. destruct (wr_redir j Hj) as (t & H1 & H2 & H3 & H4).
  exists t. rewrite nth_error_app1 in H1 by lia. auto.
Qed.

Lemma zeros_bytes n : Forall byte (zeros n).
Proof. unfold zeros. apply Forall_forall. intros x H. apply repeat_spec in H. subst. unfold byte. lia. Qed.

Lemma zeros_zlen n : 0 <= n -> zlen (zeros n) = n.
Proof. intro. unfold zeros. rewrite zlen_repeat. lia. Qed.

Lemma zeros_u32 n : Forall u32 (zeros n).
Proof. unfold zeros. apply Forall_forall. intros x H. apply repeat_spec in H. subst. unfold u32. lia. Qed.

Lemma wf_new_region w rs i base size : u32 base -> u32 size -> wf_region rs i (new_region w base size).
Proof.
  intros Hb Hs. constructor; cbn; auto using zeros_bytes; try discriminate; try constructor.
  - intros _. apply zeros_zlen. unfold u32 in Hs. lia.
Qed.

Lemma wf_new_alias w rs base redirect size j t x i :
  wf rs -> u32 base -> u32 redirect -> u32 size -> nth_error rs j = Some t -> r_redir t = None ->
  covers t redirect 1 -> (j < i)%nat -> 
  wf_region (rs ++ [x]) i (new_alias w base redirect size j t).
Proof.
  intros Hwf Hb Hr Hs Hj Ht [C1 C2] L. pose proof (Hwf _ _ Hj) as T. destruct T. unfold u32 in *.
  assert (E : W (r_size t - (redirect - r_base t)) = r_size t - (redirect - r_base t))
    by (apply W_id; unfold u32; lia).
  assert (E2 : W (redirect - r_base t) = redirect - r_base t) by (apply W_id; unfold u32; lia).
  constructor; cbn -[Z.ltb]; auto using zeros_bytes; try discriminate; try constructor.
  - unfold u32. rewrite E. destruct (_ <? _) eqn:Q; lia.
  - rewrite E. destruct (_ <? _) eqn:Q; lia.
  - intros j' E'. injection E' as <-. exists t.
    split; [rewrite nth_error_app1; [exact Hj|apply nth_error_Some; congruence]|].
    split; [exact Ht|]. split; [exact L|]. rewrite E, E2. unfold covers, u32. destruct (_ <? _) eqn:Q; lia.
Qed.

Lemma wf_with_data rs j r d :
  Forall byte d -> (r_redir r = None -> zlen d = zlen (r_data r)) -> wf_region rs j r -> wf_region rs j (with_data r d).
Proof. intros Hb Hz []. constructor; cbn; auto. intro. rewrite Hz; auto. Qed.

Lemma wf_with_rc rs j r b c :
  zlen c = r_size r / 2 -> Forall u32 c -> wf_region rs j r -> wf_region rs j (with_rc r (Some (b, c))).
Proof. intros Hz Hu []. constructor; cbn; auto. intros b' c' E. injection E as <- <-. auto. Qed.

Lemma wf_with_ro rs j r x : wf_region rs j r -> wf_region rs j (with_ro r x).
Proof. intros []. constructor; cbn; auto. Qed.

(** The updated region is the one the search found. *)
Lemma find_valid rs a n j a' : wf rs -> find_from 0 rs a n = Some (j, a') -> exists r, nth_error rs j = Some r /\ r_redir r = None.
Proof.
  intros Hwf F. apply find_some in F as (i & r & (H1 & H2 & H3) & E).
  destruct (r_redir r) as [t|] eqn:Er; injection E as -> ->.
  - destruct (Hwf _ _ H1). destruct (wr_redir _ Er) as (x & Hx & Hx' & _). eauto.
  - eauto.
Qed.

(** ** Outcome predicates *)

Definition post {A} (m : M world A) (w : world) (Q : A -> world -> Prop) (E : world -> Prop) : Prop :=
  match m w with
  | Ret a w' => Q a w'
  | Exc w' => E w'
  | Ub _ => False
  end.

Lemma post_bind {A B} (m : M world A) (f : A -> M world B) w Q E :
  post m w (fun a w' => post (f a) w' Q E) E -> post (bind m f) w Q E.
Proof. unfold post, bind. destruct (m w); auto. Qed.

Lemma post_weaken {A} (m : M world A) w (Q Q' : A -> world -> Prop) (E E' : world -> Prop) :
  post m w Q E -> (forall a w', Q a w' -> Q' a w') -> (forall w', E w' -> E' w') -> post m w Q' E'.
Proof. unfold post. destruct (m w); auto. Qed.

Definition keeps {A} (R : list nat) (m : M world A) (w : world) : Prop :=
  post m w (fun _ w' => Inv R w' /\ frame w w') (fun w' => Inv R w' /\ frame w w').

Lemma Inv_exn R w c m : Inv R w -> Inv R (set_exn w c m).
Proof. destr_world w. exact (fun H => H). Qed.

(** ** Creating regions *)

Lemma blocks_app xml rs r h : Permutation (blocks (mkMem (rs ++ [r]) xml h)) (rblocks r ++ blocks (mkMem rs xml h)).
Proof.
  unfold blocks. cbn. rewrite flat_map_app. cbn. rewrite app_nil_r.
  rewrite (Permutation_app_comm (flat_map rblocks rs)). rewrite !app_assoc.
  apply Permutation_app_tail, Permutation_app_comm.
Qed.

Lemma CreateRegion_post base size R w :
  Inv R w -> u32 base -> u32 size ->
  post (MemorySim_CreateRegion base size) w
    (fun _ w' => Inv R w' /\ frame w w' /\ regions w' = regions w ++ [new_region w base size] /\ w_code w' = 0 /\
                 m_hits (w_mem w') = m_hits (w_mem w) /\ m_xml (w_mem w') = m_xml (w_mem w))
    (fun w' => Inv R w' /\ frame w w' /\ w_mem w' = w_mem w /\ w_code w' = outOfMemoryException /\
               h_live (w_heap w') = h_live (w_heap w)).
Proof.
  intros [Hwf Hh] Hb Hs. unfold post. rewrite CreateRegion_eq. cbv zeta.
  destr_world w. cbn in Hwf, Hh. destruct (alloc_ok _ 0 SIZEOF_REGION); cbn [negb].
  - destruct (alloc_ok _ 1 size); cbn [negb].
    + split; [|repeat split]. split; cbn.
      * apply wf_app; [exact Hwf|]. now apply wf_new_region.
      * eapply hp_perm.
        { eapply (hp_malloc (mkHeap (nxt :: live) (S nxt) calls szs)).
          eapply (hp_malloc (mkHeap live nxt calls szs)). exact Hh. }
        cbn. rewrite blocks_app. cbn. reflexivity.
    + split; [|repeat split]. split; [exact Hwf|]. cbn. eapply hp_calls; [exact Hh|reflexivity|cbn; lia].
  - split; [|repeat split]. split; [exact Hwf|]. cbn. eapply hp_calls; [exact Hh|reflexivity|cbn; lia].
Qed.

Lemma CreateAlias_post base redirect size R w :
  Inv R w -> u32 base -> u32 redirect -> u32 size ->
  direct_alias (regions w) (OAlias base redirect size) ->
  post (MemorySim_CreateAlias base redirect size) w
    (fun _ w' => Inv R w' /\ frame w w' /\ w_code w' = 0 /\ m_hits (w_mem w') = m_hits (w_mem w) /\
       m_xml (w_mem w') = m_xml (w_mem w) /\
       exists j t, first_cover (regions w) redirect 1 j t /\ r_redir t = None /\
                   regions w' = regions w ++ [new_alias w base redirect size j t])
    (fun w' => Inv R w' /\ frame w w' /\ w_mem w' = w_mem w /\ h_live (w_heap w') = h_live (w_heap w) /\
               ((w_code w' = busErrorException /\ forall r, In r (regions w) -> ~ covers r redirect 1) \/
                w_code w' = outOfMemoryException)).
Proof.
  intros [Hwf Hh] Hb Hr Hs Hd. unfold post. rewrite CreateAlias_eq. cbv zeta.
  destr_world w. cbn in Hwf, Hh, Hd |- *. destruct (alloc_ok _ 0 SIZEOF_REGION); cbn [negb].
  - destruct (find_from 0 rs redirect 1) as [[j a']|] eqn:F.
    + pose proof F as F2. apply find_some in F2 as (i & t & FC & E). pose proof FC as (H1 & H2 & H3).
      pose proof (Hd i t FC) as Hrt. rewrite Hrt in E. injection E as -> ->. cbn [Nat.add]. rewrite H1.
      destruct (alloc_ok _ 1 size); cbn [negb].
      * split; [|repeat split; eauto 10]. split; cbn.
        -- apply wf_app; [exact Hwf|]. apply wf_new_alias; auto. apply nth_error_Some. congruence.
        -- eapply hp_perm.
           { eapply (hp_malloc (mkHeap (nxt :: live) (S nxt) calls szs)).
             eapply (hp_malloc (mkHeap live nxt calls szs)). exact Hh. }
           cbn. rewrite blocks_app. cbn. reflexivity.
      * split; [|repeat split; auto]. split; [exact Hwf|]. cbn. eapply hp_calls; [exact Hh|reflexivity|cbn; lia].
    + split; [|repeat split; auto; left; split; [reflexivity|eapply find_none; eauto]].
      split; [exact Hwf|]. cbn. eapply hp_calls; [exact Hh|reflexivity|cbn; lia].
  - split; [|repeat split; auto]. split; [exact Hwf|]. cbn. eapply hp_calls; [exact Hh|reflexivity|cbn; lia].
Qed.

(** ** Updates of one region *)

Lemma blocks_upd rs xml h j f r :
  nth_error rs j = Some r ->
  exists rest, Permutation (blocks (mkMem rs xml h)) (rblocks r ++ rest) /\
               forall h', Permutation (blocks (mkMem (upd_nth j f rs) xml h')) (rblocks (f r) ++ rest).
Proof.
  intro H. destruct (flat_map_upd rblocks j rs r H) as (rest & P & Q).
  exists (olist (option_map fst xml) ++ rest). unfold blocks. cbn. split; [|intro h'].
  - rewrite P, !app_assoc. apply Permutation_app_tail, Permutation_app_comm.
  - rewrite Q, !app_assoc. apply Permutation_app_tail, Permutation_app_comm.
Qed.

Lemma blocks_upd_same rs xml h h' j f r :
  nth_error rs j = Some r -> rblocks (f r) = rblocks r ->
  Permutation (blocks (mkMem rs xml h)) (blocks (mkMem (upd_nth j f rs) xml h')).
Proof.
  intros H E. destruct (blocks_upd rs xml h j f r H) as (rest & P & Q). rewrite P, Q, E. reflexivity.
Qed.

Lemma Inv_upd R w j f r h :
  Inv R w -> nth_error (regions w) j = Some r ->
  r_base (f r) = r_base r -> r_size (f r) = r_size r -> r_redir (f r) = r_redir r ->
  rblocks (f r) = rblocks r ->
  (wf_region (regions w) j r -> wf_region (regions w) j (f r)) ->
  Inv R (set_hits (set_regions w (upd_nth j f (regions w))) h).
Proof.
  intros [Hwf Hh] Hj Hb Hs Hr HB Hf. split.
  - destr_world w. cbn in *. eapply wf_upd; eauto.
  - destr_world w. cbn in *. eapply hp_perm; [exact Hh|]. apply Permutation_app_tail.
    eapply blocks_upd_same; eauto.
Qed.

Lemma set_regions_same w : set_regions w (regions w) = w.
Proof. destr_world w. reflexivity. Qed.
Lemma set_hits_same w : set_hits w (m_hits (w_mem w)) = w.
Proof. destr_world w. reflexivity. Qed.

Lemma Inv_hits R w h : Inv R w -> Inv R (set_hits w h).
Proof. destr_world w. exact (fun H => H). Qed.

Lemma Inv_bump R w j r k h :
  Inv R w -> nth_error (regions w) j = Some r -> Inv R (set_hits (set_regions w (bump (regions w) j r k)) h).
Proof.
  intros HI Hj. unfold bump. destruct (r_rc r) as [[b c]|] eqn:C.
  - eapply Inv_upd; eauto.
    + unfold rblocks. cbn. rewrite C. reflexivity.
    + intro H. pose proof H as []. destruct (wr_rc _ _ C) as [Z1 U]. apply wf_with_rc; auto.
      * unfold zlen in *. rewrite upd_nth_length. exact Z1.
      * apply Forall_upd_nth; [exact U|]. intros. apply W_u32.
  - rewrite set_regions_same. now apply Inv_hits.
Qed.

Lemma Inv_counted R w j r n k type h :
  Inv R w -> nth_error (regions w) j = Some r ->
  Inv R (set_hits (set_regions w (counted_regions (regions w) j r n k type)) h).
Proof.
  intros HI Hj. unfold counted_regions. destruct (_ && _).
  - now apply Inv_bump.
  - rewrite set_regions_same. now apply Inv_hits.
Qed.

Lemma frame_set_mem w m c s : frame w (set_exn (set_mem w m) c s).
Proof. destr_world w. repeat split. Qed.
Lemma frame_set_mem' w m : frame w (set_mem w m).
Proof. destr_world w. repeat split. Qed.

Lemma getDataPointer_keeps R a n type chk w :
  Inv R w -> u32 a -> 0 <= n -> keeps R (getDataPointer a n type chk) w.
Proof.
  intros HI Ha Hn. unfold keeps, post. rewrite getDataPointer_wf by (apply HI || assumption).
  destruct (find_from 0 (regions w) a n) as [[j a']|] eqn:F.
  - destruct (find_valid _ _ _ _ _ (proj1 HI) F) as (r & Hj & _). rewrite Hj. cbv zeta.
    destruct (_ && _).
    + split; [now apply Inv_exn|]. destr_world w. repeat split.
    + destruct (if chk then _ else _) as [h brk].
      pose proof (Inv_counted R w j r n (roff r a') type h HI Hj).
      destruct brk.
      * split; [now apply Inv_exn|]. destr_world w. repeat split.
      * split; [assumption|]. destr_world w. repeat split.
  - split; [now apply Inv_exn|]. destr_world w. repeat split.
Qed.

Lemma readN_keeps R n a w : Inv R w -> u32 a -> width n -> keeps R (readN n a) w.
Proof.
  intros HI Ha Hn. unfold keeps, post. rewrite readN_wf by (apply HI || assumption).
  destruct (find_from 0 (regions w) a n) as [[j a']|] eqn:F.
  - destruct (find_valid _ _ _ _ _ (proj1 HI) F) as (r & Hj & _). rewrite Hj. cbv zeta.
    destruct (scan_wps _ _ _ _ _ _) as [h brk].
    pose proof (Inv_counted R w j r n (roff r a') READING h HI Hj).
    destruct brk.
    + split; [now apply Inv_exn|]. destr_world w. repeat split.
    + split; [assumption|]. destr_world w. repeat split.
  - split; [now apply Inv_exn|]. destr_world w. repeat split.
Qed.

Lemma wf_splice rs j r off bs :
  0 <= off -> off + zlen bs <= zlen (r_data r) -> Forall byte bs ->
  wf_region rs j r -> wf_region rs j (with_data r (splice (r_data r) off bs)).
Proof.
  intros H1 H2 H3 H. apply wf_with_data; [|intros; now apply splice_zlen|exact H].
  destruct H. apply Forall_splice; assumption.
Qed.

Lemma writeN_keeps R n a v w : Inv R w -> u32 a -> width n -> keeps R (writeN n a v) w.
Proof.
  intros HI Ha Hn. unfold keeps, post. rewrite writeN_wf by (apply HI || assumption).
  assert (Hn' : 0 <= n) by (unfold width in Hn; lia).
  destruct (find_from 0 (regions w) a n) as [[j a']|] eqn:F.
  - destruct (locate _ _ _ _ _ (proj1 HI) Ha Hn' F) as (r & k & L1 & L2 & L3 & L4 & L5 & L6 & L7 & L8 & _).
    rewrite L1. cbv zeta. destruct (r_ro r).
    + split; [now apply Inv_exn|]. destr_world w. repeat split.
    + destruct (scan_wps _ _ _ _ _ _) as [h brk]. destruct brk.
      * split; [apply Inv_exn; now apply Inv_hits|]. destr_world w. repeat split.
      * split; [|destr_world w; repeat split]. eapply Inv_upd; eauto. intro H. apply wf_splice; auto using le_bytes.
        -- lia.
        -- rewrite le_zlen. lia.
  - split; [now apply Inv_exn|]. destr_world w. repeat split.
Qed.

(** ** Loading images *)

(** One load of the bytes [bs] (4 or 1 of them). *)
Definition loadN (a : Z) (bs : list Z) : M world unit :=
  bind (getDataPointer a (zlen bs) LOADING false) (fun p => store_ptr p bs).

Lemma loadN_wf a bs w :
  wf (regions w) -> u32 a -> zlen bs <> 2 ->
  loadN a bs w =
  match find_from 0 (regions w) a (zlen bs) with
  | None => Exc (set_exn w (Z.max busErrorException (w_code w)) (w_msg w))
  | Some (j, a') =>
    match nth_error (regions w) j with
    | None => Ub UbRegion
    | Some r => Ret tt (set_regions w
               (upd_nth j (fun r => with_data r (splice (r_data r) (roff r a') bs)) (regions w)))
    end
  end.
Proof.
  intros Hwf Ha Hn. pose proof (zlen_nonneg bs) as Hn'.
  unfold loadN, bind. rewrite getDataPointer_wf by assumption.
  destruct (find_from 0 (regions w) a (zlen bs)) as [[j a']|] eqn:F; [|reflexivity].
  destruct (locate _ _ _ _ _ Hwf Ha Hn' F) as (r & k & L1 & L2 & L3 & L4 & L5 & L6 & L7 & L8 & _).
  rewrite L1. cbv zeta. change (LOADING =? WRITING) with false. cbn [andb].
  unfold counted_regions. replace (zlen bs =? 2) with false by lia. rewrite andb_false_r.
  unfold store_ptr, bind, get_region, upd_region, modw. cbn [fst snd].
  change (regions (set_hits (set_regions w ?x) ?h)) with x. rewrite L1.
  rewrite L4. replace ((0 <=? k) && (k + zlen bs <=? zlen (r_data r))) with true by lia.
  destr_world w. cbn in *. unfold set_regions. cbn. do 3 f_equal. 
  eapply upd_nth_ext; [exact L1|]. rewrite L4. reflexivity.
Qed.

(** The regions differ in data only (same block sizes). *)
Lemma loadN_keeps R a bs w :
  Inv R w -> u32 a -> zlen bs <> 2 -> Forall byte bs -> keeps R (loadN a bs) w.
Proof.
  intros HI Ha Hn Hb. unfold keeps, post. rewrite loadN_wf by (apply HI || assumption).
  destruct (find_from 0 (regions w) a (zlen bs)) as [[j a']|] eqn:F.
  - destruct (locate _ _ _ _ _ (proj1 HI) Ha (zlen_nonneg bs) F) as (r & k & L1 & L2 & L3 & L4 & L5 & L6 & L7 & L8 & _).
    rewrite L1. split; [|destr_world w; repeat split].
    rewrite <- (set_hits_same (set_regions _ _)). eapply Inv_upd; eauto. intro H. apply wf_splice; auto; lia.
  - split; [now apply Inv_exn|]. destr_world w. repeat split.
Qed.

Lemma keeps_frame_bind {A B} R (m : M world A) (f : A -> M world B) w :
  keeps R m w -> (forall a w', m w = Ret a w' -> Inv R w' -> keeps R (f a) w') -> keeps R (bind m f) w.
Proof.
  unfold keeps, post, bind. destruct (m w) as [a w'|w'|u]; auto. intros [HI HF] H.
  specialize (H a w' eq_refl HI). destruct (f a w') as [b w2|w2|u]; auto; destruct H; split; eauto using frame_trans.
Qed.

Lemma keeps_ret {A} R (a : A) w : Inv R w -> keeps R (ret a) w.
Proof. intro. split; [assumption|apply frame_refl]. Qed.

Lemma load32_eq a b0 b1 b2 b3 : load32 a [b0; b1; b2; b3] = loadN a [b0; b1; b2; b3].
Proof. reflexivity. Qed.
Lemma load8_eq a b : load8 a b = loadN a [b].
Proof. reflexivity. Qed.

Lemma load_bytes_keeps R n src a w :
  Inv R w -> u32 a -> Forall byte src -> (n <= length src)%nat -> keeps R (load_bytes n src a) w.
Proof.
  revert src a w. induction n as [|n IH]; intros src a w HI Ha Hb Hl; cbn [load_bytes].
  - now apply keeps_ret.
  - destruct src as [|b t]; [cbn in Hl; lia|]. inversion Hb; subst. rewrite load8_eq.
    apply keeps_frame_bind.
    + apply loadN_keeps; auto; rewrite ?zlen_cons, ?zlen_nil; lia || auto.
    + intros _ w' _ HI'. apply IH; auto using W_u32. cbn in Hl. lia.
Qed.

Lemma load_words_step m b0 b1 b2 b3 t a :
  load_words (S (S (S (S (S m))))) (b0 :: b1 :: b2 :: b3 :: t) a =
  bind (loadN a [b0; b1; b2; b3]) (fun _ => load_words (S m) t (W (a + 4))).
Proof. reflexivity. Qed.

Lemma load_words_keeps R n src a w :
  Inv R w -> u32 a -> Forall byte src -> (n <= length src)%nat -> keeps R (load_words n src a) w.
Proof.
  revert src a w. induction n as [n IH] using (well_founded_induction lt_wf). intros src a w HI Ha Hb Hl.
  destruct n as [|[|[|[|[|m]]]]]; try (apply load_bytes_keeps; assumption).
  do 4 (destruct src as [|?b src]; [cbn in Hl; lia|]).
  do 4 (inversion Hb as [|?x ?y ?Hx Hb']; subst; clear Hb; rename Hb' into Hb).
  rewrite load_words_step. apply keeps_frame_bind.
  - apply loadN_keeps; auto. cbv. discriminate.
  - intros _ w' _ HI'. apply IH; auto using W_u32; cbn in Hl; lia.
Qed.

Lemma Load_keeps R base src size w :
  Inv R w -> u32 base -> Forall byte src -> size <= zlen src ->
  keeps R (MemorySim_LoadFromFlashImage base src size) w.
Proof. intros. apply load_words_keeps; auto. unfold zlen in *. lia. Qed.

(** ** Read-only regions *)

(** Blocks that become unreachable when [t] gets a new counter array. *)
Definition lost (t : region) : list nat := olist (option_map fst (r_rc t)).

Lemma MakeRO_post base R w :
  Inv R w ->
  post (MemorySim_MakeRegionReadOnly base) w
    (fun _ w' => exists j t a', find_from 0 (regions w) base 1 = Some (j, a') /\ nth_error (regions w) j = Some t /\
       r_redir t = None /\ Inv (lost t ++ R) w' /\ frame w w' /\
       regions w' = upd_nth j (fun r => with_rc (with_ro r true) (Some (h_next (w_heap w), zeros (r_size t / 2)))) (regions w) /\
       m_hits (w_mem w') = m_hits (w_mem w) /\ m_xml (w_mem w') = m_xml (w_mem w) /\
       w_code w' = w_code w /\ w_msg w' = w_msg w)
    (fun w' => Inv R w' /\ frame w w' /\ m_hits (w_mem w') = m_hits (w_mem w) /\ m_xml (w_mem w') = m_xml (w_mem w) /\
       h_live (w_heap w') = h_live (w_heap w) /\
       ((find_from 0 (regions w) base 1 = None /\ w_mem w' = w_mem w /\
         w_code w' = Z.max busErrorException (w_code w)) \/
        exists j t a', find_from 0 (regions w) base 1 = Some (j, a') /\ nth_error (regions w) j = Some t /\
          r_redir t = None /\
          regions w' = upd_nth j (fun r => with_ro r true) (regions w) /\
          w_code w' = Z.max outOfMemoryException (w_code w))).
Proof.
  intros [Hwf Hh]. unfold post. rewrite MakeRO_eq. cbv zeta.
  destruct (find_from 0 (regions w) base 1) as [[j a']|] eqn:F.
  - destruct (find_valid _ _ _ _ _ Hwf F) as (t & Hj & Ht). rewrite Hj.
    destruct (alloc_ok w 0 (r_size t / 2 * 4)); cbn [negb].
    + exists j, t, a'. split; [reflexivity|]. split; [exact Hj|]. split; [exact Ht|].
      split; [|destr_world w; repeat split]. split.
      * destr_world w. cbn in *. eapply wf_upd; eauto. intro H. pose proof H as [].
        apply wf_with_rc; [|apply zeros_u32|now apply wf_with_ro].
        cbn. apply zeros_zlen. unfold u32 in *. lia.
      * destr_world w. cbn in Hj, Hh |- *. destruct (blocks_upd rs xml hits j
          (fun r : region => with_rc (with_ro r true) (Some (nxt, zeros (r_size t / 2)))) t Hj) as (rest & P & Q).
        eapply hp_perm; [apply (hp_malloc (mkHeap live nxt calls szs)); exact Hh|]. cbn.
        rewrite P, Q. unfold rblocks, lost. cbn [with_rc with_ro r_rc r_bwp r_bdata r_bself option_map fst olist app].
        apply perm_skip. set (A := olist (option_map fst (r_rc t))). set (X := olist (r_bwp t) ++ [r_bdata t; r_bself t]).
        rewrite (app_assoc (X ++ rest)). apply Permutation_app_tail.
        rewrite <- app_assoc. apply Permutation_app_comm.
    + split; [|split; [destr_world w; repeat split|]].
      * split.
        -- destr_world w. cbn in *. eapply wf_upd; eauto. apply wf_with_ro.
        -- destr_world w. cbn in Hj, Hh |- *. eapply hp_perm; [eapply hp_calls; [exact Hh|reflexivity|cbn; lia]|].
           apply Permutation_app_tail. eapply blocks_upd_same; eauto.
      * destr_world w. cbn in *. repeat split. right. exists j, t, a'. auto.
  - split; [split; destr_world w; assumption|]. split; [destr_world w; repeat split|].
    destr_world w. cbn in *. repeat split. left. auto.
Qed.

(** ** Image regions *)

Lemma try0_eq body h w :
  try0 body h w = match body (set_exn w noException []) with
                  | Ret _ w1 => if w_code w1 =? 0 then Ret tt w1 else h w1
                  | Exc w1 => if w_code w1 =? 0 then Ret tt w1 else h w1
                  | Ub u => Ub u
                  end.
Proof.
  unfold try0, try_, lift. cbn [snd fst]. destruct (body _) as [a w1|w1|u]; reflexivity.
Qed.

Lemma flat_map_removelast rs r xml h R : 
  Permutation (blocks (mkMem (rs ++ [r]) xml h) ++ R) (rblocks r ++ blocks (mkMem rs xml h) ++ R).
Proof. rewrite blocks_app, <- app_assoc. reflexivity. Qed.

Lemma freeLastRegion_post R w rs r :
  Inv R w -> regions w = rs ++ [r] ->
  post freeLastRegion w (fun _ w' => Inv R w' /\ frame w w' /\ w_mem w' = mkMem rs (m_xml (w_mem w)) (m_hits (w_mem w)) /\
       w_code w' = w_code w /\ w_msg w' = w_msg w)
     (fun _ => False).
Proof.
  intros [Hwf Hh] E. unfold post, freeLastRegion, getw, modw. unfold bind at 1. unfold bind at 1. rewrite E.
  rewrite rev_app_distr. cbn [rev app]. rewrite removelast_last.
  rewrite E in Hwf. apply wf_removelast in Hwf.
  destr_world w. cbn in E. subst rs0. cbn in Hh |- *.
  destruct (freeRegion_hp r (blocks (mkMem rs xml hits) ++ R)
    (set_mem (mkW (mkMem (rs ++ [r]) xml hits) (mkHeap live nxt calls szs) fs code msg ctx err fl gdb con env) (mkMem rs xml hits)))
    as (h' & E & H & _).
  { eapply hp_perm; [exact Hh|]. apply flat_map_removelast. }
  cbn in E. rewrite E. split; [split; assumption|repeat split].
Qed.

Lemma find_from_app s rs r a n :
  find_from s (rs ++ [r]) a n =
  match find_from s rs a n with Some p => Some p | None => find_from (s + length rs) [r] a n end.
Proof.
  revert s. induction rs as [|x rs IH]; intro s; cbn [app find_from length].
  - rewrite Nat.add_0_r. reflexivity.
  - destruct (hit x a n); [destruct (r_redir x); reflexivity|]. rewrite IH.
    replace (S s + length rs)%nat with (s + S (length rs))%nat by lia. reflexivity.
Qed.

(** What loads change: nothing but the contents of data blocks. *)
Definition same_but_data (r r' : region) : Prop := exists d, r' = with_data r d /\ length d = length (r_data r).
Definition data_only (w w' : world) : Prop :=
  Forall2 same_but_data (regions w) (regions w') /\ m_xml (w_mem w') = m_xml (w_mem w) /\
  m_hits (w_mem w') = m_hits (w_mem w) /\ w_heap w' = w_heap w.

Lemma same_but_data_refl r : same_but_data r r.
Proof. exists (r_data r). destruct r. auto. Qed.
Lemma same_but_data_trans r1 r2 r3 : same_but_data r1 r2 -> same_but_data r2 r3 -> same_but_data r1 r3.
Proof. intros (d & -> & H) (d' & -> & H'). exists d'. cbn in *. split; [reflexivity|congruence]. Qed.

Lemma Forall2_refl {A} (P : A -> A -> Prop) l : (forall x, P x x) -> Forall2 P l l.
Proof. intro. induction l; auto. Qed.
Lemma Forall2_trans {A} (P : A -> A -> Prop) l1 l2 l3 :
  (forall x y z, P x y -> P y z -> P x z) -> Forall2 P l1 l2 -> Forall2 P l2 l3 -> Forall2 P l1 l3.
Proof.
  intros HT H. revert l3. induction H; intros l3 H3; inversion H3; subst; constructor; eauto.
Qed.
Lemma Forall2_upd_nth {A} (P : A -> A -> Prop) j f l :
  (forall x, P x x) -> (forall x, nth_error l j = Some x -> P x (f x)) -> Forall2 P l (upd_nth j f l).
Proof.
  intros HR. revert j. induction l as [|x l IH]; intros [|j] H; cbn; constructor; auto.
  - apply Forall2_refl. auto.
Qed.

Lemma data_only_refl w : data_only w w.
Proof. repeat split. apply Forall2_refl, same_but_data_refl. Qed.
Lemma data_only_trans w1 w2 w3 : data_only w1 w2 -> data_only w2 w3 -> data_only w1 w3.
Proof.
  intros (A & B & C & D) (A' & B' & C' & D'). repeat split; try congruence.
  eapply Forall2_trans; eauto using same_but_data_trans.
Qed.

(** A search does not look at data. *)
Lemma find_from_data s rs rs' a n : Forall2 same_but_data rs rs' -> find_from s rs' a n = find_from s rs a n.
Proof.
  intro H. revert s. induction H as [|r r' l l' (d & -> & _) H IH]; intro s; [reflexivity|].
  cbn [find_from]. change (hit (with_data r d) a n) with (hit r a n). rewrite IH. reflexivity.
Qed.

(** A load never fails when every byte of the target range can be found. *)
Definition loads (R : list nat) (m : M world unit) (w : world) : Prop :=
  post m w (fun _ w' => Inv R w' /\ frame w w' /\ data_only w w' /\ w_code w' = w_code w /\ w_msg w' = w_msg w)
     (fun w' => Inv R w' /\ frame w w' /\ data_only w w' /\ w_code w' = Z.max busErrorException (w_code w) /\ w_msg w' = w_msg w).

Lemma loadN_loads R a bs w :
  Inv R w -> u32 a -> zlen bs <> 2 -> Forall byte bs -> loads R (loadN a bs) w.
Proof.
  intros HI Ha Hn Hb. pose proof (loadN_keeps R a bs w HI Ha Hn Hb) as K. unfold keeps, loads, post in *.
  rewrite loadN_wf in * by (apply HI || assumption).
  destruct (find_from 0 (regions w) a (zlen bs)) as [[j a']|] eqn:F.
  - destruct (locate _ _ _ _ _ (proj1 HI) Ha (zlen_nonneg bs) F) as (r & k & L1 & L2 & L3 & L4 & L5 & L6 & L7 & L8 & _).
    rewrite L1 in *. destruct K. split; [assumption|]. split; [assumption|]. split; [|destr_world w; auto].
    split; [|destr_world w; auto].
    change (regions (set_regions w ?x)) with x. apply Forall2_upd_nth; [apply same_but_data_refl|].
    intros x Hx. rewrite L1 in Hx. injection Hx as <-. exists (splice (r_data r) (roff r a') bs).
    split; [reflexivity|]. apply splice_length; lia.
  - destruct K. split; [assumption|]. split; [assumption|]. split; [|destr_world w; auto].
    exact (data_only_refl w).
Qed.

Lemma loads_bind R m f w :
  loads R m w -> (forall w', m w = Ret tt w' -> Inv R w' -> data_only w w' -> loads R (f tt) w') -> loads R (bind m f) w.
Proof.
  unfold loads, post, bind. destruct (m w) as [[] w'|w'|u]; auto. intros (HI & HF & HD & HC & HM) H.
  specialize (H w' eq_refl HI HD). destruct (f tt w') as [b w2|w2|u]; auto;
    destruct H as (H1 & H2 & H3 & H4 & H5); repeat (split; [eauto using frame_trans, data_only_trans; fail|]);
    split; try congruence; eauto using data_only_trans; split; congruence.
Qed.

Lemma loads_ret R w : Inv R w -> loads R (ret tt) w.
Proof. intro. split; [assumption|]. split; [apply frame_refl|]. split; [apply data_only_refl|auto]. Qed.

Lemma load_bytes_loads R n src a w :
  Inv R w -> u32 a -> Forall byte src -> (n <= length src)%nat -> loads R (load_bytes n src a) w.
Proof.
  revert src a w. induction n as [|n IH]; intros src a w HI Ha Hb Hl; cbn [load_bytes].
  - now apply loads_ret.
  - destruct src as [|b t]; [cbn in Hl; lia|]. inversion Hb; subst. rewrite load8_eq.
    apply loads_bind.
    + apply loadN_loads; auto; rewrite ?zlen_cons, ?zlen_nil; lia || auto.
    + intros w' _ HI' _. apply IH; auto using W_u32. cbn in Hl. lia.
Qed.

Lemma load_words_loads R n src a w :
  Inv R w -> u32 a -> Forall byte src -> (n <= length src)%nat -> loads R (load_words n src a) w.
Proof.
  revert src a w. induction n as [n IH] using (well_founded_induction lt_wf). intros src a w HI Ha Hb Hl.
  destruct n as [|[|[|[|[|m]]]]]; try (apply load_bytes_loads; assumption).
  do 4 (destruct src as [|?b src]; [cbn in Hl; lia|]).
  do 4 (inversion Hb as [|?x ?y ?Hx Hb']; subst; clear Hb; rename Hb' into Hb).
  rewrite load_words_step. apply loads_bind.
  - apply loadN_loads; auto. cbv. discriminate.
  - intros w' _ HI' _. apply IH; auto using W_u32; cbn in Hl; lia.
Qed.

Lemma Load_loads R base src size w :
  Inv R w -> u32 base -> Forall byte src -> size <= zlen src ->
  loads R (MemorySim_LoadFromFlashImage base src size) w.
Proof. intros. apply load_words_loads; auto. unfold zlen in *. lia. Qed.

(** ... and it succeeds if some region covers the whole range. *)
Definition finds (w : world) (a n : Z) : Prop :=
  forall b m, a <= b -> 0 <= m -> b + m <= a + n -> find_from 0 (regions w) b m <> None.

Lemma finds_data w w' a n : data_only w w' -> finds w a n -> finds w' a n.
Proof. intros (D & _) H b m. rewrite (find_from_data _ _ _ _ _ D). apply H. Qed.

Lemma covered_finds w a n r : In r (regions w) -> covers r a n -> finds w a n.
Proof.
  intros Hin [C1 C2] b m H1 H2 H3 F. eapply find_none in F; [|exact Hin]. apply F. split; lia.
Qed.

Lemma loadN_ok R a bs w :
  Inv R w -> u32 a -> zlen bs <> 2 -> Forall byte bs -> finds w a (zlen bs) -> forall w', loadN a bs w <> Exc w'.
Proof.
  intros HI Ha Hn Hb F w'. rewrite loadN_wf by (apply HI || assumption).
  specialize (F a (zlen bs)). pose proof (zlen_nonneg bs).
  destruct (find_from 0 (regions w) a (zlen bs)) as [[j a']|]; [|exfalso; apply F; lia || reflexivity].
  destruct (nth_error _ _); discriminate.
Qed.

Lemma load_bytes_ok R n src a w :
  Inv R w -> u32 a -> a + Z.of_nat n <= 4294967296 -> Forall byte src -> (n <= length src)%nat ->
  finds w a (Z.of_nat n) -> forall w', load_bytes n src a w <> Exc w'.
Proof.
  revert src a w. induction n as [|n IH]; intros src a w HI Ha Hw Hb Hl F w'; cbn [load_bytes].
  - discriminate.
  - destruct src as [|b t]; [cbn in Hl; lia|]. inversion Hb; subst. rewrite load8_eq. unfold bind.
    assert (Hk : loads R (loadN a [b]) w)
      by (apply loadN_loads; auto; rewrite ?zlen_cons, ?zlen_nil; lia || auto).
    pose proof (loadN_ok R a [b] w HI Ha) as Ok.
    unfold loads, post in Hk. destruct (loadN a [b] w) as [[] w1|w1|u]; try discriminate.
    + destruct n as [|n]; [discriminate|].
      assert (Ea : W (a + 1) = a + 1) by (apply W_id; unfold u32 in *; lia). rewrite Ea.
      destruct Hk as (HI1 & HF1 & HD1 & _). apply IH; auto.
      * unfold u32 in *. lia.
      * lia.
      * cbn in Hl. lia.
      * intros c m H3 H4 H5. rewrite (find_from_data _ _ _ _ _ (proj1 HD1)). apply F; lia.
    + exfalso. apply (Ok ltac:(cbv; discriminate) ltac:(auto)) with (w' := w1); [|reflexivity].
      intros c m H3 H4 H5. apply F; try lia. rewrite zlen_cons, zlen_nil in H5. lia.
Qed.

Lemma load_words_ok R n src a w :
  Inv R w -> u32 a -> a + Z.of_nat n <= 4294967296 -> Forall byte src -> (n <= length src)%nat ->
  finds w a (Z.of_nat n) -> forall w', load_words n src a w <> Exc w'.
Proof.
  revert src a w. induction n as [n IH] using (well_founded_induction lt_wf). intros src a w HI Ha Hw Hb Hl F w'.
  destruct n as [|[|[|[|[|m]]]]]; try (eapply load_bytes_ok; eassumption).
  do 4 (destruct src as [|?b src]; [cbn in Hl; lia|]).
  do 4 (inversion Hb as [|?x ?y ?Hx Hb']; subst; clear Hb; rename Hb' into Hb).
  rewrite load_words_step. unfold bind.
  assert (Hk : loads R (loadN a [b; b0; b1; b2]) w) by (apply loadN_loads; auto; cbv; discriminate).
  pose proof (loadN_ok R a [b; b0; b1; b2] w HI Ha) as Ok.
  unfold loads, post in Hk. destruct (loadN a [b; b0; b1; b2] w) as [[] w1|w1|u]; try discriminate.
  - assert (Ea : W (a + 4) = a + 4) by (apply W_id; unfold u32 in *; lia). rewrite Ea.
    destruct Hk as (HI1 & HF1 & HD1 & _). apply IH; auto; try (unfold u32 in *; cbn in Hl; lia).
    intros c k H3 H4 H5. rewrite (find_from_data _ _ _ _ _ (proj1 HD1)). apply F; lia.
  - exfalso. apply (Ok ltac:(cbv; discriminate) ltac:(auto)) with (w' := w1); [|reflexivity].
    intros c k H3 H4 H5. apply F; try lia. rewrite !zlen_cons, zlen_nil in H5. lia.
Qed.
