(** Every block has room for what is kept in it: an invariant kept by every function. *)
From Coq Require Import ZArith List Bool Lia ZifyBool ZifyNat.
From Verif Require Import Base World Context MemSim Dump GdbLog Elf CmdLine Platform Comm MainProg BaseLemmas MemSpec PlatSpec Sat MemLemmas SizeSpec.
Import ListNotations.
Open Scope Z_scope.

(** Room in a block that was handed out. *)
Definition has (h : heap) (b : nat) (n : Z) : Prop :=
  (b < h_next h)%nat /\ (0 < n -> exists m, find (fun p => Nat.eqb (fst p) b) (h_sizes h) = Some (b, m) /\ n <= m).
Record rfit (h : heap) (r : region) : Prop := {
  rf_self : has h (r_bself r) 72;
  rf_data : has h (r_bdata r) (zlen (r_data r));
  rf_rc : forall b c, r_rc r = Some (b, c) -> has h b (4 * zlen c);
  rf_wp : forall b, r_bwp r = Some b -> has h b (12 * r_wpalloc r);
  rf_none : r_bwp r = None -> r_wpalloc r <= 0;
  rf_count : zlen (r_wps r) <= r_wpalloc r }.
Definition fit (w : world) : Prop :=
  Forall (rfit (w_heap w)) (regions w) /\ forall b t, m_xml (w_mem w) = Some (b, t) -> has (w_heap w) b (zlen t + 1).
Definition keeps_fit (w w' : world) : Prop := fit w -> fit w'.

(** A heap in which more was handed out. *)
Definition more (h h' : heap) : Prop := (h_next h <= h_next h')%nat /\ forall b n, has h b n -> has h' b n.
Lemma more_refl h : more h h.
Proof. split; auto. Qed.
Lemma more_trans a b c : more a b -> more b c -> more a c.
Proof. intros [A B] [C D]. split; [lia|auto]. Qed.
Lemma more_calls h l c : more h (mkHeap l (h_next h) c (h_sizes h)).
Proof. split; cbn; [lia|]. intros b n H. exact H. Qed.
Lemma more_new h l c n : more h (mkHeap l (S (h_next h)) c ((h_next h, n) :: h_sizes h)).
Proof.
  split; cbn; [lia|]. intros b m [L G]. split; [cbn; lia|]. intro P. destruct (G P) as (k & F & K). exists k. split; [|exact K]. cbn.
  destruct (Nat.eqb_spec (h_next h) b); [lia|exact F].
Qed.
Lemma has_new h l c n : has (mkHeap l (S (h_next h)) c ((h_next h, n) :: h_sizes h)) (h_next h) n.
Proof. split; cbn; [lia|]. intros _. exists n. rewrite Nat.eqb_refl. split; [reflexivity|lia]. Qed.
Lemma has_less h b n m : has h b n -> m <= n -> has h b m.
Proof. intros [L G] H. split; [exact L|]. intro P. destruct G as (k & F & K); [lia|]. exists k. split; [exact F|lia]. Qed.
Lemma rfit_more h h' r : more h h' -> rfit h r -> rfit h' r.
Proof. intros [_ B] []. constructor; auto. Qed.
Lemma fit_heap w h : more (w_heap w) h -> fit w -> fit (set_heap w h).
Proof.
  intros Hm [A B]. split; cbn [w_heap set_heap w_mem].
  - eapply Forall_impl; [|exact A]. intro r. now apply rfit_more.
  - intros b t E. apply Hm, (B b t E).
Qed.

Lemma kf_pre : preorder keeps_fit.
Proof. split; unfold keeps_fit; auto. Qed.
Lemma kf_same w w' : w_mem w' = w_mem w -> w_heap w' = w_heap w -> keeps_fit w w'.
Proof. unfold keeps_fit, fit. now intros -> ->. Qed.
Lemma kf_clear w w' : keeps_fit (set_exn w noException []) w' -> keeps_fit w w'.
Proof. intros H F. apply H. exact F. Qed.

Definition fits {A} (m : M world A) : Prop := sat keeps_fit m.
Definition fitsl {L A} (m : M (L * world) A) : Prop := satL keeps_fit m.
Lemma fits_ret A (a : A) : fits (ret a). Proof. apply sat_ret, kf_pre. Qed.
Lemma fits_ub A u : fits (fail_ub u : M world A). Proof. apply sat_ub. Qed.
Lemma fits_bind A B (m : M world A) (f : A -> M world B) : fits m -> (forall a, fits (f a)) -> fits (bind m f).
Proof. intros. apply sat_bind; auto. apply kf_pre. Qed.
Lemma fits_getw : fits getw. Proof. apply sat_getw, kf_pre. Qed.
Lemma fits_code : fits getExceptionCode. Proof. apply sat_code, kf_pre. Qed.
Lemma fitsl_ret L A (a : A) : fitsl (ret a : M (L * world) A). Proof. apply satL_ret, kf_pre. Qed.
Lemma fitsl_ub L A u : fitsl (fail_ub u : M (L * world) A). Proof. intro s. exact I. Qed.
Lemma fitsl_bind L A B (m : M (L * world) A) (f : A -> M (L * world) B) : fitsl m -> (forall a, fitsl (f a)) -> fitsl (bind m f).
Proof. intros. apply satL_bind; auto. apply kf_pre. Qed.
Lemma fitsl_lift L A (m : M world A) : fits m -> fitsl (lift m : M (L * world) A). Proof. apply satL_lift. Qed.
Lemma fitsl_setl L (l : L) : fitsl (setl l). Proof. apply satL_setl, kf_pre. Qed.
Lemma fitsl_getl L : fitsl (getl : M (L * world) L). Proof. apply satL_getl, kf_pre. Qed.
Lemma fits_try L (l0 : L) b h : fitsl b -> (forall l, fits (h l)) -> fits (try_ l0 b h).
Proof. intros. apply sat_try; [apply kf_pre|apply kf_clear|assumption|assumption]. Qed.
Lemma fits_try0 b h : fits b -> fits h -> fits (try0 b h).
Proof. intros. apply sat_try0; [apply kf_pre|apply kf_clear|assumption|assumption]. Qed.

(** ** Primitive effects *)
Ltac same := intro; repeat (cbn beta iota zeta; match goal with |- context [match ?x with _ => _ end] => lazymatch x with context [match _ with _ => _ end] => fail | _ => destruct x end end); try exact I; try (apply kf_same; reflexivity).
Lemma fits_throw A e : fits (throw e : M world A). Proof. intro w. apply kf_same; reflexivity. Qed.
Lemma fits_throw_msg A e t : fits (throw_msg e t : M world A). Proof. intro w. apply kf_same; reflexivity. Qed.
Lemma fits_rethrow A : fits (rethrow : M world A). Proof. intro w. apply kf_same; reflexivity. Qed.
Lemma fits_clearcode : fits clearExceptionCode. Proof. intro w. apply kf_same; reflexivity. Qed.
Lemma fits_malloc n : fits (malloc n).
Proof. intro w. unfold malloc. destruct (e_malloc _ _ _); intro F; apply fit_heap; auto; [apply more_new|apply more_calls]. Qed.
Lemma fits_free b : fits (free b).
Proof. intro w. unfold free. destruct (is_live _ _); [|exact I]. intro F. apply fit_heap; auto. apply more_calls. Qed.
Lemma fits_free_opt b : fits (free_opt b). Proof. destruct b; [apply fits_free|apply fits_ret]. Qed.
Lemma fits_next_io : fits next_io. Proof. intro w. apply kf_same; reflexivity. Qed.
Lemma fits_get_file h : fits (get_file h). Proof. unfold get_file. same. Qed.
Lemma fits_put_file h f : fits (put_file h f). Proof. intro w. apply kf_same; reflexivity. Qed.
Lemma fits_eprintf t : fits (eprintf t). Proof. intro w. apply kf_same; reflexivity. Qed.
Lemma fits_ctx_put o bs : fits (ctx_put o bs). Proof. unfold ctx_put. same. Qed.
Lemma fits_ctx_word o : fits (ctx_word o). Proof. unfold ctx_word. same. Qed.
Lemma fits_ctx_bytes o n : fits (ctx_bytes o n). Proof. unfold ctx_bytes. same. Qed.
Lemma fits_get_region i : fits (get_region i). Proof. unfold get_region. same. Qed.
Lemma fits_find a n : fits (findMatchingRegion a n). Proof. unfold findMatchingRegion, throw. same. Qed.
Lemma fits_set_ctx z : fits (modw (fun w => set_ctx w z)). Proof. intro w. apply kf_same; reflexivity. Qed.
Lemma fits_fopen f : fits (fopen f).
Proof. unfold fopen. apply fits_bind; [apply fits_next_io|]. intros x w. destruct x, (e_fs (w_env w) f); apply kf_same; reflexivity. Qed.
Create HintDb ft.
#[export] Hint Resolve fits_ret fits_ub fits_getw fits_code fitsl_ret fitsl_ub fitsl_setl fitsl_getl fits_throw fits_throw_msg fits_rethrow fits_clearcode fits_malloc fits_free
  fits_free_opt fits_next_io fits_get_file fits_put_file fits_eprintf fits_ctx_put fits_ctx_word fits_ctx_bytes fits_get_region fits_find fits_set_ctx fits_fopen : ft.
Ltac ft := repeat first [ solve [eauto 3 with ft] | progress cbv zeta
  | match goal with
    | |- fits (bind _ _) => apply fits_bind; [|intros]
    | |- fitsl (bind _ _) => apply fitsl_bind; [|intros]
    | |- fitsl (lift _) => apply fitsl_lift
    | |- fits (try_ _ _ _) => apply fits_try; [|intros]
    | |- fits (try0 _ _) => apply fits_try0
    | |- fits (match ?x with _ => _ end) => destruct x
    | |- fitsl (match ?x with _ => _ end) => destruct x
    end ].
Lemma fits_fclose h : fits (fclose h).
Proof. unfold fclose. apply fits_bind; [ft|]. intros f w. apply kf_same; reflexivity. Qed.
Lemma fits_fread h n : fits (fread h n). Proof. unfold fread. ft. Qed.
Lemma fits_seek1 h : fits (fseek_end h). Proof. unfold fseek_end. ft. Qed.
Lemma fits_seek2 h : fits (fseek_start h). Proof. unfold fseek_start. ft. Qed.
Lemma fits_ftell h : fits (ftell h). Proof. unfold ftell. ft. Qed.
Lemma fits_fgets h n : fits (fgets h n). Proof. unfold fgets. ft. Qed.
Lemma fits_blob bs o n : fits (blob_get bs o n). Proof. unfold blob_get. ft. Qed.
Lemma fits_zmalloc n : fits (throwingZeroedMalloc n). Proof. unfold throwingZeroedMalloc. ft. Qed.
Lemma fits_freeRegion r : fits (freeRegion r). Proof. unfold freeRegion. ft. Qed.
Lemma fits_freeNew p : fits (freeNewRegion p). Proof. unfold freeNewRegion. ft. Qed.
#[export] Hint Resolve fits_fclose fits_fread fits_seek1 fits_seek2 fits_ftell fits_fgets fits_blob fits_zmalloc fits_freeRegion fits_freeNew : ft.
Lemma fits_realloc b n : fits (realloc b n). Proof. unfold realloc. ft. Qed.
Lemma fits_freeRegions rs : fits (freeRegions rs). Proof. induction rs; cbn [freeRegions]; ft. Qed.
#[export] Hint Resolve fits_realloc fits_freeRegions : ft.

(** ** The simulator *)
Lemma fit_empty w h : fit (set_mem w (mkMem [] None h)).
Proof. split; cbn; [constructor|discriminate]. Qed.
Lemma fits_meminit : fits MemorySim_Init. Proof. intros w _. apply fit_empty. Qed.
Lemma fits_uninit : fits MemorySim_Uninit.
Proof. unfold MemorySim_Uninit. ft. intros v _. apply fit_empty. Qed.
Lemma fit_app w h rs x c t : fit w -> more (w_heap w) h -> rs = regions w -> rfit h x -> fit (set_exn (set_regions (set_heap w h) (rs ++ [x])) c t).
Proof.
  intros [A B] Hm -> Hx. split; cbn.
  - apply Forall_app. split; [|constructor; [exact Hx|constructor]]. eapply Forall_impl; [|exact A]. intro r. now apply rfit_more.
  - intros b s E. apply Hm, (B b s E).
Qed.
Lemma more_two h l c n m : more h (mkHeap l (S (S (h_next h))) c ((S (h_next h), n) :: (h_next h, m) :: h_sizes h)).
Proof. eapply more_trans; [apply (more_new h [] c m)|]. exact (more_new (mkHeap [] (S (h_next h)) c ((h_next h, m) :: h_sizes h)) l c n). Qed.
Lemma rfit_new h l c n x : r_bself x = h_next h -> r_bdata x = S (h_next h) -> r_data x = zeros n -> r_rc x = None -> r_bwp x = None -> r_wpalloc x = 0 -> r_wps x = [] ->
  rfit (mkHeap l (S (S (h_next h))) c ((S (h_next h), n) :: (h_next h, 72) :: h_sizes h)) x.
Proof.
  intros E1 E2 E3 E4 E5 E6 E7. constructor.
  - rewrite E1. split; cbn [h_next h_sizes find fst]; [lia|]. intros _. exists 72. destruct (Nat.eqb_spec (S (h_next h)) (h_next h)); [lia|]. rewrite Nat.eqb_refl. split; [reflexivity|lia].
  - rewrite E2, E3. split; cbn [h_next h_sizes find fst]; [lia|]. intro H. exists n. rewrite Nat.eqb_refl. split; [reflexivity|]. revert H. unfold zlen, zeros. rewrite repeat_length. lia.
  - rewrite E4. discriminate.
  - rewrite E5. discriminate.
  - lia.
  - rewrite E7, E6. unfold zlen. cbn. lia.
Qed.

Lemma fit_exn w c t : fit w -> fit (set_exn w c t).
Proof. auto. Qed.
Lemma more_one h l c k n : more h (mkHeap l (S (h_next h)) c ((h_next h, n) :: h_sizes h)) -> more h (mkHeap l (S (h_next h)) k ((h_next h, n) :: h_sizes h)).
Proof. auto. Qed.
Lemma fits_create base size : fits (MemorySim_CreateRegion base size).
Proof.
  intro w. rewrite CreateRegion_eq. cbv zeta. destruct (negb _); [|destruct (negb _)]; intro F.
  - apply fit_exn, fit_heap; [apply more_calls|exact F].
  - apply fit_exn, fit_heap; [apply more_new|exact F].
  - apply fit_app; auto; [apply more_two|]. apply rfit_new; reflexivity.
Qed.
Lemma fits_alias base redirect size : fits (MemorySim_CreateAlias base redirect size).
Proof.
  intro w. rewrite CreateAlias_eq. cbv zeta. destruct (negb _); [|destruct (find_from _ _ _ _) as [[j a]|]; [destruct (nth_error _ _) as [t|]; [destruct (negb _)|exact I]|]]; intro F.
  - apply fit_exn, fit_heap; [apply more_calls|exact F].
  - apply fit_exn, fit_heap; [apply more_new|exact F].
  - apply fit_app; auto; [apply more_two|]. apply rfit_new; reflexivity.
  - apply fit_exn, fit_heap; [apply more_new|exact F].
Qed.
Lemma Forall_upd {A} (P : A -> Prop) j f l : Forall P l -> (forall x, nth_error l j = Some x -> P x -> P (f x)) -> Forall P (upd_nth j f l).
Proof.
  intros HF Hj. apply Forall_forall. intros y Hy. apply In_nth_error in Hy as [i Hi]. rewrite nth_error_upd_nth in Hi. rewrite Forall_forall in HF.
  destruct (Nat.eqb_spec j i) as [->|N]; [|apply HF; eapply nth_error_In; eauto].
  destruct (nth_error l i) as [x|] eqn:E; [|discriminate]. cbn in Hi. injection Hi as <-. apply Hj; [reflexivity|]. apply HF. eapply nth_error_In; eauto.
Qed.
Lemma fit_upd w h j f : fit w -> more (w_heap w) h -> (forall x, nth_error (regions w) j = Some x -> rfit h x -> rfit h (f x)) ->
  fit (set_regions (set_heap w h) (upd_nth j f (regions w))).
Proof.
  intros [A B] Hm Hf. split; cbn.
  - apply Forall_upd; [|exact Hf]. eapply Forall_impl; [|exact A]. intro r. now apply rfit_more.
  - intros b s E. apply Hm, (B b s E).
Qed.
Lemma rfit_ro h r x : rfit h r -> rfit h (with_ro r x).
Proof. intros []. now constructor. Qed.
Lemma rfit_rc h r b c : rfit h r -> has h b (4 * zlen c) -> rfit h (with_rc r (Some (b, c))).
Proof. intros [] H. constructor; auto. cbn. intros b' c' E. injection E as <- <-. exact H. Qed.
Lemma rfit_data h r d : rfit h r -> zlen d <= zlen (r_data r) -> rfit h (with_data r d).
Proof. intros [] H. constructor; auto. cbn. eapply has_less; eauto. Qed.
Lemma rfit_wps h r l : rfit h r -> zlen l <= r_wpalloc r -> rfit h (with_wps r l).
Proof. intros [] H. now constructor. Qed.
Lemma fits_readonly base : fits (MemorySim_MakeRegionReadOnly base).
Proof.
  intro w. rewrite MakeRO_eq. cbv zeta. destruct (find_from _ _ _ _) as [[j a]|]; [|now apply kf_same].
  destruct (nth_error _ _) as [t|] eqn:E; [|exact I]. destruct (negb _); intro F.
  - apply fit_exn, fit_upd; [exact F|apply more_calls|]. intros. now apply rfit_ro.
  - apply fit_upd; [exact F|apply more_new|]. intros x _ H. apply rfit_rc; [now apply rfit_ro|].
    destruct (Z.leb_spec 0 (r_size t / 2)) as [G|G].
    + eapply has_less; [apply has_new|]. unfold zlen, zeros. rewrite repeat_length. lia.
    + split; [cbn; lia|]. unfold zlen, zeros. rewrite repeat_length. lia.
Qed.

Lemma fits_upd i f : (forall h x, rfit h x -> rfit h (f x)) -> fits (upd_region i f).
Proof. intros Hf w F. unfold upd_region, modw. pose proof (fit_upd w (w_heap w) i f F (more_refl _) (fun x _ => Hf _ x)) as H. exact H. Qed.
Lemma fits_check r a n t : fits (checkForBreakWatchPoint r a n t).
Proof.
  intro w. unfold checkForBreakWatchPoint. cbv zeta. destruct (scan_wps _ _ _ _ _ _) as [h brk].
  destruct brk; intros [A B]; split; cbn; auto.
Qed.
Lemma upd_len {A} i f (l : list A) : zlen (upd_nth i f l) = zlen l.
Proof. unfold zlen. now rewrite upd_nth_length. Qed.
Lemma fits_inc i k : fits (incReadCount i k).
Proof.
  intro w. unfold incReadCount, bind, get_region. destruct (nth_error _ i) as [r|] eqn:E; [|exact I]. destruct (r_rc r) as [[b c]|] eqn:R; [|now apply kf_same].
  destruct (_ && _); [|exact I]. intro F. unfold upd_region, modw.
  assert (HR : rfit (w_heap w) r). { destruct F as [A _]. rewrite Forall_forall in A. apply A. eapply nth_error_In; eauto. }
  refine (fit_upd w (w_heap w) i _ F (more_refl _) _). intros x _ H. apply rfit_rc; [exact H|]. rewrite upd_len. now apply (rf_rc _ _ HR).
Qed.
#[export] Hint Resolve fits_meminit fits_uninit fits_create fits_alias fits_readonly fits_check fits_inc : ft.
Lemma fits_pointer a n t c : fits (getDataPointer a n t c). Proof. unfold getDataPointer. ft. Qed.
Lemma fits_load_ptr p n : fits (load_ptr p n). Proof. unfold load_ptr. ft. Qed.
Lemma fits_store_ptr p bs : fits (store_ptr p bs).
Proof.
  intro w. unfold store_ptr, bind, get_region. destruct (nth_error _ _) as [r|] eqn:E; [|exact I]. destruct (_ && _) eqn:G; [|exact I]. intro F. unfold upd_region, modw.
  refine (fit_upd w (w_heap w) (fst p) _ F (more_refl _) _). intros x Hx H. apply rfit_data; [exact H|]. assert (x = r) by congruence. subst x.
  rewrite splice_zlen; lia.
Qed.
#[export] Hint Resolve fits_pointer fits_load_ptr fits_store_ptr : ft.
Lemma fits_readN n a : fits (readN n a). Proof. unfold readN. ft. Qed.
Lemma fits_writeN n a v : fits (writeN n a v). Proof. unfold writeN. ft. Qed.
Lemma fits_load8 a v : fits (load8 a v). Proof. unfold load8. ft. Qed.
Lemma fits_load32 a v : fits (load32 a v). Proof. unfold load32. ft. Qed.
#[export] Hint Resolve fits_readN fits_writeN fits_load8 fits_load32 : ft.
Lemma fits_load_bytes n : forall src a, fits (load_bytes n src a).
Proof. induction n as [|n IH]; intros src a; cbn [load_bytes]; ft. Qed.
Lemma fits_load_words k : forall n src a, (n <= k)%nat -> fits (load_words n src a).
Proof.
  induction k as [|k IH]; intros n src a Hn.
  - destruct n; [|lia]. apply fits_load_bytes.
  - do 5 (destruct n as [|n]; [apply fits_load_bytes|]).
    destruct src as [|x0 src]; [exact (fits_ub unit UbBlob)|]. destruct src as [|x1 src]; [exact (fits_ub unit UbBlob)|].
    destruct src as [|x2 src]; [exact (fits_ub unit UbBlob)|]. destruct src as [|x3 src]; [exact (fits_ub unit UbBlob)|].
    change (load_words (S (S (S (S (S n))))) (x0 :: x1 :: x2 :: x3 :: src) a) with (bind (load32 a [x0; x1; x2; x3]) (fun _ => load_words (S n) src (W (a + 4)))).
    apply fits_bind; [apply fits_load32|]. intros _. apply IH. lia.
Qed.
Lemma fits_load_image a src n : fits (MemorySim_LoadFromFlashImage a src n).
Proof. unfold MemorySim_LoadFromFlashImage. now apply (fits_load_words (Z.to_nat n)). Qed.
Lemma fits_freeLast : fits freeLastRegion.
Proof.
  intro w. unfold freeLastRegion, bind, getw. cbv zeta. unfold modw. set (v := set_mem w _).
  assert (K : keeps_fit w v).
  { intros [A B]. split; [|exact B]. cbn. rewrite Forall_forall in *. intros x Hx. apply A. destruct (regions w) as [|y l] eqn:E using rev_ind; [destruct Hx|].
    rewrite removelast_last in Hx. apply in_or_app. now left. }
  destruct (rev _) as [|r l]; [exact K|]. pose proof (fits_freeRegion r v) as H. destruct (freeRegion r v); auto; intro F; apply H, K, F.
Qed.
#[export] Hint Resolve fits_load_image fits_freeLast : ft.
Lemma fits_flash src n : fits (MemorySim_CreateRegionsFromFlashImage src n).
Proof. unfold MemorySim_CreateRegionsFromFlashImage. ft. Qed.
Lemma append_room rs : forall acc k t k', appendMemoryMapRegions rs acc k = Some (t, k') -> zlen t + k' = zlen acc + k.
Proof.
  induction rs as [|r rs IH]; intros acc k t k'; cbn [appendMemoryMapRegions]; [intro H; injection H as <- <-; lia|]. cbv zeta.
  destruct (_ <? _); [|discriminate]. intro H. apply IH in H. rewrite zlen_app in H. lia.
Qed.
Lemma build_room rs n t : build_xml rs n = Some t -> zlen t + 1 <= n.
Proof.
  unfold build_xml. destruct (_ <? _); [discriminate|]. destruct (appendMemoryMapRegions _ _ _) as [[s k]|] eqn:E; [|discriminate].
  apply append_room in E. destruct (k <? _) eqn:G; [discriminate|]. intro H. injection H as <-. rewrite zlen_app. lia.
Qed.
Lemma realloc_has b n w : match realloc b n w with Ret (Some x) w' => has (w_heap w') x n /\ w_mem w' = w_mem w | Ret None w' => True | Exc _ => False | Ub _ => True end.
Proof.
  unfold realloc, bind, malloc. destruct (e_malloc _ _ _); [|exact I]. destruct b as [b|]; cbn [free_opt]; [unfold free; destruct (is_live _ _); [|exact I]|];
    unfold ret; (split; [|reflexivity]); cbn [w_heap set_heap h_next h_sizes]; (split; cbn [h_next h_sizes]; [lia|]); intros _; exists n; cbn [find fst];
    rewrite Nat.eqb_refl; (split; [reflexivity|lia]).
Qed.
Lemma fits_xml : fits MemorySim_GetMemoryMapXML.
Proof.
  intro w. unfold MemorySim_GetMemoryMapXML, bind, getw. cbv zeta. set (n := _ + _ * _). pose proof (realloc_has (option_map fst (m_xml (w_mem w))) n w) as H.
  pose proof (fits_realloc (option_map fst (m_xml (w_mem w))) n w) as K. destruct (realloc _ _ w) as [[x|] v|v|]; [|exact K|destruct H|exact I].
  destruct (build_xml _ _) as [t|] eqn:E; [|exact I]. cbn. intro F. specialize (K F). destruct K as [A _]. split; [exact A|]. cbn. intros b s Hb. injection Hb as <- <-.
  destruct H as [H _]. eapply has_less; [exact H|]. now apply build_room in E.
Qed.
Lemma grow_has i n w : match growWatchpointArrayIfNeeded i n w with
  | Ret _ v => keeps_fit w v /\ forall r, nth_error (regions w) i = Some r -> exists al b, nth_error (regions v) i = Some (with_wparray r al b) /\ n <= al
  | Exc v => keeps_fit w v
  | Ub _ => True end.
Proof.
  unfold growWatchpointArrayIfNeeded, bind, get_region. destruct (nth_error (regions w) i) as [r|] eqn:E; [|exact I].
  destruct (r_wpalloc r <? n) eqn:G.
  - pose proof (realloc_has (r_bwp r) (SIZEOF_WATCHPOINT * n) w) as H. pose proof (fits_realloc (r_bwp r) (SIZEOF_WATCHPOINT * n) w) as K.
    destruct (realloc _ _ w) as [[x|] v|v|]; [|intro F; exact (K F)|destruct H|exact I]. destruct H as [H HM]. unfold upd_region, modw. split.
    + intro F. specialize (K F). refine (fit_upd v (w_heap v) i _ K (more_refl _) _). rewrite HM, E. intros y Hy HR. injection Hy as <-.
      destruct HR. constructor; auto; cbn; try discriminate; [|lia]. intros b Hb. injection Hb as <-. exact H.
    + intros r' Hr. injection Hr as <-. cbn. rewrite HM, nth_error_upd_nth, Nat.eqb_refl, E. cbn. eexists _, _. split; [reflexivity|lia].
  - split; [now apply kf_same|]. intros r' Hr. injection Hr as <-. exists (r_wpalloc r), (r_bwp r). split; [rewrite E; now destruct r|lia].
Qed.
Lemma insert_len {A} k (x : A) l : zlen (firstn k l ++ x :: skipn k l) = zlen l + 1.
Proof. rewrite <- (firstn_skipn k l) at 3. unfold zlen. rewrite !app_length. cbn [length]. lia. Qed.
Lemma drop_len {A} k (l : list A) : zlen (firstn k l ++ skipn (S k) l) <= zlen l.
Proof. unfold zlen. rewrite app_length, firstn_length, skipn_length. lia. Qed.
Lemma fits_set a n t : fits (setWatchpoint a n t).
Proof.
  intro w. unfold setWatchpoint, bind. pose proof (fits_find a n w) as HF. unfold findMatchingRegion in *.
  destruct (find_from _ _ _ _) as [[i a']|]; [|exact HF]. cbv zeta. cbn [fst snd]. unfold get_region. destruct (nth_error (regions w) i) as [r|] eqn:E; [|exact I].
  assert (K : forall k x, match (bind (growWatchpointArrayIfNeeded i (zlen (r_wps r) + 1)) (fun _ => upd_region i (fun r => with_wps r (firstn k (r_wps r) ++ x :: skipn k (r_wps r))))) w with
     | Ret _ v => keeps_fit w v | Exc v => keeps_fit w v | Ub _ => True end).
  { intros k x. unfold bind. pose proof (grow_has i (zlen (r_wps r) + 1) w) as H. destruct (growWatchpointArrayIfNeeded _ _ w) as [[] v|v|]; auto.
    destruct H as [H1 H2]. destruct (H2 r E) as (al & b & EV & HA). unfold upd_region, modw. intro F. specialize (H1 F).
    refine (fit_upd v (w_heap v) i _ H1 (more_refl _) _). intros y Hy HR. rewrite EV in Hy. injection Hy as <-. apply rfit_wps; [exact HR|]. rewrite insert_len. exact HA. }
  destruct (findMatchingOrHigher _ _ _) as [[| |] k]; [now apply kf_same|apply K|apply K].
Qed.
Lemma fits_clear a n t : fits (clearWatchpoint a n t).
Proof.
  unfold clearWatchpoint. apply fits_bind; [ft|]. intros [i a']. cbv zeta. apply fits_bind; [ft|]. intro r. destruct (findMatchingOrHigher _ _ _) as [[| |] k]; [|ft|ft].
  apply fits_upd. intros h x H. apply rfit_wps; [exact H|]. pose proof (rf_count _ _ H). pose proof (drop_len k (r_wps x)). lia.
Qed.
Lemma fits_count a : fits (MemorySim_GetFlashReadCount a). Proof. unfold MemorySim_GetFlashReadCount. ft. Qed.
Lemma fits_hits : fits MemorySim_WasWatchpointEncountered. Proof. intros w [A B]. now split. Qed.
#[export] Hint Resolve fits_flash fits_xml fits_set fits_clear fits_count fits_hits : ft.
Lemma fits_op o : fits (op_run o).
Proof. destruct o; cbn [op_run]; unfold drop, MemorySim_MapForRead, MemorySim_MapForWrite, MemorySim_SetHardwareWatchpoint, MemorySim_ClearHardwareWatchpoint; ft. Qed.

(** ** Files and start-up *)
Lemma fits_newlines h : forall n, fits (skipNewLines n h).
Proof. induction n; cbn [skipNewLines]; ft. Qed.
#[export] Hint Resolve fits_newlines : ft.
Lemma fits_char h : fits (readNextCharacterSkippingNewLines h).
Proof. unfold readNextCharacterSkippingNewLines. ft. Qed.
Lemma fits_store d i bs : fits (store_dest d i bs).
Proof. destruct d; cbn [store_dest]; ft. Qed.
#[export] Hint Resolve fits_char fits_store : ft.
Lemma fits_hexLoop h d n : forall acc, fits (hexRead_loop h d n acc).
Proof. induction n; intro acc; cbn [hexRead_loop]; ft. Qed.
#[export] Hint Resolve fits_hexLoop : ft.
Lemma fits_doRead k h d n : fits (doRead k h d n).
Proof. destruct k; cbn [doRead]; unfold binaryRead, hexRead; ft. Qed.
#[export] Hint Resolve fits_doRead : ft.
Lemma fits_regionBytes k h : forall n a c, fits (loadRegionBytes n k h a c).
Proof. induction n; intros a c; cbn [loadRegionBytes]; unfold write8; ft. Qed.
#[export] Hint Resolve fits_regionBytes : ft.
Lemma fits_next k h : fits (readNextMemoryRegion k h).
Proof. unfold readNextMemoryRegion, createAndLoadMemoryRegion. ft. Qed.
#[export] Hint Resolve fits_next : ft.
Lemma fits_regionLoop k h : forall n, fits (regionLoop n k h).
Proof. induction n; cbn [regionLoop]; ft. Qed.
#[export] Hint Resolve fits_regionLoop : ft.
Lemma fits_destruct p : fits (destructObject p). Proof. unfold destructObject. ft. Qed.
#[export] Hint Resolve fits_destruct : ft.
Lemma fits_dump k f : fits (CrashCatcherDump_Read k f).
Proof.
  unfold CrashCatcherDump_Read, openDump, readDump, validateDumpSignature, readFlags, readIntegerRegisters, readFloatingPointRegisters, readMemoryRegions. ft.
Qed.
Lemma fits_values vs : forall a, fits (writeValues a vs).
Proof. induction vs; intro x; cbn [writeValues]; unfold write32; ft. Qed.
#[export] Hint Resolve fits_dump fits_values : ft.
Lemma fits_first o p : fits (firstPassHandler o p).
Proof. unfold firstPassHandler, firstPassMemoryHandler, firstPassRegisterHandler. ft. Qed.
Lemma fits_second o p : fits (secondPassHandler o p).
Proof. unfold secondPassHandler. ft. Qed.
Lemma fits_lineLoop h hd : (forall o p, fits (hd o p)) -> forall n o, fits (lineLoop n h hd o).
Proof. intro H. induction n; intro o; cbn [lineLoop]; ft. Qed.
Lemma fits_parseLines h hd : (forall o p, fits (hd o p)) -> fits (parseLines h hd).
Proof. intro H. unfold parseLines. pose proof (fits_lineLoop h hd H). ft. Qed.
#[export] Hint Resolve fits_first fits_second fits_parseLines : ft.
Lemma fits_log f : fits (GdbLogParse f).
Proof. unfold GdbLogParse, openLog, initPSPandMSP, rewindLogFile. ft. Qed.
Lemma fits_type f : fits (getFileType f).
Proof. unfold getFileType. ft. Qed.
#[export] Hint Resolve fits_log fits_type : ft.
Lemma fits_dumpFile c : fits (loadDumpFile c).
Proof. unfold loadDumpFile, CrashCatcherDump_ReadHex, CrashCatcherDump_ReadBinary. ft. Qed.
Lemma fits_try_msg m t : fits m -> fits (try_msg m t).
Proof. intro H. unfold try_msg. ft. Qed.
Lemma fits_fetch bs o n : fits (fetchSizedByteArray bs o n).
Proof. unfold fetchSizedByteArray. ft. Qed.
#[export] Hint Resolve fits_dumpFile fits_try_msg fits_fetch : ft.
Lemma fits_entry bs p : fits (loadIfFlashLoadableEntry bs p).
Proof. unfold loadIfFlashLoadableEntry. ft. Qed.
#[export] Hint Resolve fits_entry : ft.
Lemma fits_entries bs e n : forall i o c, fits (loadFlashLoadableEntries n bs e i o c).
Proof. induction n; intros; cbn [loadFlashLoadableEntries]; ft. Qed.
#[export] Hint Resolve fits_entries : ft.
Lemma fits_elf bs : fits (ElfLoad_FromMemory bs).
Proof. unfold ElfLoad_FromMemory, initLoadObject, validateElfHeaderContents. ft. Qed.
Lemma fits_bin a bs : fits (loadBinFile a bs).
Proof. unfold loadBinFile. ft. Qed.
Lemma fits_size h : fits (GetFileSize h).
Proof. unfold GetFileSize. ft. Qed.
#[export] Hint Resolve fits_elf fits_bin fits_size : ft.
Lemma fits_fileData f : fits (loadFileData f).
Proof. unfold loadFileData. ft. Qed.
#[export] Hint Resolve fits_fileData : ft.
Lemma fits_image c : fits (loadImageFile c).
Proof. unfold loadImageFile. ft. Qed.
Lemma fits_aliasOption a b c : fits (createAliasOption a b c).
Proof. unfold createAliasOption. ft. Qed.
#[export] Hint Resolve fits_image fits_aliasOption : ft.
Lemma fits_parse p n : forall l c, (length l <= n)%nat -> fits (parseArguments p l c).
Proof.
  induction n as [|n IH]; intros l c Hn; (destruct l as [|a t]; [apply fits_ret|]); cbn [length] in Hn; [lia|]. cbn [parseArguments].
  destruct (negb _); [ft|]. destruct (strcaseeq a _).
  { destruct t as [|f [|v t]]; try solve [ft]. apply IH. cbn [length] in Hn; lia. }
  destruct (strcaseeq a _). { destruct t as [|f t]; try solve [ft]. apply IH. cbn [length] in Hn; lia. }
  destruct (strcaseeq a _). { destruct t as [|f t]; try solve [ft]. apply IH. cbn [length] in Hn; lia. }
  destruct (strcaseeq a _); [|ft]. destruct t as [|f [|v [|r t]]]; try solve [ft]. apply fits_bind; [ft|]. intros _. apply IH. cbn [length] in Hn; lia.
Qed.
Lemma fits_parseArguments p l c : fits (parseArguments p l c).
Proof. now apply (fits_parse p (length l)). Qed.
Lemma fits_required c : fits (throwIfRequiredArgumentNotSpecified c).
Proof. unfold throwIfRequiredArgumentNotSpecified. ft. Qed.
#[export] Hint Resolve fits_parseArguments fits_required : ft.
Lemma fits_init args : fits (CrashDebugCommandLine_Init args).
Proof. unfold CrashDebugCommandLine_Init, displayExceptionMessage, displayCopyrightNotice, displayUsage. ft. Qed.

(** ** The platform layer *)
Lemma fits_connected b : fits (set_connected b). Proof. intro w. now apply kf_same. Qed.
Lemma fits_poll : fits Console_HasStdInDataToRead.
Proof. intro w. unfold Console_HasStdInDataToRead, throw. cbv zeta. destruct (e_poll _ _); now apply kf_same. Qed.
Lemma fits_stdin : fits Console_ReadStdIn.
Proof. intro w. unfold Console_ReadStdIn, throw. cbv zeta. destruct (e_read _ _); now apply kf_same. Qed.
Lemma fits_stdout c : fits (Console_WriteStdOut c).
Proof. intro w. unfold Console_WriteStdOut, throw. cbv zeta. destruct (e_write _ _); now apply kf_same. Qed.
Lemma fits_countFault : fits countFault.
Proof. intro w. unfold countFault. destruct (_ <? _); [now apply kf_same|exact I]. Qed.
Lemma fits_say t : fits (say t). Proof. intro w. now apply kf_same. Qed.
Lemma fits_sayHex t : fits (sayHex t). Proof. intro w. now apply kf_same. Qed.
Lemma fits_faults : fits Platform_WasMemoryFaultEncountered. Proof. intro w. now apply kf_same. Qed.
#[export] Hint Resolve fits_connected fits_poll fits_stdin fits_stdout fits_countFault fits_say fits_sayHex fits_faults : ft.
Lemma fits_has : fits hasReceiveData. Proof. unfold hasReceiveData. ft. Qed.
Lemma fits_fpu : fits hasFPURegisters. Proof. unfold hasFPURegisters. ft. Qed.
Lemma fits_sayIf v b t : fits (sayIf v b t). Proof. unfold sayIf. ft. Qed.
Lemma fits_read n a : fits (Platform_MemRead n a). Proof. unfold Platform_MemRead. ft. Qed.
Lemma fits_write n a v : fits (Platform_MemWrite n a v). Proof. unfold Platform_MemWrite. ft. Qed.
Lemma fits_try_read m : fits m -> fits (try_read m). Proof. intro H. unfold try_read. ft. Qed.
Lemma fits_read32 a : fits (read32 a). Proof. unfold read32. ft. Qed.
#[export] Hint Resolve fits_has fits_fpu fits_sayIf fits_read fits_write fits_try_read fits_read32 : ft.
Lemma fits_address a : fits (displayFaultAddress a). Proof. unfold displayFaultAddress. ft. Qed.
#[export] Hint Resolve fits_address : ft.
Ltac rt := ft; try (apply fits_try_read; ft); ft.
Lemma fits_mem : fits displayMemFaultCauseToGdbConsole. Proof. unfold displayMemFaultCauseToGdbConsole. rt. Qed.
Lemma fits_bus : fits displayBusFaultCauseToGdbConsole. Proof. unfold displayBusFaultCauseToGdbConsole. rt. Qed.
Lemma fits_usage : fits displayUsageFaultCauseToGdbConsole. Proof. unfold displayUsageFaultCauseToGdbConsole. rt. Qed.
#[export] Hint Resolve fits_mem fits_bus fits_usage : ft.
Lemma fits_hard : fits displayHardFaultCauseToGdbConsole. Proof. unfold displayHardFaultCauseToGdbConsole. rt. Qed.
#[export] Hint Resolve fits_hard : ft.
Lemma fits_from_buffer n : forall o t, fits (readBytesFromBufferAsHex n o t).
Proof. induction n; intros o t; cbn [readBytesFromBufferAsHex]; ft. Qed.
#[export] Hint Resolve fits_from_buffer : ft.
Lemma fits_pcall p : fits (pcall_run p).
Proof.
  destruct p as [c| | | | | | | | | | | | | | | |]; cbn [pcall_run]; unfold num, nothing;
    try (unfold Platform_DetermineCauseOfException, Platform_DisplayFaultCauseToGdbConsole, getCurrentlyExecutingExceptionNumber,
      Platform_CopyContextToBuffer, Platform_CopyContextFromBuffer, Platform_WriteTResponseRegistersToBuffer, Platform_GetDeviceMemoryMapXml,
      Platform_GetDeviceMemoryMapXmlSize, Platform_GetTargetXml, Platform_GetTargetXmlSize, Platform_CommHasReceiveData, Platform_CommReceiveChar, receiveChar,
      Platform_CommSendChar, sendChar, Platform_CommIsWaitingForGdbToConnect, isGdbConnected; ft).
  destruct c; cbn [control_run]; unfold num, nothing; ft.
Qed.

(** ** The buffer of a file *)
Definition heap_same (w w' : world) : Prop := w_heap w' = w_heap w.
Lemma hs_pre : preorder heap_same. Proof. split; unfold heap_same; congruence. Qed.
Ltac hsp := intro; reflexivity.
Lemma hs_next_io : sat heap_same next_io. Proof. hsp. Qed.
Lemma hs_get h : sat heap_same (get_file h). Proof. intro w. unfold get_file. destruct (lookup_file _ _); [reflexivity|exact I]. Qed.
Lemma hs_put h f : sat heap_same (put_file h f). Proof. hsp. Qed.
Lemma hs_throw A e : sat heap_same (throw e : M world A). Proof. hsp. Qed.
Lemma hs_throw_msg A e t : sat heap_same (throw_msg e t : M world A). Proof. hsp. Qed.
Lemma hs_code : sat heap_same getExceptionCode. Proof. hsp. Qed.
Create HintDb hs.
#[export] Hint Resolve hs_pre hs_next_io hs_get hs_put hs_throw hs_throw_msg hs_code : hs.
Ltac hst := repeat first [ solve [auto 2 with hs] | match goal with |- forall w w1, heap_same _ _ -> heap_same _ _ => solve [intros ? ? X; exact X] end | sat_step ].
Lemma hs_fread h n : sat heap_same (fread h n). Proof. unfold fread. hst. Qed.
Lemma hs_size h : sat heap_same (GetFileSize h). Proof. unfold GetFileSize, fseek_end, ftell, fseek_start. hst. Qed.
Lemma hs_fclose h : sat heap_same (fclose h). Proof. unfold fclose. apply sat_bind; [apply hs_pre|apply hs_get|]. intros f w. reflexivity. Qed.
#[export] Hint Resolve hs_fread hs_size hs_fclose : hs.
Lemma hs_try_msg t h : sat heap_same (try_msg (GetFileSize h) t). Proof. unfold try_msg. hst. Qed.

Lemma fread_returns h n w : match fread h n w with Exc _ => False | _ => True end.
Proof. unfold fread, bind, next_io, get_file. destruct (lookup_file _ _); exact I. Qed.
Lemma fclose_returns h w : match fclose h w with Exc _ => False | _ => True end.
Proof. unfold fclose, bind, get_file. destruct (lookup_file _ _); exact I. Qed.
Lemma file_buffer name w b d w' : loadFileData name w = Ret (b, d) w' ->
  find (fun p => Nat.eqb (fst p) b) (h_sizes (w_heap w')) = Some (b, zlen d).
Proof.
  unfold loadFileData. unfold bind at 1. unfold try_ at 1.
  set (body := bind (lift (fopen name)) _). set (l0 := mkLfd None None 0 []). set (w0 := set_exn w noException []).
  assert (HB : match body (l0, w0) with
               | Ret _ (l, v) => exists x, l_buf l = Some x /\ find (fun p => Nat.eqb (fst p) x) (h_sizes (w_heap v)) = Some (x, zlen (l_data l))
               | Exc (l, v) => l_buf l = None \/ w_code v <> 0
               | Ub _ => True end).
  { unfold body. unfold bind at 1, lift at 1. destruct (fopen name _) as [[h|] v|v|]; [|now left|now left|exact I]. cbn [fst snd]. unfold bind at 1, setl at 1. cbn [fst snd].
    unfold bind at 1, lift at 1. cbn [fst snd]. destruct (try_msg _ _ v) as [n v1|v1|]; [|now left|exact I]. cbn [fst snd]. unfold bind at 1, lift at 1. cbn [fst snd]. unfold malloc.
    destruct (e_malloc _ _ _); [|now left]. set (v2 := set_heap v1 _). cbn [fst snd]. unfold bind at 1, setl at 1. cbn [fst snd]. unfold bind at 1, lift at 1. cbn [fst snd].
    pose proof (hs_fread h (Z.to_nat n) v2) as R. pose proof (fread_returns h (Z.to_nat n) v2) as R2. destruct (fread h (Z.to_nat n) v2) as [bs v3|v3|]; [|destruct R2|exact I]. cbn [fst snd]. destruct (zlen bs =? n) eqn:E; [|right; change (Z.max fileException (w_code v3) <> 0); assert (fileException = 28) by reflexivity; lia]. cbn [negb].
    unfold bind at 1, setl at 1. cbn [fst snd]. unfold lift at 1. cbn [fst snd]. pose proof (hs_fclose h v3) as C. pose proof (fclose_returns h v3) as C2. destruct (fclose h v3) as [[] v4|v4|]; [|destruct C2|exact I]. cbn [l_buf l_data].
    exists (h_next (w_heap v1)). split; [reflexivity|]. unfold heap_same in *. rewrite C, R. unfold v2. cbn [w_heap set_heap h_sizes find fst]. rewrite Nat.eqb_refl. repeat f_equal. lia. }
  destruct (body (l0, w0)) as [u [l v]|[l v]|]; [| |discriminate].
  - destruct (w_code v =? 0).
    + destruct HB as (x & -> & H). unfold ret. intro E. injection E as <- <- <-. exact H.
    + intro E. exfalso. revert E. unfold bind at 1. destruct (free_opt _ v) as [[] v1|v1|]; try discriminate. unfold bind at 1.
      destruct (match l_file l with Some h => fclose h | None => ret tt end v1) as [[] v2|v2|]; discriminate.
  - destruct (w_code v =? 0) eqn:C.
    + destruct HB as [-> |HB]; [discriminate|lia].
    + intro E. exfalso. revert E. unfold bind at 1. destruct (free_opt _ v) as [[] v1|v1|]; try discriminate. unfold bind at 1.
      destruct (match l_file l with Some h => fclose h | None => ret tt end v1) as [[] v2|v2|]; discriminate.
Qed.
