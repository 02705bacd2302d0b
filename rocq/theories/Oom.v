(** Refused allocations are reported: an invariant kept by every function of start-up and of the simulator. *)
From Coq Require Import ZArith List Bool Lia ZifyBool ZifyNat.
From Verif Require Import Base World Context MemSim Dump GdbLog Elf CmdLine Platform Comm MainProg MemSpec PlatSpec OomSpec.
Import ListNotations.
Open Scope Z_scope.

(** From a state without a pending exception. *)
Definition ok_ret (w w' : world) : Prop :=
  w_code w' = 0 /\ w_env w' = w_env w /\ refusals w w' = 0 /\ (h_calls (w_heap w) <= h_calls (w_heap w'))%nat.
Definition ok_exc (w w' : world) : Prop :=
  0 < w_code w' /\ w_env w' = w_env w /\ (h_calls (w_heap w) <= h_calls (w_heap w'))%nat /\
  if w_code w' =? outOfMemoryException then refusals w w' = 1 /\ last_refused w w' else refusals w w' = 0.
Definition oom {A} (m : M world A) : Prop :=
  forall w, w_code w = 0 -> match m w with Ret _ w' => ok_ret w w' | Exc w' => ok_exc w w' | Ub _ => True end.
Definition ooml {L A} (m : M (L * world) A) : Prop :=
  forall s, w_code (snd s) = 0 -> match m s with Ret _ s' => ok_ret (snd s) (snd s') | Exc s' => ok_exc (snd s) (snd s') | Ub _ => True end.
(** A handler: it allocates nothing and raises the exception again. *)
Definition again (w w' : world) : Prop := w_code w' = w_code w /\ w_env w' = w_env w /\ h_calls (w_heap w') = h_calls (w_heap w) /\ h_next (w_heap w') = h_next (w_heap w).
Definition hnd {A} (m : M world A) : Prop :=
  forall w, 0 < w_code w -> match m w with Ret _ _ => False | Exc w' => again w w' | Ub _ => True end.
(** A part of a handler, which returns. *)
Definition calmly {A} (m : M world A) : Prop :=
  forall w, match m w with Ret _ w' => again w w' | Exc _ => False | Ub _ => True end.

Lemma ok_refl w : w_code w = 0 -> ok_ret w w.
Proof. unfold ok_ret, refusals. intro H. repeat split; auto; lia. Qed.
Lemma ok_trans a b c : ok_ret a b -> ok_ret b c -> ok_ret a c.
Proof. unfold ok_ret, refusals. intros (H1 & H2 & H3 & H4) (H5 & H6 & H7 & H8). rewrite H6, H2. repeat split; auto; lia. Qed.
Lemma ok_exc_trans a b c : ok_ret a b -> ok_exc b c -> ok_exc a c.
Proof.
  unfold ok_ret, ok_exc. intros (H1 & H2 & H3 & H4) (H5 & H6 & H7 & H8). rewrite H6, H2. repeat split; auto; [lia|].
  destruct (w_code c =? outOfMemoryException); unfold last_refused, refusals in *; [|lia].
  destruct H8 as [H8 (k & n & K1 & K2 & K3)]. split; [lia|]. exists k, n. rewrite <- H2. repeat split; auto. lia.
Qed.
Lemma ok_same w w' : w_code w = 0 -> again w w' -> ok_ret w w'.
Proof. unfold ok_ret, again, refusals. intros H (H1 & H2 & H3 & H4). rewrite H1, H2, H3, H4. repeat split; auto; lia. Qed.
Lemma again_refl w : again w w.
Proof. now repeat split. Qed.
Lemma again_trans a b c : again a b -> again b c -> again a c.
Proof. unfold again. intros (H1 & H2 & H3 & H4) (H5 & H6 & H7 & H8). repeat split; congruence. Qed.

Lemma oom_ret A (a : A) : oom (ret a).
Proof. intros w H. now apply ok_refl. Qed.
Lemma oom_ub A u : oom (fail_ub u : M world A).
Proof. intros w H. exact I. Qed.
Lemma oom_bind A B (m : M world A) (f : A -> M world B) : oom m -> (forall a, oom (f a)) -> oom (bind m f).
Proof.
  intros Hm Hf w H. unfold bind. specialize (Hm w H). destruct (m w) as [a v|v|u]; auto. specialize (Hf a v (proj1 Hm)).
  destruct (f a v); auto; [eapply ok_trans|eapply ok_exc_trans]; eauto.
Qed.
Lemma ooml_ret L A (a : A) : ooml (ret a : M (L * world) A).
Proof. intros w H. now apply ok_refl. Qed.
Lemma ooml_bind L A B (m : M (L * world) A) (f : A -> M (L * world) B) : ooml m -> (forall a, ooml (f a)) -> ooml (bind m f).
Proof.
  intros Hm Hf w H. unfold bind. specialize (Hm w H). destruct (m w) as [a v|v|u]; auto. specialize (Hf a v (proj1 Hm)).
  destruct (f a v); auto; [eapply ok_trans|eapply ok_exc_trans]; eauto.
Qed.
Lemma ooml_lift L A (m : M world A) : oom m -> ooml (lift m : M (L * world) A).
Proof. intros H [l w] HC. unfold lift. specialize (H w HC). cbn [snd fst]. destruct (m w); auto. Qed.
Lemma ooml_setl L (l : L) : ooml (setl l).
Proof. intros [k w] H. now apply ok_refl. Qed.
Lemma ooml_getl L : ooml (getl : M (L * world) L).
Proof. intros [k w] H. now apply ok_refl. Qed.
Lemma ooml_ub L A u : ooml (fail_ub u : M (L * world) A).
Proof. intros w H. exact I. Qed.
Lemma oom_calm A (m : M world A) : calmly m -> oom m.
Proof. intros H w HC. specialize (H w). destruct (m w); auto; [now apply ok_same|destruct H]. Qed.
Lemma oom_try_any L (l0 : L) body h w : ooml body -> (forall l, hnd (h l)) ->
  match try_ l0 body h w with Ret _ w' => ok_ret w w' | Exc w' => ok_exc w w' | Ub _ => True end.
Proof.
  intros HB HH. unfold try_. specialize (HB (l0, set_exn w noException []) eq_refl). destruct (body _) as [u [l v]|[l v]|u]; auto; cbn [snd] in HB.
  - destruct (w_code v =? 0) eqn:E; [exact HB|]. destruct HB as (H & _). lia.
  - destruct HB as (P & E & C & R). destruct (w_code v =? 0) eqn:E0; [lia|]. specialize (HH l v P). destruct (h l v) as [|v'|]; auto; [destruct HH|].
    destruct HH as (A1 & A2 & A3 & A4). unfold ok_exc. rewrite A1, A2. change (h_calls (w_heap (set_exn w noException []))) with (h_calls (w_heap w)) in *.
    change (w_env (set_exn w noException [])) with (w_env w) in *. repeat split; auto; [lia|].
    destruct (w_code v =? outOfMemoryException); unfold refusals, last_refused in *; cbn [w_heap w_env set_exn] in *; rewrite A3, A4; auto.
Qed.
Lemma oom_try L (l0 : L) body h : ooml body -> (forall l, hnd (h l)) -> oom (try_ l0 body h).
Proof. intros HB HH w _. now apply oom_try_any. Qed.
Lemma oom_try0 b h : oom b -> hnd h -> oom (try0 b h).
Proof. intros HB HH. apply oom_try; [now apply ooml_lift|auto]. Qed.
Lemma oom_throw A e : 0 < e -> e <> outOfMemoryException -> oom (throw e : M world A).
Proof.
  intros H1 H2 w HC. cbn. unfold ok_exc. cbn [set_exn w_code w_env w_heap]. rewrite HC. replace (Z.max e 0) with e by lia. repeat split; auto.
  replace (e =? outOfMemoryException) with false by lia. unfold refusals. cbn [w_heap set_exn]. lia.
Qed.
Lemma oom_throw_msg A e t : 0 < e -> e <> outOfMemoryException -> oom (throw_msg e t : M world A).
Proof. intros H1 H2 w HC. exact (oom_throw A e H1 H2 (set_exn w (w_code w) (firstn 1023 t)) HC). Qed.

Lemma hnd_rethrow A : hnd (rethrow : M world A).
Proof. intros w H. cbn. unfold again. cbn [set_exn w_code w_env w_heap]. repeat split. lia. Qed.
Lemma hnd_bind A B (m : M world A) (f : A -> M world B) : calmly m -> (forall a, hnd (f a)) -> hnd (bind m f).
Proof.
  intros Hm Hf w H. unfold bind. specialize (Hm w). destruct (m w) as [a v|v|]; auto; [|destruct Hm]. assert (P : 0 < w_code v) by (destruct Hm as (-> & _); exact H).
  specialize (Hf a v P). destruct (f a v); auto. eapply again_trans; eauto.
Qed.
(** "throw the code again, with a message". *)
Lemma hnd_message A t : hnd (bind getExceptionCode (fun c => throw_msg c t) : M world A).
Proof. intros w H. cbn. unfold again. cbn [set_exn w_code w_env w_heap]. repeat split. lia. Qed.
Lemma calm_ret A (a : A) : calmly (ret a).
Proof. intro w. apply again_refl. Qed.
Lemma calm_bind A B (m : M world A) (f : A -> M world B) : calmly m -> (forall a, calmly (f a)) -> calmly (bind m f).
Proof.
  intros Hm Hf w. unfold bind. specialize (Hm w). destruct (m w) as [a v|v|]; auto. specialize (Hf a v). destruct (f a v); auto. eapply again_trans; eauto.
Qed.
Lemma calm_ub A u : calmly (fail_ub u : M world A).
Proof. intro w. exact I. Qed.
Lemma calm_getw : calmly getw.
Proof. intro w. apply again_refl. Qed.
Lemma calm_free b : calmly (free b).
Proof. intro w. unfold free. destruct (is_live b (w_heap w)); [|exact I]. now repeat split. Qed.
Lemma calm_free_opt b : calmly (free_opt b).
Proof. destruct b; [apply calm_free|apply calm_ret]. Qed.
Lemma calm_next_io : calmly next_io.
Proof. intro w. now repeat split. Qed.
Lemma calm_fopen f : calmly (fopen f).
Proof. unfold fopen. apply calm_bind; [apply calm_next_io|]. intros x w. destruct x, (e_fs (w_env w) f); now repeat split. Qed.
Lemma calm_get_file h : calmly (get_file h).
Proof. intro w. unfold get_file. destruct (lookup_file h _); [apply again_refl|exact I]. Qed.
Lemma calm_put_file h f : calmly (put_file h f).
Proof. intro w. now repeat split. Qed.
Lemma calm_eprintf t : calmly (eprintf t).
Proof. intro w. now repeat split. Qed.
Lemma calm_modmem f : calmly (modw (fun w => set_mem w (f w))).
Proof. intro w. now repeat split. Qed.
Lemma calm_ctx_put o bs : calmly (ctx_put o bs).
Proof. intro w. unfold ctx_put. destruct (_ && _); [now repeat split|exact I]. Qed.
Lemma calm_ctx_word o : calmly (ctx_word o).
Proof. intro w. unfold ctx_word. destruct (_ && _); [apply again_refl|exact I]. Qed.
Lemma calm_get_region i : calmly (get_region i).
Proof. intro w. unfold get_region. destruct (nth_error _ i); [apply again_refl|exact I]. Qed.
Lemma calm_upd_region i f : calmly (upd_region i f).
Proof. intro w. now repeat split. Qed.
Create HintDb om.
#[export] Hint Resolve calm_ret calm_ub calm_getw calm_free calm_free_opt calm_next_io calm_fopen calm_get_file calm_put_file calm_eprintf calm_modmem calm_ctx_put
  calm_ctx_word calm_get_region calm_upd_region hnd_rethrow hnd_message : om.
Ltac ct := repeat first [ solve [eauto 2 with om] | progress cbv zeta
  | match goal with
    | |- calmly (bind _ _) => apply calm_bind; [|intros]
    | |- calmly (match ?x with _ => _ end) => destruct x
    | |- hnd (bind _ _) => apply hnd_bind; [|intros]
    | |- hnd (match ?x with _ => _ end) => destruct x
    end ].
Lemma calm_fclose h : calmly (fclose h).
Proof. unfold fclose. ct. Qed.
Lemma calm_fread h n : calmly (fread h n).
Proof. unfold fread. ct. Qed.
Lemma calm_seek1 h : calmly (fseek_end h).
Proof. unfold fseek_end. ct. Qed.
Lemma calm_seek2 h : calmly (fseek_start h).
Proof. unfold fseek_start. ct. Qed.
Lemma calm_ftell h : calmly (ftell h).
Proof. unfold ftell. ct. Qed.
Lemma calm_fgets h n : calmly (fgets h n).
Proof. unfold fgets. ct. Qed.
Lemma calm_blob bs o n : calmly (blob_get bs o n).
Proof. unfold blob_get. ct. Qed.
Lemma calm_freeRegion r : calmly (freeRegion r).
Proof. unfold freeRegion. ct. Qed.
Lemma calm_freeNew p : calmly (freeNewRegion p).
Proof. unfold freeNewRegion. ct. Qed.
#[export] Hint Resolve calm_fclose calm_fread calm_seek1 calm_seek2 calm_ftell calm_fgets calm_blob calm_freeRegion calm_freeNew : om.
Lemma calm_freeRegions rs : calmly (freeRegions rs).
Proof. induction rs; cbn [freeRegions]; ct. Qed.
#[export] Hint Resolve calm_freeRegions : om.
Lemma calm_uninit : calmly MemorySim_Uninit.
Proof. unfold MemorySim_Uninit. ct. Qed.
Lemma calm_freeLast : calmly freeLastRegion.
Proof. unfold freeLastRegion. ct. Qed.
Lemma calm_destruct p : calmly (destructObject p).
Proof. unfold destructObject. ct. Qed.
Lemma calm_meminit : calmly MemorySim_Init.
Proof. intro w. now repeat split. Qed.
Lemma calm_add r : calmly (addRegionToTail r).
Proof. intro w. now repeat split. Qed.
Lemma calm_set_xml x : calmly (set_xml x).
Proof. intro w. now repeat split. Qed.
#[export] Hint Resolve calm_uninit calm_freeLast calm_destruct calm_meminit calm_add calm_set_xml : om.

#[export] Hint Resolve oom_ret oom_ub oom_calm ooml_ret ooml_ub ooml_setl ooml_getl : om.
#[export] Hint Extern 2 (oom (throw _)) => (apply oom_throw; [reflexivity|discriminate]) : om.
#[export] Hint Extern 2 (oom (throw_msg _ _)) => (apply oom_throw_msg; [reflexivity|discriminate]) : om.
Ltac ot := repeat first [ solve [eauto 3 with om] | progress cbv zeta
  | match goal with
    | |- oom (bind _ _) => apply oom_bind; [|intros]
    | |- ooml (bind _ _) => apply ooml_bind; [|intros]
    | |- ooml (lift _) => apply ooml_lift
    | |- oom (try_ _ _ _) => apply oom_try; [|intros]
    | |- oom (try0 _ _) => apply oom_try0
    | |- oom (match ?x with _ => _ end) => destruct x
    | |- ooml (match ?x with _ => _ end) => destruct x
    | |- hnd _ => progress ct
    | |- calmly _ => progress ct
    end ].

(** ** Requests *)

(** A request followed by raising out of memory if it was refused. *)
Lemma oom_request A n (f : nat -> M world A) (e : M world A) : (forall b, oom (f b)) ->
  (forall w, w_code w = 0 -> exists w', e w = Exc w' /\ w_code w' = outOfMemoryException /\ w_env w' = w_env w /\ w_heap w' = w_heap w) ->
  oom (bind (malloc n) (fun p => match p with Some b => f b | None => e end)).
Proof.
  intros HF HE w HC. unfold bind, malloc. destruct (e_malloc (w_env w) (h_calls (w_heap w)) n) eqn:EM.
  - set (v := set_heap w _). assert (R : ok_ret w v) by (unfold ok_ret, refusals, v; cbn [w_heap set_heap h_calls h_next w_code w_env]; repeat split; auto; lia).
    specialize (HF (h_next (w_heap w)) v (proj1 R)). destruct (f _ v); auto; [eapply ok_trans|eapply ok_exc_trans]; eauto.
  - set (v := set_heap w _). destruct (HE v HC) as (w' & -> & C & E & H). unfold ok_exc. rewrite C, E. split; [reflexivity|]. split; [reflexivity|].
    rewrite Z.eqb_refl. unfold refusals, last_refused. rewrite H. unfold v. cbn [w_heap set_heap h_calls h_next]. split; [lia|]. split; [lia|].
    exists (h_calls (w_heap w)), n. repeat split; auto.
Qed.
Lemma oom_zmalloc n : oom (throwingZeroedMalloc n).
Proof.
  unfold throwingZeroedMalloc. apply (oom_request nat n ret (throw outOfMemoryException)); [intro; apply oom_ret|].
  intros w HC. eexists. split; [reflexivity|]. cbn. rewrite HC. now repeat split.
Qed.
#[export] Hint Resolve oom_zmalloc : om.
Lemma oom_ext A (m m' : M world A) : (forall w, m w = m' w) -> oom m' -> oom m.
Proof. intros E H w. rewrite E. apply H. Qed.
Lemma oom_realloc A b n (f : nat -> M world A) : (forall x, oom (f x)) ->
  oom (bind (realloc b n) (fun p => match p with Some x => f x | None => throw outOfMemoryException end)).
Proof.
  intro HF. apply (oom_ext _ _ (bind (malloc n) (fun p => match p with Some x => bind (free_opt b) (fun _ => f x) | None => throw outOfMemoryException end))).
  - intro w. unfold realloc. unfold bind at 1 2. unfold bind at 2. destruct (malloc n w) as [[x|] v|v|u]; try reflexivity.
    unfold bind. destruct (free_opt b v); reflexivity.
  - apply oom_request; [intro; ot|]. intros w HC. eexists. split; [reflexivity|]. cbn. rewrite HC. now repeat split.
Qed.

(** ** The simulator *)

Lemma oom_create a n : oom (MemorySim_CreateRegion a n).
Proof. unfold MemorySim_CreateRegion. ot. Qed.
Lemma oom_find a n : oom (findMatchingRegion a n).
Proof. intros w HC. unfold findMatchingRegion. destruct (find_from _ _ _ _); [now apply ok_refl|]. now apply (oom_throw _ busErrorException). Qed.
#[export] Hint Resolve oom_create oom_find : om.
Lemma oom_alias a r n : oom (MemorySim_CreateAlias a r n).
Proof. unfold MemorySim_CreateAlias. ot. Qed.
Lemma oom_readonly a : oom (MemorySim_MakeRegionReadOnly a).
Proof. unfold MemorySim_MakeRegionReadOnly, allocateReadCountArrayForReadOnlyRegion. ot. Qed.
Lemma oom_check r a n t : oom (checkForBreakWatchPoint r a n t).
Proof.
  intros w HC. unfold checkForBreakWatchPoint. cbv zeta. destruct (scan_wps _ _ _ _ _ _) as [h brk].
  destruct brk; [|now apply ok_same]. exact (oom_throw unit hardwareBreakpointException ltac:(reflexivity) ltac:(discriminate) (set_mem w _) HC).
Qed.
Lemma oom_inc i k : oom (incReadCount i k).
Proof. unfold incReadCount. ot. Qed.
#[export] Hint Resolve oom_alias oom_readonly oom_check oom_inc : om.
Lemma oom_pointer a n t c : oom (getDataPointer a n t c).
Proof. unfold getDataPointer. ot. Qed.
#[export] Hint Resolve oom_pointer : om.
Lemma oom_load_ptr p n : oom (load_ptr p n).
Proof. unfold load_ptr. ot. Qed.
Lemma oom_store_ptr p bs : oom (store_ptr p bs).
Proof. unfold store_ptr. ot. Qed.
#[export] Hint Resolve oom_load_ptr oom_store_ptr : om.
Lemma oom_readN n a : oom (readN n a).
Proof. unfold readN. ot. Qed.
Lemma oom_writeN n a v : oom (writeN n a v).
Proof. unfold writeN. ot. Qed.
Lemma oom_load8 a v : oom (load8 a v).
Proof. unfold load8. ot. Qed.
Lemma oom_load32 a v : oom (load32 a v).
Proof. unfold load32. ot. Qed.
#[export] Hint Resolve oom_readN oom_writeN oom_load8 oom_load32 : om.
Lemma oom_load_bytes n : forall src a, oom (load_bytes n src a).
Proof. induction n as [|n IH]; intros src a; cbn [load_bytes]; ot. Qed.
Lemma oom_load_words k : forall n src a, (n <= k)%nat -> oom (load_words n src a).
Proof.
  induction k as [|k IH]; intros n src a Hn.
  - destruct n; [|lia]. apply oom_load_bytes.
  - do 5 (destruct n as [|n]; [apply oom_load_bytes|]).
    destruct src as [|x0 src]; [exact (oom_ub unit UbBlob)|]. destruct src as [|x1 src]; [exact (oom_ub unit UbBlob)|].
    destruct src as [|x2 src]; [exact (oom_ub unit UbBlob)|]. destruct src as [|x3 src]; [exact (oom_ub unit UbBlob)|].
    change (load_words (S (S (S (S (S n))))) (x0 :: x1 :: x2 :: x3 :: src) a) with (bind (load32 a [x0; x1; x2; x3]) (fun _ => load_words (S n) src (W (a + 4)))).
    apply oom_bind; [apply oom_load32|]. intros _. apply IH. lia.
Qed.
Lemma oom_load_image a src n : oom (MemorySim_LoadFromFlashImage a src n).
Proof. unfold MemorySim_LoadFromFlashImage. now apply (oom_load_words (Z.to_nat n)). Qed.
#[export] Hint Resolve oom_load_image : om.
Lemma oom_flash src n : oom (MemorySim_CreateRegionsFromFlashImage src n).
Proof. unfold MemorySim_CreateRegionsFromFlashImage. ot. Qed.
Lemma oom_xml : oom MemorySim_GetMemoryMapXML.
Proof. unfold MemorySim_GetMemoryMapXML. apply oom_bind; [ot|]. intro w. cbv zeta. apply oom_realloc. intro x. ot. Qed.
Lemma oom_count a : oom (MemorySim_GetFlashReadCount a).
Proof. unfold MemorySim_GetFlashReadCount. ot. Qed.
Lemma oom_grow i n : oom (growWatchpointArrayIfNeeded i n).
Proof. unfold growWatchpointArrayIfNeeded. apply oom_bind; [ot|]. intro r. destruct (_ <? _); [|ot]. apply oom_realloc. intro. ot. Qed.
#[export] Hint Resolve oom_flash oom_xml oom_count oom_grow : om.
Lemma oom_set a n t : oom (setWatchpoint a n t).
Proof. unfold setWatchpoint. ot. Qed.
Lemma oom_clear a n t : oom (clearWatchpoint a n t).
Proof. unfold clearWatchpoint. ot. Qed.
Lemma oom_hits : oom MemorySim_WasWatchpointEncountered.
Proof. intros w HC. now apply ok_same. Qed.
#[export] Hint Resolve oom_set oom_clear oom_hits : om.
Lemma oom_op o : oom (op_run o).
Proof. destruct o; cbn [op_run]; unfold drop, MemorySim_MapForRead, MemorySim_MapForWrite, MemorySim_SetHardwareWatchpoint, MemorySim_ClearHardwareWatchpoint; ot. Qed.

(** ** Files *)

Lemma oom_newlines h : forall n, oom (skipNewLines n h).
Proof. induction n; cbn [skipNewLines]; ot. Qed.
#[export] Hint Resolve oom_newlines : om.
Lemma oom_char h : oom (readNextCharacterSkippingNewLines h).
Proof. unfold readNextCharacterSkippingNewLines. ot. Qed.
Lemma oom_store d i bs : oom (store_dest d i bs).
Proof. unfold store_dest. ot. Qed.
#[export] Hint Resolve oom_char oom_store : om.
Lemma oom_hexLoop h d n : forall acc, oom (hexRead_loop h d n acc).
Proof. induction n; intro acc; cbn [hexRead_loop]; ot. Qed.
#[export] Hint Resolve oom_hexLoop : om.
Lemma oom_doRead k h d n : oom (doRead k h d n).
Proof. destruct k; cbn [doRead]; unfold binaryRead, hexRead; ot. Qed.
#[export] Hint Resolve oom_doRead : om.
Lemma oom_regionBytes k h : forall n a c, oom (loadRegionBytes n k h a c).
Proof. induction n; intros a c; cbn [loadRegionBytes]; unfold write8; ot. Qed.
#[export] Hint Resolve oom_regionBytes : om.
Lemma oom_next k h : oom (readNextMemoryRegion k h).
Proof. unfold readNextMemoryRegion, createAndLoadMemoryRegion. ot. Qed.
#[export] Hint Resolve oom_next : om.
Lemma oom_regionLoop k h : forall n, oom (regionLoop n k h).
Proof. induction n; cbn [regionLoop]; ot. Qed.
#[export] Hint Resolve oom_regionLoop : om.
Lemma oom_dump k f : oom (CrashCatcherDump_Read k f).
Proof.
  unfold CrashCatcherDump_Read, openDump, readDump, validateDumpSignature, readFlags, readIntegerRegisters, readFloatingPointRegisters, readMemoryRegions. ot.
Qed.
Lemma oom_values vs : forall a, oom (writeValues a vs).
Proof. induction vs; intro x; cbn [writeValues]; unfold write32; ot. Qed.
#[export] Hint Resolve oom_dump oom_values : om.
Lemma oom_first o p : oom (firstPassHandler o p).
Proof. unfold firstPassHandler, firstPassMemoryHandler, firstPassRegisterHandler. ot. Qed.
Lemma oom_second o p : oom (secondPassHandler o p).
Proof. unfold secondPassHandler. ot. Qed.
Lemma oom_lineLoop h hd : (forall o p, oom (hd o p)) -> forall n o, oom (lineLoop n h hd o).
Proof. intro H. induction n; intro o; cbn [lineLoop]; ot. Qed.
Lemma oom_parseLines h hd : (forall o p, oom (hd o p)) -> oom (parseLines h hd).
Proof. intro H. unfold parseLines. pose proof (oom_lineLoop h hd H). ot. Qed.
#[export] Hint Resolve oom_first oom_second oom_parseLines : om.
Lemma oom_log f : oom (GdbLogParse f).
Proof. unfold GdbLogParse, openLog, initPSPandMSP, rewindLogFile. ot. Qed.
Lemma oom_type f : oom (getFileType f).
Proof. unfold getFileType. ot. Qed.
#[export] Hint Resolve oom_log oom_type : om.
Lemma oom_dumpFile c : oom (loadDumpFile c).
Proof. unfold loadDumpFile, CrashCatcherDump_ReadHex, CrashCatcherDump_ReadBinary. ot. Qed.
Lemma oom_try_msg m t : oom m -> oom (try_msg m t).
Proof. intro H. unfold try_msg. ot. Qed.
Lemma oom_fetch bs o n : oom (fetchSizedByteArray bs o n).
Proof. unfold fetchSizedByteArray. ot. Qed.
#[export] Hint Resolve oom_dumpFile oom_try_msg oom_fetch : om.
Lemma oom_entry bs p : oom (loadIfFlashLoadableEntry bs p).
Proof. unfold loadIfFlashLoadableEntry. ot. Qed.
#[export] Hint Resolve oom_entry : om.
Lemma oom_entries bs e n : forall i o c, oom (loadFlashLoadableEntries n bs e i o c).
Proof. induction n; intros; cbn [loadFlashLoadableEntries]; ot. Qed.
#[export] Hint Resolve oom_entries : om.
Lemma oom_elf bs : oom (ElfLoad_FromMemory bs).
Proof. unfold ElfLoad_FromMemory, initLoadObject, validateElfHeaderContents. ot. Qed.
Lemma oom_bin a bs : oom (loadBinFile a bs).
Proof. unfold loadBinFile. ot. Qed.
Lemma oom_size h : oom (GetFileSize h).
Proof. unfold GetFileSize. ot. Qed.
#[export] Hint Resolve oom_elf oom_bin oom_size : om.
Lemma ooml_request L A n (f : nat -> M (L * world) A) (e : M world A) : (forall b, ooml (f b)) ->
  (forall w, w_code w = 0 -> exists w', e w = Exc w' /\ w_code w' = outOfMemoryException /\ w_env w' = w_env w /\ w_heap w' = w_heap w) ->
  ooml (bind (lift (malloc n)) (fun p => match p with Some b => f b | None => lift e end)).
Proof.
  intros HF HE [l w] HC. cbn [snd] in HC. unfold bind, lift, malloc. cbn [fst snd]. destruct (e_malloc (w_env w) (h_calls (w_heap w)) n) eqn:EM.
  - set (v := set_heap w _). assert (K : ok_ret w v) by (unfold ok_ret, refusals, v; cbn [w_heap set_heap h_calls h_next w_code w_env]; repeat split; auto; lia).
    specialize (HF (h_next (w_heap w)) (l, v) (proj1 K)). destruct (f _ (l, v)); auto; cbn [snd] in HF; [eapply ok_trans|eapply ok_exc_trans]; eauto.
  - set (v := set_heap w _). destruct (HE v HC) as (w' & E1 & C & E & H). cbn [fst snd]. rewrite E1. cbn [snd]. unfold ok_exc. rewrite C, E. split; [reflexivity|]. split; [reflexivity|].
    rewrite Z.eqb_refl. unfold refusals, last_refused. rewrite H. unfold v. cbn [w_heap set_heap h_calls h_next]. split; [lia|]. split; [lia|].
    exists (h_calls (w_heap w)), n. repeat split; auto.
Qed.
Lemma oom_fileData f : oom (loadFileData f).
Proof.
  unfold loadFileData. apply oom_bind; [|intro; ot]. apply oom_try; [|intro; ot]. apply ooml_bind; [ot|]. intros [h|]; [|ot].
  apply ooml_bind; [ot|]. intros _. apply ooml_bind; [ot|]. intro n. apply ooml_request; [intro; ot|].
  intros w HC. eexists. split; [reflexivity|]. cbn. rewrite HC. now repeat split.
Qed.
#[export] Hint Resolve oom_fileData : om.
Lemma oom_image c : oom (loadImageFile c).
Proof. unfold loadImageFile. ot. Qed.
Lemma oom_aliasOption a b c : oom (createAliasOption a b c).
Proof. unfold createAliasOption. ot. Qed.
#[export] Hint Resolve oom_image oom_aliasOption : om.
Lemma oom_parse p n : forall l c, (length l <= n)%nat -> oom (parseArguments p l c).
Proof.
  induction n as [|n IH]; intros l c Hn; (destruct l as [|a t]; [apply oom_ret|]); cbn [length] in Hn; [lia|]. cbn [parseArguments].
  destruct (negb _); [ot|]. destruct (strcaseeq a _).
  { destruct t as [|f [|v t]]; try solve [ot]. apply IH. cbn [length] in Hn; lia. }
  destruct (strcaseeq a _). { destruct t as [|f t]; try solve [ot]. apply IH. cbn [length] in Hn; lia. }
  destruct (strcaseeq a _). { destruct t as [|f t]; try solve [ot]. apply IH. cbn [length] in Hn; lia. }
  destruct (strcaseeq a _); [|ot]. destruct t as [|f [|v [|r t]]]; try solve [ot]. apply oom_bind; [ot|]. intros _. apply IH. cbn [length] in Hn; lia.
Qed.
Lemma oom_parseArguments p l c : oom (parseArguments p l c).
Proof. now apply (oom_parse p (length l)). Qed.
Lemma oom_required c : oom (throwIfRequiredArgumentNotSpecified c).
Proof. unfold throwIfRequiredArgumentNotSpecified. ot. Qed.
Lemma calm_blank z : calmly (modw (fun w => set_ctx w z)).
Proof. intro w. now repeat split. Qed.
#[export] Hint Resolve oom_parseArguments oom_required calm_blank : om.
Lemma oom_init_any args w : match CrashDebugCommandLine_Init args w with Ret _ w' => ok_ret w w' | Exc w' => ok_exc w w' | Ub _ => True end.
Proof.
  unfold CrashDebugCommandLine_Init. apply oom_try_any; [ot|].
  intro l. unfold displayExceptionMessage, displayCopyrightNotice, displayUsage. ct.
Qed.

Lemma reports A (m : M world A) w : oom m -> reports_refusals w (api m w).
Proof.
  intro H. specialize (H (set_exn w noException []) eq_refl). unfold api, reports_refusals. destruct (m _); auto; [apply H|]. destruct H as (_ & _ & _ & H). exact H.
Qed.

(** ** The platform layer *)

(** Calls that request nothing; and those that also do not raise. *)
Definition kept (w w' : world) : Prop := w_heap w' = w_heap w /\ w_env w' = w_env w /\ (w_code w <> outOfMemoryException -> w_code w' <> outOfMemoryException).
Definition still {A} (m : M world A) : Prop := forall w, match m w with Ret _ w' => kept w w' | Exc w' => kept w w' | Ub _ => True end.
Definition stilll {L A} (m : M (L * world) A) : Prop := forall s, match m s with Ret _ s' => kept (snd s) (snd s') | Exc s' => kept (snd s) (snd s') | Ub _ => True end.
Definition never {A} (m : M world A) : Prop := forall w, match m w with Ret _ w' => kept w w' | Exc _ => False | Ub _ => True end.
Lemma kept_refl w : kept w w.
Proof. now repeat split. Qed.
Lemma kept_trans a b c : kept a b -> kept b c -> kept a c.
Proof. unfold kept. intros (-> & -> & A) (-> & -> & B). auto. Qed.
Lemma still_bind A B (m : M world A) (f : A -> M world B) : still m -> (forall a, still (f a)) -> still (bind m f).
Proof.
  intros Hm Hf w. unfold bind. specialize (Hm w). destruct (m w) as [a v|v|]; auto. specialize (Hf a v). destruct (f a v); auto; eapply kept_trans; eauto.
Qed.
Lemma never_bind A B (m : M world A) (f : A -> M world B) : never m -> (forall a, never (f a)) -> never (bind m f).
Proof.
  intros Hm Hf w. unfold bind. specialize (Hm w). destruct (m w) as [a v|v|]; auto. specialize (Hf a v). destruct (f a v); auto; eapply kept_trans; eauto.
Qed.
Lemma stilll_bind L A B (m : M (L * world) A) (f : A -> M (L * world) B) : stilll m -> (forall a, stilll (f a)) -> stilll (bind m f).
Proof.
  intros Hm Hf w. unfold bind. specialize (Hm w). destruct (m w) as [a v|v|]; auto. specialize (Hf a v). destruct (f a v); auto; eapply kept_trans; eauto.
Qed.
Lemma stilll_lift L A (m : M world A) : still m -> stilll (lift m : M (L * world) A).
Proof. intros H [l w]. unfold lift. specialize (H w). cbn [fst snd]. destruct (m w); auto. Qed.
Lemma stilll_setl L (l : L) : stilll (setl l).
Proof. intros [k w]. apply kept_refl. Qed.
Lemma never_still A (m : M world A) : never m -> still m.
Proof. intros H w. specialize (H w). destruct (m w); auto. destruct H. Qed.
Lemma kept_clear w v : kept (set_exn w noException []) v -> kept w v.
Proof. intros (A & B & C). split; [exact A|]. split; [exact B|]. intros _. apply C. discriminate. Qed.
Lemma never_try L (l0 : L) body h : stilll body -> (forall l, never (h l)) -> never (try_ l0 body h).
Proof.
  intros HB HH w. unfold try_. specialize (HB (l0, set_exn w noException [])). cbn [snd] in HB.
  destruct (body _) as [a [l v]|[l v]|u]; auto; cbn [snd] in HB; apply kept_clear in HB; (destruct (w_code v =? 0); [exact HB|]);
    specialize (HH l v); destruct (h l v); auto; exact (kept_trans _ _ _ HB HH).
Qed.
Lemma never_try0 b h : still b -> never h -> never (try0 b h).
Proof. intros HB HH. apply never_try; [now apply stilll_lift|auto]. Qed.
Lemma never_ret A (a : A) : never (ret a).
Proof. intro w. apply kept_refl. Qed.
Lemma never_ub A u : never (fail_ub u : M world A).
Proof. intro w. exact I. Qed.
Lemma still_throw A e : e <> outOfMemoryException -> still (throw e : M world A).
Proof. intros H w. split; [reflexivity|]. split; [reflexivity|]. cbn [set_exn w_code]. lia. Qed.
#[export] Hint Extern 2 (still (throw _)) => (apply still_throw; discriminate) : om.
Lemma never_count : never countFault.
Proof. intro w. unfold countFault. destruct (_ <? _); now repeat split. Qed.
Lemma never_region i : never (get_region i).
Proof. intro w. unfold get_region. destruct (nth_error _ i); [apply kept_refl|exact I]. Qed.
Lemma never_upd i f : never (upd_region i f).
Proof. intro w. now repeat split. Qed.
Lemma never_word o : never (ctx_word o).
Proof. intro w. unfold ctx_word. destruct (_ && _); [apply kept_refl|exact I]. Qed.
Lemma never_say t : never (say t).
Proof. intro w. now repeat split. Qed.
Lemma never_sayHex t : never (sayHex t).
Proof. intro w. now repeat split. Qed.
#[export] Hint Resolve never_ret never_ub never_count never_region never_upd never_word never_say never_sayHex stilll_setl : om.
#[export] Hint Resolve never_still | 5 : om.
Ltac nt := repeat first [ solve [eauto 3 with om] | progress cbv zeta
  | match goal with
    | |- still (bind _ _) => apply still_bind; [|intros]
    | |- never (bind _ _) => apply never_bind; [|intros]
    | |- stilll (bind _ _) => apply stilll_bind; [|intros]
    | |- stilll (lift _) => apply stilll_lift
    | |- never (try_ _ _ _) => apply never_try; [|intros]
    | |- never (try0 _ _) => apply never_try0
    | |- still (match ?x with _ => _ end) => destruct x
    | |- never (match ?x with _ => _ end) => destruct x
    end ].
Lemma still_find a n : still (findMatchingRegion a n).
Proof. intro w. unfold findMatchingRegion. destruct (find_from _ _ _ _); [apply kept_refl|]. now apply (still_throw nat busErrorException). Qed.
Lemma still_check r a n t : still (checkForBreakWatchPoint r a n t).
Proof. intro w. unfold checkForBreakWatchPoint. cbv zeta. destruct (scan_wps _ _ _ _ _ _) as [h brk]. destruct brk; [|now repeat split]. exact (still_throw unit hardwareBreakpointException ltac:(discriminate) (set_mem w _)). Qed.
#[export] Hint Resolve still_find still_check : om.
Lemma still_inc i k : still (incReadCount i k).
Proof. unfold incReadCount. nt. Qed.
#[export] Hint Resolve still_inc : om.
Lemma still_pointer a n t c : still (getDataPointer a n t c).
Proof. unfold getDataPointer. nt. Qed.
#[export] Hint Resolve still_pointer : om.
Lemma still_readN n a : still (readN n a).
Proof. unfold readN, load_ptr. nt. Qed.
Lemma still_writeN n a v : still (writeN n a v).
Proof. unfold writeN, store_ptr. nt. Qed.
#[export] Hint Resolve still_readN still_writeN : om.
Lemma never_read n a : never (Platform_MemRead n a).
Proof. unfold Platform_MemRead. nt. Qed.
Lemma never_write n a v : never (Platform_MemWrite n a v).
Proof. unfold Platform_MemWrite. nt. Qed.
Lemma never_sayIf v b t : never (sayIf v b t).
Proof. unfold sayIf. nt. Qed.
Lemma never_try_read m : still m -> never (try_read m).
Proof. intro H. unfold try_read. nt. Qed.
Lemma still_read32 a : still (read32 a).
Proof. unfold read32. nt. Qed.
#[export] Hint Resolve never_sayIf never_read never_write still_read32 : om.
Lemma never_address a : never (displayFaultAddress a).
Proof. unfold displayFaultAddress. nt. Qed.
#[export] Hint Resolve never_address : om.
Ltac rt' := nt; try (apply never_try_read; nt); nt.
Lemma never_mem : never displayMemFaultCauseToGdbConsole.
Proof. unfold displayMemFaultCauseToGdbConsole. rt'. Qed.
Lemma never_bus : never displayBusFaultCauseToGdbConsole.
Proof. unfold displayBusFaultCauseToGdbConsole. rt'. Qed.
Lemma never_usage : never displayUsageFaultCauseToGdbConsole.
Proof. unfold displayUsageFaultCauseToGdbConsole. rt'. Qed.
#[export] Hint Resolve never_mem never_bus never_usage : om.
Lemma never_hard : never displayHardFaultCauseToGdbConsole.
Proof. unfold displayHardFaultCauseToGdbConsole. rt'. Qed.
#[export] Hint Resolve never_hard : om.
Lemma never_report : never Platform_DisplayFaultCauseToGdbConsole.
Proof. unfold Platform_DisplayFaultCauseToGdbConsole, getCurrentlyExecutingExceptionNumber. nt. Qed.

(** The others. *)
Lemma calm_bytes o n : calmly (ctx_bytes o n).
Proof. intro w. unfold ctx_bytes. destruct (_ && _); [apply again_refl|exact I]. Qed.
Lemma calm_connected b : calmly (set_connected b).
Proof. intro w. now repeat split. Qed.
Lemma oom_poll : oom Console_HasStdInDataToRead.
Proof.
  intros w HC. unfold Console_HasStdInDataToRead. cbv zeta. destruct (e_poll _ _); try now apply ok_same.
  exact (oom_throw bool fileException ltac:(reflexivity) ltac:(discriminate) (set_con w _) HC).
Qed.
Lemma oom_stdin : oom Console_ReadStdIn.
Proof.
  intros w HC. unfold Console_ReadStdIn. cbv zeta. destruct (e_read _ _); try now apply ok_same.
  exact (oom_throw Z fileException ltac:(reflexivity) ltac:(discriminate) (set_con w _) HC).
Qed.
Lemma oom_stdout c : oom (Console_WriteStdOut c).
Proof.
  intros w HC. unfold Console_WriteStdOut. cbv zeta. destruct (e_write _ _); try now apply ok_same.
  exact (oom_throw unit fileException ltac:(reflexivity) ltac:(discriminate) (set_con w _) HC).
Qed.
Lemma never_poll : never hasReceiveData.
Proof.
  unfold hasReceiveData. apply never_try.
  - apply stilll_bind; [apply stilll_lift|intro; apply stilll_setl]. intro w. unfold Console_HasStdInDataToRead. cbv zeta. destruct (e_poll _ _); try now repeat split. exact (still_throw bool fileException ltac:(discriminate) (set_con w _)).
  - intros l w. repeat split. cbn. discriminate.
Qed.
#[export] Hint Resolve calm_bytes calm_connected oom_poll oom_stdin oom_stdout never_poll : om.
Lemma never_getw : never getw.
Proof. intro w. apply kept_refl. Qed.
#[export] Hint Resolve never_getw : om.
Lemma never_waiting : never Platform_CommIsWaitingForGdbToConnect.
Proof. unfold Platform_CommIsWaitingForGdbToConnect, isGdbConnected. nt. Qed.
Lemma oom_fpu : oom hasFPURegisters.
Proof. unfold hasFPURegisters. ot. Qed.
#[export] Hint Resolve oom_fpu never_waiting : om.
Lemma oom_from_buffer n : forall o t, oom (readBytesFromBufferAsHex n o t).
Proof. induction n; intros o t; cbn [readBytesFromBufferAsHex]; ot. Qed.
#[export] Hint Resolve oom_from_buffer : om.
Lemma calm_faults : calmly Platform_WasMemoryFaultEncountered.
Proof. intro w. now repeat split. Qed.
#[export] Hint Resolve calm_faults never_report : om.
Lemma pcall_oom p : oom (pcall_run p) \/ never (pcall_run p).
Proof.
  destruct p as [c| | | | | | | | | | | | | | | |]; cbn [pcall_run]; unfold num, nothing.
  - left. destruct c; cbn [control_run]; unfold num, nothing; ot.
  - right. nt.
  - right. nt.
  - left. ot.
  - left. unfold Platform_DetermineCauseOfException, getCurrentlyExecutingExceptionNumber. ot.
  - right. nt.
  - left. unfold Platform_CopyContextToBuffer. ot.
  - left. unfold Platform_CopyContextFromBuffer. ot.
  - left. unfold Platform_WriteTResponseRegistersToBuffer. ot.
  - left. unfold Platform_GetDeviceMemoryMapXml. ot.
  - left. unfold Platform_GetDeviceMemoryMapXmlSize. ot.
  - left. unfold Platform_GetTargetXml. ot.
  - left. unfold Platform_GetTargetXmlSize. ot.
  - right. unfold Platform_CommHasReceiveData. nt.
  - left. unfold Platform_CommReceiveChar, receiveChar. ot.
  - left. unfold Platform_CommSendChar, sendChar. ot.
  - right. nt.
Qed.
(** A platform call that returns leaves no code of a refusal pending either. *)
Definition ok_pcall {A} (w : world) (r : result A) : Prop :=
  match r with
  | Done _ w' => w_env w' = w_env w /\ refusals w w' = 0 /\ (h_calls (w_heap w) <= h_calls (w_heap w'))%nat /\ w_code w' <> outOfMemoryException
  | Raised c w' => c = w_code w' /\ ok_exc w w'
  | Crashed _ => True
  end.
Lemma pcall_fine p w : ok_pcall w (api (pcall_run p) w).
Proof.
  unfold api, ok_pcall. set (v := set_exn w noException []). destruct (pcall_oom p) as [H|H].
  - specialize (H v eq_refl). destruct (pcall_run p v) as [a x|x|]; auto. destruct H as (C & E & R & N). repeat split; auto. rewrite C. discriminate.
  - specialize (H v). destruct (pcall_run p v) as [a x|x|]; auto; [|destruct H]. destruct H as (H & E & C). unfold refusals. rewrite H, E.
    change (w_heap v) with (w_heap w). split; [reflexivity|]. split; [lia|]. split; [lia|]. apply C. discriminate.
Qed.
Lemma pcall_reports p w : reports_refusals w (api (pcall_run p) w).
Proof.
  pose proof (pcall_fine p w) as P. unfold reports_refusals. destruct (api _ w); cbn [ok_pcall] in P; auto; [apply P|]. destruct P as (-> & P). apply P.
Qed.

(** ** The monitor and main *)

Definition ok_end (w w' : world) : Prop :=
  w_env w' = w_env w /\ (h_calls (w_heap w) <= h_calls (w_heap w'))%nat /\
  if w_code w' =? outOfMemoryException then refusals w w' = 1 /\ last_refused w w' else refusals w w' = 0.
Lemma ok_end_trans a b c : w_env b = w_env a -> refusals a b = 0 -> (h_calls (w_heap a) <= h_calls (w_heap b))%nat -> ok_end b c -> ok_end a c.
Proof.
  intros E R N (E1 & N1 & H). split; [congruence|]. split; [lia|]. destruct (w_code c =? outOfMemoryException); unfold last_refused, refusals in *; [|lia].
  destruct H as [H (k & n & K1 & K2 & K3)]. split; [lia|]. exists k, n. rewrite <- E. repeat split; auto. lia.
Qed.
Lemma monitor_fine m : forall w, passes_on m -> w_code w <> outOfMemoryException ->
  match monitor_run m w with Ret _ w' => ok_end w w' | Exc w' => ok_end w w' | Ub _ => True end.
Proof.
  induction m as [|c|p k IK h IH]; intros w HP HC; cbn [monitor_run passes_on] in *.
  - change (ok_end w w). unfold ok_end. replace (_ =? _) with false by lia. unfold refusals. repeat split; lia.
  - unfold ok_end, throw. cbn [w_code w_env w_heap set_exn]. replace (_ =? _) with false by lia. unfold refusals. cbn [w_heap set_exn]. repeat split; lia.
  - pose proof (pcall_fine p w) as P. destruct HP as (H1 & H2 & H3). destruct (api (pcall_run p) w) as [v x|c x|u]; [| |exact I]; cbn [ok_pcall] in P.
    + destruct P as (E & R & N & C). specialize (IK v x (H1 v) C). destruct (monitor_run (k v) x); auto; eapply ok_end_trans; eauto.
    + destruct P as (-> & P & E & N & R). destruct (Z.eq_dec (w_code x) outOfMemoryException) as [C|C].
      * rewrite C, H2. cbn [monitor_run]. unfold throw, ok_end. cbn [w_code w_env w_heap set_exn]. rewrite C, Z.max_id. rewrite C in R. split; [exact E|]. split; [exact N|exact R].
      * replace (w_code x =? outOfMemoryException) with false in R by lia. specialize (IH (w_code x) x (H3 _ C) C). destruct (monitor_run (h _) x); auto; eapply ok_end_trans; eauto.
Qed.
