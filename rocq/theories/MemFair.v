(** Only a refused allocation makes a call raise the out-of-memory exception. *)
From Coq Require Import ZArith List Bool Lia ZifyBool ZifyNat.
From Verif Require Import Base World MemSim Sat MemSpec.
Import ListNotations.
Open Scope Z_scope.

Definition fair (w w' : world) : Prop :=
  0 <= refusals w w' /\ (w_code w' = outOfMemoryException -> w_code w = outOfMemoryException \/ 0 < refusals w w').

Lemma refusals_refl w : refusals w w = 0.
Proof. unfold refusals. lia. Qed.
Lemma refusals_trans a b c : refusals a c = refusals a b + refusals b c.
Proof. unfold refusals. lia. Qed.

Lemma fair_pre : preorder fair.
Proof.
  split.
  - intro w. unfold fair. rewrite refusals_refl. lia.
  - intros a b c [H1 H2] [H3 H4]. unfold fair. rewrite (refusals_trans a b c). split; [lia|].
    intro E. destruct (H4 E) as [E'|]; [destruct (H2 E'); [auto|right; lia]|right; lia].
Qed.

Lemma fair_same w w' : w_heap w' = w_heap w -> w_code w' = w_code w -> fair w w'.
Proof. intros H1 H2. unfold fair, refusals. rewrite H1, H2. split; [lia|auto]. Qed.

Lemma fair_exn w w1 : fair (set_exn w noException []) w1 -> fair w w1.
Proof. intros [H1 H2]. split; [exact H1|]. intro E. destruct (H2 E) as [X|X]; [discriminate|auto]. Qed.

Lemma sat_throw {A} e : e <> outOfMemoryException -> sat fair (throw e : M world A).
Proof.
  intros He w. cbn. split; [unfold refusals; cbn; lia|]. cbn. intro E.
  destruct (Z.max_spec e (w_code w)) as [[_ M]|[_ M]]; rewrite M in E; auto. contradiction.
Qed.
Lemma sat_throw_msg {A} e msg : e <> outOfMemoryException -> sat fair (throw_msg e msg : M world A).
Proof.
  intros He w. cbn. split; [unfold refusals; cbn; lia|]. cbn. intro E.
  destruct (Z.max_spec e (w_code w)) as [[_ M]|[_ M]]; rewrite M in E; auto. contradiction.
Qed.
Lemma sat_rethrow {A} : sat fair (rethrow : M world A).
Proof. intro w. unfold rethrow, throw. apply fair_same; [reflexivity|]. cbn. lia. Qed.
Lemma sat_code_throw {A} msg : sat fair (bind getExceptionCode (fun c => throw_msg c msg) : M world A).
Proof. intro w. unfold bind, getExceptionCode, throw_msg, throw. apply fair_same; [reflexivity|]. cbn. lia. Qed.

Lemma sat_zmalloc n : sat fair (throwingZeroedMalloc n).
Proof.
  intro w. unfold throwingZeroedMalloc, bind, malloc. destruct (e_malloc _ _ _); cbn.
  - split; [unfold refusals; cbn -[Z.of_nat]; lia|]. cbn. auto.
  - split; [unfold refusals; cbn -[Z.of_nat]; lia|]. intros _. right. unfold refusals. cbn -[Z.of_nat]. lia.
Qed.
Lemma sat_free b : sat fair (free b).
Proof. intro w. unfold free. destruct (is_live _ _); [|exact I]. split; [unfold refusals; cbn; lia|]. cbn. auto. Qed.
Lemma sat_free_opt b : sat fair (free_opt b).
Proof. destruct b; [apply sat_free|apply sat_ret, fair_pre]. Qed.
Lemma sat_modw f : (forall w, w_heap (f w) = w_heap w /\ w_code (f w) = w_code w) -> sat fair (modw f).
Proof. intros H w. cbn. destruct (H w). now apply fair_same. Qed.
Lemma sat_fmr a n : sat fair (findMatchingRegion a n).
Proof. intro w. unfold findMatchingRegion. destruct (find_from _ _ _ _); [apply fair_pre|]. apply (sat_throw (A := nat * Z)). discriminate. Qed.
Lemma sat_get_region i : sat fair (get_region i).
Proof. intro w. unfold get_region. destruct (nth_error _ _); [apply fair_pre|exact I]. Qed.
Lemma sat_upd_region i f : sat fair (upd_region i f).
Proof. apply sat_modw. split; reflexivity. Qed.
Lemma sat_check r a n t : sat fair (checkForBreakWatchPoint r a n t).
Proof.
  intro w. unfold checkForBreakWatchPoint. destruct (scan_wps _ _ _ _ _ _) as [h []].
  - eapply pre_trans; [apply fair_pre| |apply (sat_throw (A := unit) hardwareBreakpointException); discriminate].
    now apply fair_same.
  - now apply fair_same.
Qed.

(** A realloc whose failure is reported. *)
Lemma sat_realloc_throw {A} b n (k : nat -> M world A) :
  (forall x, sat fair (k x)) ->
  sat fair (bind (realloc b n) (fun p => match p with None => throw outOfMemoryException | Some x => k x end)).
Proof.
  intros Hk w. unfold bind at 1, realloc. unfold bind at 1, malloc. destruct (e_malloc _ _ _); cbn.
  - set (w1 := set_heap _ _). assert (F : fair w w1).
    { split; [unfold refusals, w1; cbn -[Z.of_nat]; lia|]. cbn. auto. }
    unfold bind. pose proof (sat_free_opt b w1) as Fb. destruct (free_opt b w1) as [u w2|w2|]; [| |exact I].
    + cbn. specialize (Hk (h_next (w_heap w)) w2). destruct (k _ w2); auto;
        (eapply (pre_trans fair fair_pre); [exact F|]; eapply (pre_trans fair fair_pre); eauto).
    + eapply (pre_trans fair fair_pre); eauto.
  - split; [unfold refusals; cbn -[Z.of_nat]; lia|]. intros _. right. unfold refusals. cbn -[Z.of_nat]. lia.
Qed.

#[export] Hint Resolve fair_pre fair_exn sat_rethrow sat_zmalloc sat_free sat_free_opt sat_fmr sat_get_region sat_upd_region sat_check sat_code_throw : fair.
#[export] Hint Extern 1 (sat fair (throw _)) => apply sat_throw; discriminate : fair.
#[export] Hint Extern 1 (sat fair (throw_msg _ _)) => apply sat_throw_msg; discriminate : fair.
#[export] Hint Extern 1 (sat fair (modw _)) => apply sat_modw; split; reflexivity : fair.

Ltac fair_tac := repeat first [solve [auto 2 with fair] | sat_step].

Lemma sat_create b s : sat fair (MemorySim_CreateRegion b s).
Proof. unfold MemorySim_CreateRegion, addRegionToTail, freeNewRegion. fair_tac. Qed.
Lemma sat_alias b r s : sat fair (MemorySim_CreateAlias b r s).
Proof. unfold MemorySim_CreateAlias, addRegionToTail, freeNewRegion. fair_tac. Qed.
Lemma sat_readonly b : sat fair (MemorySim_MakeRegionReadOnly b).
Proof. unfold MemorySim_MakeRegionReadOnly, allocateReadCountArrayForReadOnlyRegion. fair_tac. Qed.
Lemma sat_gdp a n t c : sat fair (getDataPointer a n t c).
Proof. unfold getDataPointer, incReadCount. fair_tac. Qed.
#[export] Hint Resolve sat_create sat_alias sat_readonly sat_gdp : fair.
Lemma sat_readN n a : sat fair (readN n a).
Proof. unfold readN, load_ptr. fair_tac. Qed.
Lemma sat_store p bs : sat fair (store_ptr p bs).
Proof. unfold store_ptr. fair_tac. Qed.
#[export] Hint Resolve sat_store sat_readN : fair.
Lemma sat_writeN n a v : sat fair (writeN n a v).
Proof. unfold writeN. fair_tac. Qed.
Lemma sat_load_bytes n : forall src a, sat fair (load_bytes n src a).
Proof. induction n as [|n IH]; intros [|b src] a; cbn [load_bytes]; unfold load8; fair_tac. Qed.
#[export] Hint Resolve sat_writeN sat_load_bytes : fair.

Lemma sat_load_words n : forall src a, sat fair (load_words n src a).
Proof.
  induction n as [n IH] using lt_wf_ind; intros src a.
  destruct n as [|[|[|[|[|m]]]]]; try apply sat_load_bytes. cbn [load_words].
  destruct src as [|b0 [|b1 [|b2 [|b3 t]]]]; try apply sat_ub. unfold load32. fair_tac. all: try (apply IH; lia).
Qed.
#[export] Hint Resolve sat_load_words : fair.

Lemma sat_free_last : sat fair freeLastRegion.
Proof. unfold freeLastRegion, freeRegion. fair_tac. Qed.
#[export] Hint Resolve sat_free_last : fair.
Lemma sat_flash src n : sat fair (MemorySim_CreateRegionsFromFlashImage src n).
Proof. unfold MemorySim_CreateRegionsFromFlashImage, MemorySim_LoadFromFlashImage. fair_tac. Qed.
Lemma sat_xml : sat fair MemorySim_GetMemoryMapXML.
Proof.
  unfold MemorySim_GetMemoryMapXML. sat_step; [apply fair_pre|fair_tac|]. cbv zeta. apply sat_realloc_throw.
  intro x. unfold set_xml. fair_tac.
Qed.
Lemma sat_count a : sat fair (MemorySim_GetFlashReadCount a).
Proof. unfold MemorySim_GetFlashReadCount. fair_tac. Qed.
Lemma sat_grow i n : sat fair (growWatchpointArrayIfNeeded i n).
Proof.
  unfold growWatchpointArrayIfNeeded. sat_step; [apply fair_pre|fair_tac|]. destruct (_ <? _); [|fair_tac].
  apply sat_realloc_throw. intro x. fair_tac.
Qed.
#[export] Hint Resolve sat_flash sat_xml sat_count sat_grow : fair.
Lemma sat_set a n t : sat fair (setWatchpoint a n t).
Proof. unfold setWatchpoint. fair_tac. Qed.
Lemma sat_clear a n t : sat fair (clearWatchpoint a n t).
Proof. unfold clearWatchpoint. fair_tac. Qed.
Lemma sat_hits : sat fair MemorySim_WasWatchpointEncountered.
Proof. intro w. now apply fair_same. Qed.
#[export] Hint Resolve sat_set sat_clear sat_hits : fair.

Lemma sat_op o : sat fair (op_run o).
Proof.
  destruct o; cbn [op_run]; unfold drop, MemorySim_LoadFromFlashImage, MemorySim_MapForRead, MemorySim_MapForWrite,
    MemorySim_SetHardwareWatchpoint, MemorySim_ClearHardwareWatchpoint; fair_tac.
Qed.

Lemma fair_api {A} (m : M world A) w w' : sat fair m -> api m w = Raised outOfMemoryException w' -> 0 < refusals w w'.
Proof.
  intros H E. unfold api in E. specialize (H (set_exn w noException [])).
  destruct (m _) as [a w1|w1|]; try discriminate. injection E as E <-. destruct H as [_ H].
  destruct (H E) as [X|X]; [discriminate|exact X].
Qed.

Lemma only_refused_raises o w w' : api (op_run o) w = Raised outOfMemoryException w' -> 0 < refusals w w'.
Proof. apply fair_api, sat_op. Qed.
