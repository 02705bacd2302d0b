(** Which code and message an exception of the loaders carries. *)
From Coq Require Import String ZArith List Bool Lia ZifyBool ZifyNat.
From Verif Require Import Base World Context MemSim Dump GdbLog Elf CmdLine BaseLemmas CmdSpec CmdThms.
Import ListNotations.
Open Scope Z_scope.
Open Scope m_scope.

(** Started without an exception pending, [m] ends normally without one, or raises one as [Q] says. *)
Definition ends {A} (Q : Z -> list Z -> Prop) (r : outcome world A) : Prop :=
  match r with Ret _ w' => w_code w' = 0 | Exc w' => Q (w_code w') (w_msg w') | Ub _ => True end.
Definition good (Q : Z -> list Z -> Prop) {A} (m : M world A) : Prop := forall w, w_code w = 0 -> ends Q (m w).
Definition goodL (Q : Z -> list Z -> Prop) {L A} (m : M (L * world) A) : Prop := forall s, w_code (snd s) = 0 ->
  match m s with Ret _ s' => w_code (snd s') = 0 | Exc s' => Q (w_code (snd s')) (w_msg (snd s')) | Ub _ => True end.
(** [m] raises nothing and leaves code and message alone. *)
Definition keeps {A} (m : M world A) : Prop := forall w,
  match m w with Ret _ w' => w_code w' = w_code w /\ w_msg w' = w_msg w | Exc _ => False | Ub _ => True end.
(** A handler, run with an exception as [P] says. *)
Definition handles (P Q : Z -> list Z -> Prop) {A} (h : M world A) : Prop := forall w,
  w_code w <> 0 -> P (w_code w) (w_msg w) -> ends Q (h w).

Section Rules.
Variable Q : Z -> list Z -> Prop.

Lemma keeps_good A (m : M world A) : keeps m -> good Q m.
Proof. intros H w Hw. specialize (H w). unfold ends. destruct (m w); auto; [|contradiction]. destruct H as [-> _]. exact Hw. Qed.
Lemma good_ret A (a : A) : good Q (ret a).
Proof. intros w Hw. exact Hw. Qed.
Lemma good_ub A u : good Q (fail_ub u : M world A).
Proof. intros w Hw. exact I. Qed.
Lemma good_bind A B (m : M world A) (f : A -> M world B) : good Q m -> (forall a, good Q (f a)) -> good Q (bind m f).
Proof. intros Hm Hf w Hw. specialize (Hm w Hw). unfold bind, ends in *. destruct (m w) as [a w1|w1|]; auto. exact (Hf a w1 Hm). Qed.
Lemma good_throw A e : 0 <= e -> (forall msg, Q e msg) -> good Q (throw e : M world A).
Proof. intros He H w Hw. unfold throw, ends. cbn [w_code set_exn w_msg]. rewrite Hw, Z.max_l by lia. apply H. Qed.
Lemma good_throw_msg A e msg : 0 <= e -> Q e (firstn 1023 msg) -> good Q (throw_msg e msg : M world A).
Proof. intros He H w Hw. unfold throw_msg, throw, ends. cbn [w_code set_exn w_msg]. rewrite Hw, Z.max_l by lia. exact H. Qed.
Lemma goodL_ret L A (a : A) : goodL Q (ret a : M (L * world) A).
Proof. intros s Hs. exact Hs. Qed.
Lemma goodL_ub L A u : goodL Q (fail_ub u : M (L * world) A).
Proof. intros s Hs. exact I. Qed.
Lemma goodL_bind L A B (m : M (L * world) A) (f : A -> M (L * world) B) : goodL Q m -> (forall a, goodL Q (f a)) -> goodL Q (bind m f).
Proof. intros Hm Hf s Hs. specialize (Hm s Hs). unfold bind. destruct (m s) as [a s1|s1|]; auto. exact (Hf a s1 Hm). Qed.
Lemma goodL_lift L A (m : M world A) : good Q m -> goodL Q (lift m : M (L * world) A).
Proof. intros H s Hs. specialize (H (snd s) Hs). unfold lift, ends in *. destruct (m (snd s)); exact H. Qed.
Lemma goodL_setl L (l : L) : goodL Q (setl l).
Proof. intros s Hs. exact Hs. Qed.
Lemma goodL_getl L : goodL Q (getl : M (L * world) L).
Proof. intros s Hs. exact Hs. Qed.
Lemma good_try P L (l0 : L) body handler : goodL P body -> (forall l, handles P Q (handler l)) -> good Q (try_ l0 body handler).
Proof.
  intros Hb Hh w Hw. specialize (Hb (l0, set_exn w noException []) eq_refl). unfold try_.
  destruct (body _) as [u [l w1]|[l w1]|]; [| |exact I]; cbn [snd] in Hb.
  - rewrite Hb. exact Hb.
  - destruct (w_code w1 =? 0) eqn:E; [cbn [ends]; lia|]. apply Hh; [lia|exact Hb].
Qed.
Lemma handles_again A (m : M world A) B : keeps m -> handles Q Q (m ;;; (rethrow : M world B)).
Proof.
  intros H w _ HQ. specialize (H w). unfold bind, ends. destruct (m w) as [a w1|w1|]; [|contradiction|exact I]. destruct H as [E1 E2].
  unfold rethrow, throw. cbn [w_code set_exn w_msg]. rewrite Z.max_id, E1, E2. exact HQ.
Qed.
Lemma handles_again3 A (m : M world A) B (n : M world B) C : keeps m -> keeps n -> handles Q Q (m ;;; n ;;; (rethrow : M world C)).
Proof.
  intros H K w Hw HQ. specialize (H w). unfold bind at 1. destruct (m w) as [a w1|w1|]; [|contradiction|exact I]. destruct H as [E1 E2].
  apply handles_again; [exact K|congruence|rewrite E1, E2; exact HQ].
Qed.
Lemma handles_msg P A msg : (forall c, Q c (firstn 1023 msg)) -> handles P Q (c <- getExceptionCode;; (throw_msg c msg : M world A)).
Proof. intros H w Hw _. unfold bind, getExceptionCode, throw_msg, throw, ends. cbn [w_code set_exn w_msg]. apply H. Qed.
End Rules.

Lemma good_weaken (P Q : Z -> list Z -> Prop) A (m : M world A) : (forall c t, P c t -> Q c t) -> good P m -> good Q m.
Proof. intros H Hm w Hw. specialize (Hm w Hw). unfold ends in *. destruct (m w); auto. Qed.

(** What raises nothing. *)
Lemma keeps_ret A (a : A) : keeps (ret a). Proof. intro w. cbn. auto. Qed.
Lemma keeps_bind A B (m : M world A) (f : A -> M world B) : keeps m -> (forall a, keeps (f a)) -> keeps (bind m f).
Proof.
  intros Hm Hf w. specialize (Hm w). unfold bind. destruct (m w) as [a w1|w1|]; auto. specialize (Hf a w1). destruct (f a w1); auto.
  destruct Hm as [E1 E2], Hf as [E3 E4]. split; congruence.
Qed.
Lemma keeps_free b : keeps (free b). Proof. intro w. unfold free. destruct (is_live _ _); cbn; auto. Qed.
Lemma keeps_free_opt b : keeps (free_opt b). Proof. destruct b; [apply keeps_free|apply keeps_ret]. Qed.
Lemma keeps_malloc n : keeps (malloc n). Proof. intro w. unfold malloc. destruct (e_malloc _ _ _); cbn; auto. Qed.
Lemma keeps_modw f : (forall w, w_code (f w) = w_code w /\ w_msg (f w) = w_msg w) -> keeps (modw f). Proof. intros H w. apply H. Qed.
Lemma keeps_getw : keeps getw. Proof. intro w. cbn. auto. Qed.
Lemma keeps_get_region i : keeps (get_region i). Proof. intro w. unfold get_region. destruct (nth_error _ _); cbn; auto. Qed.
Lemma keeps_upd_region i f : keeps (upd_region i f). Proof. apply keeps_modw. auto. Qed.
Lemma keeps_get_file h : keeps (get_file h). Proof. intro w. unfold get_file. destruct (lookup_file _ _); cbn; auto. Qed.
Lemma keeps_put_file h f : keeps (put_file h f). Proof. intro w. cbn. auto. Qed.
Lemma keeps_next_io : keeps next_io. Proof. intro w. cbn. auto. Qed.
Lemma keeps_fopen n : keeps (fopen n).
Proof. apply keeps_bind; [apply keeps_next_io|]. intros f w. cbv zeta. destruct f; destruct (e_fs (w_env w) n); cbn; auto. Qed.
Lemma keeps_fclose h : keeps (fclose h).
Proof. apply keeps_bind; [apply keeps_get_file|]. intros a w. cbn. auto. Qed.
Lemma keeps_fread h n : keeps (fread h n).
Proof. unfold fread. repeat (apply keeps_bind; [auto using keeps_next_io, keeps_get_file, keeps_put_file|intros]). apply keeps_ret. Qed.
Lemma keeps_fseek_end h : keeps (fseek_end h).
Proof. unfold fseek_end. repeat (apply keeps_bind; [auto using keeps_next_io, keeps_get_file|intros]). destruct a; try apply keeps_ret; (apply keeps_bind; [apply keeps_put_file|intros; apply keeps_ret]). Qed.
Lemma keeps_fseek_start h : keeps (fseek_start h).
Proof. unfold fseek_start. repeat (apply keeps_bind; [auto using keeps_next_io, keeps_get_file|intros]). destruct a; try apply keeps_ret; (apply keeps_bind; [apply keeps_put_file|intros; apply keeps_ret]). Qed.
Lemma keeps_ftell h : keeps (ftell h).
Proof. unfold ftell. repeat (apply keeps_bind; [auto using keeps_next_io, keeps_get_file|intros]). destruct a; apply keeps_ret. Qed.
Lemma keeps_fgets h n : keeps (fgets h n).
Proof.
  unfold fgets. repeat (apply keeps_bind; [auto using keeps_next_io, keeps_get_file|intros]). destruct a; try apply keeps_ret; cbv zeta;
    (destruct (take_line _ _); [apply keeps_ret|apply keeps_bind; [apply keeps_put_file|intros; apply keeps_ret]]).
Qed.
Lemma keeps_ctx_put o b : keeps (ctx_put o b). Proof. intro w. unfold ctx_put. destruct (_ && _); cbn; auto. Qed.
Lemma keeps_ctx_word o : keeps (ctx_word o). Proof. intro w. unfold ctx_word. destruct (_ && _); cbn; auto. Qed.
Lemma keeps_blob b o n : keeps (blob_get b o n). Proof. intro w. unfold blob_get. destruct (_ && _); cbn; auto. Qed.
Lemma keeps_store_ptr p b : keeps (store_ptr p b).
Proof. apply keeps_bind; [apply keeps_get_region|]. intros r w. destruct (_ && _); cbn; auto. Qed.
Lemma keeps_freeNew p : keeps (freeNewRegion p).
Proof. destruct p as [[b d]|]; [|apply keeps_ret]. apply keeps_bind; [apply keeps_free_opt|intros; apply keeps_free]. Qed.
Lemma keeps_addRegion r : keeps (addRegionToTail r). Proof. apply keeps_modw. auto. Qed.
Lemma keeps_freeRegions rs : keeps (freeRegions rs).
Proof. induction rs as [|r rs IH]; cbn [freeRegions]; [apply keeps_ret|]. unfold freeRegion. repeat (apply keeps_bind; [auto using keeps_free, keeps_free_opt, keeps_bind|intros]). exact IH. Qed.
#[export] Hint Resolve keeps_good good_ret good_ub goodL_ret goodL_ub goodL_setl goodL_getl keeps_free keeps_free_opt keeps_malloc keeps_getw keeps_get_region keeps_upd_region
  keeps_get_file keeps_put_file keeps_next_io keeps_fopen keeps_fclose keeps_fread keeps_fseek_end keeps_fseek_start keeps_ftell keeps_fgets keeps_ctx_put keeps_ctx_word keeps_blob
  keeps_store_ptr keeps_freeNew keeps_addRegion keeps_ret : msg.
Ltac gstep := match goal with
  | |- good _ (bind _ _) => apply good_bind; [|intros]
  | |- goodL _ (bind _ _) => apply goodL_bind; [|intros]
  | |- goodL _ (lift _) => apply goodL_lift
  | |- good _ (match ?x with _ => _ end) => destruct x
  | |- goodL _ (match ?x with _ => _ end) => destruct x
  | |- good _ (let _ := _ in _) => cbv zeta
  | |- goodL _ (let _ := _ in _) => cbv zeta
  end.
Ltac gtac := repeat first [solve [auto 3 with msg] | gstep].

(** ** The simulator *)
Section Memory.
Variable Q : Z -> list Z -> Prop.
Hypothesis HO : forall t, Q outOfMemoryException t.
Hypothesis HB : forall t, Q busErrorException t.

Lemma g_oom A : good Q (throw outOfMemoryException : M world A). Proof. apply good_throw; [discriminate|auto]. Qed.
Lemma g_bus A : good Q (throw busErrorException : M world A). Proof. apply good_throw; [discriminate|auto]. Qed.
Hint Resolve g_oom g_bus : msg.
Lemma g_zmalloc n : good Q (throwingZeroedMalloc n).
Proof. unfold throwingZeroedMalloc. gtac. Qed.
Hint Resolve g_zmalloc : msg.
Lemma g_create b s : good Q (MemorySim_CreateRegion b s).
Proof.
  unfold MemorySim_CreateRegion. gstep; [|apply good_ret]. apply good_try with Q; [gtac|]. intro l. apply handles_again. auto with msg.
Qed.
Lemma g_find a n : good Q (findMatchingRegion a n).
Proof. intros w Hw. unfold findMatchingRegion. destruct (find_from _ _ _ _); [exact Hw|]. exact (g_bus _ w Hw). Qed.
Hint Resolve g_find : msg.
Lemma g_inc i k : good Q (incReadCount i k).
Proof. unfold incReadCount. gtac. Qed.
Hint Resolve g_inc : msg.
Lemma scan_write l a e n h : snd (scan_wps l a e n WRITING h) = false.
Proof.
  revert h. induction l as [|x l IH]; intro h; [reflexivity|]. cbn [scan_wps]. destruct (Z.land WRITING (wp_type x) =? 0) eqn:E; [apply IH|].
  destruct (wp_type x =? WATCHPOINT_BREAKPOINT) eqn:E2.
  - apply Z.eqb_eq in E2. rewrite E2 in E. discriminate.
  - destruct (accessInRange x a e); [apply IH|]. destruct (a <? wp_start x); [reflexivity|apply IH].
Qed.
Lemma g_check r a n : good Q (checkForBreakWatchPoint r a n WRITING).
Proof.
  intros w Hw. unfold checkForBreakWatchPoint. pose proof (scan_write (r_wps r) a (W (a + n)) n (m_hits (w_mem w))) as S. destruct (scan_wps _ _ _ _ _ _) as [h b]. cbn [snd] in S. subst b. exact Hw.
Qed.
Hint Resolve g_check : msg.
Lemma g_pointer_w a n : good Q (getDataPointer a n WRITING true).
Proof. unfold getDataPointer. gtac. Qed.
Lemma g_pointer_l a n : good Q (getDataPointer a n LOADING false).
Proof. unfold getDataPointer. gtac. Qed.
Hint Resolve g_pointer_w g_pointer_l : msg.
Lemma g_write n a v : good Q (writeN n a v).
Proof. unfold writeN. gtac. Qed.
Lemma g_load8 a b : good Q (load8 a b). Proof. unfold load8. gtac. Qed.
Lemma g_load32 a b : good Q (load32 a b). Proof. unfold load32. gtac. Qed.
Hint Resolve g_load8 g_load32 : msg.
Lemma g_bytes n : forall src a, good Q (load_bytes n src a).
Proof. induction n as [|n IH]; intros; cbn [load_bytes]; gtac; intros; apply IH. Qed.
Lemma g_words : forall k n, (n <= k)%nat -> forall src a, good Q (load_words n src a).
Proof.
  induction k as [|k IH]; intros n L src a; destruct n as [|[|[|[|[|n]]]]]; try apply g_bytes; [lia|]. cbn [load_words].
  destruct src as [|b0 [|b1 [|b2 [|b3 src]]]]; try apply good_ub. apply good_bind; [apply g_load32|]. intros _. apply (IH (S n)). lia.
Qed.
Lemma g_flash b src n : good Q (MemorySim_LoadFromFlashImage b src n).
Proof. unfold MemorySim_LoadFromFlashImage. eapply g_words. reflexivity. Qed.
Lemma g_readonly b : good Q (MemorySim_MakeRegionReadOnly b).
Proof. unfold MemorySim_MakeRegionReadOnly, allocateReadCountArrayForReadOnlyRegion. gtac. Qed.
Lemma g_alias a r s : good Q (MemorySim_CreateAlias a r s).
Proof.
  unfold MemorySim_CreateAlias. gstep; [|apply good_ret]. apply good_try with Q; [gtac|]. intro l. apply handles_again. auto with msg.
Qed.
End Memory.

(** ** Messages that are not empty *)
Definition any (c : Z) (t : list Z) : Prop := True.
Definition told (c : Z) (t : list Z) : Prop := t <> [].
Lemma told_app c a t : a <> [] -> told c (firstn 1023 (a ++ t)).
Proof. destruct a; [congruence|]. discriminate. Qed.


(** ** The loaders *)
Section Loaders.
Variable Q : Z -> list Z -> Prop.
Hypothesis HT : forall c t, t <> [] -> Q c t.

Lemma g_msg A e a t : 0 <= e -> a <> [] -> good Q (throw_msg e (a ++ t) : M world A).
Proof. intros He Ha. apply good_throw_msg; [exact He|]. apply HT. now apply (told_app 0). Qed.
Lemma g_msg1 A e a : 0 <= e -> a <> [] -> good Q (throw_msg e a : M world A).
Proof. intros He Ha. apply good_throw_msg; [exact He|]. apply HT. destruct a; [congruence|discriminate]. Qed.
Hint Extern 1 (good _ (throw_msg _ _)) => (apply g_msg; discriminate) : msg.
Hint Extern 1 (good _ (throw_msg _ _)) => (apply g_msg1; discriminate) : msg.
Lemma h_msg P A a t : a <> [] -> handles P Q (c <- getExceptionCode;; (throw_msg c (a ++ t) : M world A)).
Proof. intros Ha. apply handles_msg. intro c. apply HT. now apply (told_app 0). Qed.
Lemma h_msg1 P A a : a <> [] -> handles P Q (c <- getExceptionCode;; (throw_msg c a : M world A)).
Proof. intros Ha. apply handles_msg. intro c. apply HT. destruct a; [congruence|discriminate]. Qed.
Lemma any_o t : any outOfMemoryException t. Proof. exact I. Qed.
Lemma any_b t : any busErrorException t. Proof. exact I. Qed.

Lemma g_alias_option b s r : good Q (createAliasOption b s r).
Proof. unfold createAliasOption, try0. cbv zeta. apply good_try with any; [apply goodL_lift, g_alias; auto using any_o, any_b|]. intros _. apply h_msg. discriminate. Qed.
Lemma g_aliases os : good Q (make_aliases os).
Proof. induction os as [|[f|f a|f|b s r] os IH]; cbn [make_aliases]; auto with msg. apply good_bind; [apply g_alias_option|auto]. Qed.

Lemma g_size h : good any (GetFileSize h).
Proof.
  assert (T : forall A, good any (throw fileException : M world A)) by (intro; apply good_throw; [discriminate|exact (fun _ => I)]).
  unfold GetFileSize. gtac.
Qed.
Lemma g_try_msg body a t : a <> [] -> good any body -> good Q (try_msg body (a ++ t)).
Proof. intros Ha Hb. unfold try_msg. apply good_try with any; [gtac; now apply goodL_lift|]. intros _. now apply h_msg. Qed.
Lemma g_try_msg1 body a : a <> [] -> good any body -> good Q (try_msg body a).
Proof. intros Ha Hb. unfold try_msg. apply good_try with any; [gtac; now apply goodL_lift|]. intros _. now apply h_msg1. Qed.
Lemma keeps_match p : keeps (match p with Some h => fclose h | None => ret tt end).
Proof. destruct p; auto with msg. Qed.
Hint Resolve keeps_match : msg.
Lemma g_data name : good Q (loadFileData name).
Proof.
  unfold loadFileData. gstep.
  - apply good_try with Q; [|intro l; apply handles_again3; auto with msg].
    repeat first [solve [auto 3 with msg] | gstep]. apply g_try_msg; [discriminate|apply g_size].
  - gtac.
Qed.
Lemma g_bin base data : good Q (loadBinFile base data).
Proof.
  unfold loadBinFile, try0. apply good_try with any; [apply goodL_lift|intros _; apply h_msg; discriminate].
  apply good_bind; [apply g_create; auto using any_o, any_b|]. intros _. apply good_bind; [apply g_flash; auto using any_o, any_b|]. intros _. apply g_readonly; auto using any_o, any_b.
Qed.
Lemma g_fetch b o n : good any (fetchSizedByteArray b o n).
Proof. unfold fetchSizedByteArray. destruct (_ || _); [apply good_throw; [discriminate|exact (fun _ => I)]|apply good_ret]. Qed.

Section Elf.
Hypothesis HO : forall t, Q outOfMemoryException t.
Hypothesis HB : forall t, Q busErrorException t.
Lemma g_entry b ph : good Q (loadIfFlashLoadableEntry b ph).
Proof.
  unfold loadIfFlashLoadableEntry. repeat first [solve [auto 3 with msg] | gstep].
  - apply g_try_msg; [discriminate|apply g_fetch].
  - now apply g_create.
  - now apply g_flash.
  - now apply g_readonly.
Qed.
Lemma g_entries n : forall b e i off c, good Q (loadFlashLoadableEntries n b e i off c).
Proof.
  induction n as [|n IH]; intros; cbn [loadFlashLoadableEntries]; [apply good_ret|]. repeat gstep; [apply g_try_msg; [discriminate|apply g_fetch]|apply g_entry|apply IH].
Qed.
Lemma g_elf b : good Q (ElfLoad_FromMemory b).
Proof.
  unfold ElfLoad_FromMemory, validateElfHeaderContents, initLoadObject. repeat first [solve [auto 3 with msg] | apply g_entries | gstep].
  apply g_try_msg1; [discriminate|apply g_fetch].
Qed.

Lemma g_log name : good Q (GdbLogParse name).
Proof.
  assert (C : forall b s, good Q (MemorySim_CreateRegion b s)) by (intros; now apply g_create).
  assert (WV : forall vs a, good Q (writeValues a vs)).
  { induction vs as [|v vs IH]; intro a; cbn [writeValues]; [apply good_ret|]. apply good_bind; [now apply g_write|]. intros _. apply IH. }
  assert (LL : forall fuel h handler o, (forall o p, good Q (handler o p)) -> good Q (lineLoop fuel h handler o)).
  { induction fuel as [|fuel IH]; intros; cbn [lineLoop]; gtac. }
  assert (PL : forall h handler, (forall o p, good Q (handler o p)) -> good Q (parseLines h handler)).
  { intros. unfold parseLines. gtac. }
  unfold GdbLogParse. gstep; [|apply good_ret]. apply good_try with Q; [|intro l; apply handles_again; auto with msg].
  unfold openLog, initPSPandMSP, rewindLogFile. repeat first [solve [auto 3 with msg] | apply PL; intros | gstep].
  - unfold firstPassHandler, firstPassMemoryHandler, firstPassRegisterHandler. gtac.
  - unfold secondPassHandler. gtac.
Qed.
End Elf.

Section Catcher.
Variable k : kind.
Hypothesis HF : k = Hex -> forall t, Q fileFormatException t.
Lemma keeps_skip n : forall h, keeps (skipNewLines n h).
Proof.
  induction n as [|n IH]; intro h; cbn [skipNewLines]; [intro; exact I|]. apply keeps_bind; [apply keeps_fread|]. intros [|c bs]; [apply keeps_ret|]. destruct (_ || _); [apply IH|apply keeps_ret].
Qed.
Lemma keeps_next h : keeps (readNextCharacterSkippingNewLines h).
Proof. apply keeps_bind; [apply keeps_get_file|]. intro f. apply keeps_skip. Qed.
Lemma keeps_store d i b : keeps (store_dest d i b).
Proof. destruct d; [apply keeps_ret|apply keeps_ctx_put]. Qed.
Hint Resolve keeps_next keeps_store : msg.
Lemma g_read h d n : good Q (doRead k h d n).
Proof.
  unfold doRead. destruct k.
  - unfold binaryRead. gtac.
  - unfold hexRead. generalize (@nil Z). induction n as [|n IH]; intro acc; cbn [hexRead_loop]; [apply good_ret|].
    assert (T : good Q (throw fileFormatException : M world (list Z))) by (apply good_throw; [discriminate|auto]). gtac.
Qed.
End Catcher.
End Loaders.

Lemma g_region k h a e : good any (createAndLoadMemoryRegion k h a e).
Proof.
  assert (R : forall h d n, good any (doRead k h d n)) by (intros; apply (g_read any); exact (fun _ _ => I)).
  assert (T : good any (throw fileFormatException : M world unit)) by (apply good_throw; [discriminate|exact (fun _ => I)]).
  assert (L : forall f h a c, good any (loadRegionBytes f k h a c)).
  { induction f as [|f IH]; intros; cbn [loadRegionBytes]; [apply good_ub|]. destruct (_ <=? _); [apply good_ret|]. apply good_bind; [apply R|]. intros [|b [|? ?]]; try exact T.
    apply good_bind; [apply g_write; exact (fun _ => I)|]. intros _. apply IH. }
  unfold createAndLoadMemoryRegion. cbv zeta. apply good_bind; [apply g_create; exact (fun _ => I)|]. intros _. apply good_bind; [auto with msg|]. intro f. apply L.
Qed.

Section Whole.
Variable Q : Z -> list Z -> Prop.
Hypothesis HT : forall c t, t <> [] -> Q c t.
Hint Extern 1 (good _ (throw_msg _ _)) => (apply (g_msg Q HT); discriminate) : msg.
Hint Extern 1 (good _ (throw_msg _ _)) => (apply (g_msg1 Q HT); discriminate) : msg.

Lemma g_catcher k name : (k = Hex -> forall t, Q fileFormatException t) -> good Q (CrashCatcherDump_Read k name).
Proof.
  intro HF. pose proof (g_read Q k HF) as R.
  assert (N : forall h, good Q (readNextMemoryRegion k h)).
  { intro h. unfold readNextMemoryRegion. repeat first [solve [auto 3 with msg] | gstep].
    unfold try0. apply good_try with any; [apply goodL_lift, g_region|]. intros _. apply (h_msg Q HT). discriminate. }
  assert (L : forall f h, good Q (regionLoop f k h)).
  { induction f as [|f IH]; intro h; cbn [regionLoop]; [apply good_ub|]. apply good_bind; [apply N|]. intros [|]; [apply good_ret|apply IH]. }
  unfold CrashCatcherDump_Read. gstep; [|apply good_ret]. apply good_try with Q.
  - unfold openDump, readDump, validateDumpSignature, readFlags, readIntegerRegisters, readFloatingPointRegisters, readMemoryRegions, destructObject. repeat first [solve [auto 3 with msg] | gstep].
  - intro l. apply handles_again. unfold destructObject. destruct l; auto with msg.
Qed.

Lemma g_image c : (cl_elf c <> None -> forall t, Q outOfMemoryException t /\ Q busErrorException t) -> good Q (loadImageFile c).
Proof.
  intro HE. unfold loadImageFile. gstep; [|apply good_ret]. apply good_try with Q; [|intro l; apply handles_again; auto with msg].
  gstep; [|gtac]. destruct (cl_elf c) as [f|].
  - gstep; [apply goodL_lift, (g_data Q HT)|]. gstep; [auto with msg|]. apply goodL_lift. apply (g_elf Q HT); intro t; apply HE; discriminate.
  - destruct (cl_bin c) as [f|]; [|apply goodL_ub]. gstep; [apply goodL_lift, (g_data Q HT)|]. gstep; [auto with msg|]. apply goodL_lift. apply (g_bin Q HT).
Qed.
Lemma g_type name : good Q (getFileType name).
Proof. unfold getFileType. repeat first [solve [auto 3 with msg] | gstep]. Qed.
End Whole.
