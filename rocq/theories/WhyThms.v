(** What the error line of a failing start-up says. *)
From Coq Require Import String ZArith List Bool Lia ZifyBool ZifyNat.
From Verif Require Import Base World Context MemSim Dump GdbLog Elf CmdLine BaseLemmas TextLemmas MemSpec Sat MemLemmas MemInv MemOps MemOps3 DumpSpec DumpRef DumpConv DumpLemmas DumpThms DumpSafe ElfSpec ElfThms ElfClean LogSpec LogRef LogThms LogMem PropLog CmdSpec StartSpec NumSpec MsgSpec WhySpec Closed CmdThms CmdSafe CmdFull CmdMain MsgThms DumpMsg ElfMsg PropNum PropStart.
Import ListNotations.
Open Scope Z_scope.
Open Scope m_scope.

(** ** Errors without a message of their own *)

(** Neither an exception nor a message is pending. *)
Definition calm (w : world) : Prop := w_code w = 0 /\ w_msg w = [].
(** Started calmly, [m] ends normally and calmly, or raises an exception as [Q] says. *)
Definition still (Q : Z -> list Z -> Prop) {A} (m : M world A) : Prop := forall w, calm w ->
  match m w with Ret _ w' => calm w' | Exc w' => Q (w_code w') (w_msg w') | Ub _ => True end.
Definition stillL (Q : Z -> list Z -> Prop) {L A} (m : M (L * world) A) : Prop := forall s, calm (snd s) ->
  match m s with Ret _ s' => calm (snd s') | Exc s' => Q (w_code (snd s')) (w_msg (snd s')) | Ub _ => True end.
Definition answers (P Q : Z -> list Z -> Prop) {A} (h : M world A) : Prop := forall w,
  w_code w <> 0 -> P (w_code w) (w_msg w) -> match h w with Ret _ w' => calm w' | Exc w' => Q (w_code w') (w_msg w') | Ub _ => True end.

Section Rules.
Variable Q : Z -> list Z -> Prop.

Lemma keeps_still A (m : M world A) : keeps m -> still Q m.
Proof. intros H w [C1 C2]. specialize (H w). destruct (m w); auto; [|contradiction]. destruct H as [H1 H2]. split; congruence. Qed.
Lemma still_ret A (a : A) : still Q (ret a).
Proof. intros w Hw. exact Hw. Qed.
Lemma still_ub A u : still Q (fail_ub u : M world A).
Proof. intros w Hw. exact I. Qed.
Lemma still_bind A B (m : M world A) (f : A -> M world B) : still Q m -> (forall a, still Q (f a)) -> still Q (bind m f).
Proof. intros Hm Hf w Hw. specialize (Hm w Hw). unfold bind. destruct (m w) as [a w1|w1|]; auto. exact (Hf a w1 Hm). Qed.
Lemma still_throw A e : 0 <= e -> Q e [] -> still Q (throw e : M world A).
Proof. intros He H w [C1 C2]. unfold throw. cbn [w_code set_exn w_msg]. rewrite C1, C2, Z.max_l by lia. exact H. Qed.
Lemma still_throw_msg A e msg : 0 <= e -> Q e (firstn 1023 msg) -> still Q (throw_msg e msg : M world A).
Proof. intros He H w [C1 C2]. unfold throw_msg, throw. cbn [w_code set_exn w_msg]. rewrite C1, Z.max_l by lia. exact H. Qed.
Lemma stillL_ret L A (a : A) : stillL Q (ret a : M (L * world) A).
Proof. intros s Hs. exact Hs. Qed.
Lemma stillL_bind L A B (m : M (L * world) A) (f : A -> M (L * world) B) : stillL Q m -> (forall a, stillL Q (f a)) -> stillL Q (bind m f).
Proof. intros Hm Hf s Hs. specialize (Hm s Hs). unfold bind. destruct (m s) as [a s1|s1|]; auto. exact (Hf a s1 Hm). Qed.
Lemma stillL_lift L A (m : M world A) : still Q m -> stillL Q (lift m : M (L * world) A).
Proof. intros H s Hs. specialize (H (snd s) Hs). unfold lift. destruct (m (snd s)); exact H. Qed.
Lemma stillL_setl L (l : L) : stillL Q (setl l).
Proof. intros s Hs. exact Hs. Qed.
Lemma stillL_getl L : stillL Q (getl : M (L * world) L).
Proof. intros s Hs. exact Hs. Qed.
Lemma still_try P L (l0 : L) body handler : (forall t, ~ P 0 t) -> stillL P body -> (forall l, answers P Q (handler l)) -> still Q (try_ l0 body handler).
Proof.
  intros HP Hb Hh w Hw. specialize (Hb (l0, set_exn w noException []) (conj eq_refl eq_refl)). unfold try_.
  destruct (body _) as [u [l w1]|[l w1]|]; [| |exact I]; cbn [snd] in Hb.
  - rewrite (proj1 Hb). exact Hb.
  - destruct (w_code w1 =? 0) eqn:E; [exfalso; apply Z.eqb_eq in E; rewrite E in Hb; exact (HP _ Hb)|]. apply Hh; [lia|exact Hb].
Qed.
Lemma answers_again A (m : M world A) B : keeps m -> answers Q Q (m ;;; (rethrow : M world B)).
Proof.
  intros H w _ HQ. specialize (H w). unfold bind. destruct (m w) as [a w1|w1|]; [|contradiction|exact I]. destruct H as [E1 E2].
  unfold rethrow, throw. cbn [w_code set_exn w_msg]. rewrite Z.max_id, E1, E2. exact HQ.
Qed.
Lemma answers_msg (P : Z -> list Z -> Prop) A msg : (forall c t, P c t -> Q c (firstn 1023 msg)) -> answers P Q (c <- getExceptionCode;; (throw_msg c msg : M world A)).
Proof. intros H w Hw HP. unfold bind, getExceptionCode, throw_msg, throw. cbn [w_code set_exn w_msg]. rewrite Z.max_id. exact (H _ _ HP). Qed.
End Rules.

#[export] Hint Resolve keeps_still still_ret still_ub stillL_ret stillL_setl stillL_getl : msg.
Ltac sstep := match goal with
  | |- still _ (bind _ _) => apply still_bind; [|intros]
  | |- stillL _ (bind _ _) => apply stillL_bind; [|intros]
  | |- stillL _ (lift _) => apply stillL_lift
  | |- still _ (match ?x with _ => _ end) => destruct x
  | |- stillL _ (match ?x with _ => _ end) => destruct x
  | |- still _ (let _ := _ in _) => cbv zeta
  | |- stillL _ (let _ := _ in _) => cbv zeta
  end.
Ltac stac := repeat first [solve [auto 3 with msg] | sstep].

Section Memory.
Variable Q : Z -> list Z -> Prop.
Hypothesis HO : Q outOfMemoryException [].
Hypothesis HB : Q busErrorException [].
Hypothesis H0 : forall t, ~ Q 0 t.

Lemma s_oom A : still Q (throw outOfMemoryException : M world A). Proof. apply still_throw; [discriminate|auto]. Qed.
Lemma s_bus A : still Q (throw busErrorException : M world A). Proof. apply still_throw; [discriminate|auto]. Qed.
Hint Resolve s_oom s_bus : msg.
Lemma s_zmalloc n : still Q (throwingZeroedMalloc n).
Proof. unfold throwingZeroedMalloc. stac. Qed.
Hint Resolve s_zmalloc : msg.
Lemma s_create b s : still Q (MemorySim_CreateRegion b s).
Proof.
  unfold MemorySim_CreateRegion. sstep; [|apply still_ret]. apply still_try with Q; [exact H0|stac|]. intro l. apply answers_again. auto with msg.
Qed.
Lemma s_find a n : still Q (findMatchingRegion a n).
Proof. intros w Hw. unfold findMatchingRegion. destruct (find_from _ _ _ _); [exact Hw|]. exact (s_bus (nat * Z) w Hw). Qed.
Hint Resolve s_find : msg.
Lemma s_inc i k : still Q (incReadCount i k).
Proof. unfold incReadCount. stac. Qed.
Hint Resolve s_inc : msg.
Lemma s_check r a n : still Q (checkForBreakWatchPoint r a n WRITING).
Proof.
  intros w Hw. unfold checkForBreakWatchPoint. pose proof (scan_write (r_wps r) a (W (a + n)) n (m_hits (w_mem w))) as S. destruct (scan_wps _ _ _ _ _ _) as [h b]. cbn [snd] in S. subst b. exact Hw.
Qed.
Hint Resolve s_check : msg.
Lemma s_pointer_w a n : still Q (getDataPointer a n WRITING true).
Proof. unfold getDataPointer. stac. Qed.
Lemma s_pointer_l a n : still Q (getDataPointer a n LOADING false).
Proof. unfold getDataPointer. stac. Qed.
Hint Resolve s_pointer_w s_pointer_l : msg.
Lemma s_write n a v : still Q (writeN n a v).
Proof. unfold writeN. stac. Qed.
Lemma s_load8 a b : still Q (load8 a b). Proof. unfold load8. stac. Qed.
Lemma s_load32 a b : still Q (load32 a b). Proof. unfold load32. stac. Qed.
Hint Resolve s_load8 s_load32 : msg.
Lemma s_bytes n : forall src a, still Q (load_bytes n src a).
Proof. induction n as [|n IH]; intros; cbn [load_bytes]; stac; intros; apply IH. Qed.
Lemma s_words : forall k n, (n <= k)%nat -> forall src a, still Q (load_words n src a).
Proof.
  induction k as [|k IH]; intros n L src a; destruct n as [|[|[|[|[|n]]]]]; try apply s_bytes; [lia|]. cbn [load_words].
  destruct src as [|b0 [|b1 [|b2 [|b3 src]]]]; try apply still_ub. apply still_bind; [apply s_load32|]. intros _. apply (IH (S n)). lia.
Qed.
Lemma s_flash b src n : still Q (MemorySim_LoadFromFlashImage b src n).
Proof. unfold MemorySim_LoadFromFlashImage. eapply s_words. reflexivity. Qed.
Lemma s_readonly b : still Q (MemorySim_MakeRegionReadOnly b).
Proof. unfold MemorySim_MakeRegionReadOnly, allocateReadCountArrayForReadOnlyRegion. stac. Qed.
Lemma s_alias a r s : still Q (MemorySim_CreateAlias a r s).
Proof.
  unfold MemorySim_CreateAlias. sstep; [|apply still_ret]. apply still_try with Q; [exact H0|stac|]. intro l. apply answers_again. auto with msg.
Qed.
End Memory.

(** Errors of the memory simulator. *)
Definition of_memory (c : Z) (t : list Z) : Prop := (c = outOfMemoryException \/ c = busErrorException) /\ t = [].
Lemma mem_o : of_memory outOfMemoryException []. Proof. split; auto. Qed.
Lemma mem_b : of_memory busErrorException []. Proof. split; auto. Qed.
Lemma mem_0 t : ~ of_memory 0 t. Proof. intros [[H|H] _]; discriminate H. Qed.

(** ** Executables: a rejected file has a message, memory has none *)
Definition of_elf (c : Z) (t : list Z) : Prop := (c = elfFormatException /\ firstn 1023 t = t) \/ of_memory c t.
Lemma firstn_twice {A} n (l : list A) : firstn n (firstn n l) = firstn n l.
Proof. now rewrite firstn_firstn, Nat.min_id. Qed.
Lemma elf_0 t : ~ of_elf 0 t. Proof. intros [[H _]|H]; [discriminate H|exact (mem_0 _ H)]. Qed.
Lemma elf_msg A m : still of_elf (throw_msg elfFormatException m : M world A).
Proof. apply still_throw_msg; [discriminate|left; split; [reflexivity|apply firstn_twice]]. Qed.
Lemma s_fetch b o n m : still of_elf (try_msg (fetchSizedByteArray b o n) m).
Proof.
  unfold try_msg. apply still_try with (fun c t => c = elfFormatException); [intros t H; discriminate H| |].
  - sstep; [apply stillL_lift|apply stillL_setl]. unfold fetchSizedByteArray. destruct (_ || _); [apply still_throw; [discriminate|reflexivity]|apply still_ret].
  - intros l. apply answers_msg. intros c t ->. left. split; [reflexivity|apply firstn_twice].
Qed.
Lemma s_elf b : still of_elf (ElfLoad_FromMemory b).
Proof.
  assert (MO : of_elf outOfMemoryException []) by (right; exact mem_o). assert (MB : of_elf busErrorException []) by (right; exact mem_b).
  assert (C : forall b s, still of_elf (MemorySim_CreateRegion b s)) by (intros; apply s_create; auto using elf_0).
  assert (F : forall b s n, still of_elf (MemorySim_LoadFromFlashImage b s n)) by (intros; apply s_flash; auto using elf_0).
  assert (RO : forall b, still of_elf (MemorySim_MakeRegionReadOnly b)) by (intros; apply s_readonly; auto using elf_0).
  assert (E1 : forall ph, still of_elf (loadIfFlashLoadableEntry b ph)).
  { intro ph. unfold loadIfFlashLoadableEntry. repeat first [solve [auto 3 using s_fetch with msg] | sstep]. }
  assert (EN : forall n e i off c, still of_elf (loadFlashLoadableEntries n b e i off c)).
  { induction n as [|n IH]; intros; cbn [loadFlashLoadableEntries]; [apply still_ret|]. repeat sstep; [apply s_fetch|apply E1|apply IH]. }
  unfold ElfLoad_FromMemory, validateElfHeaderContents, initLoadObject. repeat first [solve [auto 3 using s_fetch, elf_msg with msg] | apply EN | sstep].
Qed.

(** ** Logs *)
Definition of_log (name : list Z) (c : Z) (t : list Z) : Prop :=
  (c = fileException /\ (t = firstn 1023 (s2b "Failed to open """ ++ name ++ s2b """ GDB log.") \/ t = s2b "Failed to rewind GDB log for second pass.")) \/ of_memory c t.
Lemma s_log name : still (of_log name) (GdbLogParse name).
Proof.
  assert (MO : of_log name outOfMemoryException []) by (right; exact mem_o). assert (MB : of_log name busErrorException []) by (right; exact mem_b).
  assert (M0 : forall t, ~ of_log name 0 t) by (intros t [[H _]|H]; [discriminate H|exact (mem_0 _ H)]).
  assert (C : forall b s, still (of_log name) (MemorySim_CreateRegion b s)) by (intros; apply s_create; auto using elf_0).
  assert (WN : forall n a v, still (of_log name) (writeN n a v)) by (intros; apply s_write; auto using elf_0).
  assert (WV : forall vs a, still (of_log name) (writeValues a vs)).
  { induction vs as [|v vs IH]; intro a; cbn [writeValues]; [apply still_ret|]. apply still_bind; [apply WN|]. intros _. apply IH. }
  assert (LL : forall fuel h handler o, (forall o p, still (of_log name) (handler o p)) -> still (of_log name) (lineLoop fuel h handler o)).
  { induction fuel as [|fuel IH]; intros; cbn [lineLoop]; stac. }
  assert (PL : forall h handler, (forall o p, still (of_log name) (handler o p)) -> still (of_log name) (parseLines h handler)).
  { intros. unfold parseLines. stac. }
  assert (T1 : forall A, still (of_log name) (throw_msg fileException (s2b "Failed to open """ ++ name ++ s2b """ GDB log.") : M world A)) by (intro; apply still_throw_msg; [discriminate|left; auto]).
  assert (T2 : forall A, still (of_log name) (throw_msg fileException (s2b "Failed to rewind GDB log for second pass.") : M world A)) by (intro; apply still_throw_msg; [discriminate|left; split; [reflexivity|right; reflexivity]]).
  unfold GdbLogParse. sstep; [|apply still_ret]. apply still_try with (of_log name); [exact M0| |intro l; apply answers_again; destruct l; auto with msg].
  unfold openLog, initPSPandMSP, rewindLogFile. repeat first [solve [auto 3 with msg] | apply PL; intros | sstep].
  - unfold firstPassHandler, firstPassMemoryHandler, firstPassRegisterHandler. stac.
  - unfold secondPassHandler. stac.
Qed.

Lemma calm_eq w : calm w -> set_exn w noException [] = w.
Proof. intros [C1 C2]. destruct w. cbn in *. subst. reflexivity. Qed.

(** ** The image *)

Definition alloc_message (f : list Z) (n : Z) : list Z := s2b "Failed to allocate " ++ fmtu n ++ s2b " bytes for reading """ ++ f ++ s2b """.".
Lemma no_fault w : no_io_faults w -> ~ some_fault w.
Proof. intros N (k & H). apply H, N. Qed.
Lemma data_refused name data w : file_is w name data -> no_io_faults w ->
  match loadFileData name w with Exc w' => w_msg w' = firstn 1023 (alloc_message name (zlen data)) | _ => True end.
Proof.
  intros HF0 NF. unfold loadFileData, bind at 1, try_. set (w0 := set_exn w noException []).
  unfold bind at 1, lift at 1. cbn [fst snd].
  destruct (open_run name w0) as [(data' & f0 & HF & -> & O0 & P0)|(HN & f0 & -> & O0 & P0)].
  2:{ exfalso. destruct HN as [HN|HN]; [change (e_fs (w_env w) name = None) in HN; unfold file_is in HF0; congruence|]. cbn [w_env set_exn w0] in HN. rewrite NF in HN. discriminate HN. }
  assert (data' = data) as -> by (change (file_is w name data') in HF; unfold file_is in *; congruence).
  unfold bind at 1, setl at 1. cbn [fst snd]. unfold bind at 1, lift at 1. cbn [fst snd]. set (h := fs_next (w_files w0)) in *.
  unfold try_msg at 1, bind at 1, try_ at 1, bind at 1, lift at 1. cbn [fst snd].
  change (set_exn (set_files w0 f0) noException []) with (set_files w0 f0).
  pose proof (size_run h data 0 (fs_open (w_files w)) (set_files w0 f0)) as PS. unfold opened in PS. cbn [w_files set_files] in PS. specialize (PS O0).
  destruct (GetFileSize h (set_files w0 f0)) as [n w1|w1|]; [| |destruct PS].
  2:{ destruct (no_fault w NF (proj1 PS)). }
  destruct PS as (-> & f1 & -> & O1 & P1). unfold setl at 1. cbn [fst snd]. change (w_code (set_files (set_files w0 f0) f1)) with 0. cbn [Z.eqb]. unfold ret at 1. rewrite files_files.
  unfold bind at 1, lift at 1. cbn [fst snd]. unfold malloc. cbn [w_env w_heap set_files].
  destruct (e_malloc (w_env w0) (h_calls (w_heap w0)) (zlen data)) eqn:EM.
  2:{ unfold lift at 1. cbn [fst snd]. rewrite throw_msg_eq. cbn [fst snd w_code set_exn]. match goal with |- context[w_code (set_heap ?a ?b)] => change (w_code (set_heap a b)) with 0 end.
      change (Z.max outOfMemoryException 0 =? 0) with false. cbv iota. cbn [l_buf l_file free_opt]. unfold bind at 1, ret at 1. unfold bind at 1.
      match goal with |- context[fclose h ?v] => destruct (close_run h (mkFile data 0) (fs_open (w_files w)) v) as (f2 & -> & O2 & P2); [exact O1|] end.
      rewrite rethrow_eq. reflexivity. }
  unfold bind at 1, setl at 1. cbn [fst snd]. unfold bind at 1, lift at 1. cbn [fst snd].
  match goal with |- context[fread h ?n ?v] => destruct (read_run h data (fs_open (w_files w)) v O1) as (bs & f2 & -> & (p & O2) & P2 & HB) end.
  cbn [fst snd]. set (wb := set_files (set_heap (set_files w0 f1) _) f2).
  destruct HB as [->|[HB SF]]; [|destruct (no_fault w NF SF)].
  rewrite Z.eqb_refl. cbn [negb]. unfold bind at 1, setl at 1. cbn [fst snd]. unfold lift at 1. cbn [fst snd].
  destruct (close_run h (mkFile data p) (fs_open (w_files w)) wb O2) as (f3 & -> & O3 & P3). cbn [fst snd].
  change (w_code (set_files wb f3)) with 0. cbn [Z.eqb l_buf l_data]. exact I.
Qed.

(** Reading a file starts without a message and ends so. *)
Lemma data_calm name w b data w' : loadFileData name w = Ret (b, data) w' -> calm w'.
Proof.
  intro E. rewrite <- data_clear in E.
  assert (S : still (fun c _ => c <> 0) (loadFileData name)).
  { assert (N : forall t : list Z, ~ (fun (c : Z) (_ : list Z) => c <> 0) 0 t) by (intros t H; now apply H).
    unfold loadFileData. apply still_bind.
    - apply still_try with (fun c _ => c <> 0); [exact N| |].
      + assert (T : forall A e m, 0 < e -> still (fun c _ => c <> 0) (throw_msg e m : M world A)) by (intros; apply still_throw_msg; lia).
        assert (T2 : forall A, still (fun c _ => c <> 0) (throw fileException : M world A)) by (intros; apply still_throw; [discriminate|intro H; discriminate H]).
        repeat first [solve [auto 3 with msg] | sstep | (apply T; reflexivity)].
        unfold try_msg. apply still_try with (fun c _ => c <> 0); [exact N| |intro l; apply answers_msg; auto].
        sstep; [apply stillL_lift|apply stillL_setl]. unfold GetFileSize. stac.
      + intros l w0 H0 _. unfold bind. pose proof (keeps_free_opt (l_buf l) w0) as K. destruct (free_opt (l_buf l) w0) as [u1 w1|w1|]; [|contradiction|exact I]. destruct K as [K _].
        pose proof (match l_file l as o return keeps (match o with Some h => fclose h | None => ret tt end) with Some h => keeps_fclose h | None => keeps_ret _ tt end w1) as K1.
        destruct (match l_file l with Some h => fclose h | None => ret tt end w1) as [u2 w2|w2|]; [|contradiction|exact I]. destruct K1 as [K1 _]. rewrite rethrow_eq. congruence.
    - intro l. destruct (l_buf l); auto with msg. }
  specialize (S (set_exn w noException []) (conj eq_refl eq_refl)). rewrite E in S. exact S.
Qed.

Lemma fmtu_shown n : 0 <= n < 9223372036854775808 -> shown (fmtu n) n.
Proof.
  intro H. split; [apply digits_text; [lia|apply dec_is|]; change (10 ^ (Z.of_nat 20 + 1)) with 1000000000000000000000; lia|].
  unfold fmtu. intro E. apply map_eq_nil in E. now apply digits_nonempty in E.
Qed.

Lemma room_or_not os R w : Inv R w -> regions w = [] -> no_io_faults w ->
  match loadImageFile (settings os) w with Exc w' => w_code w' = outOfMemoryException \/ w_code w' = busErrorException -> no_room w os (w_code w') | _ => True end.
Proof.
  intros HI HR NF. pose proof (fun ms => image_loads os ms R w HI HR) as P. destruct (loadImageFile (settings os) w) as [u w1|w1|]; auto.
  intros [E|E]; [now left|right]. split; [exact E|]. intros ms HP HF. destruct (P ms HP HF) as (_ & _ & X). destruct (X NF) as [X1 _]. rewrite E in X1. discriminate X1.
Qed.

Lemma image_said os f R w : Inv R w -> regions w = [] -> files_fine w os -> no_io_faults w -> uses_image os f ->
  match loadImageFile (settings os) w with
  | Ret _ w1 => calm w1 /\ image_ranges w os (ranges w1)
  | Exc w1 => exists m, w_msg w1 = firstn 1023 m /\ image_complaint w os (w_code w1) m
  | Ub _ => False
  end.
Proof.
  intros HI HR [FB FE] NF HU. pose proof (room_or_not os R w HI HR NF) as RM.
  assert (K : forall X, loadImageFile (settings os) = load_with X f ->
     (forall b data w1, file_is w f data -> Inv (b :: R) w1 -> regions w1 = [] -> calm w1 ->
       match X data w1 with
       | Ret _ w2 => Inv (b :: R) w2 /\ calm w2 /\ image_ranges w os (ranges w2)
       | Exc w2 => Inv (b :: R) w2 /\ elf_code (w_code w2) /\ ((w_code w2 = outOfMemoryException \/ w_code w2 = busErrorException -> no_room w os (w_code w2)) ->
                     exists m, w_msg w2 = firstn 1023 m /\ image_complaint w os (w_code w2) m)
       | Ub _ => False
       end) ->
     match loadImageFile (settings os) w with
     | Ret _ w1 => calm w1 /\ image_ranges w os (ranges w1)
     | Exc w1 => exists m, w_msg w1 = firstn 1023 m /\ image_complaint w os (w_code w1) m
     | Ub _ => False
     end).
  { intros X EX HX. rewrite EX in *. rewrite load_with_run in *. pose proof (data_safe f R w HI) as D. pose proof (data_calm f w) as DC. pose proof (data_refused f) as DR.
    destruct (loadFileData f w) as [[b data] w2|w2|] eqn:EL; [| |destruct D].
    - destruct D as (HF & I1 & (M1 & _) & _). assert (R1 : regions w2 = []) by (now rewrite M1). specialize (HX b data w2 HF I1 R1 (DC _ _ _ eq_refl)).
      destruct (X data w2) as [[] w3|w3|]; [| |destruct HX].
      + destruct HX as (I3 & C3 & G3). destruct (Inv_free _ _ _ I3) as (h' & E & _). rewrite E in *. change (w_code (set_heap w3 h')) with (w_code w3) in *. rewrite (proj1 C3) in *. cbn [Z.eqb] in *. auto.
      + destruct HX as (I3 & C3 & G3). apply elf_init, init_code_nonzero in C3. replace (w_code w3 =? 0) with false in * by lia. unfold bind in *. destruct (Inv_free _ _ _ I3) as (h' & E & _). rewrite E in *. rewrite rethrow_eq in *.
        exact (G3 RM).
    - destruct D as (_ & _ & _ & C). replace (w_code w2 =? 0) with false by (destruct C as [(-> & _)|(-> & _)]; reflexivity).
      destruct C as [(C & [CN|SF])|(C & _)]; [| |].
      + rewrite C. destruct (data_missing f w CN) as (f' & E & _). rewrite EL in E. apply (f_equal (fun o => match o with Exc x => w_msg x | _ => [] end)) in E. cbn [w_msg set_exn] in E.
        exists (s2b "Failed to open """ ++ f ++ s2b """."). split; [exact E|]. apply ic_open; [exact HU|]. destruct CN as [CN|CN]; [exact CN|]. rewrite NF in CN. discriminate CN.
      + destruct (no_fault w NF SF).
      + rewrite C. destruct (e_fs (w_env w) f) as [data|] eqn:EF.
        * specialize (DR data w EF NF). rewrite EL in DR. eexists. split; [exact DR|]. unfold alloc_message. apply ic_alloc with data; [exact HU|exact EF|]. intro L. apply fmtu_shown. split; [apply zlen_nonneg|exact L].
        * exfalso. destruct (data_missing f w (or_introl EF)) as (f' & E & _). rewrite EL in E. injection E as ->. discriminate C. }
  destruct (image_cases os f HU) as [(U & E)|(a & U & E1 & E2 & E3)].
  - apply (K _ (image_elf _ _ E)). intros b data w1 HF I1 R1 C1. destruct (FE f data U HF) as (Z1 & Z2 & Z3).
    pose proof (elf_room (b :: R) data w1 I1 R1 (FB _ _ HF) Z1 Z2 Z3) as P. pose proof (s_elf data w1 C1) as S. pose proof (elf_reports (b :: R) data w1) as ES. unfold api in ES.
    rewrite (calm_eq w1 C1) in ES.
    destruct (ElfLoad_FromMemory data w1) as [[] w3|w3|]; [| |destruct P].
    + destruct P as (I3 & _ & _ & RG & _). split; [exact I3|]. split; [exact S|]. left. exists f, data. split; [exact U|]. split; [exact HF|]. rewrite RG. reflexivity.
    + destruct P as (I3 & _ & C3). split; [exact I3|]. split; [exact C3|]. intro NR.
      destruct S as [[S SM]|[S1 S2]].
      * rewrite S. exists (w_msg w3). split; [now rewrite SM|]. apply ic_elf with f data; [exact U|exact HF|]. apply (ES w3 I1 (FB _ _ HF) Z1 Z2). now rewrite S.
      * exists []. split; [exact S2|]. apply ic_elf_memory with f data; auto.
  - apply (K (loadBinFile (strtou32 a))); [rewrite (image_bin _ _ E1 E2), E3; reflexivity|]. intros b data w2 HF I1 R1 C1.
    pose proof (bin_safe _ data (b :: R) w2 I1 R1 (strtou32_u32 a) (FB _ _ HF)) as P.
    assert (RG : match loadBinFile (strtou32 a) data w2 with Ret _ w3 => calm w3 /\ ranges w3 = [(strtou32 a, W (zlen data))]
                 | Exc w3 => (w_code w3 = outOfMemoryException \/ w_code w3 = busErrorException) /\ w_msg w3 = firstn 1023 (s2b "Failed to load read-only code into memory region at address 0x" ++ fmt08X (strtou32 a) ++ s2b ".") | Ub _ => True end).
    { unfold loadBinFile. rewrite try0_eq. rewrite (calm_eq w2 C1).
      change (MemorySim_CreateRegion (strtou32 a) (W (zlen data));;; MemorySim_LoadFromFlashImage (strtou32 a) data (W (zlen data));;; MemorySim_MakeRegionReadOnly (strtou32 a)) with (rom_region (strtou32 a) data (W (zlen data))).
      assert (S : still of_memory (rom_region (strtou32 a) data (W (zlen data)))).
      { unfold rom_region. apply still_bind; [apply s_create; auto using mem_o, mem_b, mem_0|intros]. apply still_bind; [apply s_flash; auto using mem_o, mem_b, mem_0|intros]. apply s_readonly; auto using mem_o, mem_b, mem_0. }
      specialize (S w2 C1). assert (WL : W (zlen data) <= zlen data) by (pose proof (zlen_nonneg data); unfold W; lia).
      pose proof (rom_clean (b :: R) w2 (strtou32 a) data (W (zlen data)) I1 (strtou32_u32 a) (W_range _) (FB _ _ HF) WL ltac:(rewrite R1; contradiction)) as Q. unfold post in Q.
      destruct (rom_region _ _ _ w2) as [[] w3|w3|]; [| |exact I].
      - rewrite (proj1 S). cbn [Z.eqb]. split; [exact S|]. unfold clean_ret in Q. destruct Q as (_ & _ & _ & Q & _). rewrite Q. unfold ranges. rewrite R1. reflexivity.
      - destruct S as [S1 S2]. replace (w_code w3 =? 0) with false by (destruct S1 as [-> | ->]; reflexivity). unfold bind, getExceptionCode. rewrite throw_msg_eq. cbn [w_code w_msg set_exn]. rewrite Z.max_id. auto. }
    destruct (loadBinFile (strtou32 a) data w2) as [[] w3|w3|]; [| |destruct P].
    + destruct RG as [RC RG]. split; [apply P|]. split; [exact RC|]. right. exists f, a, data, (strtou32 a). split; [exact U|]. split; [exact HF|]. split; [now apply taken_read|]. rewrite RG. reflexivity.
    + destruct RG as [RC RG]. split; [apply P|]. split; [apply P|]. intro NR. eexists. split; [exact RG|]. apply ic_bin with f a data (strtou32 a); auto; [now apply taken_read|apply shown8_fmt, strtou32_u32].
Qed.

(** ** The dump *)

Lemma read_said_inv R k name text data w c w' : Inv R w -> file_is w name text -> units k text = map Some data -> Forall byte data -> no_io_faults w -> ctx_sane w ->
  api (CrashCatcherDump_Read k name) w = Raised c w' -> dump_complaint (ranges w) data c (w_msg w').
Proof.
  intros HI HF HU HB HE HC H. pose proof (read_ref k name text w HF HE HC) as P. rewrite HU in P.
  pose proof (dump_said R data (set_exn w noException [])) as D.
  assert (BO : bytes_ok (map Some data)) by (unfold bytes_ok; rewrite Forall_map; exact HB).
  pose proof (dump_cases R (map Some data) (set_exn w noException []) BO (Inv_exn _ _ _ _ HI) HC eq_refl) as Q.
  destruct (ref_dump (map Some data) (set_exn w noException [])) as [[u us'] w1|w1|u]; [| |destruct Q].
  - destruct Q as (_ & _ & _ & _ & _ & C). destruct (P C) as (f' & P' & _). congruence.
  - destruct P as (f' & P' & _). rewrite P' in H. injection H as <- <-. exact (D w1 HB (Inv_exn _ _ _ _ HI) HC eq_refl eq_refl).
Qed.

Lemma complaint_short rs data c m : dump_complaint rs data c m -> firstn 1023 m = m.
Proof.
  intro D. apply firstn_all2. destruct D as [| | | | | | | |? ? ? ? ? ? ? ? ? ? ? ? [_ L1] [_ L2]]; try (apply Nat.leb_le; vm_compute; reflexivity). rewrite !app_length, L1, L2. apply Nat.leb_le. vm_compute. reflexivity.
Qed.

Lemma pairs_or : forall n l, (length l <= n)%nat -> (exists bs, pairs l = map Some bs) \/
  exists i c, nth_error l i = Some c /\ hex_value c = None /\ (i < 2 * (length l / 2))%nat.
Proof.
  induction n as [|n IH]; intros l L; destruct l as [|hi [|lo l]]; try (left; exists []; reflexivity); [cbn [length] in L; lia|].
  cbn [length] in L. assert (E2 : forall m : nat, (2 * (S (S m) / 2) = 2 + 2 * (m / 2))%nat).
  { intro m. change (S (S m)) with (2 + m)%nat. replace (2 + m)%nat with (m + 1 * 2)%nat by lia. rewrite Nat.div_add by lia. lia. }
  destruct (hex_value hi) as [x|] eqn:Hx; [|right; exists 0%nat, hi; cbn [nth_error length]; rewrite E2; repeat split; auto; lia].
  destruct (hex_value lo) as [y|] eqn:Hy; [|right; exists 1%nat, lo; cbn [nth_error length]; rewrite E2; repeat split; auto; lia].
  destruct (IH l) as [(bs & E)|(i & c & E & H & LI)]; [lia| |].
  - left. exists (16 * x + y :: bs). cbn [pairs map]. now rewrite Hx, Hy, E.
  - right. exists (S (S i)), c. cbn [nth_error length]. rewrite E2. repeat split; auto. lia.
Qed.

(** Every message has room for 1023 bytes; the one about the file that cannot be opened is this. *)
Definition fitted (c : Z) (t : list Z) : Prop := c <> 0 /\ c <> fileException /\ firstn 1023 t = t.
Definition of_dump (name : list Z) (c : Z) (t : list Z) : Prop :=
  fitted c t \/ (c = fileException /\ t = firstn 1023 (s2b "Failed to open the """ ++ name ++ s2b """ dump file.")).
Lemma s_catcher k name : still (of_dump name) (CrashCatcherDump_Read k name).
Proof.
  assert (N : forall t, ~ fitted 0 t) by (intros t [H _]; now apply H).
  assert (T : forall A e m, 0 < e -> e <> fileException -> still fitted (throw_msg e m : M world A)) by (intros; apply still_throw_msg; [lia|split; [lia|split; [assumption|apply firstn_twice]]]).
  assert (TF : forall A, still fitted (throw fileFormatException : M world A)) by (intros; apply still_throw; [discriminate|split; [discriminate|split; [discriminate|reflexivity]]]).
  assert (MO : fitted outOfMemoryException []) by (split; [discriminate|split; [discriminate|reflexivity]]). assert (MB : fitted busErrorException []) by (split; [discriminate|split; [discriminate|reflexivity]]).
  assert (R : forall h d n, still fitted (doRead k h d n)).
  { intros h d n. assert (KN : forall h, keeps (readNextCharacterSkippingNewLines h)) by apply keeps_next. assert (KS : forall d i b, keeps (store_dest d i b)) by apply keeps_store.
    unfold doRead. destruct k; [unfold binaryRead; stac|]. unfold hexRead. generalize (@nil Z). induction n as [|n IH]; intro acc; cbn [hexRead_loop]; [apply still_ret|]. stac. }
  assert (L : forall f h a c, still fitted (loadRegionBytes f k h a c)).
  { induction f as [|f IH]; intros; cbn [loadRegionBytes]; [apply still_ub|]. destruct (_ <=? _); [apply still_ret|]. apply still_bind; [apply R|]. intros [|b [|? ?]]; try apply TF.
    apply still_bind; [apply s_write; auto|]. intros _. apply IH. }
  assert (RG : forall h a e, still fitted (createAndLoadMemoryRegion k h a e)).
  { intros. unfold createAndLoadMemoryRegion. cbv zeta. apply still_bind; [apply s_create; auto|]. intros _. apply still_bind; [auto with msg|]. intro f. apply L. }
  assert (NR : forall h, still fitted (readNextMemoryRegion k h)).
  { intro h. unfold readNextMemoryRegion. repeat first [solve [auto 3 with msg] | (apply T; [reflexivity|discriminate]) | sstep].
    unfold try0. apply still_try with fitted; [exact N|apply stillL_lift, RG|]. intros _. apply answers_msg. intros c t (H1 & H2 & _). split; [exact H1|split; [exact H2|apply firstn_twice]]. }
  assert (RL : forall f h, still fitted (regionLoop f k h)).
  { induction f as [|f IH]; intro h; cbn [regionLoop]; [apply still_ub|]. apply still_bind; [apply NR|]. intros [|]; [apply still_ret|apply IH]. }
  assert (RD : forall h, still fitted (readDump k h)).
  { intro h. unfold readDump, validateDumpSignature, readFlags, readIntegerRegisters, readFloatingPointRegisters, readMemoryRegions. repeat first [solve [auto 3 with msg] | (apply T; [reflexivity|discriminate]) | sstep]. }
  assert (OD : still (of_dump name) (openDump name)).
  { unfold openDump. repeat first [solve [auto 3 with msg] | sstep]. apply still_throw_msg; [discriminate|right; auto]. }
  assert (RD2 : forall h, still (of_dump name) (readDump k h)) by (intros h w Hw; specialize (RD h w Hw); destruct (readDump k h w); auto; now left).
  unfold CrashCatcherDump_Read. sstep; [|apply still_ret]. apply still_try with (of_dump name); [intros t [H|[H _]]; [exact (N t H)|discriminate H]| |].
  - unfold destructObject. repeat first [solve [auto 3 with msg] | sstep].
  - intro l. apply answers_again. unfold destructObject. destruct l; auto with msg.
Qed.

(** ** Hex dumps with something else than hex digits in them *)

(** [a] read bytes that end with something malformed, [b] the same bytes without it: the same happened;
    or [a] stopped there without a message. *)
Definition keeps_up {X} (fin : X -> Prop) (more : stream) (a b : outcome world (X * stream)) : Prop :=
  (exists x g w', a = Ret (x, map Some g ++ None :: more) w' /\ b = Ret (x, map Some g) w' /\ calm w') \/
  (exists w', a = Exc w' /\ b = Exc w' /\ of_contents (w_msg w')) \/
  (exists w', a = Exc w' /\ w_code w' = fileFormatException /\ w_msg w' = [] /\
     match b with Ret (x, _) _ => fin x | Exc w2 => ~ of_contents (w_msg w2) | Ub _ => False end) \/
  (exists u, b = Ub u).

Lemma up_bind X Y (fin : Y -> Prop) more (ma mb : M world (X * stream)) (f : X * stream -> M world (Y * stream)) w :
  keeps_up (fun _ => False) more (ma w) (mb w) ->
  (forall x g w', calm w' -> keeps_up fin more (f (x, map Some g ++ None :: more) w') (f (x, map Some g) w')) ->
  keeps_up fin more (bind ma f w) (bind mb f w).
Proof.
  intros [(x & g & w' & E1 & E2 & C)|[(w' & E1 & E2 & C)|[(w' & E1 & C1 & C2 & C3)|(u & E)]]] H; unfold bind.
  - rewrite E1, E2. now apply H.
  - rewrite E1, E2. right. left. eauto.
  - rewrite E1. right. right. left. exists w'. repeat split; auto. destruct (mb w) as [[x us] w2|w2|]; [destruct C3|exact C3|destruct C3].
  - rewrite E. right. right. right. eauto.
Qed.

Lemma brun {A B} (m : M world A) (f : A -> M world B) w : bind m f w = match m w with Ret a w1 => f a w1 | Exc w1 => Exc w1 | Ub u => Ub u end.
Proof. reflexivity. Qed.
Lemma store_calm d bs w : calm w -> match store_dest d 0 bs w with Ret _ w' => calm w' | Exc _ => False | Ub _ => True end.
Proof. intro C. destruct d; cbn [store_dest]; [exact C|]. unfold ctx_put. destruct (_ && _); [exact C|exact I]. Qed.
Lemma read_whole d n good X w : (n <= length good)%nat -> ref_read d n (map Some good ++ X) w = bind (store_dest d 0 (firstn n good)) (fun _ => ret (firstn n good, map Some (skipn n good) ++ X)) w.
Proof.
  intro L. unfold ref_read. rewrite firstn_app, map_length. replace (n - length good)%nat with 0%nat by lia. rewrite firstn_O, app_nil_r, firstn_map', scan_some.
  rewrite skipn_app, map_length. replace (n - length good)%nat with 0%nat by lia. rewrite skipn_O, skipn_map'. reflexivity.
Qed.
Lemma scan_bad good more : scan (map Some good ++ None :: more) = (good, false).
Proof. induction good as [|b t IH]; cbn [map app scan]; [reflexivity|]. now rewrite IH. Qed.
Lemma read_bad d n good more w : (length good < n)%nat -> ref_read d n (map Some good ++ None :: more) w = bind (store_dest d 0 good) (fun _ => throw fileFormatException) w.
Proof.
  intro L. unfold ref_read. rewrite firstn_app, map_length. rewrite (firstn_all2 (map Some good)) by (rewrite map_length; lia).
  destruct (n - length good)%nat as [|k] eqn:Q; [lia|]. cbn [firstn]. now rewrite scan_bad.
Qed.

(** One field. *)
Lemma up_field X fin d n msg (g : list Z * stream -> M world (X * stream)) good more w :
  calm w -> ~ of_contents (firstn 1023 msg) ->
  (forall bs g' w', calm w' -> keeps_up fin more (g (bs, map Some g' ++ None :: more) w') (g (bs, map Some g') w')) ->
  keeps_up fin more
    (bind (ref_read d n (map Some good ++ None :: more)) (fun p => if negb (Nat.eqb (length (fst p)) n) then throw_msg fileFormatException msg else g p) w)
    (bind (ref_read d n (map Some good)) (fun p => if negb (Nat.eqb (length (fst p)) n) then throw_msg fileFormatException msg else g p) w).
Proof.
  intros C N H. destruct (le_lt_dec n (length good)) as [L|L].
  - rewrite !(brun (ref_read _ _ _)), (read_whole d n good (None :: more)) by exact L. rewrite <- (app_nil_r (map Some good)), read_whole by exact L.
    rewrite !(brun (store_dest _ _ _)). pose proof (store_calm d (firstn n good) w C) as S. destruct (store_dest d 0 (firstn n good) w) as [u w1|w1|]; [|destruct S|right; right; right; eauto].
    cbn [ret fst]. rewrite firstn_length_le, Nat.eqb_refl by exact L. cbn [negb]. rewrite app_nil_r. now apply H.
  - rewrite !(brun (ref_read _ _ _)), read_bad, read_short by exact L. unfold bind. pose proof (store_calm d good w C) as S.
    destruct (store_dest d 0 good w) as [u w1|w1|]; [|destruct S|right; right; right; eauto]. destruct S as [S1 S2].
    cbn [ret fst]. rewrite (proj2 (Nat.eqb_neq (length good) n)) by lia. cbn [negb]. right. right. left. unfold throw, throw_msg. eexists. split; [reflexivity|].
    cbn [w_code w_msg set_exn]. rewrite S1, S2. repeat split. exact N.
Qed.

Lemma up_ret X fin more (x : X) g w : calm w -> keeps_up fin more (ret (x, map Some g ++ None :: more) w) (ret (x, map Some g) w).
Proof. intro C. left. exists x, g, w. auto. Qed.

Ltac not_contents := let H := fresh in let t := fresh in intros [H|[t H]]; vm_compute in H; discriminate H.

Lemma up_signature good more w : calm w -> keeps_up (fun _ => False) more (ref_signature (map Some good ++ None :: more) w) (ref_signature (map Some good) w).
Proof.
  intro C. set (g := fun p : list Z * stream => if bytes_eqb (fst p) [SIGNATURE_BYTE0; SIGNATURE_BYTE1; VERSION_MAJOR; VERSION_MINOR] then ret (false, snd p)
                else if bytes_eqb (fst p) [SIGNATURE_BYTE0; SIGNATURE_BYTE1; 2; 0] then ret (true, snd p)
                else throw_msg fileFormatException (s2b "The dump file didn't start with the expected 4-byte signature.")).
  assert (R' : forall us, ref_signature us w = bind (ref_read Local 4 us) (fun p => if negb (Nat.eqb (length (fst p)) 4) then throw_msg fileFormatException (s2b "The dump file was too short to contain the 4-byte signature.") else g p) w).
  { intro us. unfold ref_signature, bind. destruct (ref_read Local 4 us w) as [[x y] z| |]; reflexivity. }
  rewrite !R'. apply up_field; [exact C|not_contents|]. intros bs g' w' C'. unfold g. cbn [fst snd].
  destruct (bytes_eqb bs _); [now apply up_ret|]. destruct (bytes_eqb bs _); [now apply up_ret|]. right. left. unfold throw_msg, throw. eexists. split; [reflexivity|]. split; [reflexivity|]. left. reflexivity.
Qed.
Lemma up_flags good more w : calm w -> keeps_up (fun _ => False) more (ref_flags (map Some good ++ None :: more) w) (ref_flags (map Some good) w).
Proof. intro C. unfold ref_flags, too_short. apply up_field; [exact C|not_contents|]. intros. now apply up_ret. Qed.
Lemma up_integer v2 good more w : calm w -> keeps_up (fun _ => False) more (ref_integer v2 (map Some good ++ None :: more) w) (ref_integer v2 (map Some good) w).
Proof.
  intro C. unfold ref_integer, too_short. cbv zeta.
  assert (S : match (if v2 then ctx_put (OFF_R MSP) (le 4 DEFAULT_SP_VALUE);;; ctx_put (OFF_R PSP) (le 4 DEFAULT_SP_VALUE) else ret tt) w with Ret _ w' => calm w' | Exc _ => False | Ub _ => True end).
  { destruct v2; [|exact C]. unfold bind, ctx_put. destruct (_ && _); [|exact I]. destruct (_ && _); [exact C|exact I]. }
  set (pre := if v2 then _ else ret tt) in *. clearbody pre. rewrite !(brun pre). destruct (pre w) as [u w1|w1|]; [|destruct S|right; right; right; eauto].
  apply up_field; [exact S|not_contents|]. intros bs g' w' C'. cbn [fst snd]. apply up_field; [exact C'|not_contents|]. intros. now apply up_ret.
Qed.
Lemma up_fp good more w : calm w -> keeps_up (fun _ => False) more (ref_fp (map Some good ++ None :: more) w) (ref_fp (map Some good) w).
Proof.
  intro C. unfold ref_fp, too_short. rewrite !(brun (ctx_word _)). unfold ctx_word. destruct (_ && _); [|right; right; right; eauto].
  destruct (_ =? 0); [now apply (up_ret unit)|]. apply up_field; [exact C|not_contents|]. intros. now apply up_ret.
Qed.

(** The contents of a region. *)
Definition some_code (c : Z) (t : list Z) : Prop := c <> 0.
Lemma bytes_up good more : forall a count w, ref_bytes (map Some good ++ None :: more) a count w =
  match ref_bytes (map Some good) a count w with Ret (x, us) w' => Ret (x, us ++ None :: more) w' | Exc w' => Exc w' | Ub u => Ub u end.
Proof.
  induction good as [|b t IH]; intros a count w; cbn [map app ref_bytes]; destruct (count <=? 0); try reflexivity.
  unfold bind. destruct (write8 a b w); auto.
Qed.
Lemma bytes_still good : forall a count, still some_code (ref_bytes (map Some good) a count).
Proof.
  induction good as [|b t IH]; intros a count; cbn [map ref_bytes]; destruct (count <=? 0); try apply still_ret.
  - apply still_throw; [discriminate|discriminate].
  - apply still_bind; [|intros; apply IH]. apply s_write; discriminate.
Qed.

Lemma fitted_region X : firstn 1023 (s2b "The dump file failed to load RAM memory region at 0x" ++ X) =
  s2b "The dump file failed to load RAM memory region at 0x" ++ firstn (1023 - length (s2b "The dump file failed to load RAM memory region at 0x")) X.
Proof. rewrite firstn_app, firstn_all2; [reflexivity|]. apply Nat.leb_le. vm_compute. reflexivity. Qed.

Lemma up_region good more w : calm w -> keeps_up (fun eof => eof = true) more (ref_region (map Some good ++ None :: more) w) (ref_region (map Some good) w).
Proof.
  intro C. unfold ref_region. destruct (le_lt_dec 8 (length good)) as [L|L].
  - rewrite !(brun (ref_read _ _ _)), (read_whole Local 8 good (None :: more)) by exact L. rewrite <- (app_nil_r (map Some good)), read_whole by exact L.
    cbn [store_dest]. rewrite !(brun (ret tt)). cbn [ret]. rewrite app_nil_r. set (bs := firstn 8 good). set (rest := skipn 8 good).
    assert (LB : length bs = 8%nat) by (unfold bs; apply firstn_length_le; exact L). rewrite LB. cbn [Nat.eqb andb negb]. clearbody bs rest. clear L LB good.
    cbv zeta. set (a := of_le (firstn 4 bs)). set (e := of_le (skipn 4 bs)). clearbody a e. rewrite !(brun (try_ _ _ _)). unfold try_.
    assert (SC : still some_code (MemorySim_CreateRegion a (W (e - a)))) by (apply s_create; [discriminate|intros t H; apply H; reflexivity]).
    specialize (SC (set_exn w noException []) (conj eq_refl eq_refl)). unfold bind, lift, setl, ret. cbn [fst snd].
    destruct (MemorySim_CreateRegion a (W (e - a)) (set_exn w noException [])) as [[] w1|w1|]; [| |right; right; right; eauto].
    + rewrite bytes_up. pose proof (bytes_still rest a (W (e - a)) w1 SC) as SB.
      destruct (ref_bytes (map Some rest) a (W (e - a)) w1) as [[x us] w2|w2|] eqn:EB; [| |right; right; right; eauto]; cbn [fst snd].
      * apply ref_bytes_inv in EB as (c & E & _). rewrite (proj1 SB). cbn [Z.eqb]. left. exists false, (skipn (length c) rest), w2.
        assert (U : us = map Some (skipn (length c) rest)) by (rewrite <- skipn_map', E, skipn_app, map_length, Nat.sub_diag, skipn_O, skipn_all2; [reflexivity|now rewrite map_length]).
        rewrite U. auto.
      * unfold some_code in SB. replace (w_code w2 =? 0) with false by lia. unfold getExceptionCode, throw_msg, throw. right. left. eexists. split; [reflexivity|]. split; [reflexivity|].
        right. eexists. cbn [w_msg set_exn]. apply fitted_region.
    + cbn [fst snd]. unfold some_code in SC. replace (w_code w1 =? 0) with false by lia. unfold getExceptionCode, throw_msg, throw. right. left. eexists. split; [reflexivity|]. split; [reflexivity|].
      right. eexists. cbn [w_msg set_exn]. apply fitted_region.
  - rewrite !(brun (ref_read _ _ _)), read_bad, read_short by exact L. cbn [store_dest]. unfold bind, ret, throw. right. right. left. eexists. split; [reflexivity|].
    destruct C as [C1 C2]. cbn [w_code w_msg set_exn]. rewrite C1, C2. split; [reflexivity|]. split; [reflexivity|].
    destruct (_ && _); [unfold throw_msg, throw; cbn [w_msg set_exn]; not_contents|]. destruct (Nat.eqb (length good) 0); [reflexivity|].
    rewrite (proj2 (Nat.eqb_neq (length good) 8)) by lia. cbn [negb]. unfold throw_msg, throw; cbn [w_msg set_exn]; not_contents.
Qed.

Lemma up_regions more : forall fb fa good w, (fb <= fa)%nat -> calm w -> keeps_up (fun _ => True) more (ref_regions fa (map Some good ++ None :: more) w) (ref_regions fb (map Some good) w).
Proof.
  induction fb as [|fb IH]; intros fa good w L C; [right; right; right; eexists; reflexivity|]. destruct fa as [|fa]; [lia|]. cbn [ref_regions]. unfold bind.
  destruct (up_region good more w C) as [(x & g & w' & E1 & E2 & C')|[(w' & E1 & E2 & C')|[(w' & E1 & C1 & C2 & C3)|(u & E)]]].
  - rewrite E1, E2. cbn [fst snd]. destruct x; [now apply (up_ret unit)|apply IH; [lia|exact C']].
  - rewrite E1, E2. right. left. eauto.
  - rewrite E1. right. right. left. exists w'. repeat split; auto. destruct (ref_region (map Some good) w) as [[x us] w2|w2|]; [|exact C3|exact C3]. subst x. cbn [fst]. exact I.
  - rewrite E. right. right. right. eauto.
Qed.

Lemma up_dump good more w : calm w -> keeps_up (fun _ => True) more (ref_dump (map Some good ++ None :: more) w) (ref_dump (map Some good) w).
Proof.
  intro C. unfold ref_dump. apply up_bind; [now apply up_signature|]. intros v2 g1 w1 C1. cbn [fst snd]. apply up_bind; [now apply up_flags|]. intros [] g2 w2 C2. cbn [fst snd].
  apply up_bind; [now apply up_integer|]. intros [] g3 w3 C3. cbn [fst snd]. apply up_bind; [now apply up_fp|]. intros [] g4 w4 C4. cbn [fst snd].
  apply up_regions; [rewrite app_length; lia|exact C4].
Qed.

Lemma bad_said R name text good more w c w' : Inv R w -> file_is w name text -> units Hex text = map Some good ++ None :: more -> Forall byte good -> no_io_faults w -> ctx_sane w ->
  api (CrashCatcherDump_Read Hex name) w = Raised c w' -> hex_complaint (ranges w) good c (w_msg w').
Proof.
  intros HI HF HU HB HE HC H. pose proof (read_ref Hex name text w HF HE HC) as P. rewrite HU in P.
  pose proof (up_dump good more (set_exn w noException []) (conj eq_refl eq_refl)) as U.
  pose proof (dump_said R good (set_exn w noException [])) as D.
  assert (BO : bytes_ok (map Some good)) by (unfold bytes_ok; rewrite Forall_map; exact HB).
  pose proof (dump_cases R (map Some good) (set_exn w noException []) BO (Inv_exn _ _ _ _ HI) HC eq_refl) as Q.
  destruct U as [(x & g & w1 & E1 & E2 & C')|[(w1 & E1 & E2 & C')|[(w1 & E1 & C1 & C2 & C3)|(u & E)]]].
  - rewrite E1 in P. destruct (P (proj1 C')) as (f' & P' & _). congruence.
  - rewrite E1 in P. destruct P as (f' & P' & _). rewrite P' in H. injection H as <- <-. apply hx_same; [|exact C']. exact (D w1 HB (Inv_exn _ _ _ _ HI) HC eq_refl E2).
  - rewrite E1 in P. destruct P as (f' & P' & _). rewrite P' in H. injection H as <- <-. change (w_msg (set_files w1 f')) with (w_msg w1). rewrite C1, C2.
    destruct (ref_dump (map Some good) (set_exn w noException [])) as [[u us'] w2|w2|u]; [| |destruct Q].
    + destruct Q as ((d & V & EU) & _). apply hx_whole with d; [exact V|]. now apply map_some_inj.
    + apply hx_silent with (w_code w2) (w_msg w2); [|exact C3]. exact (D w2 HB (Inv_exn _ _ _ _ HI) HC eq_refl eq_refl).
  - rewrite E in Q. destruct Q.
Qed.

Lemma stream_cases (us : stream) : (exists bs, us = map Some bs) \/ exists good more, us = map Some good ++ None :: more.
Proof.
  induction us as [|[b|] us [(bs & ->)|(good & more & ->)]]; [left; exists []; reflexivity|left; now exists (b :: bs)|right; now exists (b :: good), more|right; exists []; eexists; reflexivity..].
Qed.
Lemma units_until : forall n data good more, (length data <= n)%nat -> pairs (significant data) = map Some good ++ None :: more -> hex_until data good.
Proof.
  induction n as [|n IH]; intros data good more L H.
  { destruct data; cbn [length] in L; [|lia]. destruct good; discriminate. }
  destruct (significant data) as [|hi [|lo s]] eqn:E; [destruct good; discriminate H..|].
  cbn [pairs] in H. destruct good as [|b good]; cbn [map app] in H; injection H as Hb H.
  - exists [], data, hi, lo, s. split; [reflexivity|]. split; [constructor|]. split; [exact E|]. destruct (hex_value hi); [|now left]. destruct (hex_value lo); [discriminate Hb|now right].
  - destruct (split_significant _ _ _ E) as (g1 & t1 & -> & G1 & E1). destruct (split_significant _ _ _ E1) as (g2 & t2 & -> & G2 & E2).
    destruct (hex_value hi) as [x|] eqn:Hx; [|discriminate]. destruct (hex_value lo) as [y|] eqn:Hy; [|discriminate]. injection Hb as <-.
    rewrite app_length in L. cbn [length] in L. rewrite app_length in L. cbn [length] in L.
    destruct (IH t2 good more) as (text & rest & u & v & m & -> & R & M & B); [lia|rewrite E2; exact H|].
    exists (g1 ++ hi :: g2 ++ lo :: text), rest, u, v, m. split; [rewrite <- !app_assoc; cbn [app]; now rewrite <- app_assoc|]. split; [|auto].
    clear - G1 G2 Hx Hy R. induction G1 as [|c g1 Hc G1 IH]; cbn [app]; [|now constructor]. now constructor.
Qed.
Lemma hex_short rs data c m : hex_complaint rs data c m -> firstn 1023 m = m.
Proof. intros [? ? D _|? ? _ _|? _ _]; [exact (complaint_short _ _ _ _ D)|reflexivity|reflexivity]. Qed.

Lemma dumpfile_said os f R w : Inv R w -> ctx_sane w -> calm w -> no_io_faults w -> (forall f data, file_is w f data -> Forall byte data) -> uses_dump os f -> image_ranges w os (ranges w) ->
  match loadDumpFile (settings os) w with
  | Exc w2 => exists m, w_msg w2 = firstn 1023 m /\ dumpfile_complaint w os (w_code w2) m
  | _ => True
  end.
Proof.
  intros HI HX HC NF FB HU IR. unfold loadDumpFile. rewrite (set_dump _ _ HU). unfold bind.
  destruct (type_run f w) as [(data & t & f' & HF & ET & O & _ & HT)|(CN & fs & mm & ET & _)].
  2:{ pose proof (dump_missing os f w HU CN (proj1 HC)) as (f' & E & _). unfold loadDumpFile in E. rewrite (set_dump _ _ HU) in E. unfold bind in E. rewrite ET in E |- *.
      exists (s2b "Failed to open """ ++ f ++ s2b """."). split; [exact (f_equal (fun o => match o with Exc x => w_msg x | _ => [] end) E)|].
      assert (EC : w_code (set_exn (set_files w fs) (Z.max fileException (w_code w)) mm) = fileException) by exact (f_equal (fun o => match o with Exc x => w_code x | _ => 0 end) E). rewrite EC. apply dfc_open; [exact HU|].
      destruct CN as [CN|CN]; [exact CN|]. rewrite NF in CN. discriminate CN. }
  rewrite ET. specialize (HT NF). pose proof (FB _ _ HF) as HB.
  assert (K : forall k bs, units k data = map Some bs -> Forall byte bs ->
     match CrashCatcherDump_Read k f (set_files w f') with Exc w2 => dump_complaint (ranges w) bs (w_code w2) (w_msg w2) | _ => True end).
  { intros k bs EU BB. pose proof (read_said_inv R k f data bs (set_files w f')) as P. unfold api in P. rewrite read_clear in P. destruct (CrashCatcherDump_Read k f (set_files w f')) as [u w2|w2|]; try exact I.
    apply (P _ _ (Inv_files _ _ _ HI) HF EU BB NF HX eq_refl). }
  destruct HT as [(-> & L)|[(-> & L)|(-> & L1 & L2)]].
  - specialize (K Binary data eq_refl HB). unfold CrashCatcherDump_ReadBinary. destruct (CrashCatcherDump_Read Binary f (set_files w f')) as [u w2|w2|]; try exact I.
    exists (w_msg w2). split; [symmetry; exact (complaint_short _ _ _ _ K)|]. now apply dfc_binary with f data (ranges w).
  - unfold CrashCatcherDump_ReadHex. destruct (stream_cases (units Hex data)) as [(bs & E)|(good & more & E)]; pose proof (units_bytes Hex data HB) as UB; rewrite E in UB; unfold bytes_ok in UB.
    + rewrite Forall_map in UB.
      specialize (K Hex bs E UB). destruct (CrashCatcherDump_Read Hex f (set_files w f')) as [u w2|w2|]; try exact I.
      exists (w_msg w2). split; [symmetry; exact (complaint_short _ _ _ _ K)|]. apply dfc_hex with f data bs (ranges w); auto.
      destruct (units_renders _ data bs (le_n _) E) as (text & more & E1 & E2 & E3). exists text, more. auto.
    + apply Forall_app in UB as [UB _]. rewrite Forall_map in UB. pose proof (bad_said R f data good more (set_files w f')) as P. unfold api in P. rewrite read_clear in P.
      destruct (CrashCatcherDump_Read Hex f (set_files w f')) as [u w2|w2|] eqn:EH; try exact I. specialize (P _ _ (Inv_files _ _ _ HI) HF E UB NF HX eq_refl).
      exists (w_msg w2). split; [symmetry; exact (hex_short _ _ _ _ P)|]. apply dfc_hex_bad with f data good (ranges w); auto. exact (units_until _ data good more (le_n _) E).
  - pose proof (s_log f (set_files w f') HC) as S. destruct (lines_exist data) as (ls & HL).
    pose proof (log_registers R f data ls (set_files w f') (Inv_files _ _ _ HI) HX HF NF HL) as P. unfold api in P. rewrite log_clear in P.
    destruct (GdbLogParse f (set_files w f')) as [u w2|w2|] eqn:EG; try exact I.
    assert (N : w_code w2 <> fileException) by (destruct P as [-> | ->]; discriminate).
    destruct S as [[S _]|[S1 S2]]; [contradiction|]. exists []. split; [exact S2|]. now apply dfc_log with f data.
Qed.

(** ** Aliases *)

Lemma alias_option_said b s r w :
  match createAliasOption b s r w with
  | Ret _ w' => calm w'
  | Exc w' => (w_code w' = outOfMemoryException \/ w_code w' = busErrorException) /\
      w_msg w' = firstn 1023 (s2b "Failed to create alias of 0x" ++ fmt08X (strtou32 b) ++ s2b " to 0x" ++ fmt08X (strtou32 r) ++ s2b " of size " ++ fmtd (strtou32 s) ++ s2b ".")
  | Ub _ => True
  end.
Proof.
  unfold createAliasOption. cbv zeta. rewrite try0_eq.
  pose proof (s_alias of_memory mem_o mem_b mem_0 (strtou32 b) (strtou32 r) (strtou32 s) (set_exn w noException []) (conj eq_refl eq_refl)) as S.
  destruct (MemorySim_CreateAlias _ _ _ _) as [u w1|w1|]; [| |exact I].
  - rewrite (proj1 S). exact S.
  - destruct S as [S1 S2]. replace (w_code w1 =? 0) with false by (destruct S1 as [-> | ->]; reflexivity). unfold bind, getExceptionCode. rewrite throw_msg_eq. cbn [w_code w_msg set_exn]. rewrite Z.max_id. auto.
Qed.
Lemma aliases_said all os w : (forall o, In o os -> In o all) ->
  match make_aliases os w with
  | Exc w' => exists m, w_msg w' = firstn 1023 m /\ alias_complaint all (w_code w') m
  | _ => True
  end.
Proof.
  revert w. induction os as [|o os IH]; intros w HI; [exact I|]. assert (HI' : forall o, In o os -> In o all) by (intros; apply HI; now right).
  destruct o as [f|f a|f|b s r]; cbn [make_aliases]; try (exact (IH w HI')). unfold bind. pose proof (alias_option_said b s r w) as S.
  destruct (createAliasOption b s r w) as [u w1|w1|]; [now apply IH| |exact I]. destruct S as [S1 S2]. eexists. split; [exact S2|].
  apply ac_alias with b s r (strtou32 b) (strtou32 s) (strtou32 r); auto; try (now apply taken_read); try (apply shown8_fmt, strtou32_u32).
  - apply HI. now left.
  - apply signed_fmtd, strtou32_u32.
Qed.

(** ** Start-up *)

Lemma start_said args os c w w' : heap_sane w -> no_io_faults w -> files_fine w os -> spells args os -> complete os ->
  api (CrashDebugCommandLine_Init args) w = Raised c w' -> exists m, printed w w' (firstn 1023 m) /\ startup_complaint w os c m.
Proof.
  intros HH HN HF HS HC E. set (Q := fun c t => exists m, t = firstn 1023 m /\ startup_complaint w os c m).
  cut (ends Q (stages os (set_exn (blank_state w) noException []))).
  { intro HG. destruct (init_good Q _ _ _ _ _ HS HC HG E) as (t & P & _ & m & -> & HQ). exists m. auto. }
  set (w0 := set_exn (blank_state w) noException []) in *. destruct (complete_uses os HC) as ((g & Hg) & f & Hf). rewrite stages_eq.
  pose proof (image_said os g (h_live (w_heap w)) w0 (blank_inv w HH) eq_refl HF HN Hg) as P. pose proof (image_safe os g (h_live (w_heap w)) w0 (blank_inv w HH) eq_refl HF Hg) as IS.
  destruct (loadImageFile (settings os) w0) as [[] w1|w1|] eqn:E1; [| |destruct P].
  2:{ cbn [ends]. destruct P as (m & E2 & P). exists m. split; [exact E2|]. left. clear - P. destruct P; [eapply ic_open|eapply ic_alloc|eapply ic_elf|eapply ic_elf_memory|eapply ic_bin]; eauto. }
  destruct P as [C1 IR]. destruct IS as ((I1 & R1 & _) & X1 & _). pose proof (quiet_image _ _ _ E1) as EE. change (w_env w0) with (w_env w) in EE.
  assert (N1 : no_io_faults w1) by (unfold no_io_faults; rewrite EE; exact HN). assert (X : ctx_sane w1) by (unfold ctx_sane; rewrite X1; reflexivity).
  assert (B1 : forall f data, file_is w1 f data -> Forall byte data) by (unfold file_is; rewrite EE; apply HF).
  assert (IR1 : image_ranges w1 os (ranges w1)) by (unfold image_ranges, file_is in *; rewrite EE; exact IR).
  pose proof (dumpfile_said os f _ w1 I1 X C1 N1 B1 Hf IR1) as D. pose proof (dump_safe os f _ w1 I1 X (proj1 C1) B1 Hf) as DS.
  destruct (loadDumpFile (settings os) w1) as [[] w2|w2|]; [| |destruct DS].
  2:{ cbn [ends]. destruct D as (m & E2 & D). exists m. split; [exact E2|]. right. left. clear - D EE.
      destruct D; [eapply dfc_open|eapply dfc_binary|eapply dfc_hex|eapply dfc_hex_bad|eapply dfc_log]; unfold image_ranges, file_is in *; rewrite EE in *; eauto. }
  pose proof (aliases_said os os w2 (fun o H => H)) as A. pose proof (g_aliases any (fun _ _ _ => I) os w2 (proj2 (proj2 DS))) as G.
  destruct (make_aliases os w2) as [u w3|w3|]; [exact G| |exact I]. cbn [ends]. destruct A as (m & E2 & A). exists m. split; [exact E2|]. right. right. exact A.
Qed.

(** ** Failing file operations *)

Lemma still_weaken (P Q : Z -> list Z -> Prop) A (m : M world A) : (forall c t, P c t -> Q c t) -> still P m -> still Q m.
Proof. intros H Hm w Hw. specialize (Hm w Hw). destruct (m w); auto. Qed.

Section Files.
Variable os : list opt.
(** A file exception names a file. *)
Definition named (c : Z) (t : list Z) : Prop := c <> 0 /\ (c = fileException -> exists m, t = firstn 1023 m /\ names_file os m).
Lemma named_0 t : ~ named 0 t. Proof. intros [H _]. now apply H. Qed.
Lemma named_other c t : c <> 0 -> c <> fileException -> named c t. Proof. split; [assumption|contradiction]. Qed.
Lemma named_memory c t : of_memory c t -> named c t.
Proof. intros [[-> | ->] _]; apply named_other; discriminate. Qed.

Lemma f_data f : uses_image os f -> still named (loadFileData f).
Proof.
  intro U. assert (K : forall A m, names_file os m -> still named (throw_msg fileException m : M world A)) by (intros; apply still_throw_msg; [discriminate|split; [discriminate|eauto]]).
  assert (KO : forall A m, still named (throw_msg outOfMemoryException m : M world A)) by (intros; apply still_throw_msg; [discriminate|apply named_other; discriminate]).
  unfold loadFileData. apply still_bind.
  - apply still_try with named; [exact named_0| |].
    + repeat first [solve [auto 3 with msg] | sstep].
      * unfold try_msg. apply still_try with (fun c _ => c = fileException); [intros t H; discriminate H| |].
        { sstep; [apply stillL_lift|apply stillL_setl]. assert (T2 : forall A, still (fun c _ => c = fileException) (throw fileException : M world A)) by (intros; apply still_throw; [discriminate|reflexivity]). unfold GetFileSize. stac. }
        intros _. apply answers_msg. intros c t ->. split; [discriminate|]. intros _. eexists. split; [reflexivity|]. left. exists f. auto.
      * apply K. left. exists f. auto.
      * apply K. left. exists f. auto.
    + intros l w0 H0 HQ. unfold bind. pose proof (keeps_free_opt (l_buf l) w0) as K1. destruct (free_opt (l_buf l) w0) as [u1 w1|w1|]; [|contradiction|exact I].
      pose proof (match l_file l as o return keeps (match o with Some h => fclose h | None => ret tt end) with Some h => keeps_fclose h | None => keeps_ret _ tt end w1) as K2.
      destruct (match l_file l with Some h => fclose h | None => ret tt end w1) as [u2 w2|w2|]; [|contradiction|exact I]. rewrite rethrow_eq. destruct K1 as [K1 K3], K2 as [K2 K4]. rewrite K2, K4, K1, K3. exact HQ.
  - intro l. destruct (l_buf l); auto with msg.
Qed.
Lemma f_image f : uses_image os f -> still named (loadImageFile (settings os)).
Proof.
  intro U. assert (K : forall X, (forall d, still named (X d)) -> still named (load_with X f)).
  { intros X HX. unfold load_with. sstep; [|apply still_ret]. apply still_try with named; [exact named_0| |intro l; apply answers_again; auto with msg].
    pose proof (f_data f U). repeat first [solve [auto 3 with msg] | sstep]. }
  destruct (image_cases os f U) as [(_ & E)|(a & _ & E1 & E2 & E3)].
  - rewrite (image_elf _ _ E). apply K. intro d. apply still_weaken with of_elf; [|apply s_elf]. intros c t [[-> _]|H]; [apply named_other; discriminate|now apply named_memory].
  - rewrite (image_bin _ _ E1 E2). apply K. intro d. unfold loadBinFile, try0. apply still_try with of_memory; [exact mem_0| |].
    + apply stillL_lift. apply still_bind; [apply s_create; auto using mem_o, mem_b, mem_0|intros]. apply still_bind; [apply s_flash; auto using mem_o, mem_b, mem_0|intros]. apply s_readonly; auto using mem_o, mem_b, mem_0.
    + intros _. apply answers_msg. intros c t [[-> | ->] _]; apply named_other; discriminate.
Qed.
Lemma f_dump f : uses_dump os f -> still named (loadDumpFile (settings os)).
Proof.
  intro U. unfold loadDumpFile. rewrite (set_dump _ _ U). apply still_bind.
  - unfold getFileType. repeat first [solve [auto 3 with msg] | sstep]. apply still_throw_msg; [discriminate|]. split; [discriminate|]. intros _. eexists. split; [reflexivity|]. right. left. exists f. auto.
  - assert (C : forall k, still named (CrashCatcherDump_Read k f)).
    { intro k. apply still_weaken with (of_dump f); [|apply s_catcher]. intros c t [(H1 & H2 & _)|[-> ->]]; [now apply named_other|]. split; [discriminate|]. intros _. eexists. split; [reflexivity|]. right. left. exists f. auto. }
    intros [| |]; try apply C. apply still_weaken with (of_log f); [|apply s_log].
    intros c t [[-> [-> | ->]]|H]; [| |now apply named_memory]; (split; [discriminate|]); intros _.
    + eexists. split; [reflexivity|]. right. left. exists f. auto.
    + exists (s2b "Failed to rewind GDB log for second pass."). split; [reflexivity|]. right. right. reflexivity.
Qed.
Lemma f_aliases : still named (make_aliases os).
Proof.
  induction os as [|o l IH]; [apply still_ret|]. destruct o as [f|f a|f|b s r]; cbn [make_aliases]; try exact IH. apply still_bind; [|intros; exact IH].
  intros w _. pose proof (alias_option_said b s r w) as S. destruct (createAliasOption b s r w); auto. destruct S as [[-> | ->] _]; apply named_other; discriminate.
Qed.
End Files.

Lemma files_said args os w w' : spells args os -> complete os ->
  api (CrashDebugCommandLine_Init args) w = Raised fileException w' -> exists m, printed w w' (firstn 1023 m) /\ names_file os m.
Proof.
  intros HS HC E. destruct (complete_uses os HC) as ((g & Hg) & f & Hf).
  assert (ST : still (named os) (stages os)).
  { unfold stages. apply still_bind; [now apply f_image with g|]. intros _. apply still_bind; [now apply f_dump with f|]. intros _. apply f_aliases. }
  specialize (ST (set_exn (blank_state w) noException []) (conj eq_refl eq_refl)).
  cut (ends (named os) (stages os (set_exn (blank_state w) noException []))).
  - intro HG. destruct (init_good (named os) _ _ _ _ _ HS HC HG E) as (t & P & _ & _ & HQ). destruct (HQ eq_refl) as (m & -> & N). eauto.
  - destruct (stages os _) as [u w1|w1|]; auto. apply ST.
Qed.
