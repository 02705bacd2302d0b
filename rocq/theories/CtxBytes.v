(** The register context consists of bytes if it and the files read did. *)
From Coq Require Import String ZArith List Bool Lia ZifyBool ZifyNat.
From Verif Require Import Base World Context MemSim Dump GdbLog BaseLemmas Sat MemSpec DumpSpec DumpRef DumpLemmas DumpConv DumpThms DumpSafe.
Import ListNotations.
Open Scope Z_scope.

Definition cb (w : world) : Prop :=
  Forall byte (w_ctx w) /\ (forall x, In x (fs_open (w_files w)) -> Forall byte (f_data (snd x))) /\
  (forall n d, e_fs (w_env w) n = Some d -> Forall byte d).
Definition kept (w w' : world) : Prop := cb w -> cb w'.

Lemma kept_pre : preorder kept.
Proof. split; unfold kept; auto. Qed.
Lemma kept_exn w w1 : kept (set_exn w noException []) w1 -> kept w w1.
Proof. destruct w. exact (fun H => H). Qed.

(** With a result of which [Q] holds. *)
Definition gives {A} (m : M world A) (Q : A -> Prop) : Prop :=
  forall w, cb w -> match m w with Ret a w' => cb w' /\ Q a | Exc w' => cb w' | Ub _ => True end.
Lemma gives_sat A (m : M world A) Q : gives m Q -> sat kept m.
Proof. intros H w. specialize (H w). unfold kept. destruct (m w); tauto. Qed.
Lemma sat_gives A (m : M world A) : sat kept m -> gives m (fun _ => True).
Proof. intros H w C. specialize (H w). unfold kept in H. destruct (m w); auto. Qed.
Lemma gives_bind A B (m : M world A) (f : A -> M world B) P Q : gives m P -> (forall a, P a -> gives (f a) Q) -> gives (bind m f) Q.
Proof.
  intros H1 H2 w C. specialize (H1 w C). unfold bind. destruct (m w) as [a w1|w1|]; auto. destruct H1 as (C1 & Ha). now apply (H2 a Ha).
Qed.
Lemma gives_ret A (a : A) (Q : A -> Prop) : Q a -> gives (ret a) Q.
Proof. intros H w C. split; auto. Qed.

Lemma k_throw A e : sat kept (throw e : M world A).
Proof. intro w. unfold throw. destruct w. exact (fun H => H). Qed.
Lemma k_throw_msg A e m : sat kept (throw_msg e m : M world A).
Proof. intro w. unfold throw_msg, throw. destruct w. exact (fun H => H). Qed.
Lemma k_rethrow A : sat kept (rethrow : M world A).
Proof. intro w. apply k_throw. Qed.
Lemma k_code_throw A m : sat kept (bind getExceptionCode (fun c => throw_msg c m) : M world A).
Proof. intro w. unfold bind, getExceptionCode. apply k_throw_msg. Qed.
Lemma k_heap w h : kept w (set_heap w h).
Proof. destruct w. exact (fun H => H). Qed.
Lemma k_mem w h : kept w (set_mem w h).
Proof. destruct w. exact (fun H => H). Qed.
Lemma k_zmalloc n : sat kept (throwingZeroedMalloc n).
Proof.
  intro w. unfold throwingZeroedMalloc, bind, malloc. destruct (e_malloc _ _ _); [apply k_heap|].
  eapply (pre_trans kept kept_pre); [apply k_heap|]. apply (k_throw nat).
Qed.
Lemma k_free b : sat kept (free b).
Proof. intro w. unfold free. destruct (is_live _ _); [apply k_heap|exact I]. Qed.
Lemma k_free_opt b : sat kept (free_opt b).
Proof. destruct b; [apply k_free|apply sat_ret, kept_pre]. Qed.
Lemma k_fmr a n : sat kept (findMatchingRegion a n).
Proof. intro w. unfold findMatchingRegion. destruct (find_from _ _ _ _); [apply kept_pre|apply (k_throw (nat * Z))]. Qed.
Lemma k_get_region i : sat kept (get_region i).
Proof. intro w. unfold get_region. destruct (nth_error _ _); [apply kept_pre|exact I]. Qed.
Lemma k_upd i f : sat kept (upd_region i f).
Proof. intro w. apply k_mem. Qed.
Lemma k_add r : sat kept (addRegionToTail r).
Proof. intro w. apply k_mem. Qed.
Lemma k_check r a n t : sat kept (checkForBreakWatchPoint r a n t).
Proof.
  intro w. unfold checkForBreakWatchPoint. destruct (scan_wps _ _ _ _ _ _) as [h []]; [|apply k_mem].
  eapply (pre_trans kept kept_pre); [apply k_mem|]. apply (k_throw unit).
Qed.
Lemma k_ctx_word o : sat kept (ctx_word o).
Proof. intro w. unfold ctx_word. destruct (_ && _); [apply kept_pre|exact I]. Qed.
Lemma k_get_file h : sat kept (get_file h).
Proof. intro w. unfold get_file. destruct (lookup_file _ _); [apply kept_pre|exact I]. Qed.
Lemma k_next : sat kept next_io.
Proof. intro w. unfold next_io. destruct w. exact (fun H => H). Qed.
Lemma update_in h f l x : In x (update_file h f l) -> x = (h, f) \/ In x l.
Proof.
  induction l as [|[k g] l IH]; cbn [update_file]; [auto|]. destruct (Nat.eqb_spec h k) as [->|]; cbn [In]; [intuition|]. intros [<-|H]; auto. apply IH in H. tauto.
Qed.
Lemma remove_in h l x : In x (remove_file h l) -> In x l.
Proof. induction l as [|[k g] l IH]; cbn [remove_file]; [auto|]. destruct (Nat.eqb h k); cbn [In]; tauto. Qed.
Lemma lookup_in h l f : lookup_file h l = Some f -> exists k, In (k, f) l.
Proof. induction l as [|[k g] l IH]; cbn [lookup_file]; [discriminate|]. destruct (Nat.eqb h k); [intros [= ->]; exists k; now left|]. intro H. apply IH in H as (j & H). exists j. now right. Qed.

Lemma g_get h : gives (get_file h) (fun f => Forall byte (f_data f)).
Proof.
  intros w C. unfold get_file. destruct (lookup_file h _) as [f|] eqn:E; [|exact I]. split; [exact C|]. apply lookup_in in E as (k & E). destruct C as (_ & C & _). apply (C _ E).
Qed.
Lemma g_put h f : Forall byte (f_data f) -> gives (put_file h f) (fun _ => True).
Proof.
  intros H w (C1 & C2 & C3). unfold put_file. split; [|exact I]. split; [exact C1|]. split; [|exact C3]. cbn [w_files set_files fs_open].
  intros x Hx. apply update_in in Hx as [->|Hx]; auto.
Qed.
Lemma g_fread h n : gives (fread h n) (Forall byte).
Proof.
  unfold fread. eapply gives_bind; [apply sat_gives, k_next|]. intros ft _. eapply gives_bind; [apply g_get|]. intros f Hf. cbv zeta.
  eapply gives_bind; [apply g_put; exact Hf|]. intros _ _. apply gives_ret. now apply Forall_firstn', Forall_skipn'.
Qed.
Lemma k_fread h n : sat kept (fread h n).
Proof. eapply gives_sat, g_fread. Qed.
Lemma k_fgets h n : sat kept (fgets h n).
Proof.
  eapply gives_sat with (Q := fun _ => True). unfold fgets. eapply gives_bind; [apply sat_gives, k_next|]. intros ft _. eapply gives_bind; [apply g_get|]. intros f Hf. cbv zeta.
  destruct ft; try (now apply gives_ret); (destruct (take_line _ _); [now apply gives_ret|]; eapply gives_bind; [apply g_put; exact Hf|]; intros; now apply gives_ret).
Qed.
Lemma k_fseek h : sat kept (fseek_start h).
Proof.
  eapply gives_sat with (Q := fun _ => True). unfold fseek_start. eapply gives_bind; [apply sat_gives, k_next|]. intros ft _. eapply gives_bind; [apply g_get|]. intros f Hf.
  destruct ft; try (now apply gives_ret); (eapply gives_bind; [apply g_put; exact Hf|]; intros; now apply gives_ret).
Qed.
Lemma k_fopen n : sat kept (fopen n).
Proof.
  unfold fopen. apply sat_bind; [apply kept_pre|apply k_next|]. intros f. eapply gives_sat with (Q := fun _ => True). intros w (C1 & C2 & C3).
  assert (N : forall o k c l, (forall x, In x o -> Forall byte (f_data (snd x))) -> cb (set_files w (mkFiles o k c l))) by (intros; split; [exact C1|split; [assumption|exact C3]]).
  destruct f; [|split; [apply N, C2|exact I]|];
    (destruct (e_fs (w_env w) n) as [d|] eqn:E; (split; [|exact I]); [|apply N, C2]; apply N; intros x [<-|Hx]; [apply (C3 _ _ E)|auto]).
Qed.
Lemma k_fclose h : sat kept (fclose h).
Proof.
  unfold fclose. apply sat_bind; [apply kept_pre|apply k_get_file|]. intros _. eapply gives_sat with (Q := fun _ => True). intros w (C1 & C2 & C3). split; [|exact I]. split; [exact C1|]. split; [|exact C3].
  cbn [w_files set_files fs_open]. intros x Hx. apply remove_in in Hx. auto.
Qed.
Lemma g_ctx_put off bs : Forall byte bs -> gives (ctx_put off bs) (fun _ => True).
Proof.
  intros H w (C1 & C2). unfold ctx_put. destruct (_ && _); [|exact I]. split; [|exact I]. split; [|exact C2]. cbn [w_ctx set_ctx]. unfold splice.
  apply Forall_app. split; [now apply Forall_firstn'|]. apply Forall_app. split; [exact H|now apply Forall_skipn'].
Qed.
Lemma le_bytes n : forall v, Forall byte (le n v).
Proof. induction n; intro v; cbn [le]; constructor; auto. unfold byte. lia. Qed.
Lemma k_ctx_le off n v : sat kept (ctx_put off (le n v)).
Proof. eapply gives_sat, g_ctx_put, le_bytes. Qed.

#[export] Hint Resolve kept_pre kept_exn k_throw k_throw_msg k_rethrow k_code_throw k_zmalloc k_free k_free_opt k_fmr k_get_region k_upd k_add k_check k_ctx_word
  k_get_file k_fread k_fgets k_fseek k_fopen k_fclose k_ctx_le : keptdb.
Ltac ktac := repeat first [solve [auto 2 with keptdb] | sat_step].

Lemma k_create b s : sat kept (MemorySim_CreateRegion b s).
Proof. unfold MemorySim_CreateRegion, freeNewRegion. ktac. Qed.
Lemma k_writeN n a v : sat kept (writeN n a v).
Proof. unfold writeN, getDataPointer, incReadCount, store_ptr. ktac. Qed.
#[export] Hint Resolve k_create k_writeN : keptdb.

(** ** Dumps *)
Lemma g_store d i bs : Forall byte bs -> gives (store_dest d i bs) (fun _ => True).
Proof. intro H. destruct d; [now apply gives_ret|now apply g_ctx_put]. Qed.
Lemma k_skip h : forall fuel, sat kept (skipNewLines fuel h).
Proof. induction fuel; cbn [skipNewLines]; ktac. Qed.
Lemma g_hex h d n : forall acc, Forall byte acc -> gives (hexRead_loop h d n acc) (Forall byte).
Proof.
  induction n as [|n IH]; intros acc HA; cbn [hexRead_loop]; [now apply gives_ret|].
  assert (K : sat kept (readNextCharacterSkippingNewLines h)) by (pose proof (k_skip h); unfold readNextCharacterSkippingNewLines; ktac).
  eapply gives_bind; [apply sat_gives, K|]. intros [hi|] _; [|now apply gives_ret]. eapply gives_bind; [apply sat_gives, K|]. intros [lo|] _; [|now apply gives_ret].
  rewrite !nibble_hex. destruct (hex_value hi) as [x|] eqn:X; [|intros w C; apply (k_throw (list Z)), C]. destruct (hex_value lo) as [y|] eqn:Y; [|intros w C; apply (k_throw (list Z)), C].
  apply hex_value_range in X, Y. pose proof (hexRead_range _ _ X Y) as B.
  eapply gives_bind; [apply g_store; constructor; [exact B|constructor]|]. intros _ _. apply IH. apply Forall_app. split; [exact HA|]. constructor; [exact B|constructor].
Qed.
Lemma g_read k h d n : gives (doRead k h d n) (Forall byte).
Proof.
  destruct k; cbn [doRead]; [|apply g_hex; constructor]. unfold binaryRead. eapply gives_bind; [apply g_fread|]. intros bs HB.
  eapply gives_bind; [now apply g_store|]. intros _ _. now apply gives_ret.
Qed.
Lemma k_doRead k h d n : sat kept (doRead k h d n).
Proof. eapply gives_sat, g_read. Qed.
#[export] Hint Resolve k_doRead : keptdb.
Lemma k_loadBytes k h : forall fuel a c, sat kept (loadRegionBytes fuel k h a c).
Proof. induction fuel; intros a c; cbn [loadRegionBytes]; unfold write8; ktac. Qed.
Lemma k_nextRegion k h : sat kept (readNextMemoryRegion k h).
Proof. pose proof k_loadBytes. unfold readNextMemoryRegion, createAndLoadMemoryRegion. ktac. Qed.
Lemma k_regions k h : forall fuel, sat kept (regionLoop fuel k h).
Proof. pose proof k_nextRegion. induction fuel; cbn [regionLoop]; ktac. Qed.
Lemma k_dump_read k name : sat kept (CrashCatcherDump_Read k name).
Proof.
  pose proof k_regions.
  unfold CrashCatcherDump_Read, openDump, readDump, readMemoryRegions, validateDumpSignature, readFlags, readIntegerRegisters, readFloatingPointRegisters, destructObject.
  ktac.
Qed.

(** ** Logs *)
Lemma k_values vs : forall a, sat kept (writeValues a vs).
Proof. induction vs; intro a0; cbn [writeValues]; unfold write32; ktac. Qed.
Lemma k_first o p : sat kept (firstPassHandler o p).
Proof. destruct p; cbn [firstPassHandler]; unfold firstPassMemoryHandler, firstPassRegisterHandler; cbv zeta; ktac. Qed.
Lemma k_second o p : sat kept (secondPassHandler o p).
Proof. pose proof k_values. destruct p; cbn [secondPassHandler]; ktac. Qed.
Lemma k_lineLoop h hd (HH : forall o p, sat kept (hd o p)) : forall fuel o, sat kept (lineLoop fuel h hd o).
Proof. induction fuel; intro o; cbn [lineLoop]; ktac. Qed.
Lemma k_parseLines h hd (HH : forall o p, sat kept (hd o p)) : sat kept (parseLines h hd).
Proof. unfold parseLines. pose proof (k_lineLoop h hd HH). ktac. Qed.
Lemma k_log name : sat kept (GdbLogParse name).
Proof.
  pose proof (fun h => k_parseLines h _ k_first). pose proof (fun h => k_parseLines h _ k_second).
  unfold GdbLogParse, openLog, initPSPandMSP, rewindLogFile. ktac.
Qed.
