(** Property C82: sizes of blocks. *)
From Coq Require Import String ZArith List Bool Lia ZifyBool ZifyNat Permutation.
From Verif Require Import Base World Context MemSim CmdLine Platform Comm MainProg BaseLemmas MemSpec PlatSpec SizeSpec MemLemmas MemInv MemOps MemThms MemHist2 SizeThms MemEx PropCmd.
Import ListNotations.
Open Scope Z_scope.

Lemma fit_all w : fit w -> all_fits w.
Proof.
  intros [A B]. rewrite Forall_forall in A.
  assert (R : forall b n, has (w_heap w) b n -> room w b n) by (intros b n [_ H] P; exact (H P)).
  constructor.
  - intros r Hr. apply R, (A r Hr).
  - intros r Hr. apply R, (A r Hr).
  - intros r b c Hr E. apply R. now apply (rf_rc _ _ (A r Hr)).
  - intros r Hr HN. destruct (A r Hr) as [_ _ _ W1 W2 W3]. destruct (r_bwp r) as [b|].
    + exists b. split; [reflexivity|]. apply R. eapply has_less; [now apply W1|]. unfold watchpoint_bytes. lia.
    + specialize (W2 eq_refl). destruct (r_wps r) as [|x l]; [congruence|]. unfold zlen in W3. cbn [length] in W3. lia.
  - intros b t E. apply R. now apply B.
Qed.
Lemma api_fit {A} (m : M world A) w : fits m -> fit w -> match api m w with Done _ w' => fit w' | Raised _ w' => fit w' | Crashed _ => True end.
Proof. intros H F. specialize (H (set_exn w noException [])). unfold api. destruct (m _); auto. Qed.
Lemma fresh_fit w : fresh w -> fit w.
Proof. intro H. split; rewrite H; [constructor|discriminate]. Qed.
Lemma reachable_fit w : reachable w -> fit w.
Proof.
  induction 1 as [w H _|w o w' _ IH _ _ E]; [now apply fresh_fit|]. unfold step in E. pose proof (api_fit (op_run o) w (fits_op o) IH) as H.
  destruct (api _ w); [injection E as <-|injection E as <-|discriminate]; exact H.
Qed.

(** C82, sizes.  After any calls at all, with any arguments, whichever requests the allocator refused. *)
Theorem C82_any ops : forall w w', fresh w -> run ops w = Some w' -> all_fits w'.
Proof.
  assert (K : forall w w', fit w -> run ops w = Some w' -> fit w').
  { induction ops as [|o t IH]; intros w w' F; cbn [run]; [intro E; injection E as <-; exact F|]. unfold step. pose proof (api_fit (op_run o) w (fits_op o) F) as H.
    destruct (api _ w); [eauto|eauto|discriminate]. }
  intros w w' H E. exact (fit_all _ (K w w' (fresh_fit w H) E)).
Qed.

(** C82, the simulator.  After any history of calls without an alias of an alias - whatever they were given, whichever requests the
    allocator refused - every block that the simulator uses is allocated and was asked for with a size that is
    enough for what is kept in it. *)
Theorem C82_history w : reachable w -> all_fits w /\ forall b, in_use w b -> In b (h_live (w_heap w)).
Proof.
  intro HR. split; [now apply fit_all, reachable_fit|]. destruct (reachable_inv _ HR) as (R & [_ (_ & _ & P)]).
  assert (K : forall b, In b (blocks (w_mem w)) -> In b (h_live (w_heap w))).
  { intros b H. eapply Permutation_in; [symmetry; exact P|]. apply in_or_app. now left. }
  assert (K2 : forall r b, In r (regions w) -> In b (rblocks r) -> In b (h_live (w_heap w))).
  { intros r b Hr Hb. apply K. unfold blocks. apply in_or_app. right. apply in_flat_map. eauto. }
  intros b [r Hr|r Hr|r b' c Hr E|r b' Hr E|b' t E].
  - apply (K2 r); [exact Hr|]. unfold rblocks. rewrite !in_app_iff. right. right. right. now left.
  - apply (K2 r); [exact Hr|]. unfold rblocks. rewrite !in_app_iff. right. right. now left.
  - apply (K2 r); [exact Hr|]. unfold rblocks. rewrite E. now left.
  - apply (K2 r); [exact Hr|]. unfold rblocks. rewrite E, !in_app_iff. right. left. now left.
  - apply K. unfold blocks. rewrite E. now left.
Qed.

(** C82, the program.  Whatever the command line and the files are and whichever requests are refused, the
    same holds of the sizes when start-up returns or fails, and after any calls of the monitor. *)
Theorem C82_start args w : fresh w ->
  match api (CrashDebugCommandLine_Init args) w with Done _ w' => all_fits w' | Raised _ w' => all_fits w' | Crashed _ => True end.
Proof.
  intro H. pose proof (api_fit _ w (fits_init args) (fresh_fit w H)) as F. destruct (api _ w); auto; now apply fit_all.
Qed.
Lemma prun_fit ps : forall w w', fit w -> prun ps w = Some w' -> fit w'.
Proof.
  induction ps as [|p ps IH]; intros w w' F; cbn [prun]; [intro E; injection E as <-; exact F|]. unfold pstep. pose proof (api_fit _ w (fits_pcall p) F) as H.
  destruct (api _ w); [eauto|eauto|discriminate].
Qed.
Theorem C82_session args w c w1 w2 ps w3 : fresh w ->
  api (CrashDebugCommandLine_Init args) w = Done c w1 -> api (StandardIComm_Init ;;; mriPlatform_Init) w1 = Done tt w2 -> prun ps w2 = Some w3 -> all_fits w3.
Proof.
  intros H E1 E2 E3. pose proof (api_fit _ w (fits_init args) (fresh_fit w H)) as F. rewrite E1 in F.
  assert (F2 : fit w2) by (injection E2 as <-; exact F). eapply fit_all, prun_fit; eauto.
Qed.

(** C82, files.  The buffer for a file was asked for with exactly the number of bytes read into it. *)
Theorem C82_file name w b d w' : api (loadFileData name) w = Done (b, d) w' -> asked w' b (zlen d).
Proof.
  unfold api. destruct (loadFileData name _) as [[b0 d0] v|v|] eqn:E; try discriminate. intro H. injection H as -> -> ->. exact (file_buffer _ _ _ _ _ E).
Qed.

(** Non-vacuity: two regions with read counters, three watchpoints and a memory map; the sizes asked for. *)
Definition ops_sizes : list op :=
  [OCreate 0 16; OReadOnly 0; OCreate 0x10000000 100; OSet 0x10000000 4 1; OSet 0x10000004 4 1; OSet 0x10000004 4 1; OSet 0x10000008 4 2; OClear 0x10000000 4 1; OXml].
Example C82_example : let w := after env0 ops_sizes in reachable w /\ zlen (regions w) = 2 /\
  map snd (h_sizes (w_heap w)) = [389; 36; 24; 12; 100; 72; 32; 16; 72] /\
  exists r, nth_error (regions w) 1 = Some r /\ zlen (r_wps r) = 2 /\ exists b, r_bwp r = Some b /\ asked w b 36.
Proof.
  cbv zeta. split; [apply after_reachable; vm_compute; reflexivity|]. split; [vm_compute; reflexivity|]. split; [vm_compute; reflexivity|].
  eexists. split; [vm_compute; reflexivity|]. split; [vm_compute; reflexivity|]. eexists. split; [vm_compute; reflexivity|]. vm_compute. reflexivity.
Qed.
Example C82_session_example : fresh (w_dir files_ex) /\
  exists c w1 w2 w3, api (CrashDebugCommandLine_Init args_ex) (w_dir files_ex) = Done c w1 /\ api (StandardIComm_Init ;;; mriPlatform_Init) w1 = Done tt w2 /\
    prun [PMap; PRead 4 0x08000000; PMap] w2 = Some w3 /\ (1 < length (regions w3))%nat /\ m_xml (w_mem w3) <> None.
Proof.
  split; [reflexivity|]. do 4 eexists. split; [vm_compute; reflexivity|]. split; [vm_compute; reflexivity|]. split; [vm_compute; reflexivity|].
  split; [vm_compute; lia|vm_compute; discriminate].
Qed.
Example C82_file_example : exists w', api (loadFileData (s2b "a.bin")) (w_dir files_ex) = Done (0%nat, image_ex) w' /\ asked w' 0 (zlen image_ex) /\ 0 < zlen image_ex.
Proof. eexists. split; [vm_compute; reflexivity|]. split; vm_compute; reflexivity. Qed.

Print Assumptions C82_any.
Print Assumptions C82_history.
Print Assumptions C82_start.
Print Assumptions C82_session.
Print Assumptions C82_file.
