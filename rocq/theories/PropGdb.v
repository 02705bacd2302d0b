(** Property C57: what the debugger shows is what the files say. *)
From Coq Require Import String ZArith List Bool Lia ZifyBool ZifyNat.
From Verif Require Import Base World Context MemSim CmdLine Platform Comm BaseLemmas MemSpec MemLemmas MemInv MemHist2 MemThms MemThms3 DumpSpec ElfSpec CmdSpec CmdFull AliasSpec CmdAlias PlatSpec PlatInit PlatThms PlatSess PlatView GdbSpec GdbView MemEx PropMem PropDump PropElf PropPlat PropSess PropCmd PropAlias.
Import ListNotations.
Open Scope Z_scope.
Open Scope m_scope.

Ltac open_session := match goal with H : session_of _ _ _ _ _ |- _ =>
  destruct H as (args & f & data & w0 & c & w1 & H1 & H2 & H3 & H4 & H5 & H6 & H7 & H8 & H9 & H10 & H11 & H12 & H13 & H14) end.

Lemma shown w n a v : debug_state w -> width n -> u32 a -> (exists w', api (readN n a) w = Done v w') -> shows w n a v.
Proof. intros HD Hn Ha (w' & E). pose proof (platform_read w a n HD Hn Ha) as P. rewrite E in P. exact P. Qed.
Lemma part_address ms mem base bs i n : fit [] (ms ++ mem) -> u32 base -> In (base, bs) (ms ++ mem) -> width n -> 0 <= i -> i + n <= zlen bs -> u32 (base + i).
Proof.
  intros (F1 & _) Hb Hin Hn Hi Hl. pose proof (proj1 (Forall_forall _ _) F1 _ Hin) as FP. unfold u32, width in *. cbn [fst snd] in FP. lia.
Qed.

(** C57.  As long as the debugger changes nothing, every byte, half-word and word that it reads within
    the image or the dump is the one in the file, whatever it has done before. *)
Theorem C57_memory os ms mem regs w ps w' n a v :
  session_of os ms mem regs w -> Forall pcall_args ps -> existsb changes ps = false -> prun ps w = Some w' ->
  width n -> number_at (ms ++ mem) n a v -> shows w' n a v.
Proof.
  intros H HA HC HP Hn (base & bs & i & Hin & Hi & Hl & -> & ->). open_session.
  apply shown; [eapply debug_run; [eapply session_debug; eassumption|eassumption|eassumption]|exact Hn| |].
  - eapply part_address; [eassumption| |eassumption|eassumption|eassumption|eassumption]. change base with (fst (base, bs)). eapply session_bases; eassumption.
  - assert (HR : readable w' (ms ++ mem)) by (eapply session_memory; eassumption). now apply HR.
Qed.

(** C57.  Within the image this holds even if the debugger writes: the image cannot be changed. *)
Theorem C57_image os ms mem regs w ps w' n a v :
  session_of os ms mem regs w -> Forall pcall_args ps -> prun ps w = Some w' ->
  width n -> number_at ms n a v -> shows w' n a v.
Proof.
  intros H HA HP Hn (base & bs & i & Hin & Hi & Hl & -> & ->). open_session.
  assert (Hin2 : In (base, bs) (ms ++ mem)) by (apply in_or_app; now left).
  apply shown; [eapply debug_run; [eapply session_debug; eassumption|eassumption|eassumption]|exact Hn| |].
  - eapply part_address; [eassumption| |eassumption|eassumption|eassumption|eassumption]. change base with (fst (base, bs)). eapply session_bases; eassumption.
  - assert (HR : readable w' ms) by (eapply session_image; eassumption). now apply HR.
Qed.

(** C57.  As long as the debugger sets no registers, those it is shown are the dump's, and so is the
    reason for the stop. *)
Theorem C57_registers os ms mem regs w ps w' :
  session_of os ms mem regs w -> Forall pcall_args ps -> (forall t, ~ In (PSetRegs t) ps) -> prun ps w = Some w' ->
  exists ctx w1 w2, regs ctx /\ api (pcall_run PGetRegs) w' = Done (hex_text (register_bytes ctx)) w1 /\
    api (pcall_run PCause) w' = Done [signal_for (word_at ctx 80 mod 256)] w2.
Proof.
  intros H HA HN HP. open_session. assert (HD : debug_state w') by (eapply debug_run; [eapply session_debug; eassumption|eassumption|eassumption]).
  exists (w_ctx w'). eexists _, _. split; [|split; [apply (C42_read _ HD)|apply (C44_signal _ HD)]].
  eapply session_context; try eassumption. destruct (existsb is_set ps) eqn:E; [|reflexivity]. apply existsb_exists in E.
  destruct E as (p & HIn & Hp). destruct p; try discriminate. destruct (HN _ HIn).
Qed.

(** C57.  Bytes, half-words and words that lie in no part but within an alias show the number it leads to
    (the first such alias counts); those from which no alias leads show 0 and count as a failed
    access. *)
Theorem C57_aliases os ms mem regs w ps w' :
  session_of os ms mem regs w -> Forall (grounded (ms ++ mem)) (aliases os) ->
  Forall pcall_args ps -> existsb changes ps = false -> prun ps w = Some w' ->
  forall n a, width n -> u32 a -> in_no_part (ms ++ mem) n a ->
  (forall before al after a' v, aliases os = before ++ al :: after ->
     (forall x y, In x before -> ~ leads (ms ++ mem) x n a y) -> leads (ms ++ mem) al n a a' -> number_at (ms ++ mem) n a' v -> shows w' n a v) /\
  ((forall al y, In al (aliases os) -> ~ leads (ms ++ mem) al n a y) ->
     refused (PRead n a) w' = true /\ (w_faults w' < 2147483647 -> exists w2, api (pcall_run (PRead n a)) w' = Done [0] w2 /\ w_faults w2 = w_faults w' + 1)).
Proof.
  intros H HG HA HC HP n a Hn Ha HO. open_session. assert (HD : debug_state w') by (eapply debug_run; [eapply session_debug; eassumption|eassumption|eassumption]).
  assert (HS : exists rs l, wf (regions w') /\ regions w' = rs ++ l /\ Forall2 CmdFull.holds rs (ms ++ mem) /\ (Forall (grounded (ms ++ mem)) (aliases os) -> Forall2 (alias_of rs) l (aliases os))) by (eapply session_split; eassumption).
  destruct HS as (rs & l & HW & ER & HH & HL). split.
  - intros before al after a' v EA HB HLd Hb. apply shown; [exact HD|exact Hn|exact Ha|]. eapply read_alias; eauto.
  - intros HLd. assert (E : api (readN n a) w' = Raised busErrorException (set_exn w' busErrorException [])) by (eapply read_nothing; eauto).
    pose proof (platform_read w' a n HD Hn Ha) as P. rewrite E in P. split; [exact P|]. intro HFa.
    pose proof (C43_read w' n a HD Hn) as C. destruct (api (pcall_run (PRead n a)) w') as [x w2|c2 w2|u]; [|destruct C|destruct C; lia].
    destruct C as [(C1 & _)|(_ & -> & C2 & _)]; [congruence|]. exists w2. auto.
Qed.

(** C57.  The fault report (C45) is about the fault registers that the files contain. *)
Theorem C57_fault_registers os ms mem regs w ps w' a :
  session_of os ms mem regs w -> Forall pcall_args ps -> existsb changes ps = false -> prun ps w = Some w' -> u32 a ->
  (forall v, number_at (ms ++ mem) 4 a v -> fault_register w' a = Some v) /\
  (aliases os = [] -> in_no_part (ms ++ mem) 4 a -> fault_register w' a = None).
Proof.
  intros H HA HC HP Ha. split.
  - intros v (base & bs & i & Hin & Hi & Hl & -> & ->). open_session. assert (HR : readable w' (ms ++ mem)) by (eapply session_memory; eassumption).
    destruct (HR base bs i 4 Hin ltac:(unfold width; auto) Hi Hl) as (w2 & E). unfold fault_register. now rewrite E.
  - intros HN HO. open_session.
    assert (HS : exists rs l, wf (regions w') /\ regions w' = rs ++ l /\ Forall2 CmdFull.holds rs (ms ++ mem) /\ (Forall (grounded (ms ++ mem)) (aliases os) -> Forall2 (alias_of rs) l (aliases os))) by (eapply session_split; eassumption).
    destruct HS as (rs & l & HW & ER & HH & HL). rewrite HN in HL. specialize (HL (Forall_nil _)).
    unfold fault_register. erewrite read_nothing; try eassumption; [reflexivity|unfold width; auto|intros al y []].
Qed.

(** A session with an image, a dump (memory at 0x20000000 and 0x10000000) and an alias, and what the
    debugger sees after a while. *)
Lemma session_ex : exists w, session_of opts_ex [(0x08000000, image_ex)] (d_mem d_ex) (fun ctx => ctx = context d_ex (repeat 0 216)) w /\
  exists w', prun quiet_ex w = Some w' /\
    outcome_of (api (pcall_run (PRead 4 0x20000001)) w') = Value [0x05040302] /\ outcome_of (api (pcall_run (PRead 4 0x20000002)) w') = Value [0] /\
    outcome_of (api (pcall_run (PRead 1 0x30000002)) w') = Value [3] /\
    exists w2, prun [PWrite 2 0x08000000 5; PWrite 2 0x20000000 5] w' = Some w2 /\ refused (PWrite 2 0x08000000 5) w' = true /\
    outcome_of (api (pcall_run (PRead 2 0x08000000)) w2) = Value [0x1000] /\ outcome_of (api (pcall_run (PRead 2 0x20000000)) w2) = Value [5].
Proof.
  eexists. split.
  - exists args_ex, (s2b "c.dmp"), (encode d_ex), (w_dir files_ex). eexists _, _.
    split; [apply start_sane|]. split; [intro; reflexivity|]. split; [reflexivity|]. split.
    { split; [exact ex_bytes|]. intros f data (b & a & E & _). exfalso. assert (X : In (Elf f) opts_ex) by (rewrite E; apply in_or_app; right; now left).
      destruct X as [X|[X|[X|[]]]]; discriminate. }
    split; [apply ex_spells|]. split; [apply ex_complete|]. split.
    { intros b x s r m x' s' r' a E. apply (f_equal (fun l => length (filter is_alias l))) in E. exfalso. revert E. rewrite filter_app. cbn [filter is_alias app]. rewrite app_length. cbn [length].
      rewrite filter_app. cbn [filter is_alias]. rewrite app_length. cbn [length]. change (length (filter is_alias opts_ex)) with 1%nat. lia. }
    split; [apply ex_parts|]. split; [apply ex_uses|]. split; [vm_compute; reflexivity|]. split; [apply dm_dump; [apply ex_valid|now left]|]. split; [fits|].
    split; [vm_compute; reflexivity|]. vm_compute. reflexivity.
  - eexists. split; [vm_compute; reflexivity|]. split; [vm_compute; reflexivity|]. split; [vm_compute; reflexivity|]. split; [vm_compute; reflexivity|].
    eexists. split; [vm_compute; reflexivity|]. split; [vm_compute; reflexivity|]. split; vm_compute; reflexivity.
Qed.
Example C57_example :
  number_at ([(0x08000000, image_ex)] ++ d_mem d_ex) 4 0x20000001 0x05040302 /\ number_at [(0x08000000, image_ex)] 2 0x08000000 0x1000 /\
  Forall (grounded ([(0x08000000, image_ex)] ++ d_mem d_ex)) (aliases opts_ex) /\
  leads ([(0x08000000, image_ex)] ++ d_mem d_ex) (0x30000000, 4, 0x20000000) 2 0x30000002 0x20000002 /\ number_at ([(0x08000000, image_ex)] ++ d_mem d_ex) 2 0x20000002 0x403.
Proof.
  split; [exists 0x20000000, [1; 2; 3; 4; 5], 1; repeat split; [right; now left|lia|vm_compute; congruence]|].
  split; [exists 0x08000000, image_ex, 0; repeat split; [now left|lia|vm_compute; congruence]|].
  split; [apply Forall_cons; [exists (0x20000000, [1; 2; 3; 4; 5]); split; [right; now left|vm_compute; split; congruence]|apply Forall_nil]|].
  split; [split; [lia|]; split; [lia|]; split; [lia|]; exists (0x20000000, [1; 2; 3; 4; 5]); split; [right; now left|]; split; vm_compute; split; congruence|].
  exists 0x20000000, [1; 2; 3; 4; 5], 2. repeat split; [right; now left|lia|vm_compute; congruence].
Qed.

Print Assumptions C57_memory.
Print Assumptions C57_image.
Print Assumptions C57_registers.
Print Assumptions C57_aliases.
Print Assumptions C57_fault_registers.
