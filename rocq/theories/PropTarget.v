(** Property C76: a debug session behaves like the target that its files describe. *)
From Coq Require Import String ZArith List Bool Lia ZifyBool ZifyNat.
From Verif Require Import Base World Context MemSim CmdLine Platform Comm BaseLemmas MemSpec DumpSpec CmdSpec AliasSpec PlatSpec GdbSpec TargetSpec TargetThms PropMem PropDump PropCmd PropGdb.
Import ListNotations.
Open Scope Z_scope.
Open Scope m_scope.

(** C76.  Whatever the monitor calls, in whatever order, every reply, every refusal and every line
    printed is the one that the target made from the command line, the image and the dump gives: its
    memory is that of the parts, seen directly or through aliases, with the writes to the dump's
    memory made so far; its registers are the dump's, with the packets accepted so far; its count is
    that of the failed accesses since the last query. *)
Theorem C76_session : exists xml, (forall fpu, declares fpu (xml fpu)) /\
  forall os ms mem regs w, session_of os ms mem regs w ->
  exists ctx, regs ctx /\
  forall ps w', Forall pcall_args ps -> prun ps w = Some w' ->
  exists es t', map (fun e => fst (fst e)) es = ps /\ happens w es w' /\ expected xml (target_of os ms mem ctx) es t'.
Proof.
  exists target_xml. split; [intros []; split; vm_compute; reflexivity|]. intros os ms mem regs w HS.
  destruct (session_mirrors _ _ _ _ _ HS (session_grounded _ _ _ _ _ HS)) as (HR & HM). exists (w_ctx w). split; [exact HR|].
  intros ps w' HA HP. exact (target_run ps w _ w' HM HA HP).
Qed.

(** C76.  The session goes on whatever the calls are, for 2^31 calls at least (then the counter of
    failed accesses could overflow), if there are not so many parts and aliases that the memory map
    does not fit in memory. *)
Theorem C76_runs os ms mem regs w ps : session_of os ms mem regs w -> Forall pcall_args ps ->
  zlen ps < 2147483648 -> zlen ms + zlen mem + zlen (aliases os) < 19522000 -> exists w', prun ps w = Some w'.
Proof. apply session_total. Qed.

(** C76.  The target leaves nothing open but the channel to the debugger and the memory for the memory
    map: the calls determine all replies, all printed lines, and the target afterwards. *)
Theorem C76_determined xml t es1 t1 es2 t2 : expected xml t es1 t1 -> expected xml t es2 t2 ->
  map (fun e => fst (fst e)) es1 = map (fun e => fst (fst e)) es2 ->
  (forall p r ls, In (p, r, ls) (es1 ++ es2) -> ~ channel_call p /\ (p = PMap \/ p = PMapSize -> r <> Refuses)) ->
  es1 = es2 /\ t1 = t2.
Proof.
  intro H. revert es2 t2. induction H as [t|t p r ls ta es t' HR HE IH]; intros es2 t2 H2 EM HC; inversion H2 as [|t0 p2 r2 ls2 tb es' t2' HR2 HE2]; subst; cbn [map fst] in EM; try discriminate; [auto|].
  injection EM as <- EM. destruct (HC p r ls) as [N1 M1]; [apply in_or_app; left; now left|]. destruct (HC p r2 ls2) as [_ M2]; [apply in_or_app; right; now left|].
  destruct (responds_one _ _ _ _ _ _ _ _ _ HR HR2 N1) as (-> & -> & ->); [auto|]. destruct (IH _ _ HE2 EM) as [-> ->]; [|auto].
  intros q s l Hin. apply (HC q s l). apply in_app_or in Hin as [Hin|Hin]; apply in_or_app; [left|right]; now right.
Qed.

(** The session of C57_example: writing through the alias changes the dump's memory, writing to the
    image fails and is counted, a register packet that breaks off after two bytes changes two bytes. *)
Definition calls_t : list pcall := [PWrite 2 0x30000000 0x1234; PRead 4 0x20000000; PWrite 1 0x08000000 1; PRead 1 0x08000000; PFaults; PSetRegs (s2b "12fFxy"); PGetRegs; PCause].
Example C76_example : exists w w' t',
  session_of opts_ex [(0x08000000, image_ex)] (d_mem d_ex) (fun ctx => ctx = context d_ex (repeat 0 216)) w /\ prun calls_t w = Some w' /\ Forall pcall_args calls_t /\
  expected (fun _ => []) (target_of opts_ex [(0x08000000, image_ex)] (d_mem d_ex) (context d_ex (repeat 0 216)))
    (combine (combine calls_t [Says []; Says [0x04031234]; Says []; Says [0]; Says [1]; Refuses;
       Says (hex_text ([0x12; 0xFF] ++ skipn 2 (register_bytes (context d_ex (repeat 0 216))))); Says [signal_for (word_at (context d_ex (repeat 0 216)) 80 mod 256)]]) (repeat [] 8)) t' /\
  map p_bytes (t_parts t') = [image_ex; [0x34; 0x12; 3; 4; 5]] ++ map snd (skipn 1 (d_mem d_ex)) /\ t_faults t' = 0.
Proof.
  destruct session_ex as (w & HS & _). destruct (C76_runs _ _ _ _ _ calls_t HS) as (w' & HP); [repeat (apply Forall_cons; [cbn; unfold width; auto|]); constructor|reflexivity|reflexivity|].
  exists w, w'. eexists. split; [exact HS|]. split; [exact HP|]. split; [repeat (apply Forall_cons; [cbn; unfold width; auto|]); constructor|]. cbn [calls_t combine repeat].
  split.
  - eapply ex_event; [eapply re_write; vm_compute; reflexivity|]. eapply ex_event; [eapply re_read; vm_compute; reflexivity|]. eapply ex_event; [eapply re_write_off; vm_compute; reflexivity|].
    eapply ex_event; [eapply re_read; vm_compute; reflexivity|]. eapply ex_event; [apply re_faults|].
    eapply ex_event; [apply (re_set_bad _ _ [0x12; 0xFF] (s2b "12fF") (s2b "xy")); [repeat (constructor; [unfold byte; lia|reflexivity|reflexivity|]); constructor|vm_compute; lia|intros x y l E; injection E as <- <- _; now left]|].
    match goal with |- expected _ ?t _ _ => set (tt := t) end. eapply ex_event; [replace (hex_text _) with (hex_text (register_bytes (t_regs tt))) by (vm_compute; reflexivity); apply re_get|].
    eapply ex_event; [replace (signal_for _) with (signal_for (word_at (t_regs tt) 80 mod 256)) by (vm_compute; reflexivity); apply re_cause|]. apply ex_nil.
  - vm_compute. auto.
Qed.

Print Assumptions C76_session.
Print Assumptions C76_runs.
Print Assumptions C76_determined.
