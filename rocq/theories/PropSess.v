(** Property C56: a crashed program stays as it was while it is being debugged. *)
From Coq Require Import String ZArith List Bool Lia ZifyBool ZifyNat.
From Verif Require Import Base World Context MemSim CmdLine Platform Comm BaseLemmas MemSpec MemLemmas MemInv MemHist2 MemThms MemThms3 CmdSpec PlatSpec PlatInit PlatThms PlatSess PlatView PropPlat.
Import ListNotations.
Open Scope Z_scope.
Open Scope m_scope.

(** C56.  However many requests the debugger makes, in whatever order, as long as none of them asks
    for memory or registers to be changed: no register and no byte of memory changes, the same
    accesses are refused, the same fault report is printed, and every request about the program has
    the answer it had before. *)
Theorem C56_frozen w ps w' :
  debug_state w -> Forall pcall_args ps -> existsb changes ps = false -> prun ps w = Some w' ->
  w_ctx w' = w_ctx w /\
  (forall j k, storage (regions w') j k = storage (regions w) j k) /\
  (forall q, pcall_args q -> refused q w' = refused q w) /\
  (forall ls, prints w ls <-> prints w' ls) /\
  (forall q x w1 y w2, pcall_args q -> describes q = true ->
     api (pcall_run q) w = Done x w1 -> api (pcall_run q) w' = Done y w2 -> y = x).
Proof.
  intros HD HA HC HP. pose proof (debug_run ps w w' HD HA HP) as HD'. destruct (changes_split ps HC) as [NS NW].
  pose proof (run_ctx ps w w' HD HA NS HP) as EC. pose proof (run_plain ps w w' HD HA NW HP) as EP.
  split; [exact EC|]. split; [intros j k; now apply plain_storage|]. split; [intros q Hq; now apply refused_view|]. split.
  - intro ls. pose proof (report_view w w' HD HD' EP EC) as ER. destruct (C45_report w HD) as (u & U1 & U2 & _), (C45_report w' HD') as (u' & V1 & V2 & _).
    split; intro PL; apply prints_report in PL; try assumption; subst ls; [rewrite <- ER; now exists u'|rewrite ER; now exists u].
  - intros q x w1 y w2 Hq Hd E1 E2. exact (describes_view q w w' x y w1 w2 HD HD' Hq Hd EP EC E1 E2).
Qed.

Definition quiet_ex : list pcall :=
  [PControl KEnter; PCause; PReport; PTRegs; PGetRegs; PRead 4 0x20000000; PRead 2 5; PControl (KSetBreak 0x100 2); PControl (KSetPC 0x100);
   PControl KStepOn; PFaults; PSend 65; PHasData; PMapSize; PMap; PControl KLeave].
Example C56_frozen_example : debug_state (set_exn w_plat noException []) /\ Forall pcall_args quiet_ex /\ existsb changes quiet_ex = false /\
  exists w', prun quiet_ex (set_exn w_plat noException []) = Some w' /\ length (w_gdb w') <> length (w_gdb w_plat).
Proof.
  split; [apply plat_debug|]. split; [unfold quiet_ex; repeat (apply Forall_cons; [cbn [pcall_args]; unfold width; auto|]); apply Forall_nil|]. split; [reflexivity|].
  eexists. split; [vm_compute; reflexivity|]. vm_compute. discriminate.
Qed.

(** C56.  Nothing makes the program run: single stepping, moving the program counter, breakpoints,
    watchpoints, semihost calls and interrupts have the answer of a target that is halted for good,
    leave the state as it is ... *)
Theorem C56_control w c :
  api (pcall_run (PControl c)) w = Done (frozen_answer c) (set_exn w noException []).
Proof. destruct c; reflexivity. Qed.

(** ... and a session goes exactly as it would without these requests. *)
Theorem C56_control_dropped w ps w' :
  prun ps w = Some w' ->
  exists w'', prun (filter (fun p => match p with PControl _ => false | _ => true end) ps) w = Some w'' /\ exists c t, w' = set_exn w'' c t.
Proof.
  intro H. destruct (drop_control ps w w' H) as (w'' & E & X). exists w''. split; [|exact X]. rewrite <- E. f_equal. apply filter_ext. intros []; reflexivity.
Qed.
Example C56_control_example : exists w', prun (PSetRegs (concat (repeat (s2b "Ab") 76)) :: quiet_ex ++ [PWrite 4 0x20000000 7]) (set_exn w_plat noException []) = Some w' /\
  w_ctx w' <> w_ctx w_plat /\ storage (regions w') 1 0 = Some 7.
Proof. eexists. split; [vm_compute; reflexivity|]. split; [vm_compute; discriminate|vm_compute; reflexivity]. Qed.

(** C56.  Whatever the debugger does, the layout of the memory stays, and so does every byte that
    none of its writes lies over. *)
Theorem C56_untouched w ps w' j k :
  debug_state w -> Forall pcall_args ps -> prun ps w = Some w' ->
  (forall n a v, In (PWrite n a v) ps -> ~ touches (regions w) (OWrite n (W a) v) j k) ->
  Forall2 same_layout (regions w) (regions w') /\ storage (regions w') j k = storage (regions w) j k.
Proof. intros HD HA HP HT. now apply (run_storage ps). Qed.

(** C56.  What the debugger has written is what it reads later, unless it has written over it. *)
Theorem C56_read_back w n a v w1 ps w2 x w3 :
  debug_state w -> width n -> refused (PWrite n a v) w = false -> pstep (PWrite n a v) w = Some w1 ->
  Forall pcall_args ps -> prun ps w1 = Some w2 ->
  (forall m b u j k, In (PWrite m b u) ps -> touches (regions w) (OWrite n (W a) v) j k -> ~ touches (regions w) (OWrite m (W b) u) j k) ->
  refused (PRead n a) w2 = false -> api (pcall_run (PRead n a)) w2 = Done x w3 -> x = [v mod 2 ^ (8 * n)].
Proof. intros HD Hn HR HP HA HPS HT HR2 HX. exact (session_read_back w n a v w1 ps w2 x w3 HD Hn HR HP HA HPS HT HR2 HX). Qed.

(** Registers: they change only when set (what they are then is C42). *)
Theorem C56_registers w ps w' :
  debug_state w -> Forall pcall_args ps -> (forall t, ~ In (PSetRegs t) ps) -> prun ps w = Some w' -> w_ctx w' = w_ctx w.
Proof.
  intros HD HA HN HP. apply (run_ctx ps w w' HD HA); [|exact HP]. destruct (existsb is_set ps) eqn:E; [|reflexivity]. apply existsb_exists in E.
  destruct E as (p & HIn & Hp). destruct p; try discriminate. destruct (HN _ HIn).
Qed.

Example C56_read_back_example : exists w1 w2 x w3,
  refused (PWrite 4 0x20000000 0x1234567890) (set_exn w_plat noException []) = false /\
  pstep (PWrite 4 0x20000000 0x1234567890) (set_exn w_plat noException []) = Some w1 /\
  prun (PWrite 4 0x20000004 9 :: PWrite 1 0 5 :: PSetRegs [] :: quiet_ex) w1 = Some w2 /\ refused (PRead 4 0x20000000) w2 = false /\
  api (pcall_run (PRead 4 0x20000000)) w2 = Done x w3 /\ x = [0x34567890] /\
  storage (regions w2) 1 4 = Some 9 /\ storage (regions w2) 1 8 = storage (regions w_plat) 1 8.
Proof.
  eexists _, _, _, _. split; [vm_compute; reflexivity|]. split; [vm_compute; reflexivity|]. split; [vm_compute; reflexivity|]. split; [vm_compute; reflexivity|].
  split; [vm_compute; reflexivity|]. split; [vm_compute; reflexivity|]. split; [vm_compute; reflexivity|]. vm_compute. reflexivity.
Qed.
(** None of these writes lies over the first one. *)
Example C56_read_back_apart m b u j k : In (PWrite m b u) [PWrite 4 0x20000004 9; PWrite 1 0 5] ->
  touches (regions w_plat) (OWrite 4 (W 0x20000000) 0x1234567890) j k -> ~ touches (regions w_plat) (OWrite m (W b) u) j k.
Proof.
  assert (T : forall n a v, touches (regions w_plat) (OWrite n a v) j k ->
    (j = 0%nat /\ 0xE000ED28 <= a /\ a + n <= 0xE000ED28 + 20 /\ a - 0xE000ED28 <= k < a - 0xE000ED28 + n) \/
    (j = 1%nat /\ 0x20000000 <= a /\ a + n <= 0x20000000 + 16 /\ a - 0x20000000 <= k < a - 0x20000000 + n)).
  { intros n a v (k' & (i & r & (E & C & _) & D) & B). destruct i as [|[|i]]; [..|destruct i; discriminate]; vm_compute in E; injection E as <-; cbn in C, D;
      destruct C, D; subst; [left|right]; cbn [r_base r_size] in *; lia. }
  intros HIn H1 H2. destruct HIn as [X|[X|[]]]; injection X as <- <- <-; apply T in H1, H2; unfold W in *; lia.
Qed.

Print Assumptions C56_frozen.
Print Assumptions C56_control.
Print Assumptions C56_control_dropped.
Print Assumptions C56_untouched.
Print Assumptions C56_read_back.
Print Assumptions C56_registers.
