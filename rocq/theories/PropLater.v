(** Property C53 across a session: the sizes announced once hold for the texts supplied at any later time. *)
From Coq Require Import String ZArith List Bool Lia ZifyBool ZifyNat.
From Verif Require Import Base World Context MemSim CmdLine Platform Comm BaseLemmas MemSpec MemLemmas MemInv MemHist2 MemThms MemThms3 CmdSpec PlatSpec PlatInit PlatThms PlatSess PlatView GdbView PropPlat PropSess.
Import ListNotations.
Open Scope Z_scope.
Open Scope m_scope.

Lemma run_map ps w w' : debug_state w -> Forall pcall_args ps -> prun ps w = Some w' -> map_text (regions w') = map_text (regions w).
Proof.
  intros HD HA HP. pose proof (run_kept ps w w' HD HA HP) as K. unfold map_text. f_equal. f_equal.
  induction K as [|r r' rs rs' ((E1 & E2 & _) & _ & E3 & _) _ IH]; [reflexivity|]. cbn [flat_map]. rewrite IH. f_equal. unfold map_line. now rewrite E1, E2, E3.
Qed.
Lemma run_flags ps : forall w w', debug_state w -> Forall pcall_args ps -> prun ps w = Some w' -> word_at (w_ctx w') 0 = word_at (w_ctx w) 0 /\ word_at (w_ctx w') 80 = word_at (w_ctx w) 80.
Proof.
  induction ps as [|p ps IH]; intros w w' HD HA HP; cbn [prun] in HP; [injection HP as <-; now split|].
  inversion HA; subst. destruct (pstep p w) as [w1|] eqn:E; [|discriminate]. destruct (IH w1 w' (ds_call _ _ _ HD H1 E) H2 HP) as (I1 & I2).
  destruct (is_set p) eqn:ES; [|destruct (debug_moves p w w1 HD H1 E) as (M & _ & _); rewrite I1, I2, (M ES); now split].
  destruct p; try discriminate. destruct (debug_state_good _ HD) as (R & (HI & HL & HB) & HF).
  pose proof (set_regs_any packet (set_exn w noException []) HL HB) as P. unfold pstep, api in E. cbn [pcall_run] in E.
  destruct (Platform_CopyContextFromBuffer _ _) as [x wx|wx|]; [| |discriminate]; injection E as <-.
  - destruct P as (c & (_ & _ & O1 & O2 & _) & ->). cbn [w_ctx set_ctx] in *. now rewrite I1, I2, O1, O2.
  - destruct P as (c & e & m & (_ & _ & O1 & O2 & _) & _ & ->). cbn [w_ctx set_ctx set_exn] in *. now rewrite I1, I2, O1, O2.
Qed.

Lemma size_value w s w1 : debug_state w -> api (pcall_run PMapSize) w = Done s w1 -> s = [zlen (map_text (regions w))].
Proof.
  intros H E. rewrite map_text_eq. unfold api in E. cbn [pcall_run] in E. unfold num, Platform_GetDeviceMemoryMapXmlSize, bind, ret in E.
  destruct (MemorySim_GetMemoryMapXML (set_exn w noException [])) as [x w'|w'|] eqn:X; try discriminate. injection E as <- _.
  now rewrite (xml_value w x w') by (unfold api; now rewrite X).
Qed.
Lemma done_state p w x w1 : debug_state w -> pcall_args p -> api (pcall_run p) w = Done x w1 -> pstep p w = Some w1 /\ debug_state w1.
Proof. intros HD HA E. assert (X : pstep p w = Some w1) by (unfold pstep; now rewrite E). split; [exact X|]. eapply ds_call; eassumption. Qed.

(** C53.  The size of the memory map announced at one time is the length of the map supplied at any later
    time, whatever the debugger does in between. *)
Theorem C53_map_later w s w1 ps w2 xml w3 :
  debug_state w -> api (pcall_run PMapSize) w = Done s w1 -> Forall pcall_args ps -> prun ps w1 = Some w2 ->
  api (pcall_run PMap) w2 = Done xml w3 -> s = [zlen xml].
Proof.
  intros HD E1 HA HP E2. destruct (done_state PMapSize w s w1 HD I E1) as (X & HD1). pose proof (debug_run ps w1 w2 HD1 HA HP) as HD2.
  rewrite (size_value w s w1 HD E1), (C53_map_text w2 xml w3 HD2 E2), (run_map ps w1 w2 HD1 HA HP). rewrite (run_map [PMapSize] w w1 HD); [reflexivity|repeat constructor|]. cbn [prun]. now rewrite X.
Qed.

(** C53.  The same for the target description. *)
Theorem C53_target_later w s w1 ps w2 xml w3 :
  debug_state w -> api (pcall_run PTargetSize) w = Done s w1 -> Forall pcall_args ps -> prun ps w1 = Some w2 ->
  api (pcall_run PTarget) w2 = Done xml w3 -> s = [zlen xml].
Proof.
  intros HD E1 HA HP E2. destruct (C53_target w HD) as (x & A1 & A2). rewrite A2 in E1. injection E1 as <- <-. destruct (done_state PTarget w x _ HD I A1) as (_ & HD1).
  pose proof (debug_run ps _ w2 HD1 HA HP) as HD2. destruct (run_flags ps _ _ HD1 HA HP) as (F & _).
  f_equal. f_equal. destruct (debug_state_good _ HD) as (R & (_ & HL & _) & _), (debug_state_good _ HD2) as (R2 & (_ & HL2 & _) & _).
  unfold api in A1, E2. cbn [pcall_run] in A1, E2. unfold Platform_GetTargetXml, bind in A1, E2. rewrite fpu_run in A1 by exact HL. rewrite fpu_run in E2 by exact HL2. cbn [w_ctx set_exn] in *.
  unfold ret in *. injection A1 as <-. injection E2 as <- _. unfold has_fpu. now rewrite F.
Qed.

(** C53.  No text ever changes during a session, either. *)
Theorem C53_same_texts w p x w1 ps w2 y w3 :
  debug_state w -> p = PMap \/ p = PMapSize \/ p = PTarget \/ p = PTargetSize ->
  api (pcall_run p) w = Done x w1 -> Forall pcall_args ps -> prun ps w1 = Some w2 -> api (pcall_run p) w2 = Done y w3 -> y = x.
Proof.
  intros HD Hp E1 HA HP E2. assert (PA : pcall_args p) by (destruct Hp as [->|[->|[->| ->]]]; exact I). destruct (done_state p w x w1 HD PA E1) as (X & HD1).
  pose proof (debug_run ps w1 w2 HD1 HA HP) as HD2. assert (HP' : prun (p :: ps) w = Some w2) by (cbn [prun]; now rewrite X).
  pose proof (run_map (p :: ps) w w2 HD (Forall_cons _ PA HA) HP') as EM. destruct (run_flags (p :: ps) w w2 HD (Forall_cons _ PA HA) HP') as (F & _).
  destruct Hp as [->|[->|[->| ->]]].
  - now rewrite (C53_map_text w x w1 HD E1), (C53_map_text w2 y w3 HD2 E2).
  - rewrite (size_value w x w1 HD E1), (size_value w2 y w3 HD2 E2). now rewrite EM.
  - destruct (C53_target w HD) as (t & T1 & T2), (C53_target w2 HD2) as (u & U1 & U2). rewrite T1 in E1. rewrite U1 in E2. injection E1 as <- _. injection E2 as <- _.
    destruct (debug_state_good _ HD) as (R & (_ & HL & _) & _), (debug_state_good _ HD2) as (R2 & (_ & HL2 & _) & _).
    unfold api in T1, U1. cbn [pcall_run] in T1, U1. unfold Platform_GetTargetXml, bind in T1, U1. rewrite fpu_run in T1 by exact HL. rewrite fpu_run in U1 by exact HL2. cbn [w_ctx set_exn] in *.
    unfold ret in *. injection T1 as <-. injection U1 as <-. unfold has_fpu. now rewrite F.
  - destruct (C53_target w HD) as (t & T1 & T2), (C53_target w2 HD2) as (u & U1 & U2). rewrite T2 in E1. rewrite U2 in E2. injection E1 as <- <-. injection E2 as <- _.
    rewrite (C53_target_later w [zlen t] _ ps w2 u _ HD T2 HA HP U1) at 1. reflexivity.
Qed.

(** C42.  The target description supplied at one time declares the registers of the packet sent at any
    later time, also after registers were set. *)
Theorem C42_later w xml w1 ps w2 packet w3 :
  debug_state w -> api (pcall_run PTarget) w = Done xml w1 -> Forall pcall_args ps -> prun ps w1 = Some w2 ->
  api (pcall_run PGetRegs) w2 = Done packet w3 -> total (reg_bits xml) = 4 * zlen packet.
Proof.
  intros HD E1 HA HP E2. destruct (done_state PTarget w xml w1 HD I E1) as (X & HD1). pose proof (debug_run ps w1 w2 HD1 HA HP) as HD2.
  destruct (C42_declared w2 HD2) as (q & v1 & x & v2 & A1 & A2 & A3 & _). rewrite A1 in E2. injection E2 as <- _.
  now rewrite <- (C53_same_texts w PTarget xml w1 ps w2 x v2 HD ltac:(auto) E1 HA HP A2).
Qed.

(** C44.  The same signal is reported throughout a session. *)
Theorem C44_stays w ps w' : debug_state w -> Forall pcall_args ps -> prun ps w = Some w' ->
  outcome_of (api (pcall_run PCause) w') = outcome_of (api (pcall_run PCause) w).
Proof.
  intros HD HA HP. apply C44_low_bits; [eapply debug_run; eassumption|exact HD|]. destruct (run_flags ps w w' HD HA HP) as (_ & ->). now rewrite Z.sub_diag.
Qed.

Example C44_stays_example : exists w',
  let ps := [PSetRegs (concat (repeat (s2b "Ab") 208)); PWrite 4 0x20000000 7] in
  Forall pcall_args ps /\ prun ps (set_exn w_plat noException []) = Some w' /\ w_ctx w' <> w_ctx w_plat /\
  exists xml w1 packet w3, api (pcall_run PTarget) (set_exn w_plat noException []) = Done xml w1 /\ api (pcall_run PGetRegs) w' = Done packet w3 /\ zlen packet = 416.
Proof.
  eexists. cbv zeta. split; [repeat constructor; unfold pcall_args, width; lia|]. split; [vm_compute; reflexivity|]. split; [vm_compute; discriminate|].
  eexists _, _, _, _. split; [vm_compute; reflexivity|]. split; [vm_compute; reflexivity|]. vm_compute. reflexivity.
Qed.

Example C53_later_example : exists s w1 w2 xml w3,
  let ps := [PSetRegs (concat (repeat (s2b "Ab") 208)); PWrite 4 0x20000000 7; PMapSize; PRead 2 0; PMap] in
  api (pcall_run PMapSize) (set_exn w_plat noException []) = Done s w1 /\ Forall pcall_args ps /\ prun ps w1 = Some w2 /\
  api (pcall_run PMap) w2 = Done xml w3 /\ w_ctx w2 <> w_ctx w1 /\ storage (regions w2) 1 0 <> storage (regions w1) 1 0.
Proof.
  eexists _, _, _, _, _. cbv zeta. split; [vm_compute; reflexivity|]. split; [repeat constructor; unfold pcall_args, width; lia|]. split; [vm_compute; reflexivity|].
  split; [vm_compute; reflexivity|]. split; vm_compute; discriminate.
Qed.

Print Assumptions C53_map_later.
Print Assumptions C53_target_later.
Print Assumptions C53_same_texts.
Print Assumptions C42_later.
Print Assumptions C44_stays.
