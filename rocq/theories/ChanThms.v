(** Only the calls of the channel touch the console. *)
From Coq Require Import String ZArith List Bool Lia ZifyBool ZifyNat Wf_nat.
From Verif Require Import Base World Context MemSim CmdLine Platform Comm BaseLemmas MemSpec Sat CmdSpec Closed PlatSpec PlatSess MapFaith WinSpec ChanSpec PropWin.
Import ListNotations.
Open Scope Z_scope.

Definition still (w w' : world) : Prop := w_con w' = w_con w /\ w_env w' = w_env w.
Lemma still_pre : preorder still.
Proof. split; [split; reflexivity|]. intros a b c [H1 H2] [H3 H4]. split; congruence. Qed.
Lemma still_closed : closed still.
Proof. split; [apply still_pre| | | | | |]; intros; try (split; reflexivity). exact H. Qed.
Lemma st_upd i f : sat still (upd_region i f).
Proof. intro w. unfold upd_region, modw. split; reflexivity. Qed.
Lemma st_check r a n t : sat still (checkForBreakWatchPoint r a n t).
Proof. apply check_regions; [apply still_closed|intros w h; split; reflexivity]. Qed.
#[local] Hint Resolve still_closed still_pre st_upd st_check : closed.
Lemma st_gdp a n t c : sat still (getDataPointer a n t c).
Proof. pose proof still_closed. unfold getDataPointer, incReadCount. ctac. Qed.
Lemma st_store p bs : sat still (store_ptr p bs).
Proof. pose proof still_closed. unfold store_ptr. ctac. Qed.
#[local] Hint Resolve st_gdp st_store : closed.
Lemma st_readN n a : sat still (readN n a).
Proof. pose proof still_closed. unfold readN, load_ptr. ctac. Qed.
Lemma st_writeN n a v : sat still (writeN n a v).
Proof. pose proof still_closed. unfold writeN. ctac. Qed.
Lemma st_count : sat still countFault.
Proof. intro w. unfold countFault. destruct (_ <? _); [split; reflexivity|exact I]. Qed.
Lemma st_ctx o n : sat still (ctx_bytes o n).
Proof. intro w. unfold ctx_bytes. destruct (_ && _); [split; reflexivity|exact I]. Qed.
#[local] Hint Resolve st_readN st_writeN st_count st_ctx : closed.
Lemma st_fpu : sat still hasFPURegisters.
Proof. pose proof still_closed. unfold hasFPURegisters. ctac. Qed.
Lemma st_bytes n : forall o t, sat still (readBytesFromBufferAsHex n o t).
Proof. pose proof still_closed. induction n as [|n IH]; intros o t; cbn [readBytesFromBufferAsHex]; ctac; split; reflexivity. Qed.
Lemma st_xml : sat still MemorySim_GetMemoryMapXML.
Proof. pose proof still_closed. unfold MemorySim_GetMemoryMapXML, realloc, set_xml. ctac. all: intro w; split; reflexivity. Qed.
#[local] Hint Resolve st_fpu st_bytes st_xml : closed.
Lemma st_try m : sat still m -> sat still (try_read m).
Proof. intro. pose proof still_closed. unfold try_read. ctac. Qed.
Lemma st_say s : sat still (say s). Proof. split; reflexivity. Qed.
Lemma st_hex s : sat still (sayHex s). Proof. split; reflexivity. Qed.
Lemma st_sayIf v b s : sat still (sayIf v b s).
Proof. unfold sayIf. destruct (Z.testbit _ _); [apply st_say|apply sat_ret, still_pre]. Qed.
#[local] Hint Resolve st_say st_hex st_sayIf : closed.
#[local] Hint Extern 1 (sat still (try_read _)) => apply st_try; ctac : closed.
Lemma st_report : sat still Platform_DisplayFaultCauseToGdbConsole.
Proof.
  pose proof still_closed.
  assert (forall r, sat still (displayFaultAddress r)) by (intro; unfold displayFaultAddress, read32; ctac).
  assert (sat still displayMemFaultCauseToGdbConsole) by (unfold displayMemFaultCauseToGdbConsole, read32; ctac).
  assert (sat still displayBusFaultCauseToGdbConsole) by (unfold displayBusFaultCauseToGdbConsole, read32; ctac).
  assert (sat still displayUsageFaultCauseToGdbConsole) by (unfold displayUsageFaultCauseToGdbConsole, read32; ctac).
  assert (sat still displayHardFaultCauseToGdbConsole) by (unfold displayHardFaultCauseToGdbConsole, read32; ctac).
  unfold Platform_DisplayFaultCauseToGdbConsole, getCurrentlyExecutingExceptionNumber. ctac.
Qed.
#[local] Hint Resolve st_report : closed.

Definition channel (p : pcall) : option ccall :=
  match p with PHasData => Some CHasData | PReceive => Some CReceive | PSend c => Some (CSend c) | PWaiting => Some CConnected | _ => None end.
Lemma st_pcall p : channel p = None -> sat still (pcall_run p).
Proof.
  pose proof still_closed. assert (sat still Platform_WasMemoryFaultEncountered) by (intro w; split; reflexivity).
  intro N. destruct p; try discriminate N; cbn [pcall_run]; unfold num, nothing; [destruct c; cbn [control_run]; unfold num, nothing|..];
    unfold Platform_MemRead, Platform_MemWrite, Platform_DetermineCauseOfException, getCurrentlyExecutingExceptionNumber, Platform_CopyContextToBuffer,
      Platform_CopyContextFromBuffer, Platform_WriteTResponseRegistersToBuffer, Platform_GetDeviceMemoryMapXml, Platform_GetDeviceMemoryMapXmlSize, Platform_GetTargetXml,
      Platform_GetTargetXmlSize; ctac.
  all: try (intro w; split; reflexivity).
Qed.
(** A call of the channel is the same call of the platform layer. *)
Lemma channel_run p c w : channel p = Some c -> p <> PWaiting -> pcall_run p w = ccall_run c w.
Proof. destruct p; intros E N; try discriminate E; try congruence; injection E as <-; reflexivity. Qed.
Lemma waiting_run w : api (pcall_run PWaiting) w = match api (ccall_run CConnected) w with Done l w' => Done [1 - nth 0 l 0] w' | Raised c w' => Raised c w' | Crashed u => Crashed u end.
Proof.
  unfold api, pcall_run, ccall_run, num, bind, Platform_CommIsWaitingForGdbToConnect, bind, ret. destruct (isGdbConnected _) as [[|] x|x|]; reflexivity.
Qed.

(** What a call does to the console. *)
Definition next_con (p : pcall) (w : world) : con :=
  let c := w_con w in
  match p with
  | PHasData => mkCon (S (c_polls c)) (c_reads c) (c_writes c) (c_connected c) (c_out c)
  | PWaiting => if c_connected c then c else mkCon (S (c_polls c)) (c_reads c) (c_writes c) (c_connected c) (c_out c)
  | PReceive => mkCon (c_polls c) (S (c_reads c)) (c_writes c) (match e_read (w_env w) (c_reads c) with RdErr => c_connected c | _ => true end) (c_out c)
  | PSend ch => mkCon (c_polls c) (c_reads c) (S (c_writes c)) (c_connected c) (if e_write (w_env w) (c_writes c) then c_out c ++ [ch mod 256] else c_out c)
  | _ => c
  end.
Lemma pcall_con p w :
  match api (pcall_run p) w with
  | Done v w' => w_con w' = next_con p w /\ w_env w' = w_env w /\ (forall ch, p = PSend ch -> e_write (w_env w) (c_writes (w_con w)) = true) /\
      (p = PReceive -> v = match e_read (w_env w) (c_reads (w_con w)) with RdErr => [] | RdEof => [0] | RdByte b => [if b <? 128 then b else b - 256] end /\ e_read (w_env w) (c_reads (w_con w)) <> RdErr)
  | Raised _ w' => w_con w' = next_con p w /\ w_env w' = w_env w /\ (forall ch, p = PSend ch -> e_write (w_env w) (c_writes (w_con w)) = false) /\ (p = PReceive -> e_read (w_env w) (c_reads (w_con w)) = RdErr)
  | Crashed _ => True
  end.
Proof.
  destruct (channel p) as [c|] eqn:C.
  - assert (A : p <> PWaiting -> api (pcall_run p) w = api (ccall_run c) w) by (intro N; unfold api; now rewrite (channel_run p c)).
    destruct p; try discriminate C; injection C as <-.
    + rewrite A by discriminate. rewrite hasdata_run. cbv zeta. repeat split; intros; discriminate.
    + rewrite A by discriminate. rewrite recv_run. cbv zeta. destruct (e_read _ _) eqn:E; cbn [next_con w_con set_exn set_con w_env]; rewrite ?E; repeat split; try discriminate.
    + rewrite A by discriminate. rewrite send_run. cbv zeta. destruct (e_write _ _) eqn:E; cbn [next_con w_con set_exn set_con w_env]; rewrite ?E; repeat split; try discriminate.
    + rewrite waiting_run, connected_run. cbv zeta. cbn [next_con]. destruct (c_connected (w_con w)) eqn:F; [repeat split; intros; discriminate|].
      rewrite hasdata_run. cbv zeta. cbn [w_con set_con set_exn]. rewrite F. repeat split; intros; discriminate.
  - pose proof (st_pcall p C (set_exn w noException [])) as S. unfold api.
    assert (N : next_con p w = w_con w) by (destruct p; try discriminate C; reflexivity). rewrite N.
    destruct (pcall_run p _) as [v x|x|]; [| |exact I]; destruct S as [S1 S2]; (split; [exact S1|]; split; [exact S2|]; split; [intros ch ->; discriminate C|intros ->; discriminate C]).
Qed.

Lemma session_bytes ps : forall w w', prun ps w = Some w' ->
  c_out (w_con w') = c_out (w_con w) ++ session_sent ps w /\ session_got ps w = delivered (w_env w) (c_reads (w_con w)) (session_reads ps) /\
  (c_connected (w_con w') = true <-> c_connected (w_con w) = true \/ read_returned w (session_reads ps)) /\ w_env w' = w_env w.
Proof.
  induction ps as [|p ps IH]; intros w w' E; cbn [prun session_sent session_got] in *.
  - injection E as <-. rewrite app_nil_r. repeat split; auto. intros [H|(i & L & _)]; [exact H|cbn in L; lia].
  - unfold pstep in E. pose proof (pcall_con p w) as P.
    assert (G : forall w1, w_con w1 = next_con p w -> w_env w1 = w_env w -> prun ps w1 = Some w' ->
      c_out (w_con w') = c_out (next_con p w) ++ session_sent ps w1 /\ session_got ps w1 = delivered (w_env w) (c_reads (next_con p w)) (session_reads ps) /\
      (c_connected (w_con w') = true <-> c_connected (next_con p w) = true \/ exists i, (i < session_reads ps)%nat /\ e_read (w_env w) (c_reads (next_con p w) + i) <> RdErr) /\ w_env w' = w_env w).
    { intros w1 C1 E1 R1. specialize (IH w1 w' R1). unfold read_returned in IH. rewrite C1, E1 in IH. exact IH. }
    assert (NR : p <> PReceive -> session_reads (p :: ps) = session_reads ps) by (intro N; destruct p; try reflexivity; congruence).
    assert (ND : p <> PReceive -> c_reads (next_con p w) = c_reads (w_con w) /\ c_connected (next_con p w) = c_connected (w_con w)).
    { intro N. destruct p; try (split; reflexivity); [congruence|]. cbn [next_con]. destruct (c_connected (w_con w)) eqn:F; cbn [c_reads c_connected]; rewrite ?F; split; reflexivity. }
    assert (D : p = PReceive \/ p <> PReceive) by (destruct p; (now left) || (right; discriminate)).
    assert (NO : (forall ch, p <> PSend ch) -> c_out (next_con p w) = c_out (w_con w)).
    { intro N. destruct p; try reflexivity; [destruct (N _ eq_refl)|]. cbn [next_con]. destruct (c_connected (w_con w)); reflexivity. }
    assert (NS : (exists ch, p = PSend ch) \/ forall ch, p <> PSend ch) by (destruct p; try (right; discriminate); left; eauto).
    destruct (api (pcall_run p) w) as [v w1|c w1|]; [| |discriminate E]; destruct P as (C1 & E1 & PS & PR); destruct (G w1 C1 E1 E) as (G1 & G2 & G3 & G4); clear G IH.
    + split; [|split; [|split; [|exact G4]]].
      * rewrite G1. destruct NS as [(ch & ->)|N]; [cbn [next_con c_out]; rewrite (PS ch eq_refl), <- app_assoc; reflexivity|].
        rewrite NO by exact N. f_equal. destruct p; try reflexivity. destruct (N _ eq_refl).
      * rewrite G2. destruct D as [->|N].
        -- destruct (PR eq_refl) as [-> _]. unfold delivered at 2. change (session_reads (PReceive :: ps)) with (S (session_reads ps)). cbn [seq flat_map next_con c_reads]. reflexivity.
        -- destruct (ND N) as [-> _]. rewrite NR by exact N. destruct p; try reflexivity. congruence.
      * rewrite G3. unfold read_returned. destruct D as [->|N].
        -- destruct (PR eq_refl) as [_ NE]. cbn [next_con c_connected c_reads]. change (session_reads (PReceive :: ps)) with (S (session_reads ps)).
           split; [intros _; right; exists O; split; [lia|]; now rewrite Nat.add_0_r|intros _; left; destruct (e_read _ _); congruence].
        -- destruct (ND N) as [-> ->]. rewrite NR by exact N. reflexivity.
    + split; [|split; [|split; [|exact G4]]].
      * rewrite G1. destruct NS as [(ch & ->)|N]; [cbn [next_con c_out]; rewrite (PS ch eq_refl); reflexivity|]. now rewrite NO.
      * rewrite G2. destruct D as [->|N].
        -- specialize (PR eq_refl). unfold delivered at 2. change (session_reads (PReceive :: ps)) with (S (session_reads ps)). cbn [seq flat_map next_con c_reads]. rewrite PR. reflexivity.
        -- destruct (ND N) as [-> _]. now rewrite NR.
      * rewrite G3. unfold read_returned. destruct D as [->|N].
        -- specialize (PR eq_refl). cbn [next_con c_connected c_reads]. rewrite PR. change (session_reads (PReceive :: ps)) with (S (session_reads ps)).
           split; (intros [H|(i & L & H)]; [now left|right]); [exists (S i)|destruct i as [|i]; [rewrite Nat.add_0_r in H; congruence|exists i]]; (split; [lia|]).
           ++ now rewrite Nat.add_succ_r.
           ++ now rewrite Nat.add_succ_r in H.
        -- destruct (ND N) as [-> ->]. rewrite NR by exact N. reflexivity.
Qed.
