(** Property C73: the channel to GDB during a session. *)
From Coq Require Import String ZArith List Bool Lia ZifyBool ZifyNat.
From Verif Require Import Base World Context MemSim CmdLine Platform Comm BaseLemmas MemSpec PlatSpec PlatSess WinSpec ChanSpec ChanThms PropPlat.
Import ListNotations.
Open Scope Z_scope.

(** C73.  Whatever calls of the platform layer a session makes, in any order: the output is what it was
    followed by the bytes of the calls to send that returned, and the calls to receive that returned
    gave what the console delivered to the reads made, in order. *)
Theorem C73_bytes ps w w' : prun ps w = Some w' ->
  c_out (w_con w') = c_out (w_con w) ++ session_sent ps w /\
  session_got ps w = delivered (w_env w) (c_reads (w_con w)) (session_reads ps).
Proof. intro H. destruct (session_bytes ps w w' H) as (H1 & H2 & _). auto. Qed.

(** C73.  Every call but those on the channel leaves input and output alone. *)
Theorem C73_others p w : (forall ch, p <> PSend ch) -> p <> PReceive -> p <> PHasData -> p <> PWaiting ->
  match api (pcall_run p) w with Done _ w' | Raised _ w' => w_con w' = w_con w | Crashed _ => True end.
Proof.
  intros N1 N2 N3 N4. pose proof (pcall_con p w) as P. assert (E : next_con p w = w_con w) by (destruct p; try reflexivity; congruence). rewrite E in P.
  destruct (api (pcall_run p) w); tauto.
Qed.

(** C73.  The monitor is told to wait for GDB exactly as long as no call to receive has returned since
    initialisation and no input is waiting. *)
Theorem C73_waiting wi w0 ps w : api StandardIComm_Init wi = Done tt w0 -> prun ps w0 = Some w ->
  exists b w', api (pcall_run PWaiting) w = Done [b] w' /\ (b = 0 \/ b = 1) /\ (b = 0 <-> read_returned w0 (session_reads ps) \/ input_waiting w).
Proof.
  intros EI HC. destruct (session_bytes ps w0 w HC) as (_ & _ & L & _).
  assert (F : c_connected (w_con w0) = false).
  { apply (f_equal (fun r => match r with Done _ w => c_connected (w_con w) | _ => false end)) in EI. symmetry. exact EI. }
  rewrite waiting_run, connected_run. cbv zeta. destruct (c_connected (w_con w)).
  - exists 0, (set_exn w noException []). split; [reflexivity|]. split; [auto|]. split; [|auto]. intros _. left. destruct (proj1 L eq_refl) as [X|X]; [congruence|exact X].
  - rewrite hasdata_run. cbv zeta. eexists _, _. split; [reflexivity|]. unfold input_waiting.
    assert (N : ~ read_returned w0 (session_reads ps)) by (intro X; pose proof (proj2 L (or_intror X)); discriminate).
    cbn [nth]. destruct (e_poll _ _); (split; [auto|]); split; intro X; try discriminate; try (destruct X as [X|X]; [contradiction|discriminate]); auto.
Qed.

Definition pcalls_ex : list pcall :=
  [PWaiting; PGetRegs; PSend 300; PRead 4 0x30000000; PReceive; PTRegs; PSend 65; PReport; PReceive; PSend 66; PMap].
Example C73_example : exists w0 w, api StandardIComm_Init w_plat = Done tt w0 /\ prun pcalls_ex w0 = Some w /\
  session_sent pcalls_ex w0 = [44; 66] /\ session_got pcalls_ex w0 = [-56] /\ session_reads pcalls_ex = 2%nat /\
  ~ read_returned w0 1 /\ read_returned w0 2 /\ outcome_of (api (pcall_run PWaiting) w) = Value [0] /\
  (exists w1, prun (firstn 6 pcalls_ex) w0 = Some w1 /\ ~ input_waiting w1 /\ outcome_of (api (pcall_run PWaiting) w1) = Value [1]).
Proof.
  eexists _, _. split; [reflexivity|]. split; [vm_compute; reflexivity|]. split; [vm_compute; reflexivity|]. split; [vm_compute; reflexivity|]. split; [reflexivity|].
  split; [intros (i & L & H); assert (i = O) as -> by lia; apply H; vm_compute; reflexivity|].
  split; [exists 1%nat; split; [lia|vm_compute; discriminate]|]. split; [vm_compute; reflexivity|].
  eexists. split; [vm_compute; reflexivity|]. split; [vm_compute; discriminate|vm_compute; reflexivity].
Qed.

Print Assumptions C73_bytes.
Print Assumptions C73_others.
Print Assumptions C73_waiting.
