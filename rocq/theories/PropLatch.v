(** C46: what asking whether GDB is connected does to the console. *)
From Coq Require Import ZArith List Bool.
From Verif Require Import Base World Comm MemSpec PlatSpec PlatSess MemEx PropPlat.
Import ListNotations.
Open Scope Z_scope.

(** C46.  Once a call to receive has returned, GDB counts as connected without the console being asked:
    nothing is polled, read or written, whatever the console would have answered. *)
Theorem C46_latched wi w0 cs w : api StandardIComm_Init wi = Done tt w0 -> crun cs w0 = Some w -> received cs w0 ->
  exists w', api (ccall_run CConnected) w = Done [1] w' /\ w_con w' = w_con w.
Proof.
  intros EI HC R. destruct (crun_ok cs w0) as (w' & E & L & _). rewrite HC in E. injection E as <-.
  rewrite connected_run. cbv zeta. rewrite (proj2 L (or_intror R)). eexists. split; reflexivity.
Qed.

(** C46.  Before that, each question polls the console exactly once, and seeing input is not yet a
    connection: with any number of questions and no call to receive, only waiting input counts. *)
Theorem C46_asking wi w0 cs w : api StandardIComm_Init wi = Done tt w0 -> crun cs w0 = Some w -> ~ In CReceive cs ->
  exists b w', api (ccall_run CConnected) w = Done [b] w' /\ (b = 0 \/ b = 1) /\ (b = 1 <-> input_waiting w) /\
    c_polls (w_con w') = S (c_polls (w_con w)) /\ c_reads (w_con w') = c_reads (w_con w) /\ c_out (w_con w') = c_out (w_con w).
Proof.
  intros EI HC N. assert (R : ~ received cs w0).
  { clear EI HC. revert w0 N. induction cs as [|c t IH]; intros w0 N; cbn [received]; [auto|].
    destruct (api (ccall_run c) w0) as [x w'|e w'|u]; [|apply IH; intro X; apply N; right; exact X|auto].
    intros [X|X]; [apply N; left; exact X|]. revert X. apply IH. intro X. apply N. right. exact X. }
  destruct (crun_ok cs w0) as (w' & E & L & _). rewrite HC in E. injection E as <-.
  assert (F : c_connected (w_con w0) = false).
  { apply (f_equal (fun r => match r with Done _ w => c_connected (w_con w) | _ => false end)) in EI. symmetry. exact EI. }
  assert (G : c_connected (w_con w) = false).
  { destruct (c_connected (w_con w)); [|reflexivity]. destruct (proj1 L eq_refl) as [X|X]; [congruence|contradiction]. }
  rewrite connected_run. cbv zeta. rewrite G, hasdata_run. cbv zeta. eexists _, _. split; [reflexivity|]. unfold input_waiting.
  destruct (e_poll _ _); (split; [auto|]); (split; [split; intro X; try discriminate; reflexivity|]); repeat split; reflexivity.
Qed.

(** A console with input at the first poll only, and one character to read. *)
Definition env_once : env :=
  mkEnv (fun _ _ => true) (fun _ => None) (fun _ => IoOk) (fun k => match k with O => PollYes | _ => PollNo end) (fun _ => RdByte 36) (fun _ => true).
Example C46_latch_example : exists w0 w1 w2, api StandardIComm_Init (w_start env_once) = Done tt w0 /\
  crun [CConnected] w0 = Some w1 /\ ~ received [CConnected] w0 /\ outcome_of (api (ccall_run CConnected) w0) = Value [1] /\
  outcome_of (api (ccall_run CConnected) w1) = Value [0] /\
  crun [CConnected; CReceive] w0 = Some w2 /\ received [CConnected; CReceive] w0 /\ ~ input_waiting w2 /\
  outcome_of (api (ccall_run CConnected) w2) = Value [1].
Proof.
  eexists _, _, _. split; [reflexivity|]. split; [vm_compute; reflexivity|]. split; [vm_compute; intuition discriminate|].
  split; [vm_compute; reflexivity|]. split; [vm_compute; reflexivity|].
  split; [vm_compute; reflexivity|]. split; [vm_compute; tauto|]. split; [vm_compute; discriminate|vm_compute; reflexivity].
Qed.

Print Assumptions C46_latched.
Print Assumptions C46_asking.
