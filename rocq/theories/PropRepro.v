(** Property C77: runs of the program given the same inputs. *)
From Coq Require Import String ZArith List Bool Lia.
From Verif Require Import Base World Context MemSim CmdLine Platform Comm MainProg MemSpec PlatSpec ReproSpec Repro MemEx PropCmd PropPlat.
Import ListNotations.
Open Scope Z_scope.

(** C77, start-up.  Whatever was done before in the process, and whatever the files contain: the same
    command line and the same files give the same result, the same exception or the same crash, and the
    same text. *)
Theorem C77_start args w1 w2 : heap_sane w1 -> heap_sane w2 -> fs_open (w_files w1) = [] -> fs_open (w_files w2) = [] -> same_inputs args w1 w2 ->
  same_result w1 w2 (api (CrashDebugCommandLine_Init args) w1) (api (CrashDebugCommandLine_Init args) w2).
Proof.
  intros H1 H2 O1 O2 HI. pose proof (rel_init w1 w2 args H1 H2 HI false _ _ (presim_refl w1 w2 false O1 O2 ltac:(discriminate))) as R.
  unfold api, same_result. destruct (CrashDebugCommandLine_Init args _) as [c v|v|u]; destruct (CrashDebugCommandLine_Init args _) as [c' v'|v'|u']; try contradiction; auto.
  - destruct R as [[<- _] R]. split; [reflexivity|]. exact (sim_output _ _ _ _ _ _ R).
  - split; [symmetry; exact (s_code _ _ _ _ _ _ R)|]. exact (sim_output _ _ _ _ _ _ R).
Qed.

(** C77, the whole program.  Whatever the monitor does: also the same exit status, the same bytes sent and
    the same text on the debugger's console.  The monitor decides by the answers it gets and can end with an
    exception of its own, so every call of it gets the same answer in both runs. *)
Theorem C77_main m args w1 w2 : heap_sane w1 -> heap_sane w2 -> fs_open (w_files w1) = [] -> fs_open (w_files w2) = [] -> same_inputs args w1 w2 ->
  same_result w1 w2 (api (main (monitor_run m) args) w1) (api (main (monitor_run m) args) w2).
Proof.
  intros H1 H2 O1 O2 HI. pose proof (rel_main w1 w2 args H1 H2 HI _ (rel_monitor w1 w2 args H1 H2 HI m) _ _ (presim_refl w1 w2 false O1 O2 ltac:(discriminate))) as R.
  unfold api, same_result. destruct (main _ args _) as [c v|v|u]; destruct (main _ args _) as [c' v'|v'|u']; try contradiction; auto.
  - destruct R as (<- & b & R). split; [reflexivity|]. exact (sim_output _ _ _ _ _ _ R).
  - destruct R as (b & R). split; [symmetry; exact (s_code _ _ _ _ _ _ R)|]. exact (sim_output _ _ _ _ _ _ R).
Qed.

(** A process that has done something else before: an error, registers, regions and hits left over, blocks
    in use, faults counted, a debugger connected, and another file around. *)
Definition w_used : world :=
  mkW (mkMem [mkR 536870912 4 None 0 [1; 2; 3; 4] [] 0 None false 3 4 None] None 9) (mkHeap [7; 4; 3]%nat 12 31 []) (mkFiles [] 5 40 [s2b "z"])
      4 (s2b "old") (map Z.of_nat (seq 1 216)) [s2b "before"] 3 [GHex 1] (mkCon 6 7 8 true [1; 2])
      (mkEnv (fun _ _ => true) (dir (("z", [1])%string :: files_ex)) (fun _ => IoOk) (fun _ => PollNo) (fun _ => RdEof) (fun _ => true)).
(** It asks for the registers, sends the first character, has the fault reported and reads a byte that is not
    there; it ends with an exception if that did not count as one fault. *)
Definition monitor_rep : monitor :=
  MCall PGetRegs (fun regs => MCall (PSend (hd 0 regs)) (fun _ => MCall PReport (fun _ => MCall (PRead 1 1610612736) (fun _ =>
  MCall PFaults (fun n => match n with [1] => MDone | _ => MRaise 16 end) MRaise) MRaise) MRaise) MRaise) MRaise.
Example C77_example : heap_sane (w_dir files_ex) /\ heap_sane w_used /\ fs_open (w_files w_used) = [] /\ same_inputs args_ex (w_dir files_ex) w_used /\
  e_fs (w_env w_used) (s2b "z") <> e_fs (w_env (w_dir files_ex)) (s2b "z") /\
  (exists c w', api (CrashDebugCommandLine_Init args_ex) w_used = Done c w' /\ length (regions w') = 4%nat) /\
  (exists w', api (main (monitor_run monitor_rep) args_ex) w_used = Done 0 w' /\ zlen (c_out (w_con w')) = 3).
Proof.
  split; [split; constructor|]. split; [split; [repeat constructor; cbn; lia|repeat constructor]|]. split; [reflexivity|]. split.
  { split; [|repeat split]. intros f HF. repeat (destruct HF as [<-|HF]; [vm_compute; reflexivity|]). destruct HF. }
  split; [vm_compute; discriminate|]. split; [do 2 eexists; split; vm_compute; reflexivity|]. eexists. split; vm_compute; reflexivity.
Qed.

Print Assumptions C77_start.
Print Assumptions C77_main.
