(** Property C78: refused allocations. *)
From Coq Require Import String ZArith List Bool Lia ZifyBool ZifyNat.
From Verif Require Import Base World Context MemSim CmdLine Platform Comm MainProg MemSpec CmdSpec PlatSpec OomSpec Sat CmdThms CmdMain Oom MemEx PropCmd PropPlat.
Import ListNotations.
Open Scope Z_scope.

(** C78, the simulator.  From any state: a call that returns was granted every request it made, a call that
    raises out of memory made one that was refused and no other after it, and a call that raises anything
    else was granted all. *)
Theorem C78_ops o w : reports_refusals w (api (op_run o) w).
Proof. apply reports, oom_op. Qed.

(** C78, start-up.  The same, whatever the command line and the files are. *)
Theorem C78_start args w : reports_refusals w (api (CrashDebugCommandLine_Init args) w).
Proof.
  unfold api, reports_refusals. pose proof (oom_init_any args (set_exn w noException [])) as H.
  destruct (CrashDebugCommandLine_Init args _); auto; [apply H|]. destruct H as (_ & _ & _ & H). exact H.
Qed.

(** C78, the calls of the monitor. *)
Theorem C78_pcalls p w : reports_refusals w (api (pcall_run p) w).
Proof. apply pcall_reports. Qed.

(** C78, only then.  If every request is granted none of these raises out of memory. *)
Theorem C78_granted args o p w : (forall k n, e_malloc (w_env w) k n = true) ->
  forall w', api (CrashDebugCommandLine_Init args) w <> Raised outOfMemoryException w' /\
             api (op_run o) w <> Raised outOfMemoryException w' /\ api (pcall_run p) w <> Raised outOfMemoryException w'.
Proof.
  intros HG w'. pose proof (C78_start args w) as H1. pose proof (C78_ops o w) as H2. pose proof (C78_pcalls p w) as H3.
  assert (F : forall A (r : result A), reports_refusals w r -> r <> Raised outOfMemoryException w').
  { intros A r H ->. unfold reports_refusals in H. rewrite Z.eqb_refl in H. destruct H as [_ (k & n & _ & _ & H)]. rewrite HG in H. discriminate. }
  auto.
Qed.

(** C78, the program.  If start-up or a call of the monitor is refused memory and the monitor passes that on,
    the program exits with status -1 and the last thing it prints is the error number.  So exit status 0
    means that every request was granted. *)
Theorem C78_main m args w : passes_on m ->
  match api (main (monitor_run m) args) w with
  | Done status w' => refusals w w' = 0 \/
      refusals w w' = 1 /\ last_refused w w' /\ status = -1 /\ exists e, w_err w' = unexpected_line outOfMemoryException :: e
  | Raised _ _ => False
  | Crashed _ => True
  end.
Proof.
  intro HP. unfold api. rewrite main_run, init_clear. pose proof (oom_init_any args w) as I0.
  assert (AH : forall x, w_env (after_handler x) = w_env x) by (intro x; unfold after_handler; destruct (known_error _); reflexivity).
  assert (AE : forall x, w_code x = outOfMemoryException -> w_err (after_handler x) = unexpected_line outOfMemoryException :: w_err x)
    by (intros x Hx; unfold after_handler; rewrite Hx; reflexivity).
  set (P := fun a b : world => w_err b = w_err a). assert (PP : preorder P) by (split; unfold P; congruence).
  assert (CF : forall b, sat P (free b)) by (intros b x; unfold free; destruct (is_live _ _); [reflexivity|exact I]).
  assert (CFO : forall b, sat P (free_opt b)) by (intros [b'|]; [exact (CF b')|apply sat_ret, PP]).
  assert (CR : forall rs, sat P (freeRegions rs)).
  { induction rs as [|r rs IH]; cbn [freeRegions]; unfold freeRegion; repeat (apply sat_bind; [exact PP| |intros]); auto; try exact (CF _). apply sat_ret, PP. }
  assert (CU : forall b, sat P (CrashDebugCommandLine_Uninit b)).
  { intros [|]; [|apply sat_ret, PP]. cbn [CrashDebugCommandLine_Uninit]. unfold MemorySim_Uninit. repeat (apply sat_bind; [exact PP| |intros]); auto; [apply sat_getw, PP|]. intro; reflexivity. }
  assert (CC : forall b, calmly (CrashDebugCommandLine_Uninit b)) by (intros [|]; cbn [CrashDebugCommandLine_Uninit]; ct).
  assert (END : forall b (s : Z) x, match (bind (CrashDebugCommandLine_Uninit b) (fun _ => ret s)) x with
            | Ret t y => t = s /\ again x y /\ w_err y = w_err x | Exc _ => False | Ub _ => True end).
  { intros b s x. unfold bind. specialize (CC b x). specialize (CU b x). destruct (CrashDebugCommandLine_Uninit b x) as [[] y|y|]; auto. exact (conj eq_refl (conj CC CU)). }
  destruct (CrashDebugCommandLine_Init args w) as [[c b] w1|w1|u]; [| |exact I].
  - destruct I0 as (C1 & E1 & R1 & N1).
    pose proof (monitor_fine m (monitor_start w1) HP) as MF. change (w_code (monitor_start w1)) with (w_code w1) in MF. specialize (MF ltac:(rewrite C1; discriminate)).
    assert (G : forall x, ok_end (monitor_start w1) x -> match (if w_code x =? 0 then bind (CrashDebugCommandLine_Uninit b) (fun _ => ret 0) x else bind (CrashDebugCommandLine_Uninit b) (fun _ => ret (-1)) (after_handler x)) with
        | Ret t y => refusals w y = 0 \/ refusals w y = 1 /\ last_refused w y /\ t = -1 /\ exists e, w_err y = unexpected_line outOfMemoryException :: e
        | Exc _ => False | Ub _ => True end).
    { intros x HX. apply (ok_end_trans w) in HX; [|exact E1|exact R1|exact N1]. destruct HX as (E2 & N2 & R2). destruct (w_code x =? 0) eqn:C0.
      - specialize (END b 0 x). destruct (bind _ _ x) as [t y|y|]; auto. destruct END as (_ & (_ & _ & A3 & A4) & _). left.
        replace (w_code x =? outOfMemoryException) with false in R2. 2:{ apply Z.eqb_eq in C0. rewrite C0. reflexivity. }
        unfold refusals in *. rewrite A3, A4. exact R2.
      - specialize (END b (-1) (after_handler x)). destruct (bind _ _ (after_handler x)) as [t y|y|]; auto. destruct END as (-> & (_ & _ & A3 & A4) & A5).
        destruct (after_handler_keeps x) as (_ & K & _). rewrite K in A3, A4. unfold refusals, last_refused in *. rewrite A3, A4.
        destruct (w_code x =? outOfMemoryException) eqn:CO; [|left; exact R2]. right. split; [apply R2|]. split; [apply R2|]. split; [reflexivity|].
        exists (w_err x). rewrite A5. apply AE. now apply Z.eqb_eq. }
    destruct (monitor_run m (monitor_start w1)) as [[] x|x|]; auto;
      specialize (G x MF); destruct (w_code x =? 0); destruct (bind _ _ _); auto.
  - destruct I0 as (C1 & E1 & N1 & R1). replace (w_code w1 =? 0) with false by lia. destruct (after_handler_keeps w1) as (_ & K & _). unfold refusals, last_refused in *. rewrite K.
    destruct (w_code w1 =? outOfMemoryException) eqn:CO; [|left; exact R1]. right. split; [apply R1|]. split; [apply R1|]. split; [reflexivity|].
    exists (w_err w1). apply AE. now apply Z.eqb_eq.
Qed.

(** Start-up with an image, a dump and an alias, or a session that asks for the memory map, with the
    allocator refusing one request: each of the first requests in turn. *)
Definition w_short (k : nat) : world :=
  w_start (mkEnv (fun n _ => negb (Nat.eqb n k)) (dir files_ex) (fun _ => IoOk) (fun _ => PollNo) (fun _ => RdEof) (fun _ => true)).
Definition monitor_map : monitor := MCall PMap (fun _ => MCall (PRead 4 0) (fun _ => MDone) MRaise) MRaise.
Example C78_example : passes_on monitor_map /\
  (exists c w', api (CrashDebugCommandLine_Init args_ex) (w_short 100) = Done c w' /\ (h_calls (w_heap w') = 10)%nat) /\
  (forall k, (k < 10)%nat -> exists w', api (CrashDebugCommandLine_Init args_ex) (w_short k) = Raised outOfMemoryException w' /\ h_calls (w_heap w') = S k) /\
  exists w', api (main (monitor_run monitor_map) args_ex) (w_short 10) = Done (-1) w' /\ refusals (w_short 10) w' = 1.
Proof.
  split; [cbn [passes_on monitor_map]; repeat split; intros; auto|].
  split; [do 2 eexists; split; vm_compute; reflexivity|]. split.
  - intros k Hk. do 10 (destruct k as [|k]; [eexists; split; vm_compute; reflexivity|]). lia.
  - eexists. split; vm_compute; reflexivity.
Qed.

Print Assumptions C78_ops.
Print Assumptions C78_start.
Print Assumptions C78_pcalls.
Print Assumptions C78_granted.
Print Assumptions C78_main.
