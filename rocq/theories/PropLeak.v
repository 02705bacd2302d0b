(** Properties C38 and C49: how much stays allocated after a start-up that fails and after a whole run,
    when entries of the executable overlap. *)
From Coq Require Import String ZArith List Bool Lia Permutation.
From Verif Require Import Base World Context MemSim CmdLine Platform Comm MainProg BaseLemmas MemSpec MemInv MemOps DumpSpec DumpThms ElfSpec CmdSpec CmdThms CmdSafe CmdFull CmdMain PlatSpec PlatInit PlatThms PlatSess StartAnySpec StartAny SessAnySpec SessAny LeakSpec LeakThms MemEx PropMem PropElf PropCmd PropPlat PropStartAny PropSessAny.
Import ListNotations.
Open Scope Z_scope.

(** C38.  A start-up that fails leaves at most one block allocated for each loadable entry of the
    executable that starts inside an earlier one, whatever else is in the files and whatever allocations
    and file operations fail.  Everything that was in use before is still in use.  Missing: that nothing
    at all stays allocated ([C38_leak_refuted]). *)
Theorem C38_lost_partial n args w c w' : heap_sane w -> (forall f data, file_is w f data -> Forall byte data) -> overlaps_at_most n args w ->
  api (CrashDebugCommandLine_Init args) w = Raised c w' ->
  exists lost, (length lost <= n)%nat /\ Permutation (h_live (w_heap w')) (lost ++ h_live (w_heap w)).
Proof.
  intros HH HB HO E. pose proof (C79_start args w HH HB) as S. rewrite E in S.
  assert (D : acceptable args \/ ~ acceptable args) by (destruct (c =? invalidArgumentException); tauto).
  destruct D as [(os & HS & HC)|N].
  - pose proof (init_lk n args os w HH HS HC HB (fun f data => HO os f data HS)) as P. rewrite E in P. destruct P as (X & LX & (_ & _ & PX)). exists X. auto.
  - destruct (C36_rejected args w N) as (w2 & E2 & _ & H2 & _). rewrite E in E2. injection E2 as _ <-. exists []. split; [cbn; lia|]. rewrite H2. reflexivity.
Qed.

(** C38.  So without such entries a start-up that fails leaves nothing allocated, also when the bytes of
    an entry do not lie in the file or do not fit into the address space. *)
Theorem C38_apart_partial args w c w' : heap_sane w -> (forall f data, file_is w f data -> Forall byte data) -> overlaps_at_most 0 args w ->
  api (CrashDebugCommandLine_Init args) w = Raised c w' -> Permutation (h_live (w_heap w')) (h_live (w_heap w)).
Proof.
  intros HH HB HO E. destruct (C38_lost_partial 0 args w c w' HH HB HO E) as (X & L & P). destruct X; [exact P|cbn in L; lia].
Qed.

(** C49.  The same for a whole run of the program, with any debug monitor: the blocks that are still
    allocated when it ends are those of before and at most one for each such entry.  Missing: that it is
    none ([C49_leak_refuted]), and aliases of aliases. *)
Theorem C49_lost_partial n m args w s w' : heap_sane w -> fs_open (w_files w) = [] -> (forall f data, file_is w f data -> Forall byte data) ->
  (forall os, spells args os -> direct_aliases os) -> monitor_ok m -> overlaps_at_most n args w ->
  api (main (monitor_run m) args) w = Done s w' ->
  exists lost, (length lost <= n)%nat /\ Permutation (h_live (w_heap w')) (lost ++ h_live (w_heap w)).
Proof.
  intros HH HO HB HD HM HV. pose proof (C79_start args w HH HB) as S.
  destruct (api (CrashDebugCommandLine_Init args) w) as [c0 w1|c w1|u] eqn:EI.
  - destruct S as ((os & HS & HC) & _). destruct (session_any args os w c0 w1 HH HO HS HC HB (HD os HS) EI) as (X & G).
    pose proof (init_lk n args os w HH HS HC HB (fun f data => HV os f data HS)) as LK. rewrite EI in LK. destruct LK as (Y & LY & ((_ & _ & PY) & _)).
    assert (LX : (length X <= n)%nat).
    { destruct G as ((_ & (_ & _ & PX)) & _). rewrite PX in PY. apply Permutation_length in PY. rewrite !app_length in PY. lia. }
    pose proof (init_stages args os w HS HC) as IS. unfold api in *. rewrite main_run, init_clear in *.
    destruct (CrashDebugCommandLine_Init args w) as [[c b] w1'|w1'|] eqn:E2; try discriminate. injection EI as <- <-.
    assert (b = true) as ->.
    { destruct (stages os _) as [[] w2|w2|] in IS; try discriminate; destruct (w_code w2 =? 0) in IS; try (injection IS as _ <- _; reflexivity);
        pose proof (failing_raises true w2) as F; rewrite <- IS in F; destruct F. }
    assert (K0 : good (X ++ h_live (w_heap w)) (monitor_start w1')) by exact G.
    assert (Z0 : 0 <= w_faults (monitor_start w1') < 2147483648) by (change (0 <= 0 < 2147483648); lia).
    pose proof (monitor_keeps _ m (monitor_start w1') K0 Z0 HM) as K.
    assert (END : forall (s : Z) w2 w3, good (X ++ h_live (w_heap w)) w2 -> w_mem w3 = w_mem w2 -> w_heap w3 = w_heap w2 ->
      exists w4, (CrashDebugCommandLine_Uninit true ;;; ret s) w3 = Ret s w4 /\ Permutation (h_live (w_heap w4)) (X ++ h_live (w_heap w))).
    { intros s0 w2 w3 ((_ & Hh) & _) M1 M2. rewrite <- M1, <- M2 in Hh. destruct (uninit_hp _ _ Hh) as (h & E & (_ & _ & Hh')). unfold CrashDebugCommandLine_Uninit, bind. rewrite E. unfold ret. eexists. split; [reflexivity|exact Hh']. }
    destruct (monitor_run m (monitor_start w1')) as [u w2|w2|u] eqn:EM; [| |discriminate].
    all: destruct K as (K1 & _); destruct (w_code w2 =? 0);
      [destruct (END 0 w2 w2 K1 eq_refl eq_refl) as (w4 & -> & Q)
      |destruct (after_handler_keeps w2) as (A1 & A2 & A3); destruct (END (-1) w2 (after_handler w2) K1 A1 A2) as (w4 & -> & Q)];
      intro E; injection E as _ <-; exists X; auto.
  - destruct (C49_failure (monitor_run m) args w c w1 EI) as (w2 & -> & _ & M2 & _). intro E. injection E as _ <-. rewrite M2.
    exact (C38_lost_partial n args w c w1 HH HB HV EI).
  - unfold api in *. rewrite main_run, init_clear in *. destruct (CrashDebugCommandLine_Init args w) as [[c b] w1'|w1'|] eqn:E2; try discriminate.
Qed.

(** An executable with one entry inside another one, named on a command line whose dump is missing: the
    bound is 1, and one block stays allocated. *)
Example C38_lost_example : let w := w_dir [("a.elf"%string, elf_inside)] in
  heap_sane w /\ (forall f data, file_is w f data -> Forall byte data) /\ overlaps elf_inside = 1%nat /\ overlaps_at_most 1 args_bad w /\
  (forall os, spells args_bad os -> direct_aliases os) /\ monitor_ok monitor_ex /\
  (exists c w', api (CrashDebugCommandLine_Init args_bad) w = Raised c w' /\ length (h_live (w_heap w')) = 1%nat) /\
  (exists w', api (main (monitor_run monitor_ex) args_bad) w = Done (-1) w' /\ length (h_live (w_heap w')) = 1%nat).
Proof.
  cbv zeta. split; [apply start_sane|].
  assert (FI : forall f data, file_is (w_dir [("a.elf"%string, elf_inside)]) f data -> data = elf_inside).
  { unfold file_is, w_dir, w_start, dir. cbn [w_env e_fs find fst snd]. intros f data H. destruct (bytes_eqb f (s2b "a.elf")); [|discriminate]. now injection H as <-. }
  assert (OV : overlaps elf_inside = 1%nat) by (vm_compute; reflexivity).
  split; [intros f data H; rewrite (FI _ _ H); bytes_tac|]. split; [exact OV|].
  split; [intros os f data _ _ H; rewrite (FI _ _ H), OV; split; [vm_compute; reflexivity|lia]|].
  split. { intros os HS. destruct bad_ok as (HS' & _). rewrite (spells_unique _ _ _ HS HS'). unfold opts_bad. intros bf b s r md b' s' r' af X. exfalso. destruct bf as [|? [|? [|? ?]]]; discriminate X. }
  split; [apply C81_example|]. split; [eexists _, _; split; vm_compute; reflexivity|]. eexists; split; vm_compute; reflexivity.
Qed.

Print Assumptions C38_lost_partial.
Print Assumptions C38_apart_partial.
Print Assumptions C49_lost_partial.
