(** Property C81: whole runs of the program, with any files and any debug monitor. *)
From Coq Require Import String ZArith List Bool Lia Permutation.
From Verif Require Import Base World Context MemSim CmdLine Platform Comm MainProg BaseLemmas MemSpec MemInv MemOps DumpSpec ElfSpec CmdSpec CmdThms CmdSafe CmdFull CmdMain PlatSpec PlatInit PlatThms PlatSess StartAnySpec StartAny SessAnySpec SessAny MemEx PropMem PropElf PropCmd PropPlat PropStartAny.
Import ListNotations.
Open Scope Z_scope.

(** C81.  Whatever the command line (without an alias of an alias), the files, the refused allocations,
    the failing file and console operations and the calls of the debug monitor: the program ends with
    status 0 or -1, its files closed and no block of anybody else freed, and the memory of the target is
    gone (or was never made).  Or it is brought down, and then by a hostile executable, by a refused
    access after 2147483647 refused ones that nobody asked about, or by asking for a memory map that
    needs 2^31 bytes. *)
Theorem C81_program m args w : heap_sane w -> fs_open (w_files w) = [] -> (forall f data, file_is w f data -> Forall byte data) ->
  (forall os, spells args os -> direct_aliases os) -> monitor_ok m ->
  match api (main (monitor_run m) args) w with
  | Done status w' => (status = 0 \/ status = -1) /\ fs_open (w_files w') = [] /\ incl (h_live (w_heap w)) (h_live (w_heap w')) /\
      (regions w' = [] /\ m_xml (w_mem w') = None \/ w_mem w' = w_mem w)
  | Raised _ _ => False
  | Crashed u =>
      names_hostile args w \/
      exists c w1 p x, api (CrashDebugCommandLine_Init args) w = Done c w1 /\ makes m (monitor_start w1) p x /\ zlen (regions x) = zlen (regions w1) /\
        (refused p x = true /\ w_faults x = 2147483647 \/ (p = PMap \/ p = PMapSize) /\ ~ xml_fits (regions x))
  end.
Proof.
  intros HH HO HB HD HM. pose proof (C79_start args w HH HB) as S. 
  destruct (api (CrashDebugCommandLine_Init args) w) as [c0 w1|c w1|u] eqn:EI.
  - destruct S as ((os & HS & HC) & _ & P2 & _). destruct (session_any args os w c0 w1 HH HO HS HC HB (HD os HS) EI) as (X & G).
    pose proof (init_stages args os w HS HC) as IS. unfold api in *. rewrite main_run, init_clear in *.
    destruct (CrashDebugCommandLine_Init args w) as [[c b] w1'|w1'|] eqn:E2; try discriminate. injection EI as <- <-.
    assert (b = true) as ->.
    { destruct (stages os _) as [[] w2|w2|] in IS; try discriminate; destruct (w_code w2 =? 0) in IS; try (injection IS as _ <- _; reflexivity);
        pose proof (failing_raises true w2) as F; rewrite <- IS in F; destruct F. }
    assert (K0 : good (X ++ h_live (w_heap w)) (monitor_start w1')) by exact G.
    assert (Z0 : 0 <= w_faults (monitor_start w1') < 2147483648) by (change (0 <= 0 < 2147483648); lia).
    pose proof (monitor_keeps _ m (monitor_start w1') K0 Z0 HM) as K.
    assert (END : forall (s : Z) w2 w3, good (X ++ h_live (w_heap w)) w2 -> rest (monitor_start w1') w2 -> w_mem w3 = w_mem w2 -> w_heap w3 = w_heap w2 -> w_files w3 = w_files w2 ->
      exists w4, (CrashDebugCommandLine_Uninit true ;;; ret s) w3 = Ret s w4 /\ fs_open (w_files w4) = [] /\ incl (h_live (w_heap w)) (h_live (w_heap w4)) /\
        (regions w4 = [] /\ m_xml (w_mem w4) = None \/ w_mem w4 = w_mem w)).
    { intros s w2 w3 ((_ & Hh) & _) (RF & _) M1 M2 M3. rewrite <- M1, <- M2 in Hh. destruct (uninit_hp _ _ Hh) as (h & E & (_ & _ & Hh')). unfold CrashDebugCommandLine_Uninit, bind. rewrite E. unfold ret. eexists. split; [reflexivity|].
      cbn [w_heap w_files set_mem set_heap]. split; [rewrite M3, RF; change (w_files (monitor_start w1')) with (w_files w1'); rewrite P2; exact HO|].
      split; [|left; split; reflexivity]. intros b Hb. eapply Permutation_in; [symmetry; exact Hh'|]. apply in_or_app. now right. }
    destruct (monitor_run m (monitor_start w1')) as [u w2|w2|u] eqn:EM.
    + destruct K as (K1 & K2). destruct (w_code w2 =? 0).
      * destruct (END 0 w2 w2 K1 K2 eq_refl eq_refl eq_refl) as (w4 & -> & Q). split; [auto|exact Q].
      * destruct (after_handler_keeps w2) as (A1 & A2 & A3). destruct (END (-1) w2 (after_handler w2) K1 K2 A1 A2 A3) as (w4 & -> & Q). split; [auto|exact Q].
    + destruct K as (K1 & K2 & _). destruct (w_code w2 =? 0).
      * destruct (END 0 w2 w2 K1 K2 eq_refl eq_refl eq_refl) as (w4 & -> & Q). split; [auto|exact Q].
      * destruct (after_handler_keeps w2) as (A1 & A2 & A3). destruct (END (-1) w2 (after_handler w2) K1 K2 A1 A2 A3) as (w4 & -> & Q). split; [auto|exact Q].
    + right. destruct (monitor_crash _ m _ u K0 Z0 HM EM) as (p & x & Q1 & Q2 & Q3). exists (c, true), w1', p, x. auto.
  - destruct (C49_failure (monitor_run m) args w c w1 EI) as (w' & -> & M1 & M2 & M3 & _). rewrite M1, M2, M3.
    destruct S as (S1 & _ & S3 & S4). rewrite S3. split; [auto|]. split; [exact HO|]. split; [exact S4|].
    destruct (c =? invalidArgumentException); [right; apply S1|left; split; apply S1].
  - destruct S as (_ & S). unfold api in *. rewrite main_run, init_clear in *. destruct (CrashDebugCommandLine_Init args w) as [[c b] w1'|w1'|] eqn:E2; try discriminate.
    left. exact S.
Qed.

(** C81.  So as long as the monitor makes fewer than 2^31 calls, nothing that it asks for and nothing in
    the dump brings the program down: only a hostile executable, or a dump with millions of regions. *)
Theorem C81_sturdy m args w : heap_sane w -> fs_open (w_files w) = [] -> (forall f data, file_is w f data -> Forall byte data) ->
  (forall os, spells args os -> direct_aliases os) -> monitor_ok m -> calls_within m 2147483647 ->
  ~ names_hostile args w -> (forall c w1, api (CrashDebugCommandLine_Init args) w = Done c w1 -> xml_fits (regions w1)) ->
  exists status w', api (main (monitor_run m) args) w = Done status w' /\ (status = 0 \/ status = -1).
Proof.
  intros HH HO HB HD HM HW NH HX. pose proof (C81_program m args w HH HO HB HD HM) as P.
  destruct (api (main (monitor_run m) args) w) as [s w'|c w'|u]; [|destruct P|].
  - exists s, w'. split; [reflexivity|apply P].
  - exfalso. destruct P as [P|(c & w1 & p & x & EI & MK & Z & [[_ F]|[_ F]])]; [exact (NH P)| |].
    + pose proof (C79_start args w HH HB) as S. rewrite EI in S. destruct S as ((os & HS & HC) & _).
      destruct (session_any args os w c w1 HH HO HS HC HB (HD os HS) EI) as (X & G).
      pose proof (within_faults _ m (monitor_start w1) 2147483647 p x G ltac:(change (0 <= 0 < 2147483648); lia) HM HW MK) as L.
      change (w_faults (monitor_start w1)) with 0 in L. lia.
    + apply F. unfold xml_fits in *. rewrite Z. eauto.
Qed.

(** The session of C49 meets the conditions of both; it ends with status 0. *)
Example C81_example : monitor_ok monitor_ex /\ calls_within monitor_ex 4 /\
  (forall os, spells args_ex os -> direct_aliases os) /\ heap_sane (w_dir files_ex) /\ (forall f data, file_is (w_dir files_ex) f data -> Forall byte data) /\
  (exists w', api (main (monitor_run monitor_ex) args_ex) (w_dir files_ex) = Done 0 w') /\
  ~ names_hostile args_ex (w_dir files_ex) /\
  (forall c w1, api (CrashDebugCommandLine_Init args_ex) (w_dir files_ex) = Done c w1 -> xml_fits (regions w1)).
Proof.
  destruct C49_session_example as (M1 & HS & HC & HF & HD & w' & E & _).
  split; [exact M1|]. split; [cbn [monitor_ex calls_within]; repeat (split; try lia; intros; auto)|]. split.
  { intros os HS'. rewrite (spells_unique _ _ _ HS' HS). exact HD. }
  split; [apply start_sane|]. split; [apply HF|]. split; [exists w'; exact E|].
  split; [intros (os & f & data & HS' & (b & a & X & _) & _); rewrite (spells_unique _ _ _ HS' HS) in X; destruct b as [|? [|? [|? [|? ?]]]]; discriminate|].
  assert (B : match api (CrashDebugCommandLine_Init args_ex) (w_dir files_ex) with Done _ w1 => 169 + 110 * zlen (regions w1) <? 2147483648 | _ => true end = true) by (vm_compute; reflexivity).
  intros c w1 E1. rewrite E1 in B. unfold xml_fits. lia.
Qed.

Print Assumptions C81_program.
Print Assumptions C81_sturdy.
