(** Whole runs of the program with any files and any monitor.  Lemmas for PropSessAny.v. *)
From Coq Require Import String ZArith List Bool Lia Permutation.
From Verif Require Import Base World Context MemSim Dump GdbLog Elf CmdLine Platform Comm MainProg BaseLemmas MemSpec MemLemmas MemInv MemOps MemHist MemHist2 DumpSpec DumpThms DumpLemmas DumpSafe ElfSpec ElfThms ElfClean CmdSpec CmdThms CmdSafe CmdFull CmdMain PlatSpec PlatThms PlatSess PlatInit StartAnySpec StartAny SessAnySpec CtxBytes.
Import ListNotations.
Open Scope Z_scope.

(** As [start_session], for files of any contents. *)
Lemma session_any args os w c w1 : heap_sane w -> fs_open (w_files w) = [] -> spells args os -> complete os -> (forall f data, file_is w f data -> Forall byte data) -> direct_aliases os ->
  api (CrashDebugCommandLine_Init args) w = Done c w1 -> exists X, good (X ++ h_live (w_heap w)) w1.
Proof.
  intros HH HO HS HC HF HD. unfold api. rewrite (init_stages _ _ _ HS HC). change (set_exn (blank_state (set_exn w noException [])) noException []) with (set_exn (blank_state w) noException []).
  set (w0 := set_exn (blank_state w) noException []).
  pose proof (blank_inv w HH) as HI. fold w0 in HI. set (R := h_live (w_heap w)) in *.
  destruct (complete_uses _ HC) as ((f & HU) & d & HDm). rewrite stages_eq.
  pose proof (image_any os f R w0 HI eq_refl HF HU) as P. pose proof (p_image (settings os) w0) as PP.
  destruct (loadImageFile (settings os) w0) as [[] w2|w2|u]; [| |discriminate].
  2:{ destruct P as (_ & _ & IC). destruct (init_code_nonzero _ IC) as (NZ & _). replace (w_code w2 =? 0) with false by lia.
      pose proof (failing_raises true w2) as F. destruct (failing true w2); [destruct F|discriminate|discriminate]. }
  destruct P as (((X & P1) & P2 & P3) & P4 & P5).
  assert (HB : forall f data, file_is w2 f data -> Forall byte data).
  { intros g data. unfold file_is. destruct P2 as (_ & _ & _ & _ & ->). apply HF. }
  assert (HX1 : ctx_sane w2) by (unfold ctx_sane; rewrite P4; reflexivity).
  assert (CB : cb w2).
  { split; [rewrite P4; apply Forall_forall; intros x Hx; apply repeat_spec in Hx as ->; unfold byte; lia|]. split; [rewrite P3; change (fs_open (w_files w0)) with (fs_open (w_files w)); rewrite HO; intros x []|].
    intros n dt E. apply (HB n dt E). }
  pose proof (dump_safe os d (X ++ R) w2 P1 HX1 P5 HB HDm) as Q. pose proof (p_dump (settings os) w2) as QP. pose proof (k_dump (settings os) w2) as QK.
  destruct (loadDumpFile (settings os) w2) as [[] w3|w3|]; [| |destruct Q].
  2:{ destruct Q as (_ & IC). destruct (init_code_nonzero _ IC) as (NZ & _). replace (w_code w3 =? 0) with false by lia.
      pose proof (failing_raises true w3) as F. destruct (failing true w3); [destruct F|discriminate|discriminate]. }
  destruct Q as ((Q1 & Q2 & Q3) & Q4 & Q5). specialize (QK CB). specialize (QP (PP (Forall_nil _))).
  assert (AI : aliases_in (alias_ranges []) (regions w3)).
  { intros r H1 H2. unfold all_plain in QP. rewrite Forall_forall in QP. destruct (H2 (QP r H1)). }
  pose proof (aliases_inv [] os (X ++ R) w3 HD Q1 Q5 AI) as A. pose proof (aliases_safe (X ++ R) os w3 (Inv_winv _ _ Q1) Q5) as B.
  destruct (make_aliases os w3) as [[] w4|w4|]; [| |destruct B].
  - destruct B as (B1 & B2 & B3). rewrite B3. cbn [Z.eqb]. intro H. injection H as <- <-. exists X. split; [eauto|].
    destruct B2 as (_ & -> & _). split; [exact Q4|exact (proj1 QK)].
  - destruct B as (_ & _ & IC). assert (NZ : w_code w4 <> 0) by (destruct IC as [->| ->]; discriminate). replace (w_code w4 =? 0) with false by lia.
    pose proof (failing_raises true w4) as F. destruct (failing true w4); [destruct F|discriminate|discriminate].
Qed.

(** What brings a session down. *)
Lemma monitor_crash R m : forall w u, good R w -> 0 <= w_faults w < 2147483648 -> monitor_ok m -> monitor_run m w = Ub u ->
  exists p x, makes m w p x /\ zlen (regions x) = zlen (regions w) /\
    (refused p x = true /\ w_faults x = 2147483647 \/ (p = PMap \/ p = PMapSize) /\ ~ xml_fits (regions x)).
Proof.
  induction m as [|c|p k IHk h IHh]; intros w u HG HF HM HE; cbn [monitor_run monitor_ok] in *; [discriminate HE|discriminate HE|].
  destruct HM as (M1 & M2 & M3). pose proof (pcall_ok R p w HG HF M1) as P.
  assert (FA : (refused p w = true -> w_faults w < 2147483647) -> 0 <= faults_after p w < 2147483648).
  { intro Q. unfold faults_after. destruct (refused p w); [specialize (Q eq_refl)|]; destruct p; lia. }
  destruct (api (pcall_run p) w) as [v w1|c w1|u'] eqn:E.
  - destruct P as (P1 & P2 & P3 & P4). destruct (IHk v w1 u P1 ltac:(rewrite P3; auto) (M2 v) HE) as (q & x & Q1 & Q2 & Q3).
    exists q, x. split; [eapply makes_returned; eauto|]. split; [|exact Q3]. destruct P2 as (_ & _ & _ & L). congruence.
  - destruct P as (_ & P1 & P2 & P3 & P4). destruct (IHh c w1 u P1 ltac:(rewrite P3; auto) (M3 c) HE) as (q & x & Q1 & Q2 & Q3).
    exists q, x. split; [eapply makes_raised; eauto|]. split; [|exact Q3]. destruct P2 as (_ & _ & _ & L). congruence.
  - exists p, w. split; [constructor|]. split; [reflexivity|exact P].
Qed.

(** A monitor that makes few calls meets few failures. *)
Lemma within_faults R m : forall w n p x, good R w -> 0 <= w_faults w < 2147483648 -> monitor_ok m -> calls_within m n -> makes m w p x -> w_faults x < w_faults w + n.
Proof.
  induction m as [|c|p k IHk h IHh]; intros w n q x HG HF HM HW HK; inversion HK; subst; cbn [monitor_ok calls_within] in *; destruct HM as (M1 & M2 & M3), HW as (W1 & W2 & W3).
  - lia.
  - pose proof (pcall_ok R p w HG HF M1) as P.
    match goal with E : api _ _ = Done _ _ |- _ => rewrite E in P end. destruct P as (P1 & P2 & P3 & P4).
    assert (FA : 0 <= faults_after p w < 2147483648 /\ (faults_after p w <= w_faults w + 1)).
    { unfold faults_after. destruct (refused p w); [specialize (P4 eq_refl)|]; destruct p; lia. }
    match goal with K : makes (k ?v) _ _ _ |- _ => pose proof (IHk v _ (n - 1) q x P1 ltac:(rewrite P3; apply FA) (M2 v) (W2 v) K) end; lia.
  - pose proof (pcall_ok R p w HG HF M1) as P.
    match goal with E : api _ _ = Raised _ _ |- _ => rewrite E in P end. destruct P as (_ & P1 & P2 & P3 & P4).
    assert (FA : 0 <= faults_after p w < 2147483648 /\ (faults_after p w <= w_faults w + 1)).
    { unfold faults_after. destruct (refused p w); [specialize (P4 eq_refl)|]; destruct p; lia. }
    match goal with K : makes (h ?v) _ _ _ |- _ => pose proof (IHh v _ (n - 1) q x P1 ltac:(rewrite P3; apply FA) (M3 v) (W3 v) K) end; lia.
Qed.

(** A command line means one list of options. *)
Lemma third_char a name c d e l : names_option a name -> s2b name = c :: d :: e :: l -> 97 <= e <= 122 -> nth 2 a 0 = e \/ nth 2 a 0 = e - 32.
Proof.
  unfold names_option. intros H E B. rewrite E in H. inversion H as [|? ? ? ? _ H1]; subst. inversion H1 as [|? ? ? ? _ H2]; subst. inversion H2 as [|? ? ? ? C _]; subst.
  cbn [nth]. unfold either_case in C. lia.
Qed.

Lemma option_char a :
  (names_option a "--elf" -> nth 2 a 0 = 101 \/ nth 2 a 0 = 69) /\ (names_option a "--bin" -> nth 2 a 0 = 98 \/ nth 2 a 0 = 66) /\
  (names_option a "--dump" -> nth 2 a 0 = 100 \/ nth 2 a 0 = 68) /\ (names_option a "--alias" -> nth 2 a 0 = 97 \/ nth 2 a 0 = 65).
Proof.
  split; [|split; [|split]]; intro H;
    [pose proof (third_char _ _ _ _ _ _ H eq_refl ltac:(vm_compute; split; discriminate)) as X|pose proof (third_char _ _ _ _ _ _ H eq_refl ltac:(vm_compute; split; discriminate)) as X
    |pose proof (third_char _ _ _ _ _ _ H eq_refl ltac:(vm_compute; split; discriminate)) as X|pose proof (third_char _ _ _ _ _ _ H eq_refl ltac:(vm_compute; split; discriminate)) as X]; exact X.
Qed.

Lemma spells_unique args os os' : spells args os -> spells args os' -> os = os'.
Proof.
  intro H. revert os'. induction H; intros os' H'; inversion H'; subst; try reflexivity; try (f_equal; auto; fail); exfalso;
    match goal with N : names_option ?a _ |- _ => destruct (option_char a) as (C1 & C2 & C3 & C4) end;
    repeat match goal with N : names_option _ _ |- _ => first [apply C1 in N|apply C2 in N|apply C3 in N|apply C4 in N] end; lia.
Qed.
