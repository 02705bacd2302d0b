(** The messages about unacceptable command lines. *)
From Coq Require Import String ZArith List Bool Lia ZifyBool ZifyNat.
From Verif Require Import Base World Context MemSim Dump GdbLog Elf CmdLine BaseLemmas CmdSpec CmdThms CmdSafe CmdFull AliasSpec.
Import ListNotations.
Open Scope Z_scope.
Open Scope m_scope.

Lemma dashed_iff a : starts_with (s2b "--") a <-> hasDoubleDashPrefix a = true.
Proof.
  split; [intros (r & ->); reflexivity|]. intro H. destruct a as [|x [|y t]]; cbn in H; try discriminate.
  - destruct x as [|p|p]; try discriminate. do 6 (destruct p; try discriminate).
  - assert (x = 45 /\ y = 45) as [-> ->]; [|now exists t].
    destruct x as [|p|p]; try discriminate. do 6 (destruct p as [p|p|]; try discriminate). destruct y as [|q|q]; try discriminate. do 6 (destruct q as [q|q|]; try discriminate). auto.
Qed.

Lemma complains_parse args m : complains args m -> forall c w, parseArguments FIRST_PASS args c w = Exc (invalid w (firstn 1023 m)).
Proof.
  induction 1 as [a t N|a t D N|a t N L|a N|a N|a t N L|a f args m N _ IH|a f b args m N _ IH|a f args m N _ IH|a b s r args m N _ IH]; intros c w; cbn [parseArguments].
  - destruct (hasDoubleDashPrefix a) eqn:D; [destruct (N (proj2 (dashed_iff a) D))|]. reflexivity.
  - apply dashed_iff in D. rewrite D. cbn [negb].
    destruct (strcaseeq a (s2b "--bin")) eqn:B; [destruct N; right; left; now apply named_bin|].
    destruct (strcaseeq a (s2b "--elf")) eqn:E; [destruct N; left; now apply named_elf|].
    destruct (strcaseeq a (s2b "--dump")) eqn:U; [destruct N; right; right; left; now apply named_dump|].
    destruct (strcaseeq a (s2b "--alias")) eqn:A; [destruct N; right; right; right; now apply named_alias|]. reflexivity.
  - assert (D : hasDoubleDashPrefix a = true) by dashed N. apply named_bin in N. rewrite D, N. cbn [negb]. destruct t as [|x [|y t]]; cbn [length] in L; try lia; reflexivity.
  - assert (D : hasDoubleDashPrefix a = true) by dashed N. apply named_elf in N. destruct (strcaseeq a (s2b "--bin")) eqn:B; [pose proof (one_name _ _ _ N B); discriminate|]. rewrite D, N. reflexivity.
  - assert (D : hasDoubleDashPrefix a = true) by dashed N. apply named_dump in N. destruct (strcaseeq a (s2b "--bin")) eqn:B; [pose proof (one_name _ _ _ N B); discriminate|].
    destruct (strcaseeq a (s2b "--elf")) eqn:E; [pose proof (one_name _ _ _ N E); discriminate|]. rewrite D, N. reflexivity.
  - assert (D : hasDoubleDashPrefix a = true) by dashed N. apply named_alias in N. destruct (strcaseeq a (s2b "--bin")) eqn:B; [pose proof (one_name _ _ _ N B); discriminate|].
    destruct (strcaseeq a (s2b "--elf")) eqn:E; [pose proof (one_name _ _ _ N E); discriminate|]. destruct (strcaseeq a (s2b "--dump")) eqn:U; [pose proof (one_name _ _ _ N U); discriminate|]. rewrite D, N.
    cbn [negb]. destruct t as [|x [|y [|z t]]]; cbn [length] in L; try lia; reflexivity.
  - assert (D : hasDoubleDashPrefix a = true) by dashed N. apply named_elf in N. destruct (strcaseeq a (s2b "--bin")) eqn:B; [pose proof (one_name _ _ _ N B); discriminate|]. rewrite D, N. cbn [negb]. apply IH.
  - assert (D : hasDoubleDashPrefix a = true) by dashed N. apply named_bin in N. rewrite D, N. cbn [negb]. apply IH.
  - assert (D : hasDoubleDashPrefix a = true) by dashed N. apply named_dump in N. destruct (strcaseeq a (s2b "--bin")) eqn:B; [pose proof (one_name _ _ _ N B); discriminate|].
    destruct (strcaseeq a (s2b "--elf")) eqn:E; [pose proof (one_name _ _ _ N E); discriminate|]. rewrite D, N. cbn [negb]. apply IH.
  - assert (D : hasDoubleDashPrefix a = true) by dashed N. apply named_alias in N. destruct (strcaseeq a (s2b "--bin")) eqn:B; [pose proof (one_name _ _ _ N B); discriminate|].
    destruct (strcaseeq a (s2b "--elf")) eqn:E; [pose proof (one_name _ _ _ N E); discriminate|]. destruct (strcaseeq a (s2b "--dump")) eqn:U; [pose proof (one_name _ _ _ N U); discriminate|]. rewrite D, N.
    cbn [negb]. unfold bind, ret. apply IH.
Qed.

Lemma spells_or_complains : forall n args, (length args <= n)%nat -> (exists os, spells args os) \/ exists m, complains args m.
Proof.
  induction n as [|n IH]; intros [|a t] L; cbn [length] in L; try lia; try (left; exists []; constructor).
  destruct (hasDoubleDashPrefix a) eqn:D.
  2:{ right. eexists. apply co_dashes. rewrite dashed_iff. congruence. }
  destruct (strcaseeq a (s2b "--bin")) eqn:B.
  { apply named_bin in B. destruct t as [|f [|b t']]; try (right; eexists; apply co_bin; [exact B|cbn; lia]).
    cbn [length] in L. destruct (IH t') as [(os & H)|(m & H)]; [lia|left; eexists; constructor; eassumption|right; eexists; apply co_after_bin; eassumption]. }
  destruct (strcaseeq a (s2b "--elf")) eqn:E.
  { apply named_elf in E. destruct t as [|f t']; try (right; eexists; apply co_elf; exact E).
    cbn [length] in L. destruct (IH t') as [(os & H)|(m & H)]; [lia|left; eexists; constructor; eassumption|right; eexists; apply co_after_elf; eassumption]. }
  destruct (strcaseeq a (s2b "--dump")) eqn:U.
  { apply named_dump in U. destruct t as [|f t']; try (right; eexists; apply co_dump; exact U).
    cbn [length] in L. destruct (IH t') as [(os & H)|(m & H)]; [lia|left; eexists; apply sp_dump; eassumption|right; eexists; apply co_after_dump; eassumption]. }
  destruct (strcaseeq a (s2b "--alias")) eqn:A.
  { apply named_alias in A. destruct t as [|b [|s [|r t']]]; try (right; eexists; apply co_alias; [exact A|cbn; lia]).
    cbn [length] in L. destruct (IH t') as [(os & H)|(m & H)]; [lia|left; eexists; constructor; eassumption|right; eexists; apply co_after_alias; eassumption]. }
  right. eexists. apply co_unknown; [now apply dashed_iff|]. unfold is_option. intros [N|[N|[N|N]]]; first [apply named_bin in N|apply named_elf in N|apply named_dump in N|apply named_alias in N]; congruence.
Qed.

(** The first pass and the check of the settings are all that runs. *)
Lemma init_complaint args m w : complaint args m ->
  exists w1, CrashDebugCommandLine_Init args w = failing false w1 /\ w_code w1 = invalidArgumentException /\ w_msg w1 = firstn 1023 m.
Proof.
  intros H. unfold CrashDebugCommandLine_Init, try_. set (w0 := set_exn w noException []). unfold bind at 1, lift at 1, modw at 1. cbn [fst snd].
  set (w2 := set_ctx w0 (repeat 0 216)). unfold bind at 1, lift at 1. cbn [fst snd]. destruct H as [H|(os & HS & H)].
  - rewrite (complains_parse _ _ H). eexists. split; [reflexivity|]. split; reflexivity.
  - destruct (parse_spelled _ _ HS) as [P1 _]. fold no_settings. rewrite P1. fold (settings os). unfold bind at 1, setl at 1. cbn [fst snd]. unfold bind at 1, lift at 1. cbn [fst snd].
    assert (E : throwIfRequiredArgumentNotSpecified (settings os) w2 = Exc (invalid w2 (firstn 1023 m))).
    { unfold throwIfRequiredArgumentNotSpecified. destruct H as [(NI & ->)|((o & Ho & HI) & ND & ->)].
      - rewrite (set_no_elf os), (set_no_bin os); [reflexivity| |]; intros o Ho; specialize (NI o Ho); destruct o; cbn in *; congruence.
      - rewrite (set_no_dump os ND). destruct (cl_bin (settings os)) eqn:B, (cl_elf (settings os)) eqn:E; try reflexivity. exfalso.
        destruct (is_elf o) eqn:EO.
        + destruct (last_of is_elf os) as [Z|(x & b & a & EQ & Z & HL)]; [rewrite (Z o Ho) in EO; discriminate|]. destruct x as [g| | |]; try discriminate.
          rewrite (set_elf os g) in E; [discriminate|]. exists b, a. auto.
        + destruct (is_bin o) eqn:BO; [|discriminate]. destruct (last_of is_bin os) as [Z|(x & b & a & EQ & Z & HL)]; [rewrite (Z o Ho) in BO; discriminate|]. destruct x as [|g y| |]; try discriminate.
          destruct (set_bin os g y) as [X _]; [exists b, a; auto|congruence]. }
    rewrite E. eexists. split; [reflexivity|]. split; reflexivity.
Qed.

Lemma complaint_exists args : ~ acceptable args -> exists m, complaint args m.
Proof.
  intro N. destruct (spells_or_complains _ args (le_n _)) as [(os & HS)|(m & H)]; [|exists m; now left].
  destruct (last_of (fun o => is_elf o || is_bin o) os) as [Z|(x & b & a & EQ & Z & HL)].
  - eexists. right. exists os. split; [exact HS|]. left. split; [exact Z|reflexivity].
  - destruct (last_of is_dump os) as [Y|(y & b' & a' & EQ' & Y & HL')].
    + eexists. right. exists os. split; [exact HS|]. right. split; [exists x; split; [rewrite EQ; apply in_or_app; right; now left|exact Z]|]. split; [exact Y|reflexivity].
    + destruct N. exists os. split; [exact HS|]. split; [exists x; split; [rewrite EQ; apply in_or_app; right; now left|exact Z]|exists y; split; [rewrite EQ'; apply in_or_app; right; now left|exact Y]].
Qed.
