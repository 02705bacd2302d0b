(** Aliases requested on the command line. *)
From Coq Require Import String ZArith List Bool Lia ZifyBool ZifyNat.
From Verif Require Import Base World Context MemSim Dump GdbLog Elf CmdLine BaseLemmas MemSpec Sat MemFair MemLemmas MemInv MemOps MemOps3 MemThms DumpSpec DumpLemmas DumpRef DumpThms DumpSafe ElfSpec ElfThms ElfClean LogSpec LogMem LogThms CmdSpec Closed CmdThms CmdSafe CmdFull AliasSpec.
Import ListNotations.
Open Scope Z_scope.
Open Scope m_scope.

(** ** The aliases made *)

Definition alias_of (rs : list region) (r : region) (al : Z * Z * Z) : Prop :=
  let '(b, s, rd) := al in
  r_base r = b /\ r_raddr r = rd /\ exists j t, r_redir r = Some j /\ nth_error rs j = Some t /\ covers t rd 1 /\
  r_size r = Z.min s (r_base t + r_size t - rd).

Lemma new_alias_of rs w b s rd j t : u32 s -> u32 rd -> u32 (r_base t) -> u32 (r_size t) -> nth_error rs j = Some t -> covers t rd 1 -> alias_of rs (new_alias w b rd s j t) (b, s, rd).
Proof.
  intros Hs Hr Hb Hz HN HC. unfold alias_of, new_alias. cbn [r_base r_raddr r_redir r_size]. split; [reflexivity|]. split; [reflexivity|].
  exists j, t. repeat (split; [reflexivity || assumption|]). unfold covers, u32 in *. assert (W (r_size t - (rd - r_base t)) = r_base t + r_size t - rd) as -> by (rewrite W_id; unfold u32; lia). destruct (_ <? s) eqn:E; lia.
Qed.

Lemma contains_cover rs ps a : Forall2 holds rs ps -> (exists p, In p ps /\ contains p a) -> exists j t, first_cover rs a 1 j t.
Proof.
  intros HH (p & Hp & Hc). destruct (In_nth_error _ _ Hp) as (k & Hk).
  assert (L : (k < length rs)%nat) by (rewrite (forall2_length _ _ _ HH); apply nth_error_Some; congruence).
  destruct (nth_error rs k) as [r|] eqn:E; [|apply nth_error_None in E; lia]. destruct (forall2_nth _ _ _ HH _ _ E) as (y & Ey & (B1 & B2 & _)).
  rewrite Hk in Ey. injection Ey as <-. assert (C : covers r a 1) by (unfold contains, covers in *; lia).
  destruct (find_from 0 rs a 1) as [q|] eqn:F.
  - apply find_some in F as (i & t & FC & _). eauto.
  - destruct (find_none _ _ _ _ F r); [eapply nth_error_In; eauto|exact C].
Qed.

Lemma alias_option_made R w b s r rs l : Inv R w -> regions w = rs ++ l -> (forall x, In x rs -> r_redir x = None) ->
  (exists j t, first_cover rs (strtou32 r) 1 j t) ->
  match createAliasOption b s r w with
  | Ret _ w' => Inv R w' /\ w_code w' = 0 /\ exists x, regions w' = rs ++ l ++ [x] /\ alias_of rs x (strtou32 b, strtou32 s, strtou32 r)
  | Exc w' => winv R w' /\ w_code w' = outOfMemoryException
  | Ub _ => False
  end.
Proof.
  intros HI HR HP (j & t & FC). unfold createAliasOption. cbv zeta. rewrite try0_eq. set (w0 := set_exn w noException []).
  assert (FC' : first_cover (regions w) (strtou32 r) 1 j t) by (rewrite HR; now apply cover_grown).
  assert (PT : r_redir t = None) by (destruct FC as (E & _); apply HP; eapply nth_error_In; eauto).
  assert (DA : direct_alias (regions w0) (OAlias (strtou32 b) (strtou32 r) (strtou32 s))).
  { intros i x FX. change (regions w0) with (regions w) in FX. pose proof (find_first 0 _ _ _ _ _ FX) as F1. pose proof (find_first 0 _ _ _ _ _ FC') as F2.
    destruct FX as (X1 & X2 & X3), FC' as (Y1 & Y2 & Y3). assert (i = j) as ->.
    { destruct (Nat.lt_trichotomy i j) as [L|[L|L]]; [destruct (Y3 i x L X1 X2)|exact L|destruct (X3 j t L Y1 Y2)]. }
    congruence. }
  pose proof (CreateAlias_post (strtou32 b) (strtou32 r) (strtou32 s) R w0 (Inv_exn _ _ _ _ HI) (strtou32_u32 _) (strtou32_u32 _) (strtou32_u32 _) DA) as P.
  unfold post in P. destruct (MemorySim_CreateAlias _ _ _ _) as [[] w1|w1|]; [| |destruct P].
  - destruct P as (I1 & _ & C1 & _ & _ & j' & t' & F & E & ER). rewrite C1. cbn [Z.eqb]. split; [exact I1|]. split; [exact C1|].
    change (regions w0) with (regions w) in *. assert (j' = j /\ t' = t) as [-> ->].
    { destruct F as (X1 & X2 & X3), FC' as (Y1 & Y2 & Y3). assert (j' = j) as -> by (destruct (Nat.lt_trichotomy j' j) as [L|[L|L]]; [destruct (Y3 j' t' L X1 X2)|exact L|destruct (X3 j t L Y1 Y2)]).
      split; [reflexivity|congruence]. }
    eexists. split; [rewrite ER, HR, <- app_assoc; reflexivity|]. destruct FC as (N & C & _). destruct HI as (WF & _).
    assert (N' : nth_error (regions w) j = Some t) by apply FC'.
    apply new_alias_of; auto using strtou32_u32; [exact (wr_base _ _ _ (WF _ _ N'))|exact (wr_size _ _ _ (WF _ _ N'))].
  - destruct P as (I1 & _ & _ & _ & [(_ & NC)|C]).
    + exfalso. destruct FC' as (X1 & X2 & _). apply (NC t); [eapply nth_error_In; exact X1|exact X2].
    + rewrite C. cbn [Z.eqb]. unfold bind, getExceptionCode. match goal with |- context[throw_msg ?c ?m w1] => destruct (throws_msg (A := unit) c m w1) as (m' & ->) end.
      cbn [w_code set_exn]. rewrite C. split; [apply winv_exn, Inv_winv, I1|reflexivity].
Qed.

Lemma aliases_made R rs os : forall w l als, Inv R w -> w_code w = 0 -> regions w = rs ++ l -> (forall x, In x rs -> r_redir x = None) ->
  Forall2 (alias_of rs) l als -> Forall (fun al => exists j t, first_cover rs (snd al) 1 j t) (aliases os) ->
  match make_aliases os w with
  | Ret _ w' => Inv R w' /\ w_code w' = 0 /\ exists l', regions w' = rs ++ l' /\ Forall2 (alias_of rs) l' (als ++ aliases os)
  | Exc w' => winv R w' /\ w_code w' = outOfMemoryException
  | Ub _ => False
  end.
Proof.
  induction os as [|o os IH]; intros w l als HI HC HR HP HA HG; cbn [make_aliases].
  - split; [exact HI|]. split; [exact HC|]. exists l. split; [exact HR|]. unfold aliases. cbn [flat_map]. now rewrite app_nil_r.
  - destruct o as [f|f a|f|b s r]; try (apply (IH w l als); assumption).
    unfold aliases in HG. cbn [flat_map app] in HG. inversion HG as [|? ? G1 G2]; subst. cbn [snd] in G1. unfold bind.
    pose proof (alias_option_made R w b s r rs l HI HR HP G1) as P. destruct (createAliasOption b s r w) as [[] w1|w1|]; [|exact P|exact P].
    destruct P as (I1 & C1 & x & E1 & A1). change (aliases (Alias b s r :: os)) with ((strtou32 b, strtou32 s, strtou32 r) :: aliases os).
    specialize (IH w1 (l ++ [x]) (als ++ [(strtou32 b, strtou32 s, strtou32 r)]) I1 C1 E1 HP).
    rewrite <- app_assoc in IH. cbn [app] in IH. apply IH; [apply Forall2_app; [exact HA|constructor; [exact A1|constructor]]|exact G2].
Qed.

(** ** Reading *)

Lemma part_unique ps p q a : ForallOrdPairs (fun x y => apart (range_in x) (range_in y)) ps -> In p ps -> In q ps -> contains p a -> contains q a -> p = q.
Proof.
  intros F Hp Hq Cp Cq. destruct (In_nth_error _ _ Hp) as (i & Ei). destruct (In_nth_error _ _ Hq) as (j & Ej).
  destruct (Nat.lt_trichotomy i j) as [L|[->|L]]; [|congruence|].
  - pose proof (ordpairs_nth _ _ F i j p q L Ei Ej) as X. unfold apart, range_in, contains in *. cbn [fst snd] in *. lia.
  - pose proof (ordpairs_nth _ _ F j i q p L Ej Ei) as X. unfold apart, range_in, contains in *. cbn [fst snd] in *. lia.
Qed.

(** The alias region covers the bytes at [a] iff the alias leads from [a]. *)
Lemma alias_leads rs ps r al n a a' : Forall2 holds rs ps -> ForallOrdPairs (fun x y => apart (range_in x) (range_in y)) ps -> alias_of rs r al -> 0 < n ->
  leads ps al n a a' -> covers r a n /\ exists j t p, r_redir r = Some j /\ nth_error rs j = Some t /\ In p ps /\ holds t p /\ contains p (r_raddr r) /\ within p n a' /\ a' = r_raddr r + (a - r_base r).
Proof.
  intros HH HO HA Hn. destruct al as [[b s] rd]. destruct HA as (B & RA & j & t & HJ & HT & HC & HS). intros (L1 & L2 & -> & p & Hp & C1 & C2).
  destruct (forall2_nth _ _ _ HH _ _ HT) as (q & Eq & Hq). pose proof (nth_error_In _ _ Eq) as Iq.
  assert (Cq : contains q rd) by (destruct Hq as (Q1 & Q2 & _); unfold covers, contains in *; lia).
  assert (q = p) as -> by (eapply part_unique; eauto). pose proof Hq as (Q1 & Q2 & Q3 & Q4 & _). split.
  - unfold covers, contains, within in *. rewrite B, HS. lia.
  - exists j, t, p. rewrite RA, B. auto 12.
Qed.
Lemma covers_leads rs ps r al n a : Forall2 holds rs ps -> alias_of rs r al -> covers r a n -> exists a', leads ps al n a a'.
Proof.
  intros HH HA. destruct al as [[b s] rd]. destruct HA as (B & RA & j & t & HJ & HT & HC & HS). intros (C1 & C2). rewrite B, HS in *.
  destruct (forall2_nth _ _ _ HH _ _ HT) as (q & Eq & (Q1 & Q2 & _)). pose proof (nth_error_In _ _ Eq) as Iq.
  exists (rd + (a - b)). split; [lia|]. split; [lia|]. split; [reflexivity|]. exists q. split; [exact Iq|]. unfold covers, contains, within in *. lia.
Qed.

Lemma outside_cover rs ps n a r : Forall2 holds rs ps -> in_no_part ps n a -> In r rs -> ~ covers r a n.
Proof.
  intros HH HO Hr (C1 & C2). destruct (In_nth_error _ _ Hr) as (i & E). destruct (forall2_nth _ _ _ HH _ _ E) as (x & Ex & (E1 & E2 & _)). apply nth_error_In in Ex. apply (HO x Ex). unfold within. lia.
Qed.

Lemma read_alias w rs l ps als before al after n a a' v : wf (regions w) -> regions w = rs ++ l -> Forall2 holds rs ps -> fit [] ps -> Forall2 (alias_of rs) l als -> width n ->
  u32 a -> in_no_part ps n a -> als = before ++ al :: after -> (forall x y, In x before -> ~ leads ps x n a y) -> leads ps al n a a' -> number_at ps n a' v ->
  exists w', api (readN n a) w = Done v w'.
Proof.
  intros HW HR HH (F1 & F2 & _) HA Hn Ha HO -> HB HL (base & bs & i & Hin & Hi & Hb & Ea & ->). assert (Pn : 0 < n) by (unfold width in Hn; lia).
  apply Forall2_app_inv_r in HA as (l1 & l2' & A1 & A2 & ->). inversion A2 as [|r ? l2 ? HA A3]; subst l2'. subst.
  destruct (alias_leads _ _ _ _ _ _ _ HH F2 HA Pn HL) as (CV & j & t & p & HJ & HT & Hp & Ht & Cr & Ca & Ea').
  assert (p = (base, bs)) as -> by (eapply (part_unique ps _ _ (base + i)); eauto; unfold contains, within in *; cbn [fst snd]; lia).
  assert (FC : first_cover (regions w) a n (length rs + length l1)%nat r).
  { rewrite HR. split; [|split; [exact CV|]].
    - rewrite nth_error_app2 by lia. replace (length rs + length l1 - length rs)%nat with (length l1) by lia. rewrite nth_error_app2 by lia. now rewrite Nat.sub_diag.
    - intros i' r' Hi' E C. destruct (Nat.lt_ge_cases i' (length rs)) as [L|L].
      + rewrite nth_error_app1 in E by exact L. apply (outside_cover _ _ _ _ _ HH HO (nth_error_In _ _ E) C).
      + rewrite nth_error_app2 in E by exact L. rewrite nth_error_app1 in E by lia. destruct (forall2_nth _ _ _ A1 _ _ E) as (x & Ex & HX).
        destruct (covers_leads _ _ _ _ _ _ HH HX C) as (y & HY). apply (HB x y (nth_error_In _ _ Ex) HY). }
  unfold api. set (w0 := set_exn w noException []). rewrite readN_wf; [|exact HW|exact Ha|exact Hn]. change (regions w0) with (regions w).
  rewrite (find_first 0 _ _ _ _ _ FC), HJ. assert (HT' : nth_error (regions w) j = Some t) by (rewrite HR, nth_error_app1; [exact HT|apply nth_error_Some; congruence]).
  rewrite HT'. rewrite Forall_forall in F1. specialize (F1 _ Hp). destruct Ht as (T1 & T2 & T3 & T4 & T5 & _). cbn [fst snd] in *.
  set (a2 := base + i) in *.
  assert (UB : u32 base) by (rewrite <- T1; exact (wr_base _ _ _ (HW _ _ HT'))).
  assert (EW : W (a - r_base r + r_raddr r) = a2) by (unfold contains, within, u32, zlen, W in *; cbn [fst snd] in *; lia).
  rewrite EW. cbv zeta. rewrite T5. cbn [scan_wps].
  assert (RO : roff t a2 = i) by (unfold roff, W, u32, zlen in *; lia). rewrite RO, T4. unfold slice. eauto.
Qed.

Lemma read_nothing w rs l ps als n a : wf (regions w) -> regions w = rs ++ l -> Forall2 holds rs ps -> Forall2 (alias_of rs) l als -> width n ->
  u32 a -> in_no_part ps n a -> (forall al y, In al als -> ~ leads ps al n a y) -> api (readN n a) w = Raised busErrorException (set_exn w busErrorException []).
Proof.
  intros HW HR HH HA Hn Ha HO HL. unfold api. rewrite readN_wf; [|exact HW|exact Ha|exact Hn]. change (regions (set_exn w noException [])) with (regions w).
  destruct (find_from 0 (regions w) a n) as [p|] eqn:F; [|reflexivity]. exfalso. apply find_some in F as (i & r & (E & C & _) & _). apply nth_error_In in E. rewrite HR in E.
  apply in_app_or in E as [E|E]; [apply (outside_cover _ _ _ _ _ HH HO E C)|]. destruct (In_nth_error _ _ E) as (k & Ek). destruct (forall2_nth _ _ _ HA _ _ Ek) as (x & Ex & HX).
  destruct (covers_leads _ _ _ _ _ _ HH HX C) as (y & HY). apply (HL x y (nth_error_In _ _ Ex) HY).
Qed.

(** ** Start-up with aliases *)

Lemma aliases_grounded rs ps os : Forall2 holds rs ps -> Forall (grounded ps) (aliases os) -> Forall (fun al => exists j t, first_cover rs (snd al) 1 j t) (aliases os).
Proof. intros HH H. eapply Forall_impl; [|exact H]. intros [[b s] r] G. cbn [snd]. now apply (contains_cover rs ps). Qed.
Lemma holds_plain rs ps : Forall2 holds rs ps -> forall x, In x rs -> r_redir x = None.
Proof. intros HH x Hx. destruct (In_nth_error _ _ Hx) as (i & E). destruct (forall2_nth _ _ _ HH _ _ E) as (y & _ & (_ & _ & Q & _)). exact Q. Qed.

Lemma with_aliases args os ms f data mem regs w : heap_sane w -> no_io_faults w -> (forall f data, file_is w f data -> Forall byte data) ->
  spells args os -> complete os -> image_parts w os ms -> uses_dump os f -> file_is w f data -> dump_means data mem regs -> fit [] (ms ++ mem) ->
  Forall (grounded (ms ++ mem)) (aliases os) ->
  match api (CrashDebugCommandLine_Init args) w with
  | Done _ w' =>
      (forall before al after n a a' v, aliases os = before ++ al :: after -> width n -> u32 a -> in_no_part (ms ++ mem) n a ->
         (forall x y, In x before -> ~ leads (ms ++ mem) x n a y) -> leads (ms ++ mem) al n a a' -> number_at (ms ++ mem) n a' v ->
         exists w'', api (readN n a) w' = Done v w'') /\
      (forall n a, width n -> u32 a -> in_no_part (ms ++ mem) n a -> (forall al y, In al (aliases os) -> ~ leads (ms ++ mem) al n a y) ->
         api (readN n a) w' = Raised busErrorException (set_exn w' busErrorException []))
  | Raised c w' => c = outOfMemoryException /\ 0 < refusals w w'
  | Crashed _ => False
  end.
Proof.
  intros HH HN HB HS HC HP HU HF HM Hfit HG.
  pose proof (fun w' => fair_api _ w w' (sat_init args)) as FA.
  pose proof (parts_loaded os ms f data mem regs w HH HN HB HP HU HF HM Hfit) as PL.
  assert (K : (exists w1 l, stages os (set_exn (blank_state w) noException []) = Ret tt w1 /\ w_code w1 = 0 /\ wf (regions w1) /\
                 exists rs, regions w1 = rs ++ l /\ Forall2 holds rs (ms ++ mem) /\ Forall2 (alias_of rs) l (aliases os)) \/
              (exists w1, stages os (set_exn (blank_state w) noException []) = Exc w1 /\ winv (h_live (w_heap w)) w1 /\ w_code w1 = outOfMemoryException)).
  { destruct PL as [(w2 & E & I2 & C2 & H2 & _ & _)|PL]; [|now right].
    pose proof (aliases_made _ (regions w2) os w2 [] [] I2 C2 (eq_sym (app_nil_r _)) (holds_plain _ _ H2) (Forall2_nil _) (aliases_grounded _ _ _ H2 HG)) as AM.
    destruct (make_aliases os w2) as [[] w3|w3|]; [| |destruct AM].
    - left. destruct AM as (I3 & C3 & l' & E3 & A3). exists w3, l'. split; [exact E|]. split; [exact C3|]. split; [apply I3|]. exists (regions w2). auto.
    - right. exists w3. split; [exact E|exact AM]. }
  unfold api in *. rewrite (init_stages _ _ _ HS HC) in *. change (set_exn (blank_state (set_exn w noException [])) noException []) with (set_exn (blank_state w) noException []) in *.
  destruct K as [(w1 & l & E & C & W1 & rs & ER & H1 & A1)|(w1 & E & WI & K)]; rewrite E in *.
  - rewrite C. cbn [Z.eqb]. split.
    + intros before al after n a a' v EA Hn Ha HO HB1 HL Hb. eapply (read_alias w1 rs l); eauto.
    + intros n a Hn Ha HO HL. eapply (read_nothing w1 rs l); eauto.
  - rewrite K in *. cbn [Z.eqb] in *. destruct (failing_true _ _ WI) as (h & Ef & _). rewrite Ef in *. split; [exact K|]. apply FA. change (outOfMemoryException =? 0) with false. cbv iota. cbn [w_code set_mem set_heap set_err]. now rewrite K.
Qed.

(** Where everything is after start-up. *)
Lemma startup_regions args os ms f data mem regs w c w1 : heap_sane w -> no_io_faults w -> (forall f data, file_is w f data -> Forall byte data) ->
  spells args os -> complete os -> image_parts w os ms -> uses_dump os f -> file_is w f data -> dump_means data mem regs -> fit [] (ms ++ mem) ->
  api (CrashDebugCommandLine_Init args) w = Done c w1 ->
  exists rs1 rs2 l, regions w1 = (rs1 ++ rs2) ++ l /\ Forall2 is_rom rs1 ms /\ Forall2 is_ram rs2 mem /\ regs (w_ctx w1) /\
    (Forall (grounded (ms ++ mem)) (aliases os) -> Forall2 (alias_of (rs1 ++ rs2)) l (aliases os)) /\ (aliases os = [] -> l = []).
Proof.
  intros HH HN HB HS HC HP HU HF HM Hfit HI. destruct (init_done _ _ _ _ _ HS HC HI) as (E & C0 & _).
  destruct (parts_loaded os ms f data mem regs w HH HN HB HP HU HF HM Hfit) as [(w2 & E2 & I2 & C2 & H2 & XC & rs1 & rs2 & ER & HR1 & HR2)|(w2 & E2 & _ & C2)]; rewrite E2 in E.
  2:{ destruct E as [E|E]; [discriminate|]. injection E as <-. rewrite C2 in C0. discriminate. }
  pose proof (grown_aliases os w2) as G. pose proof (aliases_safe _ os w2 (Inv_winv _ _ I2) C2) as AS.
  destruct (make_aliases os w2) as [[] w3|w3|] eqn:EM; [| |destruct E; discriminate].
  2:{ destruct E as [E|E]; [discriminate|]. injection E as ->. destruct AS as (_ & _ & AS). rewrite C0 in AS. destruct AS; discriminate. }
  destruct E as [E|E]; [|discriminate]. injection E as ->. destruct G as (G1 & l & G2). exists rs1, rs2, l. rewrite G2, ER, G1. do 4 (split; [assumption || reflexivity|]). split.
  - intro HG. pose proof (aliases_made _ (regions w2) os w2 [] [] I2 C2 (eq_sym (app_nil_r _)) (holds_plain _ _ H2) (Forall2_nil _) (aliases_grounded _ _ _ H2 HG)) as AM.
    rewrite EM in AM. destruct AM as (_ & _ & l' & E3 & A3). rewrite G2 in E3. apply app_inv_head in E3. subst l'. rewrite ER in A3. exact A3.
  - intro HA. assert (NA : forall o, In o os -> is_alias o = false).
    { intros o Ho. destruct o as [| | |b s r]; try reflexivity. exfalso. assert (X : In (strtou32 b, strtou32 s, strtou32 r) (aliases os)) by (apply in_flat_map; eexists; split; [exact Ho|now left]). rewrite HA in X. destruct X. }
    rewrite (no_aliases os NA w2) in EM. injection EM as ->. rewrite <- app_nil_r in G2 at 1. now apply app_inv_head in G2.
Qed.

(** ** An alias onto nothing *)

Lemma make_aliases_app os1 os2 : forall w, make_aliases (os1 ++ os2) w =
  match make_aliases os1 w with Ret _ w1 => make_aliases os2 w1 | Exc w1 => Exc w1 | Ub u => Ub u end.
Proof.
  induction os1 as [|o os1 IH]; intro w; cbn [app make_aliases]; [reflexivity|]. destruct o as [f|f a|f|b s r]; try apply IH.
  unfold bind. destruct (createAliasOption b s r w) as [[] w1|w1|]; [apply IH|reflexivity|reflexivity].
Qed.

Lemma alias_option_nowhere R w b s r : Inv R w -> (forall x, In x (regions w) -> ~ covers x (strtou32 r) 1) ->
  match createAliasOption b s r w with
  | Exc w' => winv R w' /\ ((w_code w' = busErrorException /\ w_msg w' = firstn 1023 (alias_message (strtou32 b, strtou32 s, strtou32 r))) \/ w_code w' = outOfMemoryException)
  | _ => False
  end.
Proof.
  intros HI HC. unfold createAliasOption. cbv zeta. rewrite try0_eq. set (w0 := set_exn w noException []).
  assert (DA : direct_alias (regions w0) (OAlias (strtou32 b) (strtou32 r) (strtou32 s))).
  { intros i x (X1 & X2 & _). destruct (HC x (nth_error_In _ _ X1) X2). }
  pose proof (CreateAlias_post (strtou32 b) (strtou32 r) (strtou32 s) R w0 (Inv_exn _ _ _ _ HI) (strtou32_u32 _) (strtou32_u32 _) (strtou32_u32 _) DA) as P.
  unfold post in P. destruct (MemorySim_CreateAlias _ _ _ _) as [[] w1|w1|]; [| |destruct P].
  - destruct P as (_ & _ & _ & _ & _ & j & t & (X1 & X2 & _) & _). destruct (HC t (nth_error_In _ _ X1) X2).
  - destruct P as (I1 & _ & _ & _ & P). assert (NZ : w_code w1 =? 0 = false) by (destruct P as [(-> & _)| ->]; reflexivity). rewrite NZ.
    unfold bind, getExceptionCode, throw_msg, throw. cbn [w_code w_msg set_exn]. rewrite Z.max_id.
    split; [apply winv_exn, winv_exn, Inv_winv, I1|]. destruct P as [(P & _)|P]; [left|now right]. split; [exact P|reflexivity].
Qed.

Lemma alias_nowhere args os1 b s r os2 ms f data mem regs w : let os := os1 ++ Alias b s r :: os2 in
  heap_sane w -> no_io_faults w -> (forall f data, file_is w f data -> Forall byte data) ->
  spells args os -> complete os -> image_parts w os ms -> uses_dump os f -> file_is w f data -> dump_means data mem regs -> fit [] (ms ++ mem) ->
  Forall (grounded (ms ++ mem)) (aliases os1) -> in_no_part (ms ++ mem) 1 (strtou32 r) ->
  (forall al y, In al (aliases os1) -> ~ leads (ms ++ mem) al 1 (strtou32 r) y) ->
  (exists w', api (CrashDebugCommandLine_Init args) w = Raised busErrorException w' /\ w_msg w' = firstn 1023 (alias_message (strtou32 b, strtou32 s, strtou32 r))) \/
  (exists w', api (CrashDebugCommandLine_Init args) w = Raised outOfMemoryException w' /\ 0 < refusals w w').
Proof.
  intros os HH HN HB HS HC HP HU HF HM Hfit HG HO HL.
  pose proof (fun w' => fair_api _ w w' (sat_init args)) as FA.
  pose proof (parts_loaded os ms f data mem regs w HH HN HB HP HU HF HM Hfit) as PL.
  assert (K : exists w1, stages os (set_exn (blank_state w) noException []) = Exc w1 /\ winv (h_live (w_heap w)) w1 /\
      ((w_code w1 = busErrorException /\ w_msg w1 = firstn 1023 (alias_message (strtou32 b, strtou32 s, strtou32 r))) \/ w_code w1 = outOfMemoryException)).
  { destruct PL as [(w2 & E & I2 & C2 & H2 & _ & _)|(w1 & E & I1 & C1)]; [|exists w1; auto].
    pose proof (aliases_made _ (regions w2) os1 w2 [] [] I2 C2 (eq_sym (app_nil_r _)) (holds_plain _ _ H2) (Forall2_nil _) (aliases_grounded _ _ _ H2 HG)) as AM.
    rewrite E. unfold os. rewrite make_aliases_app. destruct (make_aliases os1 w2) as [[] w3|w3|]; [| |destruct AM].
    - destruct AM as (I3 & C3 & l' & E3 & A3). cbn [app] in A3. cbn [make_aliases].
      assert (NC : forall x, In x (regions w3) -> ~ covers x (strtou32 r) 1).
      { rewrite E3. intros x Hx C. apply in_app_or in Hx as [Hx|Hx]; [apply (outside_cover _ _ _ _ _ H2 HO Hx C)|].
        destruct (In_nth_error _ _ Hx) as (k & Ek). destruct (forall2_nth _ _ _ A3 _ _ Ek) as (al & Ex & HX).
        destruct (covers_leads _ _ _ _ _ _ H2 HX C) as (y & HY). apply (HL al y (nth_error_In _ _ Ex) HY). }
      pose proof (alias_option_nowhere _ w3 b s r I3 NC) as P. unfold bind. destruct (createAliasOption b s r w3) as [[] w4|w4|]; [destruct P| |destruct P]. exists w4. split; [reflexivity|exact P].
    - exists w3. destruct AM. auto. }
  unfold api in *. rewrite (init_stages _ _ _ HS HC) in *. change (set_exn (blank_state (set_exn w noException [])) noException []) with (set_exn (blank_state w) noException []) in *.
  destruct K as (w1 & E & WI & K); rewrite E in *. assert (NZ : w_code w1 =? 0 = false) by (destruct K as [(-> & _)| ->]; reflexivity). rewrite NZ in *.
  destruct (failing_true _ _ WI) as (h & Ef & _). rewrite Ef in *. cbn [w_code set_mem set_heap set_err] in *.
  destruct K as [(K & KM)|K]; rewrite K in *; [left|right]; (eexists; split; [reflexivity|]); [exact KM|]. now apply FA.
Qed.
