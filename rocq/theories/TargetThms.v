(** A debug session behaves like the target its files describe: proofs. *)
From Coq Require Import String ZArith List Bool Lia ZifyBool ZifyNat.
From Verif Require Import Base World Context MemSim CmdLine Platform Comm BaseLemmas MemSpec Sat MemLemmas MemInv MemOps MemOps2 MemOps3 MemHist MemHist2 MemThms MemThms2 MemThms3 DumpSpec DumpThms ElfSpec CmdSpec CmdThms CmdSafe CmdFull AliasSpec CmdAlias PlatSpec PlatInit PlatThms PlatSess PlatView GdbSpec GdbView MapSpec MapThms TargetSpec.
From Verif Require MapFaith DumpLemmas.
Import ListNotations.
Open Scope Z_scope.
Open Scope m_scope.

(** ** Lists *)

Lemma first_some_none {A B} (f : A -> option B) l : first_some f l = None <-> forall x, In x l -> f x = None.
Proof.
  induction l as [|x l IH]; cbn [first_some]; [split; [intros _ x []|reflexivity]|]. split.
  - destruct (f x) eqn:E; [discriminate|]. intros H y [<-|Hy]; [exact E|]. now apply IH.
  - intro H. rewrite (H x (or_introl eq_refl)). apply IH. intros y Hy. apply H. now right.
Qed.
Lemma first_some_some {A B} (f : A -> option B) l y : first_some f l = Some y ->
  exists before x after, l = before ++ x :: after /\ f x = Some y /\ forall z, In z before -> f z = None.
Proof.
  induction l as [|x l IH]; cbn [first_some]; [discriminate|]. destruct (f x) as [v|] eqn:E.
  - intro H. injection H as ->. exists [], x, l. split; [reflexivity|]. split; [exact E|]. intros z [].
  - intro H. destruct (IH H) as (b & z & a & -> & Hz & Hb). exists (x :: b), z, a. split; [reflexivity|]. split; [exact Hz|]. intros u [<-|Hu]; auto.
Qed.
Lemma first_some_at {A B} (f : A -> option B) l i x y : nth_error l i = Some x -> f x = Some y ->
  (forall j z, nth_error l j = Some z -> f z <> None -> j = i) -> first_some f l = Some y.
Proof.
  revert i. induction l as [|z l IH]; intros [|i] E F U; cbn [nth_error] in E; try discriminate; cbn [first_some].
  - injection E as ->. now rewrite F.
  - destruct (f z) eqn:Fz; [specialize (U 0%nat z eq_refl); rewrite Fz in U; discriminate U; discriminate|].
    apply (IH i E F). intros j u Eu Hu. specialize (U (S j) u Eu Hu). now injection U.
Qed.
Lemma map_at {A} (b : A -> bool) (f : A -> A) l i x : nth_error l i = Some x -> b x = true ->
  (forall j z, nth_error l j = Some z -> b z = true -> j = i) -> map (fun z => if b z then f z else z) l = upd_nth i f l.
Proof.
  revert i. induction l as [|z l IH]; intros [|i] E F U; cbn [nth_error] in E; try discriminate; cbn [map upd_nth].
  - injection E as ->. rewrite F. f_equal. rewrite <- (map_id l) at 2. apply map_ext_in. intros y Hy. destruct (b y) eqn:By; [|reflexivity].
    destruct (In_nth_error _ _ Hy) as (k & Ek). specialize (U (S k) y Ek By). discriminate.
  - destruct (b z) eqn:Bz; [specialize (U 0%nat z eq_refl Bz); discriminate|]. f_equal. apply (IH i E F).
    intros j u Eu Hu. specialize (U (S j) u Eu Hu). now injection U.
Qed.

(** ** Parts and regions *)

Definition pr (p : part) : Z * list Z := (p_addr p, p_bytes p).
Definition keeps_part (r : region) (p : part) : Prop := holds r (pr p) /\ r_ro r = negb (p_ram p).
Notation disjoint ps := (ForallOrdPairs (fun x y => apart (range_in x) (range_in y)) (map pr ps)).

Lemma keeps_holds rs ps : Forall2 keeps_part rs ps -> Forall2 holds rs (map pr ps).
Proof. induction 1 as [|r p rs ps H HF IH]; constructor; [apply H|exact IH]. Qed.

Lemma inside_within n a p : inside n a p = true <-> within (pr p) n a.
Proof. unfold inside, within, pr. cbn [fst snd]. lia. Qed.
Lemma inside_contains a p : inside 1 a p = true <-> contains (pr p) a.
Proof. unfold inside, contains, pr. cbn [fst snd]. lia. Qed.

Lemma inside_one ps n a i j p q : disjoint ps -> 0 < n -> nth_error ps i = Some p -> nth_error ps j = Some q ->
  inside n a p = true -> inside n a q = true -> i = j.
Proof.
  intros HD Hn Hi Hj Ip Iq. assert (Ei : nth_error (map pr ps) i = Some (pr p)) by (now rewrite nth_error_map, Hi).
  assert (Ej : nth_error (map pr ps) j = Some (pr q)) by (now rewrite nth_error_map, Hj). unfold inside in *.
  destruct (Nat.lt_trichotomy i j) as [L|[E|L]]; [|exact E|]; exfalso.
  - pose proof (ordpairs_nth _ _ HD i j _ _ L Ei Ej) as X. unfold apart, range_in, pr in X. cbn [fst snd] in X. lia.
  - pose proof (ordpairs_nth _ _ HD j i _ _ L Ej Ei) as X. unfold apart, range_in, pr in X. cbn [fst snd] in X. lia.
Qed.

Lemma via_leads ps n a al a' : via ps n a al = Some a' <-> leads (map pr ps) al n a a'.
Proof.
  destruct al as [[b s] rd]. unfold via, leads. split.
  - destruct (_ && existsb _ ps) eqn:E; [|discriminate]. intro H. injection H as <-. apply andb_true_iff in E as [E1 E2].
    split; [lia|]. split; [lia|]. split; [reflexivity|]. apply existsb_exists in E2 as (p & Hp & E2). apply andb_true_iff in E2 as [E2 E3].
    exists (pr p). split; [now apply in_map|]. split; [now apply inside_contains|now apply inside_within].
  - intros (H1 & H2 & -> & q & Hq & C & X). apply in_map_iff in Hq as (p & <- & Hp).
    assert (existsb (fun p => inside 1 rd p && inside n (rd + (a - b)) p) ps = true) as ->.
    { apply existsb_exists. exists p. split; [exact Hp|]. apply inside_contains in C. apply inside_within in X. now rewrite C, X. }
    replace (b <=? a) with true by lia. replace (a + n <=? b + s) with true by lia. reflexivity.
Qed.
Lemma via_none ps n a al : via ps n a al = None <-> forall y, ~ leads (map pr ps) al n a y.
Proof.
  split.
  - intros E y L. apply via_leads in L. congruence.
  - intro H. destruct (via ps n a al) as [y|] eqn:E; [|reflexivity]. apply via_leads in E. destruct (H _ E).
Qed.

Section memory.
Variables (rs l : list region) (t : target).
Hypothesis (HW : wf (rs ++ l)) (HK : Forall2 keeps_part rs (t_parts t)) (HA : Forall2 (alias_of rs) l (t_aliases t)).
Hypothesis (HF : Forall (fun x => fst x + zlen (snd x) <= 4294967296) (map pr (t_parts t))) (HD : disjoint (t_parts t)).

(** The bytes that an access refers to. *)
Lemma real_find n a : 0 < n -> u32 a ->
  match real_address t n a with
  | None => find_from 0 (rs ++ l) a n = None
  | Some a' => exists j r p, find_from 0 (rs ++ l) a n = Some (j, a') /\ nth_error rs j = Some r /\ nth_error (t_parts t) j = Some p /\
      keeps_part r p /\ inside n a' p = true /\ u32 a' /\ u32 (p_addr p) /\ roff r a' = a' - p_addr p
  end.
Proof.
  intros Hn Ha. pose proof (keeps_holds _ _ HK) as HH. unfold real_address. destruct (existsb (inside n a) (t_parts t)) eqn:E.
  - apply existsb_exists in E as (p & Hp & Ip). pose proof Ip as Ip'. unfold inside in Ip.
    destruct (parts_first rs (map pr (t_parts t)) (p_addr p) (p_bytes p) (a - p_addr p) n HH HD) as (j & r & FC & HR); [apply (in_map pr), Hp|lia|exact Hn|lia|].
    replace (p_addr p + (a - p_addr p)) with a in FC by lia.
    assert (FC' : first_cover (rs ++ l) a n j r) by now apply cover_grown. pose proof (find_first 0 _ _ _ _ _ FC') as FF.
    pose proof HR as (R1 & R2 & R3 & R4 & _). rewrite R3 in FF. pose proof FC as (Ej & _). destruct (forall2_nth _ _ _ HK _ _ Ej) as (p' & Ep & HP).
    pose proof HP as ((P1 & _ & _ & P4 & _) & _). cbn [pr fst snd] in *. 
    assert (EA : p_addr p' = p_addr p) by congruence. assert (EB : p_bytes p' = p_bytes p) by congruence.
    exists j, r, p'. assert (UB : u32 (r_base r)) by exact (wr_base _ _ _ (HW _ _ (proj1 FC'))). split; [exact FF|]. split; [exact Ej|]. split; [exact Ep|]. split; [exact HP|].
    split; [unfold inside; rewrite EA, EB; exact Ip|]. split; [exact Ha|]. split; [rewrite <- P1; exact UB|]. unfold roff. rewrite R1, EA, W_id; [reflexivity|unfold u32 in *; lia].
  - assert (HO : in_no_part (map pr (t_parts t)) n a).
    { intros q Hq Hin. apply in_map_iff in Hq as (p & <- & Hp). apply inside_within in Hin.
      assert (X : existsb (inside n a) (t_parts t) = true) by (apply existsb_exists; eauto). congruence. }
    destruct (first_some (via (t_parts t) n a) (t_aliases t)) as [a'|] eqn:EF.
    + apply first_some_some in EF as (before & al & after & EA & EV & EB). apply via_leads in EV.
      rewrite EA in HA. apply Forall2_app_inv_r in HA as (l1 & l2' & A1 & A2 & EL). inversion A2 as [|r0 ? l2 ? HA0 A3]; subst l2'. subst.
      destruct (alias_leads _ _ _ _ _ _ _ HH HD HA0 Hn EV) as (CV & j & u & q & HJ & HT & Hq & Hu & Cr & Ca & Ea').
      assert (FC : first_cover (rs ++ l1 ++ r0 :: l2) a n (length rs + length l1)%nat r0).
      { split; [|split; [exact CV|]].
        - rewrite nth_error_app2 by lia. replace (length rs + length l1 - length rs)%nat with (length l1) by lia. rewrite nth_error_app2 by lia. now rewrite Nat.sub_diag.
        - intros i' r' Hi' E' C. destruct (Nat.lt_ge_cases i' (length rs)) as [L|L].
          + rewrite nth_error_app1 in E' by exact L. apply (outside_cover _ _ _ _ _ HH HO (nth_error_In _ _ E') C).
          + rewrite nth_error_app2 in E' by exact L. rewrite nth_error_app1 in E' by lia. destruct (forall2_nth _ _ _ A1 _ _ E') as (x & Ex & HX).
            destruct (covers_leads _ _ _ _ _ _ HH HX C) as (y & HY). apply via_leads in HY. rewrite (EB _ (nth_error_In _ _ Ex)) in HY. discriminate. }
      pose proof (find_first 0 _ _ _ _ _ FC) as FF. rewrite HJ in FF.
      destruct (forall2_nth _ _ _ HK _ _ HT) as (p & Ep & HP). pose proof HP as ((P1 & P2 & _ & P4 & _) & _). cbn [pr fst snd] in *.
      pose proof Hu as (U1 & U2 & _ & U4 & _). assert (Eq : q = pr p) by (destruct q as [qa qb]; unfold pr; cbn [fst snd] in *; congruence).
      assert (UB : u32 (r_base u)) by (apply (wr_base _ _ _ (HW j u ltac:(rewrite nth_error_app1; [exact HT|apply nth_error_Some; congruence])))).
      rewrite Forall_forall in HF. specialize (HF q Hq). subst q. unfold within, contains, pr in *. cbn [fst snd] in *.
      assert (EW : W (a - r_base r0 + r_raddr r0) = a').
      { rewrite Ea'. rewrite W_id; unfold u32 in *; lia. }
      exists j, u, p. rewrite FF, EW. split; [reflexivity|]. split; [exact HT|]. split; [exact Ep|]. split; [exact HP|]. split; [unfold inside; lia|].
      split; [unfold u32 in *; lia|]. split; [rewrite <- P1; exact UB|]. unfold roff. rewrite P1, W_id; [reflexivity|unfold u32 in *; lia].
    + rewrite first_some_none in EF. destruct (find_from 0 (rs ++ l) a n) as [x|] eqn:FF; [|reflexivity]. exfalso.
      apply find_some in FF as (i & r & (Ei & C & _) & _). apply nth_error_In in Ei. apply in_app_or in Ei as [Ei|Ei]; [apply (outside_cover _ _ _ _ _ HH HO Ei C)|].
      destruct (In_nth_error _ _ Ei) as (k & Ek). destruct (forall2_nth _ _ _ HA _ _ Ek) as (x0 & Ex & HX).
      destruct (covers_leads _ _ _ _ _ _ HH HX C) as (y & HY). apply via_leads in HY. rewrite (EF _ (nth_error_In _ _ Ex)) in HY. discriminate.
Qed.

Lemma peek_read n a : 0 < n -> u32 a -> peek t n a = read_result (rs ++ l) n a.
Proof.
  intros Hn Ha. pose proof (real_find n a Hn Ha) as P. unfold peek, read_result. destruct (real_address t n a) as [a'|]; [|now rewrite P].
  destruct P as (j & r & p & -> & Ej & Ep & HP & Ip & Ua & Ub & RO). rewrite nth_error_app1 by (apply nth_error_Some; congruence). rewrite Ej.
  pose proof HP as ((_ & _ & _ & P4 & P5 & _) & _). rewrite P5. cbn [scan_wps snd]. rewrite RO, P4. cbn [pr snd].
  apply (first_some_at _ _ j p); [exact Ep|now rewrite Ip|]. intros i z Ez Hz. destruct (inside n a' z) eqn:Iz; [|contradiction]. eapply inside_one; eassumption.
Qed.

Lemma poke_write n a v : 0 < n -> u32 a ->
  match poke t n a v with
  | None => write_place (rs ++ l) n a = None
  | Some t' => exists j p k, write_place (rs ++ l) n a = Some (j, k) /\ nth_error (t_parts t) j = Some p /\ p_ram p = true /\
      0 <= k /\ k + n <= zlen (p_bytes p) /\
      t' = mkTarget (upd_nth j (fun p => mkPart (p_ram p) (p_addr p) (put (Z.to_nat k) (le (Z.to_nat n) v) (p_bytes p))) (t_parts t)) (t_aliases t) (t_regs t) (t_faults t)
  end.
Proof.
  intros Hn Ha. pose proof (real_find n a Hn Ha) as P. unfold poke, write_place. destruct (real_address t n a) as [a'|]; [|now rewrite P].
  destruct P as (j & r & p & -> & Ej & Ep & HP & Ip & Ua & Ub & RO). rewrite nth_error_app1 by (apply nth_error_Some; congruence). rewrite Ej.
  pose proof HP as ((_ & _ & _ & P4 & P5 & _) & P6). rewrite P5. cbn [scan_wps snd]. rewrite orb_false_r, P6, RO.
  assert (EX : existsb (fun p => inside n a' p && p_ram p) (t_parts t) = p_ram p).
  { destruct (p_ram p) eqn:R.
    - apply existsb_exists. exists p. split; [eapply nth_error_In; eauto|]. now rewrite Ip, R.
    - destruct (existsb _ _) eqn:X; [|reflexivity]. apply existsb_exists in X as (z & Hz & X). apply andb_true_iff in X as [X1 X2].
      destruct (In_nth_error _ _ Hz) as (i & Ei). assert (i = j) by (eapply inside_one; eassumption). subst. congruence. }
  rewrite EX. destruct (p_ram p) eqn:R; cbn [negb]; [|reflexivity]. exists j, p, (a' - p_addr p). unfold inside in Ip.
  split; [reflexivity|]. split; [exact Ep|]. split; [exact R|]. split; [lia|]. split; [lia|]. f_equal.
  rewrite (map_at (inside n a') (fun p => mkPart (p_ram p) (p_addr p) (put (Z.to_nat (a' - p_addr p)) (le (Z.to_nat n) v) (p_bytes p))) (t_parts t) j p Ep); [|unfold inside; lia|].
  - clear -Ep. revert j Ep. induction (t_parts t) as [|q ps IH]; intros [|j] Ep; cbn [upd_nth nth_error] in *; [reflexivity|reflexivity|injection Ep as ->; reflexivity|f_equal; now apply IH].
  - intros i z Ez Hz. eapply inside_one; eassumption.
Qed.
End memory.

(** ** The simulation *)

Definition mirrors (w : world) (t : target) : Prop :=
  debug_state w /\ MapFaith.faithful (regions w) /\
  (exists rs l, regions w = rs ++ l /\ Forall2 keeps_part rs (t_parts t) /\ Forall2 (alias_of rs) l (t_aliases t)) /\
  Forall (fun x => fst x + zlen (snd x) <= 4294967296) (map pr (t_parts t)) /\ disjoint (t_parts t) /\
  w_ctx w = t_regs t /\ w_faults w = t_faults t.

Lemma kept_parts rs rs' ps : Forall2 (kept_rg true) rs rs' -> (forall r b c, In r rs' -> r_rc r = Some (b, c) -> zlen c = r_size r / 2) -> Forall2 keeps_part rs ps -> Forall2 keeps_part rs' ps.
Proof.
  intro H. revert ps. induction H as [|r r' rs rs' HK HF IH]; intros ps HC HH; inversion HH as [|? x ? xs H1 H2]; subst; constructor; [|apply IH; [intros; eapply HC; [right; eassumption|eassumption]|exact H2]].
  destruct HK as ((A1 & A2 & A3 & A4) & A5 & A6 & A7), H1 as ((B1 & B2 & B3 & B4 & B5 & B6) & B7). unfold keeps_part, holds. rewrite A1, A2, A3, A5, A6, A7 by now left.
  split; [|exact B7]. do 5 (split; [assumption|]). intros b c X. rewrite <- A2. eapply HC; [now left|exact X].
Qed.
Lemma counters_fit w i r b c : debug_state w -> nth_error (regions w) i = Some r -> r_rc r = Some (b, c) -> zlen c = r_size r / 2.
Proof. intros HD E X. destruct (debug_state_good _ HD) as (R & (HI & _) & _). exact (proj1 (wr_rc _ _ _ (proj1 HI _ _ E) _ _ X)). Qed.

(** Calls that write nothing. *)
Lemma mirrors_same w w' t : mirrors w t -> debug_state w' -> MapFaith.faithful (regions w') -> plain w' = plain w ->
  mirrors w' (mkTarget (t_parts t) (t_aliases t) (w_ctx w') (w_faults w')).
Proof.
  intros (HD & HM & (rs & l & ER & HK & HA) & HF & HP & _) HD' HM' E. split; [exact HD'|]. split; [exact HM'|]. cbn [t_parts t_aliases t_regs t_faults]. split; [|auto].
  pose proof (plain_kept true _ _ E) as K. rewrite ER in K. apply Forall2_app_inv_l in K as (rs' & l' & K1 & K2 & E'). exists rs', l'. split; [exact E'|]. split.
  - apply (kept_parts rs); [exact K1| |exact HK]. intros r b c Hr X. destruct (In_nth_error _ _ Hr) as (i & Ei). apply (counters_fit w' i r b c HD'); [|exact X].
    rewrite E', nth_error_app1; [exact Ei|apply nth_error_Some; congruence].
  - eapply kept_aliases_of; eassumption.
Qed.

(** Writes. *)
Lemma upd_parts rs ps j k n v p : Forall2 keeps_part rs ps -> nth_error ps j = Some p -> 0 <= k -> 0 < n -> k + n <= zlen (p_bytes p) ->
  Forall2 keeps_part (stored rs j k n v) (upd_nth j (fun p => mkPart (p_ram p) (p_addr p) (put (Z.to_nat k) (le (Z.to_nat n) v) (p_bytes p))) ps).
Proof.
  intros H. unfold stored. revert j. induction H as [|r q rs ps H HF IH]; intros [|j] E Hk Hn Hb; cbn [upd_nth nth_error] in *; try discriminate; [|constructor; auto].
  injection E as ->. constructor; [|exact HF]. destruct H as ((B1 & B2 & B3 & B4 & B5 & B6) & B7). unfold keeps_part, holds, pr in *. cbn [fst snd p_addr p_bytes p_ram r_base r_size r_redir r_data r_wps r_rc r_ro with_data] in *.
  split; [|exact B7]. split; [exact B1|]. split; [|split; [exact B3|split; [rewrite B4; reflexivity|split; [exact B5|exact B6]]]].
  rewrite B2. symmetry. apply (splice_zlen (p_bytes p) k (le (Z.to_nat n) v)); [exact Hk|]. unfold zlen at 1. rewrite le_length. lia.
Qed.
Definition shape (x : Z * list Z) : Z * Z := (fst x, zlen (snd x)).
Lemma upd_pr ps j k n v p : nth_error ps j = Some p -> 0 <= k -> 0 < n -> k + n <= zlen (p_bytes p) ->
  map shape (map pr (upd_nth j (fun p => mkPart (p_ram p) (p_addr p) (put (Z.to_nat k) (le (Z.to_nat n) v) (p_bytes p))) ps)) =
  map shape (map pr ps).
Proof.
  revert j. induction ps as [|q ps IH]; intros [|j] E Hk Hn Hb; cbn [upd_nth nth_error map] in *; try discriminate; [|f_equal; now apply IH].
  injection E as ->. f_equal. unfold shape, pr. cbn [fst snd p_addr p_bytes]. f_equal. apply (splice_zlen (p_bytes p) k (le (Z.to_nat n) v)); [exact Hk|]. unfold zlen at 1. rewrite le_length. lia.
Qed.
Lemma same_shape_fit l l' : map shape l' = map shape l ->
  Forall (fun x => fst x + zlen (snd x) <= 4294967296) l -> Forall (fun x => fst x + zlen (snd x) <= 4294967296) l'.
Proof.
  revert l'. induction l as [|x l IH]; intros [|x' l'] E H; cbn [map] in E; try discriminate; [constructor|]. injection E as E1 E2 E3. inversion H; subst. constructor; [lia|now apply IH].
Qed.
Lemma same_shape_apart l l' : map shape l' = map shape l ->
  ForallOrdPairs (fun x y => apart (range_in x) (range_in y)) l -> ForallOrdPairs (fun x y => apart (range_in x) (range_in y)) l'.
Proof.
  revert l'. induction l as [|x l IH]; intros [|x' l'] E H; cbn [map] in E; try discriminate; [constructor|]. injection E as E1 E2 E3. inversion H as [|? ? H1 H2]; subst.
  constructor; [|now apply IH]. clear -E1 E2 E3 H1. revert l' E3. induction l as [|y l IH]; intros [|y' l'] E; cbn [map] in E; try discriminate; [constructor|].
  injection E as F1 F2 F3. inversion H1; subst. constructor; [|now apply IH]. unfold apart, range_in in *. cbn [fst snd] in *. rewrite E1, E2, F1, F2. assumption.
Qed.
Lemma stored_kept_any rs j k n v : Forall2 (fun r r' => same_layout r r') rs (stored rs j k n v).
Proof.
  unfold stored. revert j. induction rs as [|r rs IH]; intros [|j]; cbn [upd_nth]; constructor; try apply same_layout_refl; try apply IH; [now repeat split|].
  clear. induction rs; constructor; auto using same_layout_refl.
Qed.
Lemma layout_aliases rs rs' l als : Forall2 (fun r r' => same_layout r r') rs rs' -> Forall2 (alias_of rs) l als -> Forall2 (alias_of rs') l als.
Proof.
  intros HF H. induction H as [|r al l als H HL IH]; constructor; [|exact IH]. destruct al as [[b s] rd]. destruct H as (B1 & B2 & j & u & B3 & B4 & B5 & B6).
  destruct (forall2_nth _ _ _ HF _ _ B4) as (u' & T1 & (T2 & T3 & _)). unfold alias_of, covers in *. split; [exact B1|]. split; [exact B2|]. exists j, u'. rewrite T2, T3. auto.
Qed.
Lemma upd_nth_front {A} j (f : A -> A) l1 l2 : (j < length l1)%nat -> upd_nth j f (l1 ++ l2) = upd_nth j f l1 ++ l2.
Proof. revert j. induction l1 as [|x l1 IH]; intros [|j] H; cbn [length upd_nth app] in *; try lia; [reflexivity|]. f_equal. apply IH. lia. Qed.

(** ** Register packets *)

Lemma packet_split n : forall text, exists bs packet rest, text = packet ++ rest /\ is_hex_of bs packet /\
  (length bs = n \/ ((length bs < n)%nat /\ no_byte rest)).
Proof.
  induction n as [|n IH]; intro text; [exists [], [], text; split; [reflexivity|]; split; [constructor|]; now left|].
  assert (NB : no_byte text -> exists bs packet rest, text = packet ++ rest /\ is_hex_of bs packet /\ (length bs = S n \/ ((length bs < S n)%nat /\ no_byte rest))).
  { intro NB. exists [], [], text. split; [reflexivity|]. split; [constructor|]. right. split; [cbn [length]; lia|exact NB]. }
  destruct text as [|x [|y t]]; [apply NB; intros ? ? ? H; discriminate..|].
  destruct (hex_value x) as [vx|] eqn:X; [|apply NB; intros ? ? ? H; injection H as -> -> ->; now left].
  destruct (hex_value y) as [vy|] eqn:Y; [|apply NB; intros ? ? ? H; injection H as -> -> ->; now right].
  destruct (IH t) as (bs & packet & rest & -> & HX & HL). pose proof (hex_value_range _ _ X) as RX. pose proof (hex_value_range _ _ Y) as RY.
  exists (16 * vx + vy :: bs), (x :: y :: packet), rest. split; [reflexivity|]. split.
  - constructor; [unfold byte; lia|rewrite X; f_equal; lia|rewrite Y; f_equal; lia|exact HX].
  - cbn [length]. destruct HL as [HL|[HL NBR]]; [left; lia|right; split; [lia|exact NBR]].
Qed.

Lemma read_hex_bad n bs packet : is_hex_of bs packet -> forall off w rest, no_byte rest -> (length bs < n)%nat -> 0 <= off -> off + Z.of_nat n <= zlen (w_ctx w) ->
  exists c m, readBytesFromBufferAsHex n off (packet ++ rest) w = Exc (set_exn (set_ctx w (splice (w_ctx w) off bs)) c m).
Proof.
  intro H. revert n. induction H as [|b bs h l packet Hb Hh Hl HT IH]; intros [|n] off w rest NB HL H1 H2; cbn [length] in HL; try lia.
  - assert (T : forall e, exists c m, (throw e : M world (list Z)) w = Exc (set_exn (set_ctx w (splice (w_ctx w) off [])) c m)).
    { intro e. unfold throw. exists (Z.max e (w_code w)), (w_msg w). rewrite splice_nil by lia. destruct w; reflexivity. }
    cbn [app readBytesFromBufferAsHex]. destruct rest as [|x [|y t]]; [apply T|apply T|]. rewrite !hexd_value. destruct (NB x y t eq_refl) as [E|E]; rewrite E; [apply T|]. destruct (hex_value x); apply T.
  - cbn [app readBytesFromBufferAsHex]. rewrite !hexd_value, Hh, Hl. replace (16 * (b / 16) + b mod 16) with b by lia. unfold bind, ctx_put. unfold zlen in *. cbn [length] in *.
    replace ((0 <=? off) && (off + Z.of_nat 1 <=? Z.of_nat (length (w_ctx w)))) with true by lia.
    assert (SL : zlen (splice (w_ctx w) off [b]) = zlen (w_ctx w)) by (apply splice_len; unfold zlen; cbn [length]; lia). unfold zlen in SL.
    destruct (IH n (off + 1) (set_ctx w (splice (w_ctx w) off [b])) rest NB) as (c & m & E); [lia|lia|cbn [w_ctx set_ctx]; lia|].
    exists c, m. rewrite E. cbn [w_ctx set_ctx]. rewrite splice_cons by (unfold zlen; lia). reflexivity.
Qed.

Lemma ctx_split (ctx : list Z) : zlen ctx = 216 -> exists a b c d, ctx = a ++ b ++ c ++ d /\ length a = 4%nat /\ length b = 76%nat /\ length c = 4%nat /\ length d = 132%nat.
Proof.
  unfold zlen. intro H. exists (firstn 4 ctx), (firstn 76 (skipn 4 ctx)), (firstn 4 (skipn 80 ctx)), (skipn 84 ctx).
  rewrite !firstn_length, !skipn_length. split; [|lia].
  rewrite <- (firstn_skipn 4 ctx) at 1. f_equal. rewrite <- (firstn_skipn 76 (skipn 4 ctx)) at 1. f_equal. rewrite skipn_skipn. change (76 + 4)%nat with 80%nat.
  rewrite <- (firstn_skipn 4 (skipn 80 ctx)) at 1. f_equal. rewrite skipn_skipn. reflexivity.
Qed.
Lemma firstn_exact {A} (l l' : list A) n : length l = n -> firstn n (l ++ l') = l.
Proof. intros <-. rewrite firstn_app, Nat.sub_diag, firstn_all, firstn_O. apply app_nil_r. Qed.
Lemma skipn_exact {A} (l l' : list A) n : length l = n -> skipn n (l ++ l') = l'.
Proof. intros <-. rewrite skipn_app, Nat.sub_diag, skipn_all. reflexivity. Qed.
Lemma cut_at {A} (l : list A) n : (n <= length l)%nat -> exists l1 l2, l = l1 ++ l2 /\ length l1 = n.
Proof. intro H. exists (firstn n l), (skipn n l). split; [now rewrite firstn_skipn|]. rewrite firstn_length. lia. Qed.

Lemma register_split a b c d : length a = 4%nat -> length b = 76%nat -> length c = 4%nat -> length d = 132%nat ->
  register_bytes (a ++ b ++ c ++ d) = b ++ (if has_fpu (a ++ b ++ c ++ d) then d else []).
Proof.
  intros La Lb Lc Ld. unfold register_bytes. rewrite (skipn_exact a) by exact La. rewrite (firstn_exact b) by exact Lb.
  replace (a ++ b ++ c ++ d) with ((a ++ b ++ c) ++ d) at 2 by (now rewrite <- !app_assoc). rewrite (skipn_exact (a ++ b ++ c)) by (rewrite !app_length; lia).
  now rewrite (firstn_all2 (n := 132) d) by lia.
Qed.
Lemma with_split a b c d b' e : length a = 4%nat -> length b = 76%nat -> length c = 4%nat -> length d = 132%nat -> length b' = 76%nat ->
  with_registers (a ++ b ++ c ++ d) (b' ++ e) = a ++ b' ++ c ++ (if has_fpu (a ++ b ++ c ++ d) then e else d).
Proof.
  intros La Lb Lc Ld Lb'. unfold with_registers. rewrite (firstn_exact a) by exact La. rewrite (firstn_exact b') by exact Lb'. rewrite (skipn_exact b') by exact Lb'.
  replace (a ++ b ++ c ++ d) with ((a ++ b) ++ c ++ d) at 1 by (now rewrite <- !app_assoc). rewrite (skipn_exact (a ++ b)) by (rewrite !app_length; lia). rewrite (firstn_exact c) by exact Lc.
  replace (a ++ b ++ c ++ d) with ((a ++ b ++ c) ++ d) at 2 by (now rewrite <- !app_assoc). rewrite (skipn_exact (a ++ b ++ c)) by (rewrite !app_length; lia). reflexivity.
Qed.

Lemma set_regs_bad w bs packet rest : zlen (w_ctx w) = 216 -> is_hex_of bs packet -> (length bs < length (register_bytes (w_ctx w)))%nat -> no_byte rest ->
  exists c m, Platform_CopyContextFromBuffer (packet ++ rest) w =
    Exc (set_exn (set_ctx w (with_registers (w_ctx w) (bs ++ skipn (length bs) (register_bytes (w_ctx w))))) c m).
Proof.
  intros HL HT HB NB. destruct (ctx_split _ HL) as (a & b & c & d & EC & La & Lb & Lc & Ld). unfold Platform_CopyContextFromBuffer, OFF_R, OFF_FPR.
  destruct (Nat.lt_ge_cases (length bs) 76) as [L|L].
  - unfold bind at 1. destruct (read_hex_bad 76 bs packet HT (4 + 4 * 0) w rest NB L ltac:(lia) ltac:(lia)) as (e & m & E). rewrite E. exists e, m. do 3 f_equal.
    rewrite EC. rewrite register_split by assumption. destruct (cut_at b (length bs)) as (b1 & b2 & -> & Lb1); [lia|]. rewrite <- !app_assoc. rewrite skipn_exact by exact Lb1.
    replace (a ++ b1 ++ b2 ++ c ++ d) with (a ++ (b1 ++ b2) ++ c ++ d) by (now rewrite <- !app_assoc). rewrite !(app_assoc bs b2).
    rewrite with_split by (rewrite ?app_length in *; lia). rewrite <- !app_assoc. rewrite (DumpLemmas.splice_mid a b1 (b2 ++ c ++ d) bs) by (unfold zlen; lia).
    now destruct (has_fpu _).
  - rewrite EC in HB. rewrite register_split in HB by assumption. rewrite app_length, Lb in HB. destruct (has_fpu (a ++ b ++ c ++ d)) eqn:FP; [|cbn [length] in HB; lia]. rewrite Ld in HB.
    destruct (cut_at bs 76) as (b1 & b2 & EB & Lb1); [lia|]. subst bs. apply is_hex_split in HT as (t1 & t2 & -> & T1 & T2). rewrite app_length, Lb1 in *. rewrite <- app_assoc.
    unfold bind at 1. pose proof (read_hex _ _ T1 (4 + 4 * 0) w (t2 ++ rest)) as E. rewrite Lb1 in E. rewrite E by (unfold zlen in *; lia). clear E.
    change (4 + 4 * 0) with 4. unfold bind at 1. rewrite fpu_run by (cbn [w_ctx set_ctx]; rewrite splice_len; unfold zlen in *; lia).
    cbn [w_ctx set_ctx]. rewrite fpu_splice by (unfold zlen in *; lia). rewrite EC, FP.
    destruct (read_hex_bad 132 b2 t2 T2 (84 + 4 * 0) (set_ctx w (splice (a ++ b ++ c ++ d) 4 b1)) rest NB) as (e & m & E); [lia|lia|cbn [w_ctx set_ctx]; rewrite splice_len; unfold zlen in *; rewrite <- ?EC; lia|].
    exists e, m. unfold bind, ret. rewrite E. cbn [w_ctx set_ctx]. f_equal. change (set_ctx (set_ctx w ?x) ?y) with (set_ctx w y). do 2 f_equal.
    rewrite register_split, FP by assumption. destruct (cut_at d (length b2)) as (d1 & d2 & -> & Ld1); [lia|].
    replace (b ++ d1 ++ d2) with ((b ++ d1) ++ d2) by (now rewrite <- app_assoc). rewrite skipn_exact by (rewrite app_length; lia).
    rewrite <- (app_assoc b1), with_split, FP by assumption. rewrite (DumpLemmas.splice_mid a b (c ++ d1 ++ d2) b1) by (unfold zlen; lia).
    replace (a ++ b1 ++ c ++ d1 ++ d2) with ((a ++ b1 ++ c) ++ d1 ++ d2) by (now rewrite <- !app_assoc).
    rewrite (DumpLemmas.splice_mid (a ++ b1 ++ c) d1 d2 b2) by (unfold zlen; rewrite ?app_length; lia). now rewrite <- !app_assoc.
Qed.

(** ** The memory map *)

Lemma find_at {A} (b : A -> bool) l i x : nth_error l i = Some x -> b x = true -> (forall j z, nth_error l j = Some z -> b z = true -> j = i) -> find b l = Some x.
Proof.
  revert i. induction l as [|z l IH]; intros [|i] E F U; cbn [nth_error] in E; try discriminate; cbn [find].
  - injection E as ->. now rewrite F.
  - destruct (b z) eqn:Bz; [specialize (U 0%nat z eq_refl Bz); discriminate|]. apply (IH i E F). intros j u Eu Hu. specialize (U (S j) u Eu Hu). now injection U.
Qed.
Lemma map_same w t : mirrors w t -> xml_text (regions w) = memory_map t.
Proof.
  intros (HD & HM & (rs & l & ER & HK & HA) & HF & HP & _). rewrite <- map_text_eq. unfold map_text, memory_map. f_equal. rewrite ER, flat_map_app, <- app_assoc. f_equal; [|f_equal].
  - clear -HK. induction HK as [|r p rs ps ((B1 & B2 & _) & B7) HF IH]; [reflexivity|]. cbn [flat_map]. rewrite IH. f_equal. unfold map_line, map_entry. cbn [pr fst snd] in *. rewrite B1, B2, B7. now destruct (p_ram p).
  - assert (HX : forall k r al, nth_error l k = Some r -> nth_error (t_aliases t) k = Some al -> map_line r = alias_entry (t_parts t) al).
    { intros k r al Er Ea. destruct (forall2_nth _ _ _ HA _ _ Er) as (al' & Ea' & HO). assert (al' = al) by congruence. subst al'. destruct al as [[b s] rd].
      destruct HO as (B1 & B2 & j & u & B3 & B4 & B5 & B6). destruct (forall2_nth _ _ _ HK _ _ B4) as (p & Ep & ((P1 & P2 & _) & P7)). cbn [pr fst snd] in *.
      assert (Ip : inside 1 rd p = true) by (unfold inside; unfold covers in B5; lia).
      unfold alias_entry. rewrite (find_at _ _ j p Ep Ip) by (intros i z Ez Hz; eapply inside_one; [exact HP| |exact Ez|exact Ep|exact Hz|exact Ip]; lia).
      destruct (HM (length rs + k)%nat r j) as (u' & Eu' & RO); [rewrite ER, nth_error_app2 by lia; now replace (length rs + k - length rs)%nat with k by lia|exact B3|].
      rewrite ER, nth_error_app1 in Eu' by (apply nth_error_Some; congruence). assert (u' = u) by congruence. subst u'.
      unfold map_line, map_entry. rewrite <- RO, P7, B1, B6, P1, P2. now destruct (p_ram p). }
    clear -HX HA. induction HA as [|r al l als H HL IH]; [reflexivity|]. cbn [flat_map]. rewrite (HX 0%nat r al eq_refl eq_refl). f_equal. apply IH. intros k. exact (HX (S k)).
Qed.

(** ** One call *)

Lemma memory_of w t : mirrors w t -> (forall n a, 0 < n -> u32 a -> peek t n a = read_result (regions w) n a).
Proof.
  intros (HD & HM & (rs & l & ER & HK & HA) & HF & HP & _) n a Hn Ha. destruct (debug_state_good _ HD) as (R & ((HW & _) & _) & _). rewrite ER in *. now apply peek_read.
Qed.
Lemma reg_of_read w a : debug_state w -> u32 a -> reg_of (regions w) a = read_result (regions w) 4 a.
Proof.
  intros HD Ha. destruct (debug_state_good _ HD) as (R & (HI & _) & _). rewrite <- (fault_register_eq w a (proj1 HI) Ha). unfold fault_register.
  pose proof (read_view R 4 a w HI Ha ltac:(unfold width; auto)) as P. destruct (api (readN 4 a) w); [destruct P as (-> & _)|destruct P as (-> & _)|destruct P]; reflexivity.
Qed.
Lemma report_same w t : mirrors w t -> fault_report w = report t.
Proof.
  intro HM. pose proof (memory_of w t HM) as HP. pose proof HM as (HD & _ & _ & _ & _ & EC & _). destruct (debug_state_good _ HD) as (R & (HI & _) & _).
  unfold fault_report, report, hard_part, hard_report, mem_part, mem_report, bus_part, bus_report, usage_part, usage_report.
  rewrite !fault_register_eq by (try apply HI; unfold u32; lia). rewrite !reg_of_read by (try exact HD; unfold u32; lia). rewrite !HP by (unfold u32; lia). rewrite EC. reflexivity.
Qed.

Definition did (p : pcall) (w w' : world) (r : reply) : Prop :=
  (exists x, api (pcall_run p) w = Done x w' /\ r = Says x) \/ (exists c, api (pcall_run p) w = Raised c w' /\ r = Refuses).

Definition target_xml (fpu : bool) : list Z := if fpu then g_targetFpuXML else g_targetXML.

Lemma mirrors_eq w t t' : mirrors w t -> t' = t -> mirrors w t'.
Proof. now intros H ->. Qed.

Lemma target_step w t p w' : mirrors w t -> pcall_args p -> pstep p w = Some w' ->
  exists r ls t', did p w w' r /\ w_gdb w' = rev ls ++ w_gdb w /\ responds target_xml t p r ls t' /\ mirrors w' t'.
Proof.
  intros HM HA HS. pose proof HM as (HD & HFa & HX & HF & HP & EC & EF). destruct (debug_state_good _ HD) as (R & (HI & HC & HB) & HFl).
  assert (HD' : debug_state w') by (eapply ds_call; eassumption).
  assert (HFa' : MapFaith.faithful (regions w')) by (pose proof (MapFaith.fa_api _ w (MapFaith.fa_pcall p) HFa) as Q; unfold pstep in HS; destruct (api _ w); [injection HS as <-; exact Q..|discriminate]).
  destruct (debug_moves p w w' HD HA HS) as (MV1 & MV2 & MV3).
  assert (FA : w_faults w' = faults_after p w).
  { pose proof (pcall_ok R p w (conj HI (conj HC HB)) HFl HA) as Q. unfold pstep in HS. destruct (api _ w); [injection HS as <-..|discriminate]; apply Q. }
  assert (SAME : is_write p = false -> mirrors w' (mkTarget (t_parts t) (t_aliases t) (w_ctx w') (w_faults w'))) by (intro N; apply (mirrors_same w); auto).
  assert (KEEP : is_write p = false -> w_ctx w' = w_ctx w -> w_faults w' = w_faults w -> mirrors w' t).
  { intros N E1 E2. eapply mirrors_eq; [now apply SAME|]. rewrite E1, E2, EC, EF. now destruct t. }
  assert (RD : forall n a, p = PRead n a -> refused p w = match peek t n (W a) with None => true | _ => false end).
  { intros n a ->. rewrite (refused_read R n a w HI HA). now rewrite (memory_of w t HM) by (try apply W_u32; apply width_pos, HA). }
  assert (COMM : channel_call p -> exists r ls t', did p w w' r /\ w_gdb w' = rev ls ++ w_gdb w /\ responds target_xml t p r ls t' /\ mirrors w' t').
  { intro CH. assert (CP : p = PHasData \/ p = PReceive \/ (exists c, p = PSend c) \/ p = PWaiting) by (destruct p; cbn [channel_call] in CH; try contradiction; eauto 6).
    pose proof (comm_run p w CP) as Q. unfold pstep in HS. unfold did. destruct (api (pcall_run p) w) as [x w1|c w1|] eqn:EA; [| |discriminate]; injection HS as <-.
    - exists (Says x), [], t. split; [left; eauto|]. destruct Q as (k & c & m & ->). split; [reflexivity|]. split; [now constructor|]. apply KEEP; [destruct p; try contradiction; reflexivity|reflexivity..].
    - exists Refuses, [], t. split; [right; eauto|]. destruct Q as (_ & k & e & m & ->). split; [reflexivity|]. split; [now constructor|]. apply KEEP; [destruct p; try contradiction; reflexivity|reflexivity..]. }
  assert (XML : forall A (k : list Z -> A) , match api (x <- MemorySim_GetMemoryMapXML;; ret (k x)) w with
      | Done y w2 => y = k (memory_map t) /\ frame w w2 | Raised _ w2 => frame w w2 | Crashed _ => True end).
  { intros A k. pose proof (Xml_any R (set_exn w noException []) (Inv_exn _ _ _ _ HI)) as Q. unfold wpost in Q. pose proof (xml_value w) as XV. unfold api, bind, ret in *.
    destruct (MemorySim_GetMemoryMapXML _) as [x w2|w2|u]; [| |exact I]; destruct Q as (_ & Q & _); [|exact Q]. split; [|exact Q]. f_equal. rewrite <- (map_same w t HM). eapply XV. reflexivity. }
  pose proof HS as HS'. unfold pstep in HS'. unfold did.
  destruct p; cbn [pcall_args is_write is_set] in *; try (apply COMM; exact I); clear COMM.
  - (* control *) assert (E : api (pcall_run (PControl c)) w = Done (frozen_answer c) (set_exn w noException [])) by (destruct c; reflexivity). rewrite E in *. injection HS' as <-.
    exists (Says (frozen_answer c)), [], t. split; [left; eauto|]. split; [reflexivity|]. split; [constructor|]. now apply KEEP.
  - (* read *) specialize (RD n a eq_refl). pose proof (memory_of w t HM n (W a) (width_pos _ HA) (W_u32 a)) as MP.
    destruct (api (pcall_run (PRead n a)) w) as [x w1|c w1|] eqn:EA; [|exfalso|discriminate].
    2:{ cbn [pcall_run] in EA. unfold num in EA. pose proof (memread_run R n a w HI HA) as MR. unfold api, bind, ret in EA, MR. destruct (Platform_MemRead n a _) eqn:EM; try discriminate. 
        destruct (readN n (W a) _); try discriminate. destruct (_ <? _); discriminate. }
    injection HS' as <-. pose proof (read_value R n a w x w1 HI HA EA) as ->. rewrite <- MP in *.
    assert (G : w_gdb w1 = w_gdb w).
    { cbn [pcall_run] in EA. unfold num in EA. pose proof (memread_run R n a w HI HA) as MR. pose proof (proj1 (access_run R n (W a) 0 w HI HA (W_u32 a))) as AR.
      assert (E1 : exists v, api (Platform_MemRead n a) w = Done v w1) by (unfold api, bind, ret in *; destruct (Platform_MemRead n a _); try discriminate; injection EA as _ <-; eauto).
      destruct E1 as (v & E1). rewrite E1 in MR. destruct (api (readN n (W a)) w) as [v2 w2|c2 w2|]; [| |discriminate].
      - injection MR as _ ->. apply AR.
      - destruct (_ <? _); [|discriminate]. injection MR as _ ->. cbn [w_gdb set_faults]. apply AR. }
    cbn [faults_after] in FA. rewrite RD in FA. destruct (peek t n (W a)) as [v|] eqn:PK.
    + exists (Says [v]), [], t. split; [left; eauto|]. split; [exact G|]. split; [now constructor|]. apply KEEP; auto. lia.
    + exists (Says [0]), [], (failed t). split; [left; eauto|]. split; [exact G|]. split; [now constructor|]. eapply mirrors_eq; [now apply SAME|]. unfold failed. rewrite MV1, EC, FA, EF by reflexivity. reflexivity.
  - (* write *) specialize (MV3 n a v eq_refl). destruct HX as (rs & l & ER & HK & HAl). pose proof HI as (HW & _). rewrite ER in HW.
    pose proof (poke_write rs l t HW HK HAl HF HP n (W a) v (width_pos _ HA) (W_u32 a)) as PW. rewrite <- ER in PW.
    pose proof (refused_write R n a v w HI HA) as RW. cbn [faults_after] in FA. rewrite RW in FA.
    assert (EA : api (pcall_run (PWrite n a v)) w = Done [] w' /\ w_gdb w' = w_gdb w).
    { cbn [pcall_run] in *. unfold nothing in *. pose proof (memwrite_run R n a v w HI HA) as MR. pose proof (proj2 (access_run R n (W a) v w HI HA (W_u32 a))) as AR.
      unfold api in HS', MR |- *. unfold bind, ret in *. destruct (Platform_MemWrite n a v _) as [[] w2|w2|]; [| |discriminate]; injection HS' as ->.
      - split; [reflexivity|]. unfold api in AR. destruct (writeN n (W a) v _) as [[] w3|w3|]; [| |discriminate].
        + injection MR as ->. apply AR.
        + destruct (_ <? _); [|discriminate]. injection MR as ->. cbn [w_gdb set_faults]. apply AR.
      - unfold api in MR. destruct (writeN n (W a) v _); try discriminate. destruct (_ <? _); discriminate. }
    destruct EA as (EA & G). rewrite EA in *. destruct (poke t n (W a) v) as [t'|] eqn:PK.
    + destruct PW as (j & p & k & WP & Ep & RA & Hk & Hkn & Et). rewrite WP in *. exists (Says []), [], t'. split; [left; eauto|]. split; [exact G|]. split; [now constructor|].
      subst t'. split; [exact HD'|]. split; [exact HFa'|]. cbn [t_parts t_aliases t_regs t_faults]. pose proof (width_pos _ HA) as Hn.
      assert (Lj : (j < length rs)%nat) by (rewrite (forall2_length _ _ _ HK); apply nth_error_Some; congruence).
      split; [|split; [eapply same_shape_fit; [eapply upd_pr; eassumption|exact HF]|split; [eapply same_shape_apart; [eapply upd_pr; eassumption|exact HP]|split; [rewrite MV1 by reflexivity; exact EC|lia]]]].
      exists (stored rs j k n v), l. split; [rewrite MV3, ER; unfold stored; now apply upd_nth_front|]. split; [eapply upd_parts; eassumption|].
      eapply layout_aliases; [apply stored_kept_any|exact HAl].
    + rewrite PW in *. exists (Says []), [], (failed t). split; [left; eauto|]. split; [exact G|]. split; [now constructor|].
      eapply mirrors_eq; [apply (mirrors_same w w' t HM HD' HFa'); unfold plain; now rewrite MV3|]. unfold failed. rewrite MV1, EC, FA, EF by reflexivity. reflexivity.
  - (* faults *) change (api (pcall_run PFaults) w) with (Done [w_faults w] (set_faults (set_exn w noException []) 0)) in *. injection HS' as <-.
    exists (Says [w_faults w]), [], (asked t). split; [left; eauto|]. split; [reflexivity|]. split; [rewrite EF; constructor|]. eapply mirrors_eq; [now apply SAME|]. unfold asked. cbn [w_ctx w_faults set_faults set_exn]. now rewrite EC.
  - (* cause *) assert (E : api (pcall_run PCause) w = Done [signal_for (word_at (w_ctx w) 80 mod 256)] (set_exn w noException [])) by (cbn [pcall_run]; unfold api, num, bind; rewrite cause_run by exact HC; reflexivity).
    rewrite E in *. injection HS' as <-. eexists _, [], t. split; [left; eauto|]. split; [reflexivity|]. split; [rewrite EC; constructor|]. now apply KEEP.
  - (* report *) cbn [pcall_run] in *. unfold api, nothing, bind in *. destruct (report_run (set_exn w noException []) (proj1 HI) HC) as (w2 & E & h & c & m & E2). rewrite E in *. unfold ret in *. injection HS' as <-.
    exists (Says []), (report t), t. split; [left; eauto|]. rewrite <- (report_same w t HM). split; [rewrite E2; reflexivity|]. split; [rewrite (report_same w t HM); constructor|]. apply KEEP; [reflexivity|rewrite E2; reflexivity..].
  - (* get *) cbn [pcall_run] in *. unfold api in *. pose proof (get_regs (set_exn w noException []) HC HB) as E. rewrite E in *. injection HS' as <-. eexists _, [], t. split; [left; eauto|]. split; [reflexivity|].
    split; [change (w_ctx (set_exn w noException [])) with (w_ctx w); rewrite EC; constructor|]. now apply KEEP.
  - (* set *) cbn [pcall_run] in *. unfold api in *. destruct (packet_split (length (register_bytes (w_ctx w))) packet) as (bs & hex & rest & -> & HT & [HL|[HL NB]]).
    + rewrite (set_regs (set_exn w noException []) bs hex rest HC HT HL) in *. injection HS' as <-. eexists (Says rest), [], _. split; [left; eauto|]. split; [reflexivity|].
      split; [constructor; [exact HT|now rewrite <- EC]|]. eapply mirrors_eq; [now apply SAME|]. unfold with_regs. cbn [w_ctx w_faults set_ctx set_exn]. now rewrite EC, EF.
    + destruct (set_regs_bad (set_exn w noException []) bs hex rest HC HT HL NB) as (c & m & E). rewrite E in *. injection HS' as <-. eexists Refuses, [], _. split; [right; eauto|]. split; [reflexivity|].
      split; [constructor; [exact HT|now rewrite <- EC|exact NB]|]. eapply mirrors_eq; [now apply SAME|]. unfold with_regs. cbn [w_ctx w_faults set_ctx set_exn]. now rewrite EC, EF.
  - (* T *) cbn [pcall_run] in *. unfold api in *. pose proof (PlatSess.t_regs (set_exn w noException []) HC HB) as E. rewrite E in *. injection HS' as <-. eexists _, [], t. split; [left; eauto|]. split; [reflexivity|]. split; [|now apply KEEP].
    change (w_ctx (set_exn w noException [])) with (w_ctx w). rewrite EC in *. 
    assert (SK : forall k, (k + 4 <= 76)%nat -> firstn 4 (skipn (4 + k) (TargetSpec.t_regs t)) = firstn 4 (skipn k (register_bytes (TargetSpec.t_regs t)))).
    { intros k Hk. unfold register_bytes. rewrite skipn_app, firstn_app, skipn_length, firstn_length, skipn_length. unfold zlen in HC.
      replace (4 - (Nat.min 76 (length (TargetSpec.t_regs t) - 4) - k))%nat with 0%nat by lia. rewrite firstn_O, app_nil_r. rewrite skipn_firstn_comm, firstn_firstn, skipn_skipn.
      replace (Nat.min 4 (76 - k)) with 4%nat by lia. now rewrite Nat.add_comm. }
    pose proof (SK 48%nat ltac:(lia)) as S1. pose proof (SK 52%nat ltac:(lia)) as S2. pose proof (SK 56%nat ltac:(lia)) as S3. pose proof (SK 60%nat ltac:(lia)) as S4.
    cbn [Nat.add] in S1, S2, S3, S4. rewrite S1, S2, S3, S4.
    replace (_ ++ _) with (stop_reply t); [constructor|]. unfold stop_reply, t_entry. cbv zeta. rewrite <- !app_assoc. reflexivity.
  - (* map *) cbn [pcall_run] in *. pose proof (XML _ (fun x => x)) as Q. cbv beta in Q. assert (E : api (x <- MemorySim_GetMemoryMapXML;; ret x) w = api Platform_GetDeviceMemoryMapXml w).
    { unfold api, bind, ret, Platform_GetDeviceMemoryMapXml. destruct (MemorySim_GetMemoryMapXML _); reflexivity. }
    rewrite E in Q. destruct (api _ w) as [x w1|c w1|]; [| |discriminate]; injection HS' as <-.
    + destruct Q as (-> & _ & F2 & _ & F4 & F5 & _). exists (Says (memory_map t)), [], t. split; [left; eauto|]. split; [exact F5|]. split; [constructor|]. now apply KEEP.
    + destruct Q as (_ & F2 & _ & F4 & F5 & _). exists Refuses, [], t. split; [right; eauto|]. split; [exact F5|]. split; [apply re_map_memory; auto|]. now apply KEEP.
  - (* map size *) cbn [pcall_run] in *. pose proof (XML _ (fun x => [zlen x])) as Q. cbv beta in Q. assert (E : api (x <- MemorySim_GetMemoryMapXML;; ret [zlen x]) w = api (num (fun x => x) Platform_GetDeviceMemoryMapXmlSize) w).
    { unfold api, num, bind, ret, Platform_GetDeviceMemoryMapXmlSize, bind, ret. destruct (MemorySim_GetMemoryMapXML _); reflexivity. }
    rewrite E in Q. destruct (api _ w) as [x w1|c w1|]; [| |discriminate]; injection HS' as <-.
    + destruct Q as (-> & _ & F2 & _ & F4 & F5 & _). eexists (Says [zlen (memory_map t)]), [], t. split; [left; eauto|]. split; [exact F5|]. split; [constructor|]. now apply KEEP.
    + destruct Q as (_ & F2 & _ & F4 & F5 & _). exists Refuses, [], t. split; [right; eauto|]. split; [exact F5|]. split; [apply re_map_memory; auto|]. now apply KEEP.
  - (* target *) cbn [pcall_run] in *. unfold api, Platform_GetTargetXml, bind in *. pose proof (fpu_run (set_exn w noException []) HC) as E. rewrite E in *. injection HS' as <-. eexists _, [], t. split; [left; eexists; split; reflexivity|]. split; [reflexivity|].
    split; [|now apply KEEP]. change (w_ctx (set_exn w noException [])) with (w_ctx w). rewrite EC. constructor.
  - (* size *) cbn [pcall_run] in *. unfold api, Platform_GetTargetXmlSize, num, bind in *. pose proof (fpu_run (set_exn w noException []) HC) as E. rewrite E in *. injection HS' as <-. eexists _, [], t. split; [left; eexists; split; reflexivity|]. split; [reflexivity|].
    split; [|now apply KEEP]. change (w_ctx (set_exn w noException [])) with (w_ctx w). rewrite EC. pose proof (re_target_size target_xml t) as Q. unfold target_xml in Q at 2. destruct (has_fpu (TargetSpec.t_regs t)); exact Q.
Qed.

(** ** A session *)

Lemma target_run ps : forall w t w', mirrors w t -> Forall pcall_args ps -> prun ps w = Some w' ->
  exists es t', map (fun e => fst (fst e)) es = ps /\ happens w es w' /\ expected target_xml t es t'.
Proof.
  induction ps as [|p ps IH]; intros w t w' HM HA HP; cbn [prun] in HP; [injection HP as <-; exists [], t; split; [reflexivity|]; split; constructor|].
  inversion HA; subst. destruct (pstep p w) as [w1|] eqn:E; [|discriminate]. destruct (target_step w t p w1 HM H1 E) as (r & ls & t1 & D & G & RE & HM1).
  destruct (IH w1 t1 w' HM1 H2 HP) as (es & t' & EM & HH & HE). exists ((p, r, ls) :: es), t'. split; [cbn [map fst]; now rewrite EM|]. split; [|econstructor; eassumption].
  destruct D as [(x & EA & ->)|(c & EA & ->)]; econstructor; eassumption.
Qed.

Lemma session_mirrors os ms mem regs w : session_of os ms mem regs w -> Forall (grounded (ms ++ mem)) (aliases os) -> regs (w_ctx w) /\ mirrors w (target_of os ms mem (w_ctx w)).
Proof.
  intros (args & f & data & w0 & c & w1 & HH & HN & HO & HFF & HS & HC & HDA & HIP & HU & HFi & HM & Hfit & HI & HB) HG.
  destruct (session_layout args os ms f data mem regs w0 w1 w c HH HN HS HC HFF HIP HU HFi HM Hfit HI HB) as (rs1 & rs2 & l & ER & R1 & R2 & RG & AL & _).
  split; [exact RG|]. split; [exact (session_debug args os w0 w1 w c HH HO HS HC HFF HDA HI HB)|].
  assert (EP : map pr (t_parts (target_of os ms mem (w_ctx w))) = ms ++ mem).
  { unfold target_of. cbn [t_parts]. rewrite map_app, !map_map. unfold pr. cbn [p_addr p_bytes]. f_equal; (rewrite <- map_id; apply map_ext; intros []; reflexivity). }
  rewrite EP. destruct Hfit as (F1 & F2 & _). split; [rewrite (proj1 (session_start _ _ HB)); exact (MapFaith.started_faithful _ _ _ _ _ HS HC HI)|]. split; [|split; [exact F1|split; [exact F2|split; [reflexivity|]]]].
  - exists (rs1 ++ rs2), l. split; [exact ER|]. split; [|exact (AL HG)]. unfold target_of. cbn [t_parts]. apply Forall2_app.
    + clear -R1. induction R1 as [|r x rs xs H HF IH]; constructor; [|exact IH]. split; [destruct x; exact (rom_holds _ _ H)|]. apply H.
    + clear -R2. induction R2 as [|r x rs xs H HF IH]; constructor; [|exact IH]. split; [destruct x; exact (ram_holds _ _ H)|]. apply H.
  - rewrite start_run in HB. injection HB as <-. reflexivity.
Qed.

(** ** Aliases of a session that has started *)

Lemma aliases_cons o os : aliases (o :: os) = aliases [o] ++ aliases os.
Proof. unfold aliases. cbn [flat_map]. now rewrite app_nil_r. Qed.
Lemma aliases_first (P : Z * Z * Z -> Prop) os : (forall al, P al \/ ~ P al) ->
  Forall P (aliases os) \/ exists os1 b s r os2, os = os1 ++ Alias b s r :: os2 /\ Forall P (aliases os1) /\ ~ P (strtou32 b, strtou32 s, strtou32 r).
Proof.
  intro D. induction os as [|o os IH]; [left; constructor|]. rewrite aliases_cons.
  assert (H : Forall P (aliases [o]) \/ exists b s r, o = Alias b s r /\ ~ P (strtou32 b, strtou32 s, strtou32 r)).
  { destruct o; try solve [left; constructor]. destruct (D (strtou32 base, strtou32 size, strtou32 redirect)) as [Y|N]; [left; apply Forall_cons; [exact Y|constructor]|right; eauto]. }
  destruct H as [H|(b & s & r & -> & N)].
  - destruct IH as [IH|(os1 & b & s & r & os2 & -> & H1 & H2)]; [left; apply Forall_app; auto|]. right. exists (o :: os1), b, s, r, os2.
    split; [reflexivity|]. split; [|exact H2]. rewrite aliases_cons. apply Forall_app; auto.
  - right. exists [], b, s, r, os. split; [reflexivity|]. split; [constructor|exact N].
Qed.
Lemma in_aliases os al : In al (aliases os) -> exists before b s r after, os = before ++ Alias b s r :: after /\ al = (strtou32 b, strtou32 s, strtou32 r).
Proof.
  intro H. unfold aliases in H. apply in_flat_map in H as (o & Ho & Hal). destruct o; try contradiction. destruct Hal as [<-|[]].
  apply in_split in Ho as (l1 & l2 & ->). eauto 8.
Qed.
Lemma session_grounded os ms mem regs w : session_of os ms mem regs w -> Forall (grounded (ms ++ mem)) (aliases os).
Proof.
  intros (args & f & data & w0 & c & w1 & HH & HN & HO & HFF & HS & HC & HDA & HIP & HU & HFi & HM & Hfit & HI & HB).
  destruct (aliases_first (grounded (ms ++ mem)) os) as [H|(os1 & b & s & r & os2 & E & HG & NG)].
  { intros [[b s] rd]. unfold grounded. destruct (existsb (fun p => (fst p <=? rd) && (rd <? fst p + zlen (snd p))) (ms ++ mem)) eqn:E.
    - left. apply existsb_exists in E as (p & Hp & E). exists p. split; [exact Hp|]. unfold contains. lia.
    - right. intros (p & Hp & C). unfold contains in C. assert (X : existsb (fun p => (fst p <=? rd) && (rd <? fst p + zlen (snd p))) (ms ++ mem) = true) by (apply existsb_exists; exists p; split; [exact Hp|lia]). congruence. }
  - exact H.
  - exfalso. rewrite E in *. destruct (alias_nowhere args os1 b s r os2 ms f data mem regs w0) as [(w' & X & _)|(w' & X & _)]; try assumption.
    + apply HFF.
    + intros p Hp Hw. apply NG. exists p. split; [exact Hp|]. unfold within, contains in *. lia.
    + intros al y Hal L. apply in_aliases in Hal as (before & b' & s' & r' & after & -> & ->). unfold leads in L.
      apply (HDA before b' s' r' after b s r os2); [now rewrite <- app_assoc|lia].
    + congruence.
    + congruence.
Qed.

(** ** Sessions run *)

Lemma run_total R ps : forall w, good R w -> 0 <= w_faults w -> w_faults w + zlen ps < 2147483648 -> xml_fits (regions w) -> Forall pcall_args ps -> exists w', prun ps w = Some w'.
Proof.
  induction ps as [|p ps IH]; intros w HG H0 HL HX HA; cbn [prun]; [eauto|]. inversion HA as [|? ? A1 A2]; subst. unfold zlen in HL. cbn [length] in HL.
  pose proof (pcall_ok R p w HG ltac:(lia) A1) as P. unfold pstep. assert (FA : 0 <= faults_after p w <= w_faults w + 1) by (unfold faults_after; destruct p; destruct (refused _ _); lia).
  destruct (api (pcall_run p) w) as [x w1|c w1|].
  - destruct P as (G & (_ & _ & _ & ZL) & F & _). apply IH; auto; unfold zlen, xml_fits in *; rewrite ?F; unfold zlen in *; try lia.
  - destruct P as (_ & G & (_ & _ & _ & ZL) & F & _). apply IH; auto; unfold zlen, xml_fits in *; rewrite ?F; unfold zlen in *; try lia.
  - exfalso. destruct P as [[_ P]|[_ P]]; [lia|contradiction].
Qed.

Lemma session_total os ms mem regs w ps : session_of os ms mem regs w -> Forall pcall_args ps ->
  zlen ps < 2147483648 -> zlen ms + zlen mem + zlen (aliases os) < 19522000 -> exists w', prun ps w = Some w'.
Proof.
  intros HS HA HL HX. destruct (session_mirrors _ _ _ _ _ HS (session_grounded _ _ _ _ _ HS)) as (_ & HD & _ & (rs & l & ER & HK & HAl) & _ & _ & _ & EF).
  destruct (debug_state_good _ HD) as (R & HG & HF). unfold target_of in *. cbn [t_parts t_aliases t_faults] in *. apply (run_total R); auto; [lia..|].
  apply forall2_length in HK, HAl. rewrite app_length, !map_length in HK. unfold xml_fits. rewrite ER. unfold zlen in *. rewrite app_length. lia.
Qed.

(** ** The target leaves no choice *)

Lemma hex_same bs packet : is_hex_of bs packet -> forall bs' packet' rest rest', is_hex_of bs' packet' -> packet ++ rest = packet' ++ rest' -> length bs = length bs' -> bs = bs' /\ rest = rest'.
Proof.
  induction 1 as [|b bs h l packet Hb Hh Hl HT IH]; intros bs' packet' rest rest' H' E L; inversion H' as [|b' bs2 h' l' p' Hb' Hh' Hl' HT']; subst; cbn [length app] in *; try lia; [auto|].
  injection E as -> -> E. destruct (IH _ _ _ _ HT' E) as [-> ->]; [lia|]. split; [|reflexivity]. f_equal. assert (b / 16 = b' / 16) by congruence. assert (b mod 16 = b' mod 16) by congruence. lia.
Qed.
Lemma hex_longer bs packet : is_hex_of bs packet -> forall bs' packet' rest rest', is_hex_of bs' packet' -> packet ++ rest = packet' ++ rest' -> (length bs < length bs')%nat -> no_byte rest -> False.
Proof.
  induction 1 as [|b bs h l packet Hb Hh Hl HT IH]; intros bs' packet' rest rest' H' E L NB; inversion H' as [|b' bs2 h' l' p' Hb' Hh' Hl' HT']; subst; cbn [length app] in *; try lia.
  - destruct (NB h' l' (p' ++ rest') E) as [X|X]; congruence.
  - injection E as -> -> E. eapply IH; [exact HT'|exact E|lia|exact NB].
Qed.
Lemma responds_one xml t p r1 ls1 t1 r2 ls2 t2 : responds xml t p r1 ls1 t1 -> responds xml t p r2 ls2 t2 -> ~ channel_call p ->
  (p = PMap \/ p = PMapSize -> r1 <> Refuses /\ r2 <> Refuses) -> r1 = r2 /\ ls1 = ls2 /\ t1 = t2.
Proof.
  intros H1 H2 NC NM. destruct H1 as [| | | | | | | | |bs packet rest HT HL|bs packet rest HT HL NB| | | |p HP| | |p r HP]; try (destruct (NM HP) as [X _]; contradiction); try contradiction;
    inversion H2; subst; try solve [repeat split; congruence]; try (destruct (NM ltac:(auto)) as [_ X]; contradiction); try contradiction.
  all: match goal with HT' : is_hex_of ?b' ?p', E : ?p' ++ _ = _ ++ _ |- _ => symmetry in E; pose proof (hex_same _ _ HT _ _ _ _ HT' E) as HSame; pose proof (hex_longer _ _ HT _ _ _ _ HT' E) as HLong; pose proof (hex_longer _ _ HT' _ _ _ _ HT (eq_sym E)) as HLong' end.
  - destruct HSame as [-> ->]; [congruence|]. auto.
  - exfalso. apply HLong'; [lia|assumption].
  - exfalso. apply HLong; [lia|assumption].
  - assert (length bs = length bs0) as L; [|destruct (HSame L) as [-> ->]; auto].
    destruct (Nat.lt_trichotomy (length bs) (length bs0)) as [L|[L|L]]; [destruct (HLong L NB)|exact L|exfalso; apply HLong'; assumption].
Qed.
