(** Loading an executable none of whose segments starts inside an earlier one leaks nothing, whatever
    else is wrong with the file and whatever the allocator refuses. *)
From Coq Require Import String ZArith List Bool Lia ZifyBool ZifyNat Permutation.
From Verif Require Import Base World MemSim Elf BaseLemmas MemSpec Sat MemFair MemLemmas MemInv MemOps MemHist MemThms DumpSpec DumpLemmas DumpThms ElfSpec ElfThms.
Import ListNotations.
Open Scope Z_scope.
Open Scope m_scope.

Definition ranges (w : world) : list (Z * Z) := map range_of (regions w).
(** The first and the last address of each of these ranges, modulo 2^32, are mapped. *)
Definition roomy (l : list (Z * Z)) (rs : list (Z * Z)) : Prop :=
  forall a n k, In (a, n) l -> k = 0 \/ (0 < n /\ k = n - 1) -> exists y, In y rs /\ fst y <= W (a + k) < fst y + snd y.
Definition clean_ret (R : list nat) (w : world) (l : list (Z * Z)) (w' : world) : Prop :=
  Inv R w' /\ frame w w' /\ w_code w' = 0 /\ ranges w' = ranges w ++ l /\ roomy l (ranges w').
Definition clean_exc (R : list nat) (w w' : world) : Prop := Inv R w' /\ frame w w' /\ elf_code (w_code w').

Lemma same_data_ranges rs rs' : Forall2 same_but_data rs rs' -> map range_of rs' = map range_of rs.
Proof. induction 1 as [|r r' rs rs' (d & -> & _) _ IH]; [reflexivity|]. cbn [map]. rewrite IH. reflexivity. Qed.

Lemma upd_ranges f j rs : (forall r, range_of (f r) = range_of r) -> map range_of (upd_nth j f rs) = map range_of rs.
Proof. intro H. revert j. induction rs as [|r rs IH]; intros [|j]; cbn [upd_nth map]; try reflexivity; [now rewrite H|now rewrite IH]. Qed.

Lemma post_and {A} (m : M world A) w P E (Q : A -> world -> Prop) : post m w P E -> (forall a w', m w = Ret a w' -> Q a w') -> post m w (fun a w' => P a w' /\ Q a w') E.
Proof. unfold post. intros H G. destruct (m w); auto. Qed.
Lemma loadN_room a bs w w' : zlen bs <> 2 -> loadN a bs w = Ret tt w' -> (exists r, In r (regions w) /\ covers r a (zlen bs)) /\ ranges w' = ranges w.
Proof.
  intro N2. unfold loadN, bind. rewrite getDataPointer_eq. destruct (find_from 0 (regions w) a (zlen bs)) as [[j a']|] eqn:F; [|discriminate].
  destruct (nth_error (regions w) j) as [r|]; [|discriminate]. cbv zeta. change (LOADING =? WRITING) with false. replace (zlen bs =? 2) with false by lia. rewrite andb_false_r. cbn [andb].
  destruct (roff r a' <=? zlen (r_data r)); [|discriminate]. unfold store_ptr, bind, get_region. cbn [fst snd].
  match goal with |- context [nth_error ?l j] => destruct (nth_error l j) as [q|]; [|discriminate] end. destruct (_ && _); [|discriminate].
  unfold upd_region, modw. intro E. injection E as <-. split.
  - apply find_some in F as (i & q' & (G1 & G2 & _) & _). exists q'. split; [exact (nth_error_In _ _ G1)|exact G2].
  - unfold ranges. cbn [w_mem set_mem m_regions set_regions set_hits]. apply upd_ranges. reflexivity.
Qed.
Lemma ranges_covers w w' a n : ranges w' = ranges w -> (exists r, In r (regions w') /\ covers r a n) -> exists r, In r (regions w) /\ covers r a n.
Proof.
  intros E (r & Hr & C). assert (I : In (range_of r) (ranges w)) by (rewrite <- E; unfold ranges; now apply in_map).
  unfold ranges in I. apply in_map_iff in I as (q & Eq & Hq). exists q. split; [exact Hq|]. injection Eq as E1 E2. unfold covers in *. lia.
Qed.
Lemma load_bytes_room n : forall src a w w', u32 a -> load_bytes n src a w = Ret tt w' ->
  (forall x, 0 <= x < Z.of_nat n -> exists r, In r (regions w) /\ covers r (W (a + x)) 1) /\ ranges w' = ranges w.
Proof.
  induction n as [|n IH]; intros src a w w' Ha H; cbn [load_bytes] in H; [injection H as <-; split; [lia|reflexivity]|].
  destruct src as [|b t]; [discriminate|]. unfold bind in H. rewrite load8_eq in H. destruct (loadN a [b] w) as [[] w1|w1|] eqn:E; try discriminate.
  apply loadN_room in E as (C & E); [|discriminate]. apply IH in H as (H & E'); [|apply W_u32]. split; [|congruence]. intros x Hx. destruct (Z.eq_dec x 0) as [->|NZ].
  - rewrite Z.add_0_r, (W_id _ Ha). exact C.
  - apply (ranges_covers w w1 _ _ E). destruct (H (x - 1)) as (r & Hr & Cr); [lia|]. exists r. split; [exact Hr|]. replace (W (a + x)) with (W (W (a + 1) + (x - 1))); [exact Cr|]. unfold W. rewrite Zplus_mod_idemp_l. f_equal. lia.
Qed.
Lemma load_words_room n : forall src a w w', u32 a -> load_words n src a w = Ret tt w' ->
  ((0 < n)%nat -> exists r, In r (regions w) /\ covers r (W (a + Z.of_nat n - 1)) 1) /\ ranges w' = ranges w.
Proof.
  induction n as [n IH] using (well_founded_induction Nat.lt_wf_0). intros src a w w' Ha H.
  destruct n as [|[|[|[|[|m]]]]]; try (destruct (load_bytes_room _ _ _ _ _ Ha H) as [B E]; split; [intro Hz; rewrite <- Z.add_sub_assoc; apply B; lia|exact E]).
  destruct src as [|b0 [|b1 [|b2 [|b3 src]]]]; try discriminate H. rewrite load_words_step in H. unfold bind in H.
  destruct (loadN a [b0; b1; b2; b3] w) as [[] w1|w1|] eqn:E; try discriminate. apply loadN_room in E as (_ & E); [|discriminate]. apply (IH (S m)) in H as (H & E'); [|lia|apply W_u32]. split; [|congruence].
  intros _. apply (ranges_covers w w1 _ _ E). destruct H as (r & Hr & Cr); [lia|]. exists r. split; [exact Hr|].
  replace (W (a + Z.of_nat (S (S (S (S (S m))))) - 1)) with (W (W (a + 4) + Z.of_nat (S m) - 1)); [exact Cr|]. unfold W. rewrite <- Z.add_sub_assoc, Zplus_mod_idemp_l. f_equal. lia.
Qed.

Lemma rom_clean R w a src n : Inv R w -> u32 a -> u32 n -> Forall byte src -> n <= zlen src ->
  (forall r, In r (regions w) -> ~ covers r a 1) ->
  post (rom_region a src n) w (fun _ => clean_ret R w [(a, n)]) (clean_exc R w).
Proof.
  intros HI Ha Hn Hb Hl Hc. unfold rom_region, clean_exc, elf_code. apply post_bind.
  eapply post_weaken; [apply (CreateRegion_post a n R w HI Ha Hn)| |]; cbv beta.
  2:{ intros w1 (I1 & F1 & _ & C1 & _). auto. }
  intros _ w1 (I1 & F1 & E1 & C1 & _). apply post_bind. unfold u32 in Hn.
  eapply post_weaken; [apply (post_and _ _ _ _ _ (Load_eff R w1 a src n I1 Ha Hb ltac:(lia)) (fun u w2 H => load_words_room _ _ _ _ w2 Ha (match u return MemorySim_LoadFromFlashImage a src n w1 = Ret u w2 -> _ with tt => fun H => H end H)))| |]; cbv beta.
  2:{ intros w2 (I2 & F2 & _ & C2 & _). split; [exact I2|]. split; [eapply frame_trans; eauto|]. rewrite C2, C1. auto. }
  intros _ w2 ((I2 & F2 & (D2 & _) & C2 & _) & RM & ER). assert (F : frame w w2) by (eapply frame_trans; eauto).
  rewrite E1 in D2. apply Forall2_app_inv_l in D2 as (rs & tl & D2 & DT & E2). inversion DT as [|x y l l' (d & Ed & _) HT]; subst. inversion HT; subst. clear DT HT.
  assert (RG : ranges w2 = ranges w ++ [(a, n)]).
  { unfold ranges. rewrite E2, map_app, (same_data_ranges _ _ D2). reflexivity. }
  assert (NC : forall r, In r rs -> ~ covers r a 1).
  { intros r Hr. destruct (In_nth_error _ _ Hr) as (i & Ei). assert (Hq : exists q, nth_error (regions w) i = Some q /\ same_but_data q r).
    { clear - D2 Ei. revert i Ei. induction D2 as [|q r' l l' S _ IH]; intros [|i] Ei; cbn in *; try discriminate; [injection Ei as ->; eauto|eauto]. }
    destruct Hq as (q & Eq & (d' & -> & _)). exact (Hc q (nth_error_In _ _ Eq)). }
  eapply post_weaken; [apply (MakeRO_post a R w2 I2)| |]; cbv beta.
  - intros _ w3 (j & t & a' & Ef & Et & _ & I3 & F3 & E3 & _ & _ & C3 & _).
    assert (HL : lost t = []).
    { apply find_some in Ef as (i & r & (G1 & G2 & _) & Ej). rewrite E2 in G1, Et.
      destruct (Nat.lt_ge_cases i (length rs)) as [L|L].
      - rewrite nth_error_app1 in G1 by exact L. exfalso. exact (NC r (nth_error_In _ _ G1) G2).
      - rewrite nth_error_app2 in G1 by exact L. destruct (i - length rs)%nat as [|m] eqn:Em; [|destruct m; discriminate].
        cbn in G1. injection G1 as <-. cbn in Ej. injection Ej as -> _.
        rewrite nth_error_app2 in Et by exact L. cbn [Nat.add] in Et. rewrite Em in Et. injection Et as <-. reflexivity. }
    rewrite HL in I3. split; [exact I3|]. split; [eapply frame_trans; eauto|]. split; [congruence|].
    assert (RG3 : ranges w3 = ranges w2) by (unfold ranges; rewrite E3, upd_ranges; reflexivity). rewrite RG3. split; [exact RG|].
    intros a0 n0 k0 [X|[]] Hp. injection X as <- <-. destruct Hp as [->|(Hp & ->)].
    { rewrite Z.add_0_r, (W_id _ Ha). apply find_some in Ef as (i & q & (G1 & G2 & _) & _). exists (range_of q). split; [unfold ranges; apply in_map; exact (nth_error_In _ _ G1)|]. unfold covers in G2. cbn. lia. }
    rewrite Z.add_sub_assoc. rewrite Z2Nat.id in RM by lia. destruct RM as (q & Hq & Cq); [lia|]. exists (range_of q). split; [rewrite ER; unfold ranges; now apply in_map|]. unfold covers in Cq. cbn. lia.
  - intros w3 (I3 & F3 & _ & _ & _ & H). split; [exact I3|]. split; [eapply frame_trans; eauto|].
    destruct H as [(_ & _ & C3)|(? & ? & ? & _ & _ & _ & _ & C3)]; rewrite C3, C2, C1; auto.
Qed.

Definition seg_range (b : list Z) (k : nat) : Z * Z := (seg_address b k, seg_filesize b k).
Definition seg_ranges (b : list Z) (i n : nat) : list (Z * Z) := map (seg_range b) (filter (loadable b) (seq i n)).

Lemma in_ranges w a : (forall x, In x (ranges w) -> ~ (fst x <= a < fst x + snd x)) -> forall r, In r (regions w) -> ~ covers r a 1.
Proof. intros H r Hr C. apply (H (range_of r)); [unfold ranges; now apply in_map|]. unfold covers in C. cbn. lia. Qed.

Lemma entry_clean R b k w : Forall byte b -> Inv R w -> w_code w = 0 -> (loadable b k = true -> seg_offset b k + seg_filesize b k < 4294967296) ->
  (loadable b k = true -> forall x, In x (ranges w) -> ~ (fst x <= seg_address b k < fst x + snd x)) ->
  post (entry_body b k) w (fun c w' => clean_ret R w (seg_ranges b k 1) w') (clean_exc R w).
Proof.
  intros HB HI HC HN HA. unfold entry_body, seg_ranges. cbn [seq filter]. destruct (loadable b k) eqn:L.
  2:{ unfold post, ret. split; [exact HI|]. split; [apply frame_refl|]. split; [exact HC|]. cbn [map]. rewrite app_nil_r. split; [reflexivity|intros ? ? ? []]. }
  specialize (HN eq_refl). specialize (HA eq_refl). destruct (loadable_size b k HB L) as [U P].
  pose proof (num4 b (Z.to_nat (entry_at b k) + 4) HB) as V. change (u32 (seg_offset b k)) in V.
  pose proof (num4 b (Z.to_nat (entry_at b k) + 12) HB) as VA. change (u32 (seg_address b k)) in VA.
  apply post_bind. unfold post at 1.
  destruct (try_fetch b (seg_offset b k) (seg_filesize b k) (s2b "ELF failed to load entry from file at offsets " ++ fmtd (seg_offset b k) ++ s2b " to " ++ fmtd (W (seg_offset b k + seg_filesize b k - 1)) ++ s2b ".") w) as [[X ->]|[_ (m & ->)]].
  2:{ split; [now apply Inv_exn|]. split; [apply frame_exn|]. left. reflexivity. }
  unfold u32 in *. rewrite W_id in X by (unfold u32; lia).
  apply post_bind. eapply post_weaken; [apply (rom_clean R (set_exn w noException []) (seg_address b k) (skipn (Z.to_nat (seg_offset b k)) b) (seg_filesize b k))| |]; auto using Inv_exn.
  - apply Forall_forall. intros x Hx. rewrite Forall_forall in HB. apply HB. rewrite <- (firstn_skipn (Z.to_nat (seg_offset b k)) b). apply in_or_app. now right.
  - unfold zlen in *. rewrite skipn_length. lia.
  - apply in_ranges. exact HA.
Qed.

Lemma seg_ranges_app b i n : seg_ranges b i (S n) = seg_ranges b i 1 ++ seg_ranges b (S i) n.
Proof. unfold seg_ranges. cbn [seq filter]. destruct (loadable b i); reflexivity. Qed.
Lemma seg_ranges_snoc b i : seg_ranges b 0 (S i) = seg_ranges b 0 i ++ seg_ranges b i 1.
Proof. unfold seg_ranges. rewrite seq_S, filter_app, map_app. reflexivity. Qed.

Lemma table_clean R b : Forall byte b -> zlen b < 4294901760 -> no_wrap_entries b -> starts_apart b -> forall n i count w,
  Inv R w -> w_code w = 0 -> Z.of_nat (i + n) <= entry_count b -> entry_at b i < 4294967296 -> ranges w = seg_ranges b 0 i ->
  post (loadFlashLoadableEntries n b (entry_size b) (Z.of_nat i) (entry_at b i) count) w (fun _ => clean_ret R w (seg_ranges b i n)) (clean_exc R w).
Proof.
  intros HB HZ HN HS. induction n as [|n IH]; intros i count w HI HC Hi HE HR; cbn [loadFlashLoadableEntries].
  - unfold post, ret. split; [exact HI|]. split; [apply frame_refl|]. split; [exact HC|]. unfold seg_ranges. cbn [seq filter map]. rewrite app_nil_r. split; [reflexivity|intros ? ? ? []].
  - apply post_bind. unfold post at 1. pose proof (entry_nonneg b i HB) as NN.
    destruct (try_fetch b (entry_at b i) SIZEOF_PHDR (s2b "ELF page header entry " ++ fmtd (Z.of_nat i) ++ s2b " is at an invalid file offset of " ++ fmtu (entry_at b i) ++ s2b ".") w) as [[X ->]|[_ (m & ->)]].
    2:{ split; [now apply Inv_exn|]. split; [apply frame_exn|]. left. reflexivity. }
    change SIZEOF_PHDR with 32 in X. rewrite (W_id (entry_at b i + 32)) in X by (unfold u32; lia).
    assert (G1 : entry_inside b i) by (unfold entry_inside; lia).
    apply post_bind. unfold post at 1. rewrite entry_eq by assumption.
    pose proof (entry_clean R b i (set_exn w noException []) HB (Inv_exn _ _ _ _ HI) eq_refl) as P. unfold post in P.
    specialize (P ltac:(intro L; apply HN; auto; lia)).
    assert (HA : loadable b i = true -> forall x, In x (ranges (set_exn w noException [])) -> ~ (fst x <= seg_address b i < fst x + snd x)).
    { intros L x Hx. change (In x (ranges w)) in Hx. rewrite HR in Hx. unfold seg_ranges in Hx. apply in_map_iff in Hx as (j & <- & Hj).
      apply filter_In in Hj as [Hj Lj]. apply in_seq in Hj. cbn [fst snd seg_range]. apply HS; auto; lia. }
    specialize (P HA). destruct (entry_body b i (set_exn w noException [])) as [c w1|w1|]; [|exact P|exact P]. destruct P as (I1 & F1 & C1 & R1 & O1).
    change (ranges (set_exn w noException [])) with (ranges w) in R1.
    pose proof (num2 b 42 HB) as U. change (0 <= entry_size b < 65536) in U.
    replace (Z.of_nat i + 1) with (Z.of_nat (S i)) by lia. rewrite <- entry_next by exact HB. pose proof (entry_next b i HB) as EN. rewrite (W_id (entry_at b (S i))) by (unfold u32; lia).
    eapply post_weaken; [apply (IH (S i) (W (count + c)) w1 I1 C1)| |]; [lia|lia| | |]; cbv beta.
    + rewrite R1, HR. symmetry. apply seg_ranges_snoc.
    + intros _ w2 (J2 & F2 & C2 & R2 & O2). split; [exact J2|]. split; [eapply frame_trans; [|exact F2]; exact F1|]. split; [exact C2|].
      split; [rewrite R2, R1, (seg_ranges_app b i n), app_assoc; reflexivity|]. intros a m k Hm Hp. rewrite (seg_ranges_app b i n) in Hm. apply in_app_or in Hm as [Hm|Hm]; [|exact (O2 _ _ _ Hm Hp)].
      destruct (O1 _ _ _ Hm Hp) as (y & Hy & Cy). exists y. split; [|exact Cy]. rewrite R2. apply in_or_app. now left.
    + intros w2 (J2 & F2 & C2). split; [exact J2|]. split; [eapply frame_trans; [|exact F2]; exact F1|exact C2].
Qed.

Lemma elf_room R b w : Inv R w -> regions w = [] -> Forall byte b -> zlen b < 4294901760 -> no_wrap_entries b -> starts_apart b ->
  match ElfLoad_FromMemory b w with
  | Ret _ w' => Inv R w' /\ frame w w' /\ w_code w' = 0 /\ ranges w' = seg_ranges b 0 (Z.to_nat (entry_count b)) /\ roomy (ranges w') (ranges w')
  | Exc w' => Inv R w' /\ frame w w' /\ elf_code (w_code w')
  | Ub _ => False
  end.
Proof.
  intros HI HR HB HZ HN HS. destruct (elf_split b w HB) as [(_ & _ & ->)|(_ & m & ->)].
  2:{ split; [now apply Inv_exn|]. split; [repeat split|]. now left. }
  set (w0 := set_exn w noException []). unfold load_table. pose proof (count_range b HB) as HC.
  assert (E0 : entry_at b 0 = table_offset b) by (unfold entry_at; cbn [Z.of_nat Z.mul]; lia). pose proof (num4 b 28 HB) as U. change (u32 (table_offset b)) in U. unfold u32 in U.
  assert (R0 : ranges w0 = seg_ranges b 0 0) by (unfold ranges, w0; cbn [w_mem set_exn]; rewrite HR; reflexivity).
  pose proof (table_clean R b HB HZ HN HS (Z.to_nat (entry_count b)) 0 0 w0 (Inv_exn _ _ _ _ HI) eq_refl ltac:(lia) ltac:(lia) R0) as P.
  rewrite E0 in P. change (Z.of_nat 0) with 0 in P. unfold post in P. unfold bind.
  destruct (loadFlashLoadableEntries _ _ _ _ _ _ w0) as [c w1|w1|]; [|exact P|exact P].
  destruct (c =? 0).
  - destruct P as (I1 & F1 & C1 & _).
    destruct (throws_msg (A := unit) elfFormatException (s2b "ELF contained no entries which were loadable and had a valid non-zero filesz <= to memsz.") w1) as (m & ->).
    cbn [w_code set_exn]. rewrite C1. change (Z.max elfFormatException 0) with elfFormatException. split; [now apply Inv_exn|]. split; [exact F1|now left].
  - unfold ret. destruct P as (I1 & F1 & C1 & R1 & O1). rewrite R0 in R1. cbn [app] in R1. rewrite R1 in O1 at 1. rewrite <- R1 in O1 at 1. split; [exact I1|]. split; [exact F1|]. split; [exact C1|]. split; [exact R1|]. rewrite R1 in *. exact O1.
Qed.

Lemma elf_clean R b w : Inv R w -> regions w = [] -> Forall byte b -> zlen b < 4294901760 -> no_wrap_entries b -> starts_apart b ->
  match ElfLoad_FromMemory b w with
  | Ret _ w' => Inv R w' /\ frame w w' /\ w_code w' = 0
  | Exc w' => Inv R w' /\ frame w w' /\ elf_code (w_code w')
  | Ub _ => False
  end.
Proof. intros HI HR HB HZ HN HS. pose proof (elf_room R b w HI HR HB HZ HN HS) as P. destruct (ElfLoad_FromMemory b w); auto. destruct P as (A & B & C & _). auto. Qed.
