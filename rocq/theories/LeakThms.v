(** How much a start-up can leave allocated.  Lemmas for PropLeak.v. *)
From Coq Require Import String ZArith List Bool Lia ZifyBool ZifyNat Permutation.
From Verif Require Import Base World Context MemSim Dump GdbLog Elf CmdLine BaseLemmas MemSpec MemLemmas MemInv MemOps MemHist MemHist2 DumpSpec DumpThms DumpLemmas DumpSafe ElfSpec ElfThms ElfClean CmdSpec CmdThms CmdSafe CmdFull CmdMain StartAnySpec StartAny LeakSpec.
Import ListNotations.
Open Scope Z_scope.

(** At most [k] blocks get lost; the ranges of the regions afterwards are [L]. *)
Definition some_lost (R : list nat) (k : nat) (w' : world) : Prop := exists X, (length X <= k)%nat /\ Inv (X ++ R) w'.
Definition lk (R : list nat) (k : nat) (L : list (Z * Z)) {A} (m : M world A) (w : world) : Prop :=
  match m w with
  | Ret _ w' => some_lost R k w' /\ ranges w' = L
  | Exc w' => some_lost R k w'
  | Ub _ => True
  end.

Lemma lost_none R k w : Inv R w -> some_lost R k w.
Proof. intro H. exists []. split; [cbn; lia|exact H]. Qed.
Lemma lost_more R k k' w : (k <= k')%nat -> some_lost R k w -> some_lost R k' w.
Proof. intros H (X & L & I). exists X. split; [lia|exact I]. Qed.
Lemma lost_app R X k1 k2 w : (length X <= k1)%nat -> some_lost (X ++ R) k2 w -> some_lost R (k1 + k2) w.
Proof. intros H (Y & L & I). exists (Y ++ X). split; [rewrite app_length; lia|]. rewrite <- app_assoc. exact I. Qed.

Lemma lk_bind R k1 k2 L1 L2 {A B} (m : M world A) (f : A -> M world B) w :
  lk R k1 L1 m w -> (forall a w' X, m w = Ret a w' -> Inv (X ++ R) w' -> ranges w' = L1 -> lk (X ++ R) k2 L2 (f a) w') -> lk R (k1 + k2) L2 (bind m f) w.
Proof.
  unfold lk, bind. destruct (m w) as [a w'|w'|u]; auto.
  - intros ((X & H1 & HI) & HL) H. specialize (H a w' X eq_refl HI HL). destruct (f a w') as [b w2|w2|u]; auto.
    + destruct H as (H & HL2). split; [eapply lost_app; eauto|exact HL2].
    + eapply lost_app; eauto.
  - intros H _. eapply lost_more; [|exact H]. lia.
Qed.

Definition meets (a : Z) (l : list (Z * Z)) : bool := existsb (fun x => (fst x <=? a) && (a <? fst x + snd x)) l.
Definition one_if (b : bool) : nat := if b then 1%nat else 0%nat.

Lemma lost_one t : (length (lost t) <= 1)%nat.
Proof. unfold lost. destruct (r_rc t) as [[? ?]|]; cbn; lia. Qed.

Lemma load_bytes_long n : forall src a w w', load_bytes n src a w = Ret tt w' -> (n <= length src)%nat.
Proof.
  induction n as [|n IH]; intros src a w w' H; [lia|]. destruct src as [|b t]; cbn [load_bytes] in H; [discriminate|].
  unfold bind in H. destruct (load8 a b w) as [[] w1|w1|]; try discriminate. apply IH in H. cbn [length]. lia.
Qed.
Lemma load_words_long n : forall src a w w', load_words n src a w = Ret tt w' -> (n <= length src)%nat.
Proof.
  induction n as [n IH] using (well_founded_induction Nat.lt_wf_0). intros src a w w' H.
  destruct n as [|[|[|[|[|m]]]]]; try (exact (load_bytes_long _ _ _ _ _ H)).
  destruct src as [|b0 [|b1 [|b2 [|b3 src]]]]; try discriminate H. rewrite load_words_step in H. unfold bind in H.
  destruct (loadN a [b0; b1; b2; b3] w) as [[] w1|w1|]; try discriminate. apply IH in H; [|lia]. cbn [length]. lia.
Qed.

Lemma rom_lk R w a src n : Inv R w -> u32 a -> u32 n -> Forall byte src ->
  lk R (one_if (meets a (ranges w))) (ranges w ++ [(a, n)]) (rom_region a src n) w.
Proof.
  intros HI Ha Hn Hb. unfold lk, rom_region, bind.
  pose proof (CreateRegion_post a n R w HI Ha Hn) as P. unfold post in P. destruct (MemorySim_CreateRegion a n w) as [[] w1|w1|]; [| |exact I].
  2:{ destruct P as (I1 & _). now apply lost_none. }
  destruct P as (I1 & F1 & E1 & C1 & _).
  assert (R1 : ranges w1 = ranges w ++ [(a, n)]) by (unfold ranges; rewrite E1, map_app; reflexivity).
  pose proof (load_words_tol R (Z.to_nat n) src a w1 I1 Ha Hb) as T. unfold tloads in T.
  pose proof (load_words_long (Z.to_nat n) src a w1) as LG.
  change (load_words (Z.to_nat n) src a) with (MemorySim_LoadFromFlashImage a src n) in *.
  pose proof (Load_eff R w1 a src n I1 Ha Hb) as D. unfold post in D.
  destruct (MemorySim_LoadFromFlashImage a src n w1) as [[] w2|w2|]; [| |exact I].
  2:{ destruct T as (I2 & _). now apply lost_none. }
  clear T. specialize (LG w2 eq_refl). destruct D as (I2 & F2 & (D2 & _) & _); [unfold u32, zlen in *; lia|].
  assert (R2 : ranges w2 = ranges w1) by (unfold ranges; apply same_data_ranges, D2).
  pose proof (MakeRO_post a R w2 I2) as P. unfold post in P. destruct (MemorySim_MakeRegionReadOnly a w2) as [[] w3|w3|]; [| |exact I].
  2:{ destruct P as (I3 & _). now apply lost_none. }
  destruct P as (j & t & a' & Ef & Et & _ & I3 & F3 & E3 & _).
  split; [|unfold ranges in *; rewrite E3, upd_ranges; [congruence|reflexivity]].
  exists (lost t). split; [|exact I3]. unfold one_if. destruct (meets a (ranges w)) eqn:EM; [apply lost_one|].
  enough (H : lost t = []) by (rewrite H; cbn; lia).
  rewrite E1 in D2. apply Forall2_app_inv_l in D2 as (rs & tl & D2 & DT & E2). inversion DT as [|x y l l' (d & Ed & _) HT]; subst. inversion HT; subst. clear DT HT.
  assert (NC : forall r, In r rs -> ~ covers r a 1).
  { intros r Hr C. assert (X : meets a (ranges w) = true); [|congruence]. unfold meets. apply existsb_exists. exists (range_of r).
    split; [unfold ranges; rewrite <- (same_data_ranges _ _ D2); now apply in_map|]. unfold covers in C. cbn [range_of fst snd]. lia. }
  apply find_some in Ef as (i & r & (G1 & G2 & _) & Ej). rewrite E2 in G1, Et.
  destruct (Nat.lt_ge_cases i (length rs)) as [L|L].
  - rewrite nth_error_app1 in G1 by exact L. exfalso. exact (NC r (nth_error_In _ _ G1) G2).
  - rewrite nth_error_app2 in G1 by exact L. destruct (i - length rs)%nat as [|m] eqn:Em; [|destruct m; discriminate].
    cbn in G1. injection G1 as <-. cbn in Ej. injection Ej as -> _.
    rewrite nth_error_app2 in Et by exact L. cbn [Nat.add] in Et. rewrite Em in Et. injection Et as <-. reflexivity.
Qed.

(** One entry, and the table. *)
Definition costs (b : list Z) (l : list nat) : nat := length (filter (fun k => loadable b k && starts_inside b k) l).

Lemma meets_before b k : meets (seg_address b k) (seg_ranges b 0 k) = starts_inside b k.
Proof.
  unfold meets, seg_ranges, starts_inside. induction (seq 0 k) as [|i l IH]; [reflexivity|]. cbn [filter existsb].
  destruct (loadable b i); cbn [map existsb seg_range fst snd andb orb]; [now rewrite IH|exact IH].
Qed.

Lemma entry_lk R b k w : Forall byte b -> Inv R w -> ranges w = seg_ranges b 0 k ->
  lk R (costs b [k]) (seg_ranges b 0 (S k)) (entry_body b k) w.
Proof.
  intros HB HI HR. unfold entry_body, costs. cbn [filter]. rewrite seg_ranges_snoc. unfold seg_ranges at 2. cbn [seq filter]. destruct (loadable b k) eqn:L.
  2:{ unfold lk, ret. cbn [andb length map]. rewrite app_nil_r. split; [now apply lost_none|exact HR]. }
  destruct (loadable_size b k HB L) as [U P].
  pose proof (num4 b (Z.to_nat (entry_at b k) + 12) HB) as VA. change (u32 (seg_address b k)) in VA.
  unfold lk, bind at 1.
  destruct (try_fetch b (seg_offset b k) (seg_filesize b k) (s2b "ELF failed to load entry from file at offsets " ++ fmtd (seg_offset b k) ++ s2b " to " ++ fmtd (W (seg_offset b k + seg_filesize b k - 1)) ++ s2b ".") w) as [[X ->]|[_ (m & ->)]].
  2:{ apply lost_none. now apply Inv_exn. }
  assert (T : lk R (one_if (meets (seg_address b k) (ranges w))) (ranges w ++ [(seg_address b k, seg_filesize b k)])
    (rom_region (seg_address b k) (skipn (Z.to_nat (seg_offset b k)) b) (seg_filesize b k)) (set_exn w noException [])).
  { apply (rom_lk R (set_exn w noException [])); auto using Inv_exn.
    apply Forall_forall. intros x Hx. rewrite Forall_forall in HB. apply HB. rewrite <- (firstn_skipn (Z.to_nat (seg_offset b k)) b). apply in_or_app. now right. }
  rewrite HR, meets_before in T. unfold lk, bind, ret in *. cbn [andb map].
  assert (EC : length (if starts_inside b k then [k] else []) = one_if (starts_inside b k)) by (destruct (starts_inside b k); reflexivity). rewrite EC.
  destruct (rom_region _ _ _ _) as [[] w1|w1|]; exact T.
Qed.

Lemma costs_cons b k l : costs b (k :: l) = (costs b [k] + costs b l)%nat.
Proof. unfold costs. cbn [filter]. destruct (_ && _); reflexivity. Qed.

Lemma table_lk b : Forall byte b -> zlen b < 4294901760 -> forall n i count R w,
  Inv R w -> entry_at b i < 4294967296 -> ranges w = seg_ranges b 0 i ->
  lk R (costs b (seq i n)) (seg_ranges b 0 (i + n)) (loadFlashLoadableEntries n b (entry_size b) (Z.of_nat i) (entry_at b i) count) w.
Proof.
  intros HB HZ. induction n as [|n IH]; intros i count R w HI HE HR; cbn [loadFlashLoadableEntries].
  - unfold lk, ret. rewrite Nat.add_0_r. split; [now apply lost_none|exact HR].
  - cbn [seq]. rewrite costs_cons. unfold lk, bind at 1. pose proof (entry_nonneg b i HB) as NN.
    destruct (try_fetch b (entry_at b i) SIZEOF_PHDR (s2b "ELF page header entry " ++ fmtd (Z.of_nat i) ++ s2b " is at an invalid file offset of " ++ fmtu (entry_at b i) ++ s2b ".") w) as [[X ->]|[_ (m & ->)]].
    2:{ apply lost_none. now apply Inv_exn. }
    change SIZEOF_PHDR with 32 in X. rewrite (W_id (entry_at b i + 32)) in X by (unfold u32; lia).
    assert (G1 : entry_inside b i) by (unfold entry_inside; lia).
    match goal with |- match ?m with Ret _ _ => _ | Exc _ => _ | Ub _ => _ end =>
      match m with bind ?x ?f ?s => change (lk R (costs b [i] + costs b (seq (S i) n)) (seg_ranges b 0 (i + S n)) (bind x f) s) end end.
    apply (lk_bind R _ _ (seg_ranges b 0 (S i))).
    + unfold lk. rewrite entry_eq by assumption. apply (entry_lk R b i (set_exn w noException []) HB (Inv_exn _ _ _ _ HI) HR).
    + intros c w1 Y _ I1 R1.
      pose proof (num2 b 42 HB) as U. change (0 <= entry_size b < 65536) in U.
      replace (Z.of_nat i + 1) with (Z.of_nat (S i)) by lia. rewrite <- entry_next by exact HB. pose proof (entry_next b i HB) as EN. rewrite (W_id (entry_at b (S i))) by (unfold u32; lia).
      replace (i + S n)%nat with (S i + n)%nat by lia. apply IH; [exact I1|lia|exact R1].
Qed.

Lemma elf_lk R b w : Inv R w -> regions w = [] -> Forall byte b -> zlen b < 4294901760 ->
  match ElfLoad_FromMemory b w with Ret _ w' | Exc w' => some_lost R (overlaps b) w' | Ub _ => True end.
Proof.
  intros HI HR HB HZ. destruct (elf_split b w HB) as [(_ & _ & ->)|(_ & m & ->)].
  2:{ apply lost_none. now apply Inv_exn. }
  set (w0 := set_exn w noException []). unfold load_table.
  assert (E0 : entry_at b 0 = table_offset b) by (unfold entry_at; cbn [Z.of_nat Z.mul]; lia). pose proof (num4 b 28 HB) as U. change (u32 (table_offset b)) in U. unfold u32 in U.
  assert (R0 : ranges w0 = seg_ranges b 0 0) by (unfold ranges, w0; cbn [w_mem set_exn]; rewrite HR; reflexivity).
  pose proof (table_lk b HB HZ (Z.to_nat (entry_count b)) 0 0 R w0 (Inv_exn _ _ _ _ HI) ltac:(lia) R0) as P.
  rewrite E0 in P. change (Z.of_nat 0) with 0 in P. unfold lk in P. unfold bind. change (costs b (seq 0 (Z.to_nat (entry_count b)))) with (overlaps b) in P.
  destruct (loadFlashLoadableEntries _ _ _ _ _ _ w0) as [c w1|w1|]; [|exact P|exact P]. destruct P as (P & _).
  destruct (c =? 0); [|exact P].
  match goal with |- context[throw_msg ?c ?m w1] => destruct (throws_msg (A := unit) c m w1) as (m' & ->) end.
  destruct P as (Y & LY & IY). exists Y. split; [exact LY|]. now apply Inv_exn.
Qed.

(** The image. *)
Lemma load_lk n X f R w : Inv R w ->
  (forall b data w1, file_is w f data -> Inv (b :: R) w1 -> regions w1 = regions w ->
     match X data w1 with Ret _ w' => some_lost (b :: R) n w' /\ w_code w' = 0 | Exc w' => some_lost (b :: R) n w' /\ elf_code (w_code w') | Ub _ => True end) ->
  match load_with X f w with Ret _ w' | Exc w' => some_lost R n w' | Ub _ => True end.
Proof.
  intros HI HX. rewrite load_with_run. pose proof (data_safe f R w HI) as P. destruct (loadFileData f w) as [[b data] w1|w1|]; [| |destruct P].
  2:{ destruct P as (I1 & _ & _ & C).
      assert (IC : init_code (w_code w1)) by (unfold init_code; destruct C as [(-> & _)|(-> & _)]; auto).
      destruct (init_code_nonzero _ IC) as (NZ & _). replace (w_code w1 =? 0) with false by lia. now apply lost_none. }
  destruct P as (HF & I1 & (M1 & _) & C1 & _). assert (R1 : regions w1 = regions w) by (now rewrite M1).
  specialize (HX b data w1 HF I1 R1). destruct (X data w1) as [[] w2|w2|u]; [| |exact I].
  all: destruct HX as ((Y & LY & I2) & C2); apply (Inv_perm _ (b :: Y ++ R)) in I2; [|symmetry; apply Permutation_middle];
    destruct (Inv_free _ _ _ I2) as (h' & Ef & I3 & _); unfold bind; rewrite Ef; cbn [w_code set_heap].
  - rewrite C2. cbn [Z.eqb]. exists Y. split; [exact LY|exact I3].
  - destruct (init_code_nonzero _ (elf_init _ C2)) as (NZ & _). replace (w_code w2 =? 0) with false by lia. rewrite rethrow_eq. exists Y. split; [exact LY|exact I3].
Qed.

Lemma image_lk n os f R w : Inv R w -> regions w = [] -> (forall f data, file_is w f data -> Forall byte data) -> uses_image os f ->
  (forall f data, uses_elf os f -> file_is w f data -> zlen data < 4294901760 /\ (overlaps data <= n)%nat) ->
  match loadImageFile (settings os) w with Ret _ w' | Exc w' => some_lost R n w' | Ub _ => True end.
Proof.
  intros HI HR FB HU HO. destruct (image_cases os f HU) as [(U & E)|(a & U & E1 & E2 & E3)].
  - rewrite (image_elf _ _ E). apply load_lk; [exact HI|]. intros b data w1 HF I1 R1. rewrite HR in R1. destruct (HO f data U HF) as (HZ & HN).
    pose proof (elf_tol (b :: R) data w1 (FB _ _ HF) I1) as T. pose proof (elf_lk (b :: R) data w1 I1 R1 (FB _ _ HF) HZ) as L. unfold tol in T.
    destruct (ElfLoad_FromMemory data w1) as [[] w2|w2|]; [| |exact I]; (split; [eapply lost_more; eauto|apply T]).
  - rewrite (image_bin _ _ E1 E2), E3. apply load_lk; [exact HI|]. intros b data w1 HF I1 R1. rewrite HR in R1.
    pose proof (bin_safe _ data (b :: R) w1 I1 R1 (strtou32_u32 a) (FB _ _ HF)) as B.
    destruct (loadBinFile (strtou32 a) data w1) as [[] w2|w2|]; [| |exact I]; (split; [apply lost_none|]; apply B).
Qed.

(** Start-up. *)
Lemma stages_lk n os R w : complete os -> Inv R w -> regions w = [] -> ctx_sane w -> (forall f data, file_is w f data -> Forall byte data) ->
  (forall f data, uses_elf os f -> file_is w f data -> zlen data < 4294901760 /\ (overlaps data <= n)%nat) ->
  match stages os w with Ret _ w' | Exc w' => exists X, (length X <= n)%nat /\ winv (X ++ R) w' | Ub _ => True end.
Proof.
  intros HC HI HR HX FB HO. destruct (complete_uses _ HC) as ((f & HU) & d & HD). rewrite stages_eq.
  pose proof (image_any os f R w HI HR FB HU) as P. pose proof (image_lk n os f R w HI HR FB HU HO) as L. destruct (loadImageFile (settings os) w) as [[] w1|w1|u]; [| |exact I]; destruct L as (X & LX & IX).
  2:{ exists X. split; [exact LX|now apply Inv_winv]. }
  destruct P as ((_ & P2 & P3) & P4 & P5).
  assert (HB : forall f data, file_is w1 f data -> Forall byte data).
  { intros g data. unfold file_is. destruct P2 as (_ & _ & _ & _ & ->). apply FB. }
  assert (HX1 : ctx_sane w1) by (unfold ctx_sane; rewrite P4; exact HX).
  pose proof (dump_safe os d (X ++ R) w1 IX HX1 P5 HB HD) as Q. destruct (loadDumpFile (settings os) w1) as [[] w2|w2|]; [| |destruct Q].
  2:{ destruct Q as ((Q1 & _) & _). exists X. split; [exact LX|now apply Inv_winv]. }
  destruct Q as ((Q1 & _) & _ & Q5).
  pose proof (aliases_safe (X ++ R) os w2 (Inv_winv _ _ Q1) Q5) as S. destruct (make_aliases os w2) as [[] w3|w3|]; [| |destruct S];
    destruct S as (S1 & _); exists X; auto.
Qed.

Lemma init_lk n args os w : heap_sane w -> spells args os -> complete os -> (forall f data, file_is w f data -> Forall byte data) ->
  (forall f data, uses_elf os f -> file_is w f data -> zlen data < 4294901760 /\ (overlaps data <= n)%nat) ->
  match api (CrashDebugCommandLine_Init args) w with
  | Done _ w' => exists X, (length X <= n)%nat /\ winv (X ++ h_live (w_heap w)) w'
  | Raised _ w' => exists X, (length X <= n)%nat /\ hp (w_heap w') (X ++ h_live (w_heap w))
  | Crashed _ => True
  end.
Proof.
  intros HH HS HC HF HO. unfold api. pose proof (init_any args os w HH HS HC HF) as A. unfold api in A. rewrite (init_stages _ _ _ HS HC) in *. change (set_exn (blank_state (set_exn w noException [])) noException []) with (set_exn (blank_state w) noException []) in *.
  set (w0 := set_exn (blank_state w) noException []) in *.
  pose proof (stages_any os _ w0 HC (blank_inv w HH) eq_refl eq_refl HF) as Q.
  pose proof (stages_lk n os _ w0 HC (blank_inv w HH) eq_refl eq_refl HF HO) as P. destruct (stages os w0) as [[] w1|w1|]; [| |exact I].
  - destruct Q as (_ & _ & _ & C). rewrite C. cbn [Z.eqb]. exact P.
  - destruct Q as (_ & _ & _ & C). destruct (init_code_nonzero _ C) as (NZ & _). replace (w_code w1 =? 0) with false by lia.
    destruct P as (X & LX & IX). destruct (failing_true _ _ IX) as (h & -> & Hh). cbn [w_heap set_mem set_heap set_err]. exists X. auto.
Qed.
