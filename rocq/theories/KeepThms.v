(** What the image puts into memory stays there.  Lemmas for PropKeep.v. *)
From Coq Require Import String ZArith List Bool Lia ZifyBool ZifyNat Wf_nat Permutation.
From Verif Require Import Base World Context MemSim Dump GdbLog Elf CmdLine Platform Comm BaseLemmas MemSpec Sat MemLemmas MemInv MemOps MemOps2 MemOps3 MemHist MemHist2 MemThms MemThms2 DumpSpec DumpLemmas DumpThms DumpSafe ElfSpec ElfThms ElfClean LogSpec CmdSpec Closed CmdThms CmdSafe CtxBytes CmdFull CmdMain PlatSpec PlatInit StartAnySpec StartAny LeakSpec LeakThms.
Import ListNotations.
Open Scope Z_scope.
Open Scope m_scope.

(** ** The image sets no watchpoints *)

Definition all_bare (w : world) : Prop := Forall (fun r => r_wps r = []) (regions w).
Definition bare (w w' : world) : Prop := all_bare w -> all_bare w'.

Lemma bare_closed : closed bare.
Proof.
  constructor; [split; [intros w H; exact H|intros a b c H1 H2 H; auto]|intros w w1 H; exact H|..]; intros; intro H'; exact H'.
Qed.
Lemma v_pre : preorder bare. Proof. apply bare_closed. Qed.
Lemma v_clear w w1 : bare (set_exn w noException []) w1 -> bare w w1. Proof. apply (cl_clear bare bare_closed). Qed.

Lemma bare_upd (f : region -> region) l : (forall r, r_wps (f r) = r_wps r) -> forall i,
  Forall (fun r => r_wps r = []) l -> Forall (fun r => r_wps r = []) (upd_nth i f l).
Proof.
  intro H. induction l as [|x l IH]; intros [|i] F; cbn [upd_nth]; auto; inversion F as [|? ? F1 F2]; subst; constructor; auto. now rewrite H.
Qed.
Lemma v_upd i f : (forall r, r_wps (f r) = r_wps r) -> sat bare (upd_region i f).
Proof. intros H w. unfold upd_region. intro A. now apply bare_upd. Qed.
Lemma v_add r : r_wps r = [] -> sat bare (addRegionToTail r).
Proof. intros H w A. unfold all_bare in *. cbn. apply Forall_app. split; [exact A|]. constructor; auto. Qed.
Lemma v_check r a n t : sat bare (checkForBreakWatchPoint r a n t).
Proof. intro w. unfold checkForBreakWatchPoint. destruct (scan_wps _ _ _ _ _ _) as [h []]; intro A; exact A. Qed.

Ltac vtac := repeat first [ solve [auto 2 using bare_closed with closed] | apply v_pre | apply v_check | apply v_upd; reflexivity | apply v_add; reflexivity
  | match goal with |- forall w w1, _ -> _ => exact v_clear | |- sat bare (try_msg _ _) => apply (c_try_msg bare bare_closed) end | sat_step ].

Lemma v_create b s : sat bare (MemorySim_CreateRegion b s).
Proof. pose proof bare_closed. unfold MemorySim_CreateRegion, freeNewRegion. vtac. Qed.
Lemma v_readonly b : sat bare (MemorySim_MakeRegionReadOnly b).
Proof. pose proof bare_closed. unfold MemorySim_MakeRegionReadOnly, allocateReadCountArrayForReadOnlyRegion. vtac. Qed.
Lemma v_gdp a n t c : sat bare (getDataPointer a n t c).
Proof. pose proof bare_closed. unfold getDataPointer, incReadCount. vtac. Qed.
Lemma v_store p bs : sat bare (store_ptr p bs).
Proof. pose proof bare_closed. unfold store_ptr. vtac. Qed.
Lemma v_writeN n a v : sat bare (writeN n a v).
Proof. pose proof v_gdp. pose proof v_store. unfold writeN. vtac. Qed.
Lemma v_load_bytes n : forall src a, sat bare (load_bytes n src a).
Proof. pose proof v_gdp. pose proof v_store. induction n as [|n IH]; intros [|b src] a; cbn [load_bytes]; unfold load8; vtac. Qed.
Lemma v_load_words n : forall src a, sat bare (load_words n src a).
Proof.
  pose proof v_gdp. pose proof v_store. induction n as [n IH] using lt_wf_ind; intros src a.
  destruct n as [|[|[|[|[|m]]]]]; try apply v_load_bytes. cbn [load_words].
  destruct src as [|b0 [|b1 [|b2 [|b3 t]]]]; try apply sat_ub. unfold load32. vtac. all: first [apply v_load_bytes|apply IH; lia].
Qed.
Lemma v_blob b off n : sat bare (blob_get b off n).
Proof. unfold blob_get. vtac. Qed.
Lemma v_fetch b off n : sat bare (fetchSizedByteArray b off n).
Proof. pose proof bare_closed. unfold fetchSizedByteArray. vtac. Qed.
Lemma v_entry b ph : sat bare (loadIfFlashLoadableEntry b ph).
Proof.
  pose proof bare_closed. pose proof v_create. pose proof v_readonly. pose proof v_load_words. pose proof v_blob. pose proof v_fetch.
  unfold loadIfFlashLoadableEntry, MemorySim_LoadFromFlashImage. vtac.
Qed.
Lemma v_entries n : forall b e i off c, sat bare (loadFlashLoadableEntries n b e i off c).
Proof. pose proof bare_closed. pose proof v_entry. pose proof v_fetch. induction n as [|n IH]; intros; cbn [loadFlashLoadableEntries]; vtac. Qed.
Lemma v_elf b : sat bare (ElfLoad_FromMemory b).
Proof. pose proof bare_closed. pose proof v_entries. pose proof v_blob. pose proof v_fetch. unfold ElfLoad_FromMemory, initLoadObject, validateElfHeaderContents. vtac. Qed.
Lemma v_file_size h : sat bare (GetFileSize h).
Proof. pose proof bare_closed. unfold GetFileSize. vtac. Qed.
Lemma v_file_data name : sat bare (loadFileData name).
Proof. pose proof bare_closed. pose proof v_file_size. unfold loadFileData. vtac. Qed.
Lemma v_image c : sat bare (loadImageFile c).
Proof.
  pose proof bare_closed. pose proof v_file_data. pose proof v_elf. pose proof v_create. pose proof v_readonly. pose proof v_load_words.
  unfold loadImageFile, loadBinFile, MemorySim_LoadFromFlashImage. vtac. intro s. exact I.
Qed.

(** ** Read-only memory is not changed by the dump *)

Lemma stages_kept os w w1 w' : loadImageFile (settings os) w = Ret tt w1 -> stages os w = Ret tt w' \/ stages os w = Exc w' -> rom_kept w1 w'.
Proof.
  intros E1. rewrite stages_eq, E1. intro E.
  pose proof (kept_dump (settings os) w1) as K1. destruct (loadDumpFile (settings os) w1) as [[] w2|w2|]; [| |destruct E; discriminate].
  - pose proof (kept_aliases os w2) as K2. eapply (pre_trans _ (cl_pre _ kept_closed)); [exact K1|]. destruct (make_aliases os w2) as [[] w3|w3|]; destruct E as [E|E]; try discriminate; injection E as <-; exact K2.
  - destruct E as [E|E]; [discriminate|]. injection E as <-. exact K1.
Qed.

Lemma served_kept w w' n a v i r : wf (regions w) -> rom_kept w w' -> width n -> u32 a -> first_cover (regions w) a n i r ->
  r_redir r = None -> r_wps r = [] -> r_ro r = true -> outcome_of (api (readN n a) w) = Value v -> outcome_of (api (readN n a) w') = Value v.
Proof.
  intros WF K Hn Ha FC RD WP RO. pose proof (WF i r (proj1 FC)) as WR.
  assert (HZ : r_size r = zlen (r_data r)) by (symmetry; apply (wr_len _ _ _ WR RD)).
  assert (HC : forall b c, r_rc r = Some (b, c) -> zlen c = r_size r / 2) by (intros b c E; apply (wr_rc _ _ _ WR _ _ E)).
  destruct (readn_first w n a i r Hn Ha (wr_base _ _ _ WR) FC RD WP HZ HC) as (x1 & ->). cbn [outcome_of]. intro E. injection E as <-.
  destruct (cover_kept _ _ _ _ _ _ K FC) as (r' & FC' & (B & S & D & _ & PW & PR & KO)). destruct (KO RO) as (_ & KD).
  destruct (readn_first w' n a i r') as (x2 & ->); auto; try congruence.
  - rewrite B. apply (wr_base _ _ _ WR).
  - intros b c E. rewrite S. apply (HC b c). congruence.
  - cbn [outcome_of]. now rewrite KD, B.
Qed.

Lemma read_served w n a v : outcome_of (api (readN n a) w) = Value v -> all_plain w -> exists i r, first_cover (regions w) a n i r /\ In r (regions w) /\ r_redir r = None.
Proof.
  unfold api, readN, bind. rewrite getDataPointer_eq. change (regions (set_exn w noException [])) with (regions w).
  destruct (find_from 0 (regions w) a n) as [[j a']|] eqn:F; [|discriminate]. intros _ P. apply find_some in F as (i & r & FC & _).
  exists i, r. split; [exact FC|]. pose proof (nth_error_In _ _ (proj1 FC)) as I. split; [exact I|]. unfold all_plain in P. rewrite Forall_forall in P. now apply P.
Qed.

Lemma write_refused w n a x e i r : first_cover (regions w) a n i r -> r_redir r = None -> r_wps r = [] ->
  outcome_of (api (writeN n a x) w) = Exception_ e -> r_ro r = true.
Proof.
  intros FC RD WP. unfold api, writeN, bind. rewrite getDataPointer_eq. change (regions (set_exn w noException [])) with (regions w).
  assert (FF := find_first 0 _ _ _ _ _ FC). rewrite RD in FF. cbn [Nat.add] in FF. rewrite FF, (proj1 FC). cbv zeta. 
  change (WRITING =? WRITING) with true. change (WRITING =? READING) with false. cbn [andb]. destruct (r_ro r); [reflexivity|].
  rewrite WP. cbn [scan_wps]. destruct (roff r a <=? zlen (r_data r)); [|discriminate].
  unfold store_ptr, bind, get_region. cbn [fst snd]. match goal with |- context [nth_error ?l i] => destruct (nth_error l i) as [q|]; [|discriminate] end. destruct (_ && _); discriminate.
Qed.

(** ** Without an entry that starts inside an earlier one all of the image is read-only *)

Definition all_ro (rs : list region) : Prop := Forall (fun r => r_ro r = true) rs.

Lemma ro_upd i f l : (forall r, r_ro r = true -> r_ro (f r) = true) -> all_ro l -> all_ro (upd_nth i f l).
Proof. intros H. revert i. induction l as [|x l IH]; intros [|i] F; cbn [upd_nth]; auto; inversion F; subst; constructor; auto. now apply IH. Qed.

Lemma rom_ro R w a src n u w' : Inv R w -> u32 a -> u32 n -> Forall byte src -> meets a (ranges w) = false -> all_ro (regions w) ->
  rom_region a src n w = Ret u w' -> all_ro (regions w').
Proof.
  intros HI Ha Hn Hb NM AR. unfold rom_region, bind.
  pose proof (CreateRegion_post a n R w HI Ha Hn) as P. unfold post in P. destruct (MemorySim_CreateRegion a n w) as [[] w1|w1|]; [| |discriminate]; [|discriminate].
  destruct P as (I1 & F1 & E1 & C1 & _).
  pose proof (load_words_long (Z.to_nat n) src a w1) as LG.
  change (load_words (Z.to_nat n) src a) with (MemorySim_LoadFromFlashImage a src n) in *.
  pose proof (Load_eff R w1 a src n I1 Ha Hb) as D. unfold post in D.
  destruct (MemorySim_LoadFromFlashImage a src n w1) as [[] w2|w2|]; [| |discriminate]; [|discriminate].
  specialize (LG w2 eq_refl). destruct D as (I2 & F2 & (D2 & _) & _); [unfold u32, zlen in *; lia|].
  pose proof (MakeRO_post a R w2 I2) as P. unfold post in P. destruct (MemorySim_MakeRegionReadOnly a w2) as [[] w3|w3|]; [| |discriminate]; [|discriminate].
  destruct P as (j & t & a' & Ef & Et & _ & I3 & F3 & E3 & _). intro E. injection E as _ <-. rewrite E3.
  rewrite E1 in D2. apply Forall2_app_inv_l in D2 as (rs & tl & D2 & DT & E2). inversion DT as [|x y l l' (d & Ed & _) HT]; subst. inversion HT; subst. clear DT HT.
  assert (NC : forall r, In r rs -> ~ covers r a 1).
  { intros r Hr C. assert (X : meets a (ranges w) = true); [|congruence]. unfold meets. apply existsb_exists. exists (range_of r).
    split; [unfold ranges; rewrite <- (same_data_ranges _ _ D2); now apply in_map|]. unfold covers in C. cbn [range_of fst snd]. lia. }
  assert (AR2 : all_ro rs).
  { clear - D2 AR. unfold all_ro in *. induction D2 as [|x y l l' (d & -> & _) _ IH]; [constructor|]. inversion AR; subst. constructor; auto. }
  apply find_some in Ef as (i & r & (G1 & G2 & _) & Ej). rewrite E2 in G1 |- *.
  destruct (Nat.lt_ge_cases i (length rs)) as [L|L].
  { rewrite nth_error_app1 in G1 by exact L. exfalso. exact (NC r (nth_error_In _ _ G1) G2). }
  rewrite nth_error_app2 in G1 by exact L. destruct (i - length rs)%nat as [|m] eqn:Em; [|destruct m; discriminate].
  cbn in G1. injection G1 as <-. cbn in Ej. injection Ej as -> _. assert (i = length rs) as -> by lia. cbn [Nat.add].
  apply Forall_forall. intros q Hq. apply In_nth_error in Hq as (k & Hk). rewrite nth_error_upd_nth in Hk. destruct (Nat.eqb (length rs) k) eqn:EK.
  - apply Nat.eqb_eq in EK. subst k. rewrite nth_error_app2, Nat.sub_diag in Hk by lia. cbn in Hk. injection Hk as <-. reflexivity.
  - apply Nat.eqb_neq in EK. destruct (Nat.lt_ge_cases k (length rs)) as [LK|LK].
    + rewrite nth_error_app1 in Hk by exact LK. unfold all_ro in AR2. rewrite Forall_forall in AR2. apply AR2. exact (nth_error_In _ _ Hk).
    + rewrite nth_error_app2 in Hk by exact LK. destruct (k - length rs)%nat as [|[|?]] eqn:EE; try discriminate. lia.
Qed.

Lemma table_ro b : Forall byte b -> zlen b < 4294901760 -> starts_apart b -> forall n i count R w c w',
  Inv R w -> entry_at b i < 4294967296 -> ranges w = seg_ranges b 0 i -> Z.of_nat (i + n) <= entry_count b -> all_ro (regions w) ->
  loadFlashLoadableEntries n b (entry_size b) (Z.of_nat i) (entry_at b i) count w = Ret c w' -> all_ro (regions w').
Proof.
  intros HB HZ HS. induction n as [|n IH]; intros i count R w c w' HI HE HR HN AR; cbn [loadFlashLoadableEntries].
  - unfold ret. intro E. injection E as _ <-. exact AR.
  - unfold bind at 1. pose proof (entry_nonneg b i HB) as NN.
    destruct (try_fetch b (entry_at b i) SIZEOF_PHDR (s2b "ELF page header entry " ++ fmtd (Z.of_nat i) ++ s2b " is at an invalid file offset of " ++ fmtu (entry_at b i) ++ s2b ".") w) as [[X ->]|[_ (m & ->)]]; [|discriminate].
    change SIZEOF_PHDR with 32 in X. rewrite (W_id (entry_at b i + 32)) in X by (unfold u32; lia).
    assert (G1 : entry_inside b i) by (unfold entry_inside; lia).
    unfold bind at 1. rewrite entry_eq by assumption. set (w0 := set_exn w noException []).
    pose proof (entry_lk R b i w0 HB (Inv_exn _ _ _ _ HI) HR) as L. unfold lk in L.
    assert (A1 : forall c1 w1, entry_body b i w0 = Ret c1 w1 -> all_ro (regions w1)).
    { intros c1 w1. unfold entry_body. destruct (loadable b i) eqn:LD; [|unfold ret; intro E; injection E as _ <-; exact AR].
      destruct (loadable_size b i HB LD) as [U P]. pose proof (num4 b (Z.to_nat (entry_at b i) + 12) HB) as VA. change (u32 (seg_address b i)) in VA.
      unfold bind at 1.
      destruct (try_fetch b (seg_offset b i) (seg_filesize b i) (s2b "ELF failed to load entry from file at offsets " ++ fmtd (seg_offset b i) ++ s2b " to " ++ fmtd (W (seg_offset b i + seg_filesize b i - 1)) ++ s2b ".") w0) as [[Y ->]|[_ (m & ->)]]; [|discriminate].
      unfold bind, ret. destruct (rom_region (seg_address b i) (skipn (Z.to_nat (seg_offset b i)) b) (seg_filesize b i) (set_exn w0 noException [])) as [[] w2|w2|] eqn:ER; try discriminate.
      intro E. injection E as _ <-. refine (rom_ro R (set_exn w0 noException []) _ _ _ _ _ _ VA U _ _ AR ER); [apply (Inv_exn _ w), HI| |].
      - apply Forall_forall. intros x Hx. rewrite Forall_forall in HB. apply HB. rewrite <- (firstn_skipn (Z.to_nat (seg_offset b i)) b). apply in_or_app. now right.
      - change (ranges (set_exn w0 noException [])) with (ranges w). rewrite HR, meets_before. unfold starts_inside. apply Bool.not_true_iff_false. intro EX.
        apply existsb_exists in EX as (k & Hk & EX). apply in_seq in Hk. apply andb_prop in EX as (EX & E3). apply andb_prop in EX as (E1 & E2).
        apply (HS k i); auto; lia. }
    destruct (entry_body b i w0) as [c1 w1|w1|]; try discriminate. destruct L as ((Y & _ & I1) & R1).
    pose proof (num2 b 42 HB) as U. change (0 <= entry_size b < 65536) in U.
    replace (Z.of_nat i + 1) with (Z.of_nat (S i)) by lia. rewrite <- entry_next by exact HB. pose proof (entry_next b i HB) as EN. rewrite (W_id (entry_at b (S i))) by (unfold u32; lia).
    apply (IH (S i) _ (Y ++ R)); [exact I1|lia|exact R1|lia|exact (A1 _ _ eq_refl)].
Qed.

Lemma elf_ro R b w u w' : Inv R w -> regions w = [] -> Forall byte b -> zlen b < 4294901760 -> starts_apart b ->
  ElfLoad_FromMemory b w = Ret u w' -> all_ro (regions w').
Proof.
  intros HI HR HB HZ HS. destruct (elf_split b w HB) as [(_ & _ & ->)|(_ & m & ->)]; [|discriminate].
  set (w0 := set_exn w noException []). unfold load_table. pose proof (count_range b HB) as HC.
  assert (E0 : entry_at b 0 = table_offset b) by (unfold entry_at; cbn [Z.of_nat Z.mul]; lia). pose proof (num4 b 28 HB) as U. change (u32 (table_offset b)) in U. unfold u32 in U.
  assert (R0 : ranges w0 = seg_ranges b 0 0) by (unfold ranges, w0; cbn [w_mem set_exn]; rewrite HR; reflexivity).
  assert (A0 : all_ro (regions w0)) by (change (regions w0) with (regions w); rewrite HR; constructor).
  pose proof (fun c w' => table_ro b HB HZ HS (Z.to_nat (entry_count b)) 0 0 R w0 c w' (Inv_exn _ _ _ _ HI) ltac:(lia) R0 ltac:(lia) A0) as P.
  rewrite E0 in P. change (Z.of_nat 0) with 0 in P. unfold bind.
  destruct (loadFlashLoadableEntries _ _ _ _ _ _ w0) as [c w1|w1|]; try discriminate. specialize (P c w1 eq_refl).
  destruct (c =? 0).
  - match goal with |- context[throw_msg ?c ?m w1] => destruct (throws_msg (A := unit) c m w1) as (m' & ->) end. discriminate.
  - unfold ret. intro E. injection E as _ <-. exact P.
Qed.

Lemma bin_ro R base data w u w' : Inv R w -> regions w = [] -> u32 base -> Forall byte data ->
  loadBinFile base data w = Ret u w' -> all_ro (regions w').
Proof.
  intros HI HR HU HB. unfold loadBinFile. rewrite try0_eq. set (w0 := set_exn w noException []).
  change (MemorySim_CreateRegion base (W (zlen data));;; MemorySim_LoadFromFlashImage base data (W (zlen data));;; MemorySim_MakeRegionReadOnly base) with (rom_region base data (W (zlen data))).
  assert (A0 : all_ro (regions w0)) by (change (regions w0) with (regions w); rewrite HR; constructor).
  assert (M0 : meets base (ranges w0) = false) by (unfold ranges; change (regions w0) with (regions w); rewrite HR; reflexivity).
  pose proof (fun u w' => rom_ro R w0 base data (W (zlen data)) u w' (Inv_exn _ _ _ _ HI) HU (W_u32 _) HB M0 A0) as P.
  assert (I0 : Inv R w0) by now apply Inv_exn. pose proof (W_range (zlen data)) as WR.
  assert (WL : W (zlen data) <= zlen data) by (unfold W, zlen; lia).
  assert (NC : forall r, In r (regions w0) -> ~ covers r base 1) by (change (regions w0) with (regions w); rewrite HR; contradiction).
  pose proof (rom_clean R w0 base data (W (zlen data)) I0 HU WR HB WL NC) as Q. unfold post in Q.
  destruct (rom_region base data (W (zlen data)) w0) as [[] w1|w1|]; [| |discriminate].
  - destruct Q as (_ & _ & C1 & _). rewrite C1. cbn [Z.eqb]. intro E. injection E as _ <-. exact (P _ _ eq_refl).
  - destruct Q as (_ & _ & C1). destruct (init_code_nonzero _ (elf_init _ C1)) as [NZ _]. replace (w_code w1 =? 0) with false by lia.
    unfold bind, getExceptionCode. match goal with |- context[throw_msg ?c ?m w1] => destruct (throws_msg (A := unit) c m w1) as (m' & ->) end. discriminate.
Qed.

Lemma load_ro X f R w u w' : Inv R w -> load_with X f w = Ret u w' ->
  (forall b data w1, file_is w f data -> Inv (b :: R) w1 -> regions w1 = regions w ->
     match X data w1 with Ret _ w' => all_ro (regions w') | Exc w' => elf_code (w_code w') | Ub _ => True end) ->
  all_ro (regions w').
Proof.
  intros HI E HX. rewrite load_with_run in E. pose proof (data_safe f R w HI) as P. destruct (loadFileData f w) as [[b data] w1|w1|]; [| |destruct P].
  2:{ destruct P as (I1 & _ & _ & C).
      assert (IC : init_code (w_code w1)) by (unfold init_code; destruct C as [(-> & _)|(-> & _)]; auto).
      destruct (init_code_nonzero _ IC) as (NZ & _). replace (w_code w1 =? 0) with false in E by lia. discriminate. }
  destruct P as (HF & I1 & (M1 & _) & C1 & _). assert (R1 : regions w1 = regions w) by (now rewrite M1).
  specialize (HX b data w1 HF I1 R1). destruct (X data w1) as [[] w2|w2|]; [| |discriminate].
  all: unfold bind, free in E; cbn [w_code set_heap] in E; destruct (is_live b (w_heap w2)); try discriminate; cbn [w_code set_heap] in E.
  1: destruct (w_code w2 =? 0); [injection E as _ <-; exact HX|]; destruct (is_live _ _) in E; discriminate.
  all: destruct (init_code_nonzero _ (elf_init _ HX)) as (NZ & _); replace (w_code w2 =? 0) with false in E by lia; discriminate.
Qed.

Lemma image_ro os f R w u w' : Inv R w -> regions w = [] -> (forall f data, file_is w f data -> Forall byte data) -> uses_image os f ->
  (forall f data, uses_elf os f -> file_is w f data -> zlen data < 4294901760 /\ starts_apart data) ->
  loadImageFile (settings os) w = Ret u w' -> all_ro (regions w').
Proof.
  intros HI HR FB HU HO E. destruct (image_cases os f HU) as [(U & E0)|(a & U & E1 & E2 & E3)].
  - rewrite (image_elf _ _ E0) in E. apply (load_ro _ _ _ _ _ _ HI E). intros b data w1 HF I1 R1. rewrite HR in R1. destruct (HO f data U HF) as (HZ & HN).
    pose proof (elf_tol (b :: R) data w1 (FB _ _ HF) I1) as T. pose proof (fun u w' => elf_ro (b :: R) data w1 u w' I1 R1 (FB _ _ HF) HZ HN) as L. unfold tol in T.
    destruct (ElfLoad_FromMemory data w1) as [[] w2|w2|]; [exact (L _ _ eq_refl)|apply T|exact I].
  - rewrite (image_bin _ _ E1 E2), E3 in E. apply (load_ro _ _ _ _ _ _ HI E). intros b data w1 HF I1 R1. rewrite HR in R1.
    pose proof (bin_safe _ data (b :: R) w1 I1 R1 (strtou32_u32 a) (FB _ _ HF)) as B. pose proof (fun u w' => bin_ro (b :: R) (strtou32 a) data w1 u w' I1 R1 (strtou32_u32 a) (FB _ _ HF)) as L.
    destruct (loadBinFile (strtou32 a) data w1) as [[] w2|w2|]; [exact (L _ _ eq_refl)|apply B|exact I].
Qed.

(** ** Start-up *)

Lemma image_then args os w w1 c w' : heap_sane w -> spells args os -> complete os -> (forall f data, file_is w f data -> Forall byte data) ->
  api (loadImageFile (settings os)) (blank_state w) = Done tt w1 -> api (CrashDebugCommandLine_Init args) w = Done c w' ->
  exists f, uses_image os f /\ loadImageFile (settings os) (set_exn (blank_state w) noException []) = Ret tt w1 /\
    wf (regions w1) /\ all_plain w1 /\ all_bare w1 /\ rom_kept w1 w'.
Proof.
  intros HH HS HC HB E1 E. destruct (complete_uses _ HC) as ((f & HU) & _). exists f. split; [exact HU|].
  unfold api in E1. destruct (loadImageFile _ _) as [[] w1'|w1'|] eqn:EL; try discriminate. injection E1 as ->. split; [reflexivity|].
  destruct (init_done _ _ _ _ _ HS HC E) as (ES & _ & _).
  pose proof (image_any os f _ _ (blank_inv w HH) eq_refl HB HU) as P. rewrite EL in P. destruct P as ((P1 & _) & _).
  split; [destruct P1 as (X & (P1 & _) & _) || destruct P1 as (X & P1); apply P1|].
  pose proof (p_image (settings os) (set_exn (blank_state w) noException [])) as PP. rewrite EL in PP. 
  pose proof (v_image (settings os) (set_exn (blank_state w) noException [])) as PV. rewrite EL in PV.
  split; [apply PP; constructor|]. split; [apply PV; constructor|]. exact (stages_kept _ _ _ _ EL ES).
Qed.

Lemma protected_stays args os w w1 c w' n a v x e : heap_sane w -> spells args os -> complete os ->
  (forall f data, file_is w f data -> Forall byte data) ->
  api (loadImageFile (settings os)) (blank_state w) = Done tt w1 ->
  api (CrashDebugCommandLine_Init args) w = Done c w' ->
  width n -> u32 a -> outcome_of (api (readN n a) w1) = Value v -> outcome_of (api (writeN n a x) w1) = Exception_ e ->
  outcome_of (api (readN n a) w') = Value v.
Proof.
  intros HH HS HC HB E1 E Hn Ha ER EW. destruct (image_then _ _ _ _ _ _ HH HS HC HB E1 E) as (f & HU & EL & WF & AP & AB & K).
  destruct (read_served _ _ _ _ ER AP) as (i & r & FC & I & RD). unfold all_bare in AB. rewrite Forall_forall in AB. pose proof (AB r I) as WP.
  exact (served_kept _ _ _ _ _ _ _ WF K Hn Ha FC RD WP (write_refused _ _ _ _ _ _ _ FC RD WP EW) ER).
Qed.

Lemma apart_stays args os w w1 c w' n a v : heap_sane w -> spells args os -> complete os ->
  (forall f data, file_is w f data -> Forall byte data) ->
  (forall f data, uses_elf os f -> file_is w f data -> zlen data < 4294901760 /\ starts_apart data) ->
  api (loadImageFile (settings os)) (blank_state w) = Done tt w1 ->
  api (CrashDebugCommandLine_Init args) w = Done c w' ->
  width n -> u32 a -> outcome_of (api (readN n a) w1) = Value v ->
  outcome_of (api (readN n a) w') = Value v.
Proof.
  intros HH HS HC HB HO E1 E Hn Ha ER. destruct (image_then _ _ _ _ _ _ HH HS HC HB E1 E) as (f & HU & EL & WF & AP & AB & K).
  destruct (read_served _ _ _ _ ER AP) as (i & r & FC & I & RD). unfold all_bare in AB. rewrite Forall_forall in AB. pose proof (AB r I) as WP.
  pose proof (image_ro os f _ _ _ _ (blank_inv w HH) eq_refl HB HU HO EL) as RO. unfold all_ro in RO. rewrite Forall_forall in RO.
  exact (served_kept _ _ _ _ _ _ _ WF K Hn Ha FC RD WP (RO r I) ER).
Qed.
