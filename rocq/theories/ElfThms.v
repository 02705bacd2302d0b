(** Lemmas about loading ELF files. *)
From Coq Require Import String ZArith List Bool Lia Permutation Wf_nat.
From Verif Require Import Base World MemSim Elf BaseLemmas MemSpec Sat MemFair MemLemmas MemInv MemOps MemOps2 MemOps3 MemHist MemHist2 MemThms MemThms2 DumpSpec DumpLemmas DumpThms ElfSpec.
Import ListNotations.
Open Scope Z_scope.
Open Scope m_scope.

(** ** Creating one read-only region *)

Definition rom_region (a : Z) (src : list Z) (n : Z) : M world unit :=
  MemorySim_CreateRegion a n ;;; MemorySim_LoadFromFlashImage a src n ;;; MemorySim_MakeRegionReadOnly a.

Lemma apart_cover r a n b m : apart (range_of r) (a, n) -> a <= b -> 0 < m -> b + m <= a + n -> ~ covers r b m.
Proof. unfold apart, range_of, covers. cbn. lia. Qed.

Lemma rom_post R w a src n :
  Inv R w -> u32 a -> u32 n -> 0 < n -> a + n <= 4294967296 -> Forall byte src -> n <= zlen src ->
  (forall r, In r (regions w) -> apart (range_of r) (a, n)) ->
  post (rom_region a src n) w
    (fun _ w' => Inv R w' /\ w_code w' = 0 /\ rom_added w w' [(a, firstn (Z.to_nat n) src)])
    (failed_with outOfMemoryException R w).
Proof.
  intros HI Ha Hn H0 Hw Hb Hl Hap. unfold rom_region. apply post_bind.
  eapply post_weaken; [apply (CreateRegion_post a n R w HI Ha Hn)| |]; cbv beta.
  2:{ intros w1 (I1 & F1 & _ & C1 & _). split; auto. }
  intros _ w1 (I1 & F1 & E1 & C1 & Hh1 & Hx1). set (fl := new_region w a n) in *.
  assert (FC : forall d b m, a <= b -> 0 < m -> b + m <= a + n -> first_cover (regions w ++ [with_data fl d]) b m (length (regions w)) (with_data fl d)).
  { intros d b m H1 H2 H3. apply snoc_first_cover.
    - intros r Hr. eapply apart_cover; eauto.
    - unfold covers. cbn. lia. }
  assert (FF : forall d b m, a <= b -> 0 < m -> b + m <= a + n -> find_from 0 (regions w ++ [with_data fl d]) b m = Some (length (regions w), b)).
  { intros d b m H1 H2 H3. rewrite (find_first 0 _ _ _ _ _ (FC d b m H1 H2 H3)). reflexivity. }
  assert (Efl : fl = with_data fl (zeros n)) by reflexivity.
  assert (Zl : zlen (firstn (Z.to_nat n) src) = n) by (unfold zlen in *; rewrite firstn_length; lia).
  apply post_bind. unfold post at 1, MemorySim_LoadFromFlashImage.
  rewrite (load_words_exact R (Z.to_nat n) src a w1 (length (regions w)) 0); auto; [|lia|unfold zlen in *; lia|].
  2:{ exists fl. rewrite E1. split; [apply nth_snoc|]. split; [lia|]. unfold fl. cbn [r_data new_region].
      rewrite zeros_zlen by (unfold u32 in Hn; lia). split; [lia|]. intros b m H1 H2 H3. exists b. fold fl. rewrite Efl. split.
      - apply FF; lia.
      - unfold roff. unfold fl. cbn [r_base with_data new_region]. rewrite W_id; unfold u32 in *; lia. }
  assert (EP : put (regions w1) (length (regions w)) 0 (firstn (Z.to_nat n) src) = regions w ++ [with_data fl (firstn (Z.to_nat n) src)]).
  { rewrite E1. unfold put. rewrite upd_nth_app_r. rewrite splice_whole; [reflexivity|]. cbn. unfold zeros. rewrite repeat_length. unfold zlen in Zl. lia. }
  assert (I2 : Inv R (set_regions w1 (put (regions w1) (length (regions w)) 0 (firstn (Z.to_nat n) src)))).
  { eapply Inv_put; [exact I1|rewrite E1; apply nth_snoc|lia| |apply (Forall_slice byte src 0 n Hb)].
    unfold fl. cbn [r_data new_region]. rewrite zeros_zlen by (unfold u32 in Hn; lia). lia. }
  rewrite EP in *. set (fl1 := with_data fl (firstn (Z.to_nat n) src)) in *. set (w2 := set_regions w1 _) in *.
  assert (F2 : frame w w2) by (eapply frame_trans; [exact F1|apply frame_regions]).
  assert (E2 : regions w2 = regions w ++ [fl1]) by reflexivity.
  assert (C2 : w_code w2 = 0) by exact C1.
  assert (Hh2 : m_hits (w_mem w2) = m_hits (w_mem w)) by exact Hh1.
  assert (Hx2 : m_xml (w_mem w2) = m_xml (w_mem w)) by exact Hx1.
  clearbody w2. assert (FF2 : find_from 0 (regions w2) a 1 = Some (length (regions w), a)) by (rewrite E2; apply FF; lia).
  eapply post_weaken; [apply (MakeRO_post a R w2 I2)| |]; cbv beta.
  - intros _ w3 (j & t & a' & Ef & Hj & _ & I3 & F3 & E3 & Hh3 & Hx3 & C3 & _). rewrite FF2 in Ef. injection Ef as <- <-.
    rewrite E2, nth_snoc in Hj. injection Hj as <-. rewrite E2, upd_nth_app_r in E3.
    replace (lost fl1) with (@nil nat) in I3 by reflexivity. cbn [app] in I3.
    split; [exact I3|]. split; [congruence|]. split; [|split; [eapply frame_trans; eauto|split; congruence]].
    eexists. split; [exact E3|]. constructor; [|constructor]. cbn [fst snd]. unfold is_rom, fl1, fl.
    cbn [r_base r_size r_redir r_data r_ro r_wps r_rc with_rc with_ro with_data new_region fst snd option_map]. rewrite Zl. repeat split.
  - intros w3 (I3 & F3 & Hh3 & Hx3 & _ & [(Ef & _)|(j & t & a' & Ef & Hj & _ & E3 & C3)]); [congruence|].
    split; [exact I3|]. split; [eapply frame_trans; eauto|]. rewrite C3, C2. reflexivity.
Qed.

Lemma rom_refl w : rom_added w w [].
Proof. split; [exists []; rewrite app_nil_r; auto|]. auto using frame_refl. Qed.
Lemma rom_trans w w1 w2 m1 m2 : rom_added w w1 m1 -> rom_added w1 w2 m2 -> rom_added w w2 (m1 ++ m2).
Proof.
  intros ((n1 & E1 & F1) & G1 & H1 & X1) ((n2 & E2 & F2) & G2 & H2 & X2). split.
  - exists (n1 ++ n2). rewrite E2, E1, app_assoc. split; [reflexivity|]. now apply Forall2_app.
  - split; [eapply frame_trans; eauto|]. split; congruence.
Qed.
Lemma rom_exn w w' c m ms : rom_added (set_exn w c m) w' ms -> rom_added w w' ms.
Proof. intros H. exact H. Qed.

Lemma fit_rom rs x ms : fit rs (x :: ms) ->
  fst x + zlen (snd x) <= 4294967296 /\ (forall r, In r rs -> apart (range_of r) (range_in x)) /\
  forall r, is_rom r x -> fit (rs ++ [r]) ms.
Proof.
  intros (H1 & H2 & H3). inversion H1 as [|? ? A1 A2]; subst. inversion H2 as [|? ? B1 B2]; subst. split; [exact A1|].
  split; [intros r Hr; apply H3; [exact Hr|now left]|]. intros r Hr. split; [exact A2|]. split; [exact B2|].
  intros s y Hs Hy. apply in_app_or in Hs as [Hs|[<-|[]]].
  - apply H3; [exact Hs|now right].
  - rewrite Forall_forall in B1. specialize (B1 y Hy). destruct Hr as (E1 & E2 & _). unfold range_of. rewrite E1, E2. exact B1.
Qed.

(** ** Fields *)

Lemma blob_get_in b off n w : 0 <= off -> off + n <= zlen b -> blob_get b off n w = Ret (num b (Z.to_nat off) (Z.to_nat n)) w.
Proof. intros H1 H2. unfold blob_get. replace ((0 <=? off) && (off + n <=? zlen b)) with true by lia. reflexivity. Qed.

Lemma num_range b off n : Forall byte b -> 0 <= num b off n < 256 ^ Z.of_nat n.
Proof.
  intro H. unfold num. assert (HB : Forall byte (firstn n (skipn off b))).
  { apply Forall_forall. intros x Hx. rewrite Forall_forall in H. apply H. rewrite <- (firstn_skipn off b). apply in_or_app. right.
    rewrite <- (firstn_skipn n (skipn off b)). apply in_or_app. now left. }
  pose proof (of_le_range _ HB) as [H1 H2]. split; [exact H1|]. eapply Z.lt_le_trans; [exact H2|].
  apply Z.pow_le_mono_r; [lia|]. unfold zlen. rewrite firstn_length. lia.
Qed.
Lemma num4 b off : Forall byte b -> u32 (num b off 4).
Proof. intro H. pose proof (num_range b off 4 H). change (256 ^ Z.of_nat 4) with 4294967296 in *. unfold u32. lia. Qed.
Lemma num2 b off : Forall byte b -> 0 <= num b off 2 < 65536.
Proof. intro H. exact (num_range b off 2 H). Qed.

Lemma fetch_ok b off n w : off <= zlen b -> W (off + n) <= zlen b -> fetchSizedByteArray b off n w = Ret off w.
Proof. intros H1 H2. unfold fetchSizedByteArray. replace ((zlen b <? off) || (zlen b <? W (off + n))) with false by lia. reflexivity. Qed.
Lemma fetch_bad b off n w : ~ (off <= zlen b /\ W (off + n) <= zlen b) ->
  fetchSizedByteArray b off n w = Exc (set_exn w (Z.max elfFormatException (w_code w)) (w_msg w)).
Proof. intros H1. unfold fetchSizedByteArray. replace ((zlen b <? off) || (zlen b <? W (off + n))) with true by lia. reflexivity. Qed.

Lemma try_msg_ok body msg w x : body (set_exn w noException []) = Ret x (set_exn w noException []) -> try_msg body msg w = Ret x (set_exn w noException []).
Proof. intro H. unfold try_msg, try_, bind, lift, setl. cbn [fst snd]. rewrite H. reflexivity. Qed.
Lemma try_msg_bad body msg w c m : body (set_exn w noException []) = Exc (set_exn (set_exn w noException []) c m) -> 0 < c ->
  exists m', try_msg body msg w = Exc (set_exn w c m').
Proof.
  intros H Hc. unfold try_msg, try_, bind, lift, setl. cbn [fst snd]. rewrite H. cbn [w_code set_exn fst snd]. replace (c =? 0) with false by lia.
  unfold getExceptionCode, throw_msg, throw. cbn [w_code set_exn]. eexists. rewrite Z.max_id. reflexivity.
Qed.

Lemma try_fetch b off n msg w : let ok := off <= zlen b /\ W (off + n) <= zlen b in
  (ok /\ try_msg (fetchSizedByteArray b off n) msg w = Ret off (set_exn w noException [])) \/
  (~ ok /\ exists m, try_msg (fetchSizedByteArray b off n) msg w = Exc (set_exn w elfFormatException m)).
Proof.
  cbv zeta. destruct (Z.leb_spec off (zlen b)) as [H1|H1]; [destruct (Z.leb_spec (W (off + n)) (zlen b)) as [H2|H2]|].
  - left. split; [auto|]. apply try_msg_ok. now apply fetch_ok.
  - right. split; [lia|]. eapply try_msg_bad; [apply fetch_bad; lia|]. cbn. lia.
  - right. split; [lia|]. eapply try_msg_bad; [apply fetch_bad; lia|]. cbn. lia.
Qed.

(** ** One entry of the table *)

Lemma rom_then {A} a src n (k : M world A) w :
  (MemorySim_CreateRegion a n ;;; MemorySim_LoadFromFlashImage a src n ;;; MemorySim_MakeRegionReadOnly a ;;; k) w = (rom_region a src n ;;; k) w.
Proof.
  unfold rom_region, bind. destruct (MemorySim_CreateRegion a n w) as [? w1|w1|]; [|reflexivity|reflexivity].
  destruct (MemorySim_LoadFromFlashImage a src n w1) as [? w2|w2|]; reflexivity.
Qed.

(** What the loader does with entry [k] when it can read it. *)
Definition entry_body (b : list Z) (k : nat) : M world Z :=
  if loadable b k then
    data <- try_msg (fetchSizedByteArray b (seg_offset b k) (seg_filesize b k))
            (s2b "ELF failed to load entry from file at offsets " ++ fmtd (seg_offset b k) ++
             s2b " to " ++ fmtd (W (seg_offset b k + seg_filesize b k - 1)) ++ s2b ".");;
    rom_region (seg_address b k) (skipn (Z.to_nat data) b) (seg_filesize b k) ;;; ret 1
  else ret 0.

Lemma entry_eq b k w : Forall byte b -> 0 <= entry_at b k -> entry_inside b k -> loadIfFlashLoadableEntry b (entry_at b k) w = entry_body b k w.
Proof.
  intros HB H0 HI. unfold entry_inside in HI. unfold loadIfFlashLoadableEntry, entry_body, loadable.
  assert (N : forall off, 0 <= off -> off + 4 <= 32 -> blob_get b (entry_at b k + off) 4 = ret (entry_num b k (Z.to_nat off))).
  { intros off G1 G2. unfold blob_get. replace ((0 <=? entry_at b k + off) && (entry_at b k + off + 4 <=? zlen b)) with true by lia.
    unfold entry_num, num, slice. rewrite Z2Nat.inj_add by lia. reflexivity. }
  pose proof (N 0) as N0. rewrite Z.add_0_r in N0. rewrite N0, !N by lia. clear N N0.
  change (entry_num b k (Z.to_nat 0)) with (seg_type b k). change (entry_num b k (Z.to_nat 16)) with (seg_filesize b k).
  change (entry_num b k (Z.to_nat 20)) with (seg_memsize b k). change (entry_num b k (Z.to_nat 4)) with (seg_offset b k). change (entry_num b k (Z.to_nat 12)) with (seg_address b k).
  unfold bind at 1, ret at 1. destruct (seg_type b k =? 1); [|reflexivity]. cbn [negb andb].
  unfold bind at 1, ret at 1. destruct (seg_filesize b k =? 0); [reflexivity|]. cbn [negb andb].
  unfold bind at 1, ret at 1. replace (seg_filesize b k <=? seg_memsize b k) with (negb (seg_memsize b k <? seg_filesize b k)) by lia. destruct (seg_memsize b k <? seg_filesize b k); [reflexivity|]. cbn [negb].
  unfold bind at 1, ret at 1. unfold bind at 1, ret at 1. unfold bind at 1. unfold bind at 4.
  destruct (try_msg _ _ w) as [d w1|w1|]; [|reflexivity|reflexivity]. apply rom_then.
Qed.

Lemma loadable_size b k : Forall byte b -> loadable b k = true -> u32 (seg_filesize b k) /\ 0 < seg_filesize b k.
Proof. intros HB H. pose proof (num4 b (Z.to_nat (entry_at b k) + 16) HB) as U. fold (entry_num b k 16) in U. fold (seg_filesize b k) in U. unfold loadable in H. unfold u32 in *. lia. Qed.

Lemma segment_len b k : Forall byte b -> contents_inside b k -> zlen (snd (segment b k)) = seg_filesize b k.
Proof.
  intros HB H. unfold contents_inside in H. pose proof (num4 b (Z.to_nat (entry_at b k) + 16) HB) as U. pose proof (num4 b (Z.to_nat (entry_at b k) + 4) HB) as V.
  change (u32 (seg_filesize b k)) in U. change (u32 (seg_offset b k)) in V. unfold u32 in *.
  cbn [segment snd]. unfold zlen in *. rewrite firstn_length, skipn_length. lia.
Qed.

Lemma entry_run R b k w : Forall byte b -> Inv R w -> w_code w = 0 -> (loadable b k = true -> contents_inside b k) ->
  (loadable b k = true -> fst (segment b k) + zlen (snd (segment b k)) <= 4294967296 /\ forall r, In r (regions w) -> apart (range_of r) (range_in (segment b k))) ->
  post (entry_body b k) w
    (fun c w' => c = zlen (map (segment b) (filter (loadable b) [k])) /\ Inv R w' /\ w_code w' = 0 /\ rom_added w w' (map (segment b) (filter (loadable b) [k])))
    (failed_with outOfMemoryException R w).
Proof.
  intros HB HI HC HO HF. unfold entry_body. cbn [filter]. destruct (loadable b k) eqn:L.
  2:{ unfold post, ret. split; [reflexivity|]. split; [exact HI|]. split; [exact HC|]. apply rom_refl. }
  specialize (HO eq_refl). destruct (HF eq_refl) as [HW HA]. destruct (loadable_size b k HB L) as [U P].
  pose proof (segment_len b k HB HO) as EL. rewrite EL in HW. cbn [segment fst] in HW.
  pose proof (num4 b (Z.to_nat (entry_at b k) + 4) HB) as V. change (u32 (seg_offset b k)) in V.
  pose proof (num4 b (Z.to_nat (entry_at b k) + 12) HB) as VA. change (u32 (seg_address b k)) in VA.
  unfold contents_inside in HO.
  apply post_bind. unfold post at 1.
  destruct (try_fetch b (seg_offset b k) (seg_filesize b k) (s2b "ELF failed to load entry from file at offsets " ++ fmtd (seg_offset b k) ++ s2b " to " ++ fmtd (W (seg_offset b k + seg_filesize b k - 1)) ++ s2b ".") w) as [[_ ->]|[X _]].
  2:{ exfalso. apply X. unfold u32 in *. split; [lia|]. unfold W. pose proof (Z.mod_le (seg_offset b k + seg_filesize b k) 4294967296). lia. }
  apply post_bind. eapply post_weaken; [apply (rom_post R (set_exn w noException []) (seg_address b k) (skipn (Z.to_nat (seg_offset b k)) b) (seg_filesize b k))| |]; auto using Inv_exn.
  - apply Forall_forall. intros x Hx. rewrite Forall_forall in HB. apply HB. rewrite <- (firstn_skipn (Z.to_nat (seg_offset b k)) b). apply in_or_app. now right.
  - unfold zlen in *. rewrite skipn_length. unfold u32 in *. lia.
  - intros r Hr. specialize (HA r Hr). unfold range_in in HA. rewrite EL in HA. exact HA.
  - cbv beta. intros _ w1 (I1 & C1 & A1). unfold post, ret. split; [reflexivity|]. split; [exact I1|]. split; [exact C1|exact A1].
Qed.

(** ** The table *)

Definition segs (b : list Z) (i n : nat) : list (Z * list Z) := map (segment b) (filter (loadable b) (seq i n)).

Lemma segs_S b i n : segs b i (S n) = segs b i 1 ++ segs b (S i) n.
Proof. unfold segs. cbn [seq filter]. destruct (loadable b i); reflexivity. Qed.
Lemma segs_len b i n : (length (segs b i n) <= n)%nat.
Proof.
  unfold segs. rewrite map_length. revert i. induction n as [|n IH]; intro i; cbn [seq filter length]; [lia|].
  specialize (IH (S i)). destruct (loadable b i); cbn [length]; lia.
Qed.

Lemma fit_head rs x ms : fit rs (x ++ ms) -> length x = 1%nat \/ x = [] -> forall new, Forall2 is_rom new x -> fit (rs ++ new) ms.
Proof.
  intros HF [H|H] new HN.
  - destruct x as [|y [|]]; try discriminate. inversion HN as [|r ? l ? H1 H2]; subst. inversion H2; subst. cbn [app] in HF. now apply (fit_rom _ _ _ HF).
  - subst x. inversion HN; subst. rewrite app_nil_r. exact HF.
Qed.

Lemma entry_next b k : Forall byte b -> entry_at b (S k) = entry_at b k + entry_size b.
Proof. intro. unfold entry_at. lia. Qed.
Lemma entry_nonneg b k : Forall byte b -> 0 <= entry_at b k.
Proof. intro HB. unfold entry_at, table_offset, entry_size. pose proof (num4 b 28 HB). pose proof (num2 b 42 HB). unfold u32 in *. nia. Qed.

Definition table_post (R : list nat) (w : world) (count : Z) (ms : list (Z * list Z)) (c : Z) (w' : world) : Prop :=
  c = count + zlen ms /\ Inv R w' /\ w_code w' = 0 /\ rom_added w w' ms.

(** The good entries [i], ..., [i + n - 1], followed by [k] more. *)
Lemma table_run R b k : Forall byte b -> zlen b < 4294967296 -> forall n i count w,
  Inv R w -> w_code w = 0 -> (forall j, (i <= j < i + n)%nat -> entry_good b j) -> fit (regions w) (segs b i n) ->
  0 <= count -> count + Z.of_nat n < 4294967296 ->
  (exists c w', table_post R w count (segs b i n) c w' /\
    loadFlashLoadableEntries (n + k) b (entry_size b) (Z.of_nat i) (W (entry_at b i)) count w =
    loadFlashLoadableEntries k b (entry_size b) (Z.of_nat (i + n)) (W (entry_at b (i + n))) c w') \/
  (exists w', loadFlashLoadableEntries (n + k) b (entry_size b) (Z.of_nat i) (W (entry_at b i)) count w = Exc w' /\ failed_with outOfMemoryException R w w').
Proof.
  intros HB HZ. induction n as [|n IH]; intros i count w HI HC HG HF H0 Hc.
  - left. exists count, w. split; [|rewrite Nat.add_0_r; reflexivity]. split; [cbn; lia|]. split; [exact HI|]. split; [exact HC|apply rom_refl].
  - cbn [Nat.add loadFlashLoadableEntries]. destruct (HG i ltac:(lia)) as [G1 G2]. pose proof (entry_nonneg b i HB) as NN. pose proof G1 as G1'. unfold entry_inside in G1'.
    rewrite (W_id (entry_at b i)) by (unfold u32; lia).
    unfold bind at 1 3.
    destruct (try_fetch b (entry_at b i) SIZEOF_PHDR (s2b "ELF page header entry " ++ fmtd (Z.of_nat i) ++ s2b " is at an invalid file offset of " ++ fmtu (entry_at b i) ++ s2b ".") w) as [[_ ->]|[X _]].
    2:{ exfalso. apply X. change SIZEOF_PHDR with 32. rewrite W_id by (unfold u32; lia). lia. }
    set (w0 := set_exn w noException []).
    assert (F1 : fit (regions w0) (segs b i 1 ++ segs b (S i) n)) by (rewrite <- segs_S; exact HF).
    pose proof (entry_run R b i w0 HB) as P. unfold bind. rewrite entry_eq by assumption. unfold post in P.
    destruct (entry_body b i w0) as [c w1|w1|].
    + destruct P as (-> & I1 & C1 & A1); [now apply Inv_exn|reflexivity|exact G2| |].
      { intro L. unfold segs in F1. cbn [seq filter] in F1. rewrite L in F1. cbn [map app] in F1. destruct (fit_rom _ _ _ F1) as (X1 & X2 & _). auto. }
      change (map (segment b) (filter (loadable b) [i])) with (segs b i 1) in *.
      assert (L1 : length (segs b i 1) = 1%nat \/ segs b i 1 = []).
      { unfold segs. cbn [seq filter]. destruct (loadable b i); [now left|now right]. }
      assert (LZ : 0 <= zlen (segs b i 1) <= 1) by (unfold zlen; destruct L1 as [->| ->]; cbn; lia).
      rewrite (W_id (count + _)) by (unfold u32; lia).
      replace (Z.of_nat i + 1) with (Z.of_nat (S i)) by lia. rewrite <- entry_next by exact HB.
      assert (F2 : fit (regions w1) (segs b (S i) n)).
      { destruct A1 as ((new & -> & HN) & _). eapply fit_head; eauto. }
      destruct (IH (S i) (count + zlen (segs b i 1)) w1 I1 C1) as [(c & w2 & (T1 & T2 & T3 & T4) & E)|(w2 & E & I2 & F2' & C2)]; auto; [intros j Hj; apply HG; lia|lia|lia| |].
      * left. exists c, w2. replace (i + S n)%nat with (S i + n)%nat by lia. split; [|exact E]. split; [rewrite segs_S, zlen_app; lia|]. split; [exact T2|]. split; [exact T3|].
        rewrite segs_S. apply (rom_trans w w1 w2); [exact A1|exact T4].
      * right. exists w2. split; [exact E|]. split; [exact I2|]. split; [|exact C2]. destruct A1 as (_ & A1 & _). eapply frame_trans; [|exact F2']. exact A1.
    + right. exists w1. split; [reflexivity|]. apply P; [now apply Inv_exn|reflexivity|exact G2|].
      intro L. unfold segs in F1. cbn [seq filter] in F1. rewrite L in F1. cbn [map app] in F1. destruct (fit_rom _ _ _ F1) as (X1 & X2 & _). auto.
    + exfalso. apply P; [now apply Inv_exn|reflexivity|exact G2|].
      intro L. unfold segs in F1. cbn [seq filter] in F1. rewrite L in F1. cbn [map app] in F1. destruct (fit_rom _ _ _ F1) as (X1 & X2 & _). auto.
Qed.

(** A good table, then an entry outside the file, or one whose contents are outside the file. *)
Definition entry_bad (b : list Z) (k : nat) : Prop :=
  ~ entry_inside b k \/
  (entry_inside b k /\ loadable b k = true /\ ~ contents_inside b k /\ seg_offset b k + seg_filesize b k < 4294967296).

Lemma entry_stops b k n count w : Forall byte b -> zlen b < 4294901760 -> entry_at b k < 4294967296 -> entry_bad b k -> 
  exists m, loadFlashLoadableEntries (S n) b (entry_size b) (Z.of_nat k) (entry_at b k) count w = Exc (set_exn w elfFormatException m).
Proof.
  intros HB HZ HE HK. cbn [loadFlashLoadableEntries]. unfold bind at 1. pose proof (entry_nonneg b k HB) as NN.
  destruct (try_fetch b (entry_at b k) SIZEOF_PHDR (s2b "ELF page header entry " ++ fmtd (Z.of_nat k) ++ s2b " is at an invalid file offset of " ++ fmtu (entry_at b k) ++ s2b ".") w) as [[X ->]|[_ (m & ->)]]; [|eauto].
  change SIZEOF_PHDR with 32 in X. rewrite (W_id (entry_at b k + 32)) in X by (unfold u32; lia).
  destruct HK as [HK|(HI & L & HC & HW)]; [unfold entry_inside in HK; lia|]. unfold bind at 1. rewrite entry_eq by assumption. unfold entry_body. rewrite L. unfold bind at 1.
  pose proof (num4 b (Z.to_nat (entry_at b k) + 4) HB) as V. change (u32 (seg_offset b k)) in V. destruct (loadable_size b k HB L) as [U P]. unfold u32 in *.
  set (w0 := set_exn w noException []).
  destruct (try_fetch b (seg_offset b k) (seg_filesize b k) (s2b "ELF failed to load entry from file at offsets " ++ fmtd (seg_offset b k) ++ s2b " to " ++ fmtd (W (seg_offset b k + seg_filesize b k - 1)) ++ s2b ".") w0) as [[Y _]|[_ (m & ->)]].
  - exfalso. rewrite W_id in Y by (unfold u32; lia). unfold contents_inside in HC. lia.
  - exists m. reflexivity.
Qed.

(** ** The header *)

Lemma magic_eq b : Forall byte b -> 52 <= zlen b -> (of_le (slice b 0 4) =? of_le [127; 69; 76; 70]) = true <-> firstn 4 b = [127; 69; 76; 70].
Proof.
  intros HB HL. change (slice b 0 4) with (firstn 4 b). rewrite Z.eqb_eq. split; [|now intros ->].
  apply of_le_inj; [rewrite firstn_length; unfold zlen in HL; change (length [127; 69; 76; 70]) with 4%nat; lia| |repeat constructor; lia].
  apply Forall_forall. intros x Hx. rewrite Forall_forall in HB. apply HB. rewrite <- (firstn_skipn 4 b). apply in_or_app. now left.
Qed.

Lemma throws_msg {A} c msg w : exists m, @throw_msg A c msg w = Exc (set_exn w (Z.max c (w_code w)) m).
Proof. eexists. reflexivity. Qed.
Lemma bind_ret {A B} (a : A) (f : A -> M world B) w : bind (ret a) f w = f a w.
Proof. reflexivity. Qed.

Lemma validate_spec b w : Forall byte b -> 52 <= zlen b ->
  (has_header b /\ has_table b /\ validateElfHeaderContents b 0 w = Ret tt w) \/
  (~ (has_header b /\ has_table b) /\ exists m, validateElfHeaderContents b 0 w = Exc (set_exn w (Z.max elfFormatException (w_code w)) m)).
Proof.
  intros HB HL. unfold validateElfHeaderContents.
  assert (N : forall off n, 0 <= off -> off + n <= 52 -> blob_get b (0 + off) n = ret (num b (Z.to_nat off) (Z.to_nat n))).
  { intros off n G1 G2. unfold blob_get. replace ((0 <=? 0 + off) && (0 + off + n <=? zlen b)) with true by lia. reflexivity. }
  pose proof (N 0 4 ltac:(lia) ltac:(lia)) as N0. rewrite Z.add_0_r in N0. rewrite N0, !N by lia. clear N N0.
  pose proof (magic_eq b HB HL) as ME. change (of_le (slice b 0 4)) with (num b (Z.to_nat 0) (Z.to_nat 4)) in ME.
  change (num b (Z.to_nat 28) (Z.to_nat 4)) with (table_offset b). change (num b (Z.to_nat 42) (Z.to_nat 2)) with (entry_size b). change (num b (Z.to_nat 44) (Z.to_nat 2)) with (entry_count b).
  change (num b (Z.to_nat 4) (Z.to_nat 1)) with (num b 4 1). change (num b (Z.to_nat 5) (Z.to_nat 1)) with (num b 5 1). change (num b (Z.to_nat 16) (Z.to_nat 2)) with (num b 16 2).
  unfold has_header, has_table.
  rewrite bind_ret. destruct (num b (Z.to_nat 0) (Z.to_nat 4) =? _); cbn [negb].
  2:{ right. split; [|apply throws_msg]. intros ((_ & X & _) & _). apply ME in X. discriminate. }
  assert (EM : firstn 4 b = [127; 69; 76; 70]) by now apply ME. clear ME.
  rewrite bind_ret. destruct (Z.eqb_spec (num b 4 1) 1) as [E1|E1]; cbn [negb]; [|right; split; [tauto|apply throws_msg]].
  rewrite bind_ret. destruct (Z.eqb_spec (num b 5 1) 1) as [E2|E2]; cbn [negb]; [|right; split; [tauto|apply throws_msg]].
  rewrite bind_ret. destruct (Z.eqb_spec (num b 16 2) 2) as [E3|E3]; cbn [negb]; [|right; split; [tauto|apply throws_msg]].
  rewrite bind_ret. destruct (Z.eqb_spec (table_offset b) 0) as [E4|E4]; [right; split; [tauto|apply throws_msg]|].
  rewrite bind_ret. destruct (Z.eqb_spec (entry_count b) 0) as [E5|E5]; [right; split; [tauto|apply throws_msg]|].
  rewrite bind_ret. change SIZEOF_PHDR with 32. destruct (Z.ltb_spec (entry_size b) 32) as [E6|E6]; [right; split; [intros (_ & _ & _ & Y); lia|apply throws_msg]|].
  left. auto 10.
Qed.

(** The loader after the header. *)
Definition load_table (b : list Z) : M world unit :=
  count <- loadFlashLoadableEntries (Z.to_nat (entry_count b)) b (entry_size b) 0 (table_offset b) 0;;
  if count =? 0
  then throw_msg elfFormatException
         (s2b "ELF contained no entries which were loadable and had a valid non-zero filesz <= to memsz.")
  else ret tt.

Lemma elf_split b w : Forall byte b ->
  (has_header b /\ has_table b /\ ElfLoad_FromMemory b w = load_table b (set_exn w noException [])) \/
  (~ (has_header b /\ has_table b) /\ exists m, ElfLoad_FromMemory b w = Exc (set_exn w elfFormatException m)).
Proof.
  intro HB.
  destruct (try_fetch b 0 SIZEOF_EHDR (s2b "ELF was too short to contain valid header.") w) as [[X E]|[X (m & E)]]; change (W (0 + SIZEOF_EHDR)) with 52 in X.
  - destruct X as [_ X]. destruct (validate_spec b (set_exn w noException []) HB X) as [(H1 & H2 & E2)|(H1 & m & E2)].
    + left. split; [exact H1|]. split; [exact H2|]. unfold ElfLoad_FromMemory, initLoadObject. unfold bind at 1. rewrite E. unfold bind at 1. rewrite E2.
      assert (N : forall off n, 0 <= off -> off + n <= 52 -> blob_get b (0 + off) n = ret (num b (Z.to_nat off) (Z.to_nat n))).
      { intros off n G1 G2. unfold blob_get. replace ((0 <=? 0 + off) && (0 + off + n <=? zlen b)) with true by lia. reflexivity. }
      rewrite !N by lia. reflexivity.
    + right. split; [exact H1|]. exists m. unfold ElfLoad_FromMemory, initLoadObject. unfold bind at 1. rewrite E. unfold bind at 1. rewrite E2. reflexivity.
  - right. split.
    + intros ((H & _) & _). pose proof (zlen_nonneg b). apply X. lia.
    + exists m. unfold ElfLoad_FromMemory, initLoadObject. unfold bind at 1. rewrite E. reflexivity.
Qed.

Lemma exn_twice w c m c' m' : set_exn (set_exn w c m) c' m' = set_exn w c' m'.
Proof. reflexivity. Qed.

Lemma sat_try_msg body msg : sat fair body -> sat fair (try_msg body msg).
Proof. intro H. unfold try_msg. fair_tac. Qed.
Lemma sat_blob b off n : sat fair (blob_get b off n).
Proof. unfold blob_get. fair_tac. Qed.
Lemma sat_fetch b off n : sat fair (fetchSizedByteArray b off n).
Proof. unfold fetchSizedByteArray. fair_tac. Qed.
#[export] Hint Resolve sat_blob sat_fetch sat_try_msg : fair.
Lemma sat_entry b ph : sat fair (loadIfFlashLoadableEntry b ph).
Proof. unfold loadIfFlashLoadableEntry, MemorySim_LoadFromFlashImage. fair_tac. Qed.
#[export] Hint Resolve sat_entry : fair.
Lemma sat_entries n : forall b e i off c, sat fair (loadFlashLoadableEntries n b e i off c).
Proof. induction n as [|n IH]; intros; cbn [loadFlashLoadableEntries]; fair_tac. Qed.
#[export] Hint Resolve sat_entries : fair.
Lemma sat_elf b : sat fair (ElfLoad_FromMemory b).
Proof. unfold ElfLoad_FromMemory, initLoadObject, validateElfHeaderContents. fair_tac. Qed.

(** ** Whole files *)

Lemma table_start b : Forall byte b -> W (entry_at b 0) = table_offset b.
Proof. intro HB. unfold entry_at. cbn [Z.of_nat Z.mul]. rewrite Z.add_0_r. apply W_id. apply (num4 b 28 HB). Qed.
Lemma count_range b : Forall byte b -> 0 <= entry_count b < 65536.
Proof. intro HB. apply (num2 b 44 HB). Qed.

Lemma elf_load R b w : Inv R w -> executable b -> segments b <> [] -> fit (regions w) (segments b) ->
  (exists w', api (ElfLoad_FromMemory b) w = Done tt w' /\ Inv R w' /\ w_code w' = 0 /\ rom_added w w' (segments b)) \/
  (exists w', api (ElfLoad_FromMemory b) w = Raised outOfMemoryException w' /\ 0 < refusals w w' /\ Inv R w' /\ frame w w').
Proof.
  intros HI (HB & HZ & HH & HT & HG) HS HF.
  assert (G : forall w', api (ElfLoad_FromMemory b) w = Raised outOfMemoryException w' -> 0 < refusals w w') by (intros w' E; eapply fair_api; [apply sat_elf|exact E]).
  unfold api in *. destruct (elf_split b (set_exn w noException []) HB) as [(_ & _ & E)|(X & _)]; [|tauto]. rewrite E in *. clear E. rewrite exn_twice in *.
  set (w0 := set_exn w noException []) in *. unfold load_table, bind in *. pose proof (count_range b HB) as HC.
  destruct (table_run R b 0 HB HZ (Z.to_nat (entry_count b)) 0 0 w0) as [(c & w1 & (C1 & I1 & Z1 & A1) & E)|(w1 & E & I1 & F1 & C1)].
  - now apply Inv_exn.
  - reflexivity.
  - intros j Hj. apply HG. lia.
  - exact HF.
  - lia.
  - lia.
  - rewrite Nat.add_0_r, table_start in E by exact HB. change (Z.of_nat 0) with 0 in E. rewrite E. cbn [loadFlashLoadableEntries]. unfold ret at 1.
    rewrite C1. replace (0 + zlen (segs b 0 (Z.to_nat (entry_count b))) =? 0) with false.
    2:{ change (segs b 0 (Z.to_nat (entry_count b))) with (segments b). destruct (segments b); [congruence|]. rewrite zlen_cons. pose proof (zlen_nonneg l). lia. }
    left. exists w1. unfold ret. split; [reflexivity|]. auto.
  - rewrite Nat.add_0_r, table_start in E by exact HB. change (Z.of_nat 0) with 0 in E. right. exists w1. rewrite E in *. rewrite C1 in *. split; [reflexivity|]. split; [now apply G|]. split; [exact I1|exact F1].
Qed.

Definition untouched (w w' : world) : Prop := w_mem w' = w_mem w /\ w_heap w' = w_heap w /\ frame w w'.

Lemma elf_header_bad b w : Forall byte b -> ~ (has_header b /\ has_table b) ->
  exists w', api (ElfLoad_FromMemory b) w = Raised elfFormatException w' /\ untouched w w'.
Proof.
  intros HB H. unfold api. destruct (elf_split b (set_exn w noException []) HB) as [(X & Y & _)|(_ & m & ->)]; [tauto|].
  eexists. split; [reflexivity|]. repeat split.
Qed.

Lemma elf_empty b w : executable b -> segments b = [] ->
  exists w', api (ElfLoad_FromMemory b) w = Raised elfFormatException w' /\ untouched w w'.
Proof.
  intros (HB & HZ & HH & HT & HG) HS. pose proof (count_range b HB) as HC.
  unfold api. destruct (elf_split b (set_exn w noException []) HB) as [(_ & _ & ->)|(X & _)]; [|tauto]. rewrite exn_twice. unfold load_table, bind.
  assert (L : forall n i count w, (forall j, (i <= j < i + n)%nat -> entry_inside b j /\ loadable b j = false) -> w_code w = 0 -> w_msg w = [] -> 
     loadFlashLoadableEntries n b (entry_size b) (Z.of_nat i) (W (entry_at b i)) count w = Ret (if Nat.eqb n 0 then count else W count) w).
  { clear w. induction n as [|n IH]; intros i count w HL HC' HM; [reflexivity|]. cbn [loadFlashLoadableEntries]. destruct (HL i ltac:(lia)) as [G1 G2]. pose proof (entry_nonneg b i HB) as NN. pose proof G1 as G1'. unfold entry_inside in G1'.
    rewrite (W_id (entry_at b i)) by (unfold u32; lia). unfold bind at 1.
    destruct (try_fetch b (entry_at b i) SIZEOF_PHDR (s2b "ELF page header entry " ++ fmtd (Z.of_nat i) ++ s2b " is at an invalid file offset of " ++ fmtu (entry_at b i) ++ s2b ".") w) as [[_ ->]|[X _]].
    2:{ exfalso. apply X. change SIZEOF_PHDR with 32. rewrite W_id by (unfold u32; lia). lia. }
    unfold bind at 1. rewrite entry_eq by assumption. unfold entry_body. rewrite G2. unfold ret at 1.
    replace (Z.of_nat i + 1) with (Z.of_nat (S i)) by lia. rewrite <- entry_next by exact HB. rewrite Z.add_0_r.
    rewrite IH; [|intros j Hj; apply HL; lia|reflexivity|reflexivity]. f_equal; [|destruct w; cbn in *; subst; reflexivity].
    cbn [Nat.eqb]. destruct (Nat.eqb n 0); [reflexivity|]. apply W_id, W_range. }
  specialize (L (Z.to_nat (entry_count b)) 0%nat 0 (set_exn w noException [])). rewrite table_start in L by exact HB. change (Z.of_nat 0) with 0 in L. rewrite L; [| |reflexivity|reflexivity].
  - destruct (throws_msg (A := unit) elfFormatException (s2b "ELF contained no entries which were loadable and had a valid non-zero filesz <= to memsz.") (set_exn w noException [])) as (m & E).
    destruct (Nat.eqb _ 0); cbn [Z.eqb]; [|change (W 0 =? 0) with true; cbv iota]; rewrite E; (eexists; split; [reflexivity|repeat split]).
  - intros j Hj. destruct (HG j ltac:(lia)) as [G1 _]. split; [exact G1|].
    destruct (loadable b j) eqn:EL; [|reflexivity]. exfalso. unfold segments, segments_upto in HS. apply map_eq_nil in HS.
    assert (In j (filter (loadable b) (seq 0 (Z.to_nat (entry_count b))))) as X by (apply filter_In; split; [apply in_seq; lia|exact EL]). rewrite HS in X. destruct X.
Qed.

Lemma elf_entry_bad R b k w : Inv R w -> Forall byte b -> zlen b < 4294901760 -> has_header b -> has_table b -> Z.of_nat k < entry_count b ->
  (forall j, (j < k)%nat -> entry_good b j) -> entry_bad b k -> fit (regions w) (segments_upto b k) ->
  (exists w', api (ElfLoad_FromMemory b) w = Raised elfFormatException w' /\ Inv R w' /\ rom_added w w' (segments_upto b k)) \/
  (exists w', api (ElfLoad_FromMemory b) w = Raised outOfMemoryException w' /\ 0 < refusals w w').
Proof.
  intros HI HB HZ HH HT Hk HG HX HF. 
  assert (G : forall w', api (ElfLoad_FromMemory b) w = Raised outOfMemoryException w' -> 0 < refusals w w') by (intros w' E; eapply fair_api; [apply sat_elf|exact E]).
  unfold api in *. destruct (elf_split b (set_exn w noException []) HB) as [(_ & _ & E)|(X & _)]; [|tauto]. rewrite E in *. clear E. rewrite exn_twice in *.
  set (w0 := set_exn w noException []) in *. unfold load_table, bind in *. pose proof (count_range b HB) as HC.
  destruct (table_run R b (Z.to_nat (entry_count b) - k) HB ltac:(lia) k 0 0 w0) as [(c & w1 & (C1 & I1 & Z1 & A1) & E)|(w1 & E & I1 & F1 & C1)].
  - now apply Inv_exn.
  - reflexivity.
  - intros j Hj. apply HG. lia.
  - exact HF.
  - lia.
  - lia.
  - replace (k + (Z.to_nat (entry_count b) - k))%nat with (Z.to_nat (entry_count b)) in E by lia. rewrite table_start in E by exact HB. change (Z.of_nat 0) with 0 in E. rewrite E.
    replace (Z.to_nat (entry_count b) - k)%nat with (S (Z.to_nat (entry_count b) - k - 1)) by lia. cbn [Nat.add].
    assert (HE : entry_at b k < 4294967296).
    { destruct k as [|k].
      - unfold entry_at. pose proof (num4 b 28 HB) as U. change (u32 (table_offset b)) in U. unfold u32 in U. lia.
      - destruct (HG k ltac:(lia)) as [G1 _]. unfold entry_inside in G1. rewrite entry_next by exact HB. pose proof (num2 b 42 HB) as U. change (0 <= entry_size b < 65536) in U. lia. }
    pose proof (entry_nonneg b k HB) as NN.
    rewrite (W_id (entry_at b k)) by (unfold u32; lia).
    destruct (entry_stops b k (Z.to_nat (entry_count b) - k - 1) c w1 HB HZ HE HX) as (m & ->).
    left. eexists. split; [reflexivity|]. split; [now apply Inv_exn|exact A1].
  - replace (k + (Z.to_nat (entry_count b) - k))%nat with (Z.to_nat (entry_count b)) in E by lia. rewrite table_start in E by exact HB. change (Z.of_nat 0) with 0 in E.
    right. exists w1. rewrite E in *. rewrite C1 in *. split; [reflexivity|]. now apply G.
Qed.

(** ** Any file *)

Definition elf_code (c : Z) : Prop := c = elfFormatException \/ c = busErrorException \/ c = outOfMemoryException.
Definition safe_ret (w w' : world) : Prop := (exists R', Inv R' w') /\ frame w w' /\ w_code w' = 0.
Definition safe_exc (w w' : world) : Prop := (exists R', Inv R' w') /\ frame w w' /\ elf_code (w_code w').

Lemma rom_safe R w a src n : Inv R w -> u32 a -> u32 n -> Forall byte src -> n <= zlen src ->
  post (rom_region a src n) w (fun _ => safe_ret w) (safe_exc w).
Proof.
  intros HI Ha Hn Hb Hl. unfold rom_region, elf_code. apply post_bind.
  eapply post_weaken; [apply (CreateRegion_post a n R w HI Ha Hn)| |]; cbv beta.
  2:{ intros w1 (I1 & F1 & _ & C1 & _). split; [eauto|]. split; [exact F1|]. unfold elf_code. auto. }
  intros _ w1 (I1 & F1 & E1 & C1 & _). apply post_bind. unfold u32 in Hn.
  eapply post_weaken; [apply (Load_eff R w1 a src n I1 Ha Hb)| |]; [lia| |]; cbv beta.
  2:{ intros w2 (I2 & F2 & _ & C2 & _). split; [eauto|]. split; [eapply frame_trans; eauto|]. rewrite C2, C1. unfold elf_code. auto. }
  intros _ w2 (I2 & F2 & _ & C2 & _). assert (F : frame w w2) by (eapply frame_trans; eauto).
  eapply post_weaken; [apply (MakeRO_post a R w2 I2)| |]; cbv beta.
  - intros _ w3 (j & t & a' & _ & _ & _ & I3 & F3 & _ & _ & _ & C3 & _). split; [eauto|]. split; [eapply frame_trans; eauto|]. congruence.
  - intros w3 (I3 & F3 & _ & _ & _ & H). split; [eauto|]. split; [eapply frame_trans; eauto|]. unfold elf_code.
    destruct H as [(_ & _ & C3)|(? & ? & ? & _ & _ & _ & _ & C3)]; rewrite C3, C2, C1; auto.
Qed.

Lemma entry_safe R b k w : Forall byte b -> Inv R w -> w_code w = 0 -> (loadable b k = true -> seg_offset b k + seg_filesize b k < 4294967296) ->
  post (entry_body b k) w (fun c w' => 0 <= c <= 1 /\ safe_ret w w') (safe_exc w).
Proof.
  intros HB HI HC HN. unfold entry_body. destruct (loadable b k) eqn:L.
  2:{ unfold post, ret. split; [lia|]. split; [eauto|]. split; [apply frame_refl|exact HC]. }
  specialize (HN eq_refl). destruct (loadable_size b k HB L) as [U P].
  pose proof (num4 b (Z.to_nat (entry_at b k) + 4) HB) as V. change (u32 (seg_offset b k)) in V.
  pose proof (num4 b (Z.to_nat (entry_at b k) + 12) HB) as VA. change (u32 (seg_address b k)) in VA.
  apply post_bind. unfold post at 1.
  destruct (try_fetch b (seg_offset b k) (seg_filesize b k) (s2b "ELF failed to load entry from file at offsets " ++ fmtd (seg_offset b k) ++ s2b " to " ++ fmtd (W (seg_offset b k + seg_filesize b k - 1)) ++ s2b ".") w) as [[X ->]|[_ (m & ->)]].
  2:{ split; [exists R; now apply Inv_exn|]. split; [apply frame_exn|]. left. reflexivity. }
  unfold u32 in *. rewrite W_id in X by (unfold u32; lia).
  apply post_bind. eapply post_weaken; [apply (rom_safe R (set_exn w noException []) (seg_address b k) (skipn (Z.to_nat (seg_offset b k)) b) (seg_filesize b k))| |]; auto using Inv_exn.
  - apply Forall_forall. intros x Hx. rewrite Forall_forall in HB. apply HB. rewrite <- (firstn_skipn (Z.to_nat (seg_offset b k)) b). apply in_or_app. now right.
  - unfold zlen in *. rewrite skipn_length. lia.
  - cbv beta. intros _ w1 (I1 & F1 & C1). unfold post, ret. split; [lia|]. split; [exact I1|]. split; [exact F1|exact C1].
Qed.


Lemma table_safe b : Forall byte b -> zlen b < 4294901760 -> no_wrap_entries b -> forall n i count R w,
  Inv R w -> w_code w = 0 -> Z.of_nat (i + n) <= entry_count b -> entry_at b i < 4294967296 ->
  post (loadFlashLoadableEntries n b (entry_size b) (Z.of_nat i) (entry_at b i) count) w (fun _ => safe_ret w) (safe_exc w).
Proof.
  intros HB HZ HN. induction n as [|n IH]; intros i count R w HI HC Hi HE; cbn [loadFlashLoadableEntries].
  - unfold post, ret. split; [eauto|]. split; [apply frame_refl|exact HC].
  - apply post_bind. unfold post at 1. pose proof (entry_nonneg b i HB) as NN.
    destruct (try_fetch b (entry_at b i) SIZEOF_PHDR (s2b "ELF page header entry " ++ fmtd (Z.of_nat i) ++ s2b " is at an invalid file offset of " ++ fmtu (entry_at b i) ++ s2b ".") w) as [[X ->]|[_ (m & ->)]].
    2:{ split; [exists R; now apply Inv_exn|]. split; [apply frame_exn|]. left. reflexivity. }
    change SIZEOF_PHDR with 32 in X. rewrite (W_id (entry_at b i + 32)) in X by (unfold u32; lia).
    assert (G1 : entry_inside b i) by (unfold entry_inside; lia).
    apply post_bind. unfold post at 1. rewrite entry_eq by assumption.
    pose proof (entry_safe R b i (set_exn w noException []) HB (Inv_exn _ _ _ _ HI) eq_refl) as P. unfold post in P.
    specialize (P ltac:(intro L; apply HN; auto; lia)).
    destruct (entry_body b i (set_exn w noException [])) as [c w1|w1|]; [|exact P|exact P]. destruct P as (_ & (R1 & I1) & F1 & C1).
    pose proof (num2 b 42 HB) as U. change (0 <= entry_size b < 65536) in U.
    replace (Z.of_nat i + 1) with (Z.of_nat (S i)) by lia. rewrite <- entry_next by exact HB. pose proof (entry_next b i HB) as EN. rewrite (W_id (entry_at b (S i))) by (unfold u32; lia).
    eapply post_weaken; [apply (IH (S i) (W (count + c)) R1 w1 I1 C1)| |]; [lia|lia| |]; cbv beta.
    + intros _ w2 (J2 & F2 & C2). split; [exact J2|]. split; [eapply frame_trans; [|exact F2]; exact F1|exact C2].
    + intros w2 (J2 & F2 & C2). split; [exact J2|]. split; [eapply frame_trans; [|exact F2]; exact F1|exact C2].
Qed.

Lemma elf_safe R b w : Inv R w -> Forall byte b -> zlen b < 4294901760 -> no_wrap_entries b ->
  match api (ElfLoad_FromMemory b) w with
  | Done _ w' => safe_ret w w'
  | Raised c w' => safe_exc w w' /\ elf_code c
  | Crashed _ => False
  end.
Proof.
  intros HI HB HZ HN. unfold api. destruct (elf_split b (set_exn w noException []) HB) as [(_ & _ & ->)|(_ & m & ->)].
  2:{ split; [split; [exists R; now apply Inv_exn|]; split; [repeat split|]|]; now left. }
  rewrite exn_twice. set (w0 := set_exn w noException []). unfold load_table. pose proof (count_range b HB) as HC.
  assert (E0 : entry_at b 0 = table_offset b) by (unfold entry_at; cbn [Z.of_nat Z.mul]; lia). pose proof (num4 b 28 HB) as U. change (u32 (table_offset b)) in U. unfold u32 in U.
  pose proof (table_safe b HB HZ HN (Z.to_nat (entry_count b)) 0 0 R w0 (Inv_exn _ _ _ _ HI) eq_refl ltac:(lia) ltac:(lia)) as P.
  rewrite E0 in P. change (Z.of_nat 0) with 0 in P. unfold post in P. unfold bind.
  destruct (loadFlashLoadableEntries _ _ _ _ _ _ w0) as [c w1|w1|]; [|split; [exact P|apply P]|exact P].
  destruct (c =? 0).
  - destruct P as ((R1 & I1) & F1 & C1).
    destruct (throws_msg (A := unit) elfFormatException (s2b "ELF contained no entries which were loadable and had a valid non-zero filesz <= to memsz.") w1) as (m & ->).
    cbn [w_code set_exn]. rewrite C1. change (Z.max elfFormatException 0) with elfFormatException. split; [|now left]. split; [exists R1; now apply Inv_exn|]. split; [exact F1|now left].
  - unfold ret. exact P.
Qed.

(** ** Reading and writing what was loaded *)

Lemma rom_served rs new ms a bs : fit rs ms -> Forall2 is_rom new ms -> In (a, bs) ms ->
  exists j r, nth_error (rs ++ new) (length rs + j) = Some r /\ is_rom r (a, bs) /\
    forall i n, 0 <= i -> 0 < n -> i + n <= zlen bs -> serves (rs ++ new) (a + i) n (length rs + j) i.
Proof.
  intros (F1 & F2 & F3) HN Hin. destruct (In_nth_error _ _ Hin) as (j & Hj).
  assert (Hr : exists r, nth_error new j = Some r /\ is_rom r (a, bs)).
  { assert (L : (j < length new)%nat) by (rewrite (forall2_length _ _ _ HN); apply nth_error_Some; congruence).
    destruct (nth_error new j) as [r|] eqn:E; [|apply nth_error_None in E; lia]. destruct (forall2_nth _ _ _ HN _ _ E) as (y & Ey & P).
    rewrite Hj in Ey. injection Ey as <-. eauto. }
  destruct Hr as (r & Er & HR). exists j, r.
  assert (Enr : nth_error (rs ++ new) (length rs + j) = Some r).
  { rewrite nth_error_app2 by lia. replace (length rs + j - length rs)%nat with j by lia. exact Er. }
  split; [exact Enr|]. split; [exact HR|]. destruct HR as (B1 & B2 & B3 & _). cbn [fst snd] in *.
  intros i n Hi Hn Hl. exists (length rs + j)%nat, r. split; [|rewrite B3; split; [reflexivity|lia]]. split; [exact Enr|]. split.
  - unfold covers in *. lia.
  - intros i' r' Hlt E' [C1 C2]. destruct (Nat.lt_ge_cases i' (length rs)) as [Lw|Lw].
    + rewrite nth_error_app1 in E' by exact Lw. apply nth_error_In in E'. specialize (F3 r' _ E' Hin). unfold apart, range_of, range_in in *. cbn in *. lia.
    + rewrite nth_error_app2 in E' by exact Lw. destruct (forall2_nth _ _ _ HN _ _ E') as (y & Ey & (D1 & D2 & _)).
      pose proof (ordpairs_nth _ _ F2 (i' - length rs) j y (a, bs)) as X. unfold apart, range_in in *. cbn [fst snd] in *.
      assert (Y : (i' - length rs < j)%nat) by lia. specialize (X Y Ey Hj). lia.
Qed.

Lemma rom_reads R w w' ms : Inv R w' -> rom_added w w' ms -> fit (regions w) ms -> Forall (fun x => u32 (fst x)) ms ->
  forall a bs i b, In (a, bs) ms -> nth_error bs i = Some b ->
  (exists w'', api (readN 1 (a + Z.of_nat i)) w' = Done b w'') /\
  forall n v, width n -> Z.of_nat i + n <= zlen bs -> api (writeN n (a + Z.of_nat i) v) w' = Raised busErrorException (set_exn w' busErrorException []).
Proof.
  intros HI ((new & En & HN) & _) HF HU a bs i b Hin Hb.
  destruct (rom_served _ _ _ a bs HF HN Hin) as (j & r & Er & (B1 & B2 & B3 & B4 & B5 & _) & HS). cbn [fst snd] in *. rewrite <- En in *.
  assert (Li : (i < length bs)%nat) by (apply nth_error_Some; congruence).
  rewrite Forall_forall in HU. specialize (HU _ Hin). cbn in HU. destruct HF as (F1 & _). rewrite Forall_forall in F1. specialize (F1 _ Hin). cbn in F1.
  assert (Ha : u32 (a + Z.of_nat i)) by (unfold u32, zlen in *; lia).
  split.
  - destruct (api_read1 _ w' _ _ r (proj1 HI) Ha (HS (Z.of_nat i) 1 ltac:(lia) ltac:(lia) ltac:(unfold zlen; lia)) Er) as (b' & w'' & E1 & E2).
    rewrite Nat2Z.id, B4, Hb in E1. injection E1 as <-. eauto.
  - intros n v Hw Hl. assert (Hn : 0 < n) by (unfold width in Hw; lia).
    assert (Hn0 : 0 <= n) by lia. destruct (serves_find _ _ _ _ _ (proj1 HI) Ha Hn0 (HS (Z.of_nat i) n ltac:(lia) Hn Hl)) as (r' & a' & Ff & Er' & _).
    rewrite Er in Er'. injection Er' as <-. unfold api. rewrite writeN_wf; [|exact (proj1 HI)|exact Ha|exact Hw].
    change (regions (set_exn w' noException [])) with (regions w'). rewrite Ff, Er. cbv zeta. rewrite B5. reflexivity.
Qed.
