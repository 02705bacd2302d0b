(** The messages of the ELF loader. *)
From Coq Require Import String ZArith List Bool Lia ZifyBool ZifyNat.
From Verif Require Import Base World MemSim Elf BaseLemmas TextLemmas MemSpec Sat MemFair MemLemmas MemInv MemOps MemOps2 MemOps3 MemHist MemHist2 MemThms MemThms2 DumpSpec DumpLemmas DumpThms ElfSpec NumSpec MsgSpec ElfThms DumpMsg.
Import ListNotations.
Open Scope Z_scope.
Open Scope m_scope.

Lemma fetch_said b off n msg w : let ok := off <= zlen b /\ W (off + n) <= zlen b in
  (ok /\ try_msg (fetchSizedByteArray b off n) msg w = Ret off (set_exn w noException [])) \/
  (~ ok /\ try_msg (fetchSizedByteArray b off n) msg w = Exc (set_exn w elfFormatException (firstn 1023 msg))).
Proof.
  cbv zeta. assert (BAD : ~ (off <= zlen b /\ W (off + n) <= zlen b) -> try_msg (fetchSizedByteArray b off n) msg w = Exc (set_exn w elfFormatException (firstn 1023 msg))).
  { intro H. unfold try_msg, try_, bind, lift, setl. cbn [fst snd]. rewrite (fetch_bad _ _ _ _ H). reflexivity. }
  destruct (Z.leb_spec off (zlen b)) as [H1|H1]; [destruct (Z.leb_spec (W (off + n)) (zlen b)) as [H2|H2]|].
  - left. split; [auto|]. apply try_msg_ok. now apply fetch_ok.
  - right. split; [lia|]. apply BAD. lia.
  - right. split; [lia|]. apply BAD. lia.
Qed.

(** Creating a read-only region never raises the ELF error. *)
Definition other_code (c : Z) : Prop := c = busErrorException \/ c = outOfMemoryException.
Lemma rom_other R w a src n : Inv R w -> w_code w = 0 -> u32 a -> u32 n -> Forall byte src -> n <= zlen src ->
  post (rom_region a src n) w (fun _ w' => (exists R', Inv R' w') /\ w_code w' = 0) (fun w' => other_code (w_code w')).
Proof.
  intros HI HC Ha Hn Hb Hl. unfold rom_region, other_code. apply post_bind.
  eapply post_weaken; [apply (CreateRegion_post a n R w HI Ha Hn)| |]; cbv beta.
  2:{ intros w1 (I1 & F1 & _ & C1 & _). auto. }
  intros _ w1 (I1 & F1 & E1 & C1 & _). apply post_bind. unfold u32 in Hn.
  eapply post_weaken; [apply (Load_eff R w1 a src n I1 Ha Hb)| |]; [lia| |]; cbv beta.
  2:{ intros w2 (I2 & F2 & _ & C2 & _). rewrite C2, C1. auto. }
  intros _ w2 (I2 & F2 & _ & C2 & _).
  eapply post_weaken; [apply (MakeRO_post a R w2 I2)| |]; cbv beta.
  - intros _ w3 (j & t & a' & _ & _ & _ & I3 & F3 & _ & _ & _ & C3 & _). split; [eauto|]. congruence.
  - intros w3 (I3 & F3 & _ & _ & _ & H).
    destruct H as [(_ & _ & C3)|(? & ? & ? & _ & _ & _ & _ & C3)]; rewrite C3, C2, C1; auto.
Qed.

Definition contents_text (b : list Z) (k : nat) : list Z :=
  s2b "ELF failed to load entry from file at offsets " ++ fmtd (seg_offset b k) ++ s2b " to " ++ fmtd (W (seg_offset b k + seg_filesize b k - 1)) ++ s2b ".".
Definition entry_text (b : list Z) (k : nat) : list Z :=
  s2b "ELF page header entry " ++ fmtd (Z.of_nat k) ++ s2b " is at an invalid file offset of " ++ fmtu (entry_at b k) ++ s2b ".".

Lemma entry_said R b k w : Forall byte b -> Inv R w -> w_code w = 0 -> (loadable b k = true -> seg_offset b k + seg_filesize b k < 4294967296) ->
  post (entry_body b k) w
    (fun c w' => c = (if loadable b k then 1 else 0) /\ (exists R', Inv R' w') /\ w_code w' = 0 /\ (loadable b k = true -> contents_inside b k))
    (fun w' => other_code (w_code w') \/ (w_code w' = elfFormatException /\ w_msg w' = firstn 1023 (contents_text b k) /\ loadable b k = true /\ ~ contents_inside b k)).
Proof.
  intros HB HI HC HN. unfold entry_body. destruct (loadable b k) eqn:L.
  2:{ unfold post, ret. split; [reflexivity|]. split; [eauto|]. split; [exact HC|discriminate]. }
  specialize (HN eq_refl). destruct (loadable_size b k HB L) as [U P].
  pose proof (num4 b (Z.to_nat (entry_at b k) + 4) HB) as V. change (u32 (seg_offset b k)) in V.
  pose proof (num4 b (Z.to_nat (entry_at b k) + 12) HB) as VA. change (u32 (seg_address b k)) in VA.
  apply post_bind. unfold post at 1. fold (contents_text b k).
  unfold u32 in *. destruct (fetch_said b (seg_offset b k) (seg_filesize b k) (contents_text b k) w) as [[X ->]|[X ->]]; rewrite W_id in X by (unfold u32; lia).
  2:{ right. split; [reflexivity|]. split; [reflexivity|]. split; [reflexivity|]. unfold contents_inside. lia. }
  apply post_bind. eapply post_weaken; [apply (rom_other R (set_exn w noException []) (seg_address b k) (skipn (Z.to_nat (seg_offset b k)) b) (seg_filesize b k))| |]; auto using Inv_exn.
  - apply Forall_forall. intros x Hx. rewrite Forall_forall in HB. apply HB. rewrite <- (firstn_skipn (Z.to_nat (seg_offset b k)) b). apply in_or_app. now right.
  - unfold zlen in *. rewrite skipn_length. lia.
  - cbv beta. intros _ w1 (I1 & C1). unfold post, ret. split; [reflexivity|]. split; [exact I1|]. split; [exact C1|]. intros _. unfold contents_inside. lia.
Qed.

Inductive table_complaint (b : list Z) (k : nat) : list Z -> Prop :=
| tc_entry : ~ entry_inside b k -> table_complaint b k (entry_text b k)
| tc_contents : entry_inside b k -> loadable b k = true -> ~ contents_inside b k -> table_complaint b k (contents_text b k).

Lemma table_said b : Forall byte b -> zlen b < 4294901760 -> no_wrap_entries b -> forall n i count R w,
  Inv R w -> w_code w = 0 -> Z.of_nat (i + n) <= entry_count b -> entry_at b i < 4294967296 -> 0 <= count -> count + Z.of_nat n < 4294967296 ->
  post (loadFlashLoadableEntries n b (entry_size b) (Z.of_nat i) (entry_at b i) count) w
    (fun c w' => w_code w' = 0 /\ c = count + zlen (filter (loadable b) (seq i n)) /\ forall j, (i <= j < i + n)%nat -> entry_good b j)
    (fun w' => other_code (w_code w') \/
       (w_code w' = elfFormatException /\ exists k m, (i <= k < i + n)%nat /\ (forall j, (i <= j < k)%nat -> entry_good b j) /\ table_complaint b k m /\ w_msg w' = firstn 1023 m)).
Proof.
  intros HB HZ HN. induction n as [|n IH]; intros i count R w HI HC Hi HE H0 Hc; cbn [loadFlashLoadableEntries].
  - unfold post, ret. split; [exact HC|]. split; [cbn; lia|]. intros j Hj. lia.
  - apply post_bind. unfold post at 1. pose proof (entry_nonneg b i HB) as NN. fold (entry_text b i).
    destruct (fetch_said b (entry_at b i) SIZEOF_PHDR (entry_text b i) w) as [[X ->]|[X ->]];
      change SIZEOF_PHDR with 32 in X.
    2:{ right. split; [reflexivity|]. exists i, (entry_text b i). split; [lia|]. split; [lia|]. split; [|reflexivity]. apply tc_entry. unfold entry_inside.
        intro Y. apply X. rewrite W_id by (unfold u32; lia). lia. }
    rewrite (W_id (entry_at b i + 32)) in X by (unfold u32; lia).
    assert (G1 : entry_inside b i) by (unfold entry_inside; lia).
    apply post_bind. unfold post at 1. rewrite entry_eq by assumption.
    pose proof (entry_said R b i (set_exn w noException []) HB (Inv_exn _ _ _ _ HI) eq_refl) as P. unfold post in P.
    specialize (P ltac:(intro L; apply HN; auto; lia)).
    destruct (entry_body b i (set_exn w noException [])) as [c w1|w1|]; [| |exact P].
    2:{ destruct P as [P|(P1 & P2 & P3 & P4)]; [now left|right]. split; [exact P1|]. exists i, (contents_text b i). split; [lia|]. split; [lia|]. split; [now apply tc_contents|exact P2]. }
    destruct P as (-> & (R1 & I1) & C1 & G2).
    pose proof (num2 b 42 HB) as U. change (0 <= entry_size b < 65536) in U.
    replace (Z.of_nat i + 1) with (Z.of_nat (S i)) by lia. rewrite <- entry_next by exact HB. pose proof (entry_next b i HB) as EN. rewrite (W_id (entry_at b (S i))) by (unfold u32; lia).
    assert (Q : 0 <= (if loadable b i then 1 else 0) <= 1) by (destruct (loadable b i); lia).
    rewrite (W_id (count + _)) by (unfold u32; lia).
    assert (GI : entry_good b i) by (split; assumption).
    eapply post_weaken; [apply (IH (S i) _ R1 w1 I1 C1)| |]; [lia|lia|lia|lia| |]; cbv beta.
    + intros c w2 (C2 & -> & GG). split; [exact C2|]. split.
      * cbn [seq filter]. destruct (loadable b i); [rewrite zlen_cons|]; lia.
      * intros j Hj. destruct (Nat.eq_dec j i) as [->|]; [exact GI|]. apply GG. lia.
    + intros w2 [K|(K & k & m & K1 & K2 & K3 & K4)]; [now left|right]. split; [exact K|]. exists k, m. split; [lia|]. split; [|auto].
      intros j Hj. destruct (Nat.eq_dec j i) as [->|]; [exact GI|]. apply K2. lia.
Qed.

Lemma fmtd_low v : 0 <= v < 2147483648 -> fmtd v = fmtu v.
Proof. intro H. unfold fmtd. replace (v <? 2147483648) with true by lia. reflexivity. Qed.
Lemma fmtu_short v : (length (fmtu v) <= 21)%nat.
Proof.
  unfold fmtu. rewrite map_length. assert (G : forall k v, (length (digits k 10 v) <= S k)%nat); [|apply (G 20%nat)].
  induction k as [|k IH]; intro x; cbn [digits]; [cbn; lia|]. destruct (x <? 10); [cbn; lia|]. rewrite app_length. cbn [length]. specialize (IH (x / 10)). lia.
Qed.

Lemma header_said b w w' : Forall byte b -> 52 <= zlen b -> w_code w = 0 -> validateElfHeaderContents b 0 w = Exc w' -> elf_complaint b (w_msg w').
Proof.
  intros HB HL HC E.
  assert (T : forall m, (throw_msg elfFormatException m : M world unit) w = Exc w' -> (length m <= 1023)%nat -> w_msg w' = m).
  { intros m X L. apply (f_equal (fun o => match o with Exc x => w_msg x | _ => [] end)) in X. change (firstn 1023 m = w_msg w') in X. rewrite <- X. now apply firstn_all2. }
  unfold validateElfHeaderContents in E.
  assert (N : forall off n, 0 <= off -> off + n <= 52 -> blob_get b (0 + off) n = ret (num b (Z.to_nat off) (Z.to_nat n))).
  { intros off n G1 G2. unfold blob_get. replace ((0 <=? 0 + off) && (0 + off + n <=? zlen b)) with true by lia. reflexivity. }
  pose proof (N 0 4 ltac:(lia) ltac:(lia)) as N0. rewrite Z.add_0_r in N0. rewrite N0, !N in E by lia. clear N N0.
  pose proof (magic_eq b HB HL) as ME. change (of_le (slice b 0 4)) with (num b (Z.to_nat 0) (Z.to_nat 4)) in ME.
  change (num b (Z.to_nat 28) (Z.to_nat 4)) with (table_offset b) in E. change (num b (Z.to_nat 42) (Z.to_nat 2)) with (entry_size b) in E. change (num b (Z.to_nat 44) (Z.to_nat 2)) with (entry_count b) in E.
  change (num b (Z.to_nat 4) (Z.to_nat 1)) with (num b 4 1) in E. change (num b (Z.to_nat 5) (Z.to_nat 1)) with (num b 5 1) in E. change (num b (Z.to_nat 16) (Z.to_nat 2)) with (num b 16 2) in E.
  rewrite bind_ret in E. destruct (num b (Z.to_nat 0) (Z.to_nat 4) =? _) eqn:EQ; cbn [negb] in E.
  2:{ rewrite (T _ E) by (apply Nat.leb_le; vm_compute; reflexivity). apply ec_magic; [exact HL|]. intro X. apply ME in X. congruence. }
  assert (EM : firstn 4 b = [127; 69; 76; 70]) by now apply ME. clear ME.
  rewrite bind_ret in E. destruct (Z.eqb_spec (num b 4 1) 1) as [E1|E1]; cbn [negb] in E; [|rewrite (T _ E) by (apply Nat.leb_le; vm_compute; reflexivity); now apply ec_class].
  rewrite bind_ret in E. destruct (Z.eqb_spec (num b 5 1) 1) as [E2|E2]; cbn [negb] in E; [|rewrite (T _ E) by (apply Nat.leb_le; vm_compute; reflexivity); now apply ec_order].
  rewrite bind_ret in E. destruct (Z.eqb_spec (num b 16 2) 2) as [E3|E3]; cbn [negb] in E; [|rewrite (T _ E) by (apply Nat.leb_le; vm_compute; reflexivity); now apply ec_type].
  assert (HH : has_header b) by (unfold has_header; auto).
  rewrite bind_ret in E. destruct (Z.eqb_spec (table_offset b) 0) as [E4|E4]; [rewrite (T _ E) by (apply Nat.leb_le; vm_compute; reflexivity); now apply ec_offset|].
  rewrite bind_ret in E. destruct (Z.eqb_spec (entry_count b) 0) as [E5|E5]; [rewrite (T _ E) by (apply Nat.leb_le; vm_compute; reflexivity); now apply ec_count|].
  rewrite bind_ret in E. change SIZEOF_PHDR with 32 in E. destruct (Z.ltb_spec (entry_size b) 32) as [E6|E6]; [|discriminate E].
  pose proof (num2 b 42 HB) as U. change (0 <= entry_size b < 65536) in U. rewrite fmtd_low in E by lia.
  pose proof (fmtu_short (entry_size b)) as FS. rewrite (T _ E).
  2:{ rewrite !app_length. change (length (fmtu 32)) with 2%nat. cbn [length s2b]. lia. }
  change (s2b ", which is smaller than the expected size of " ++ fmtu 32 ++ s2b ".") with (s2b ", which is smaller than the expected size of 32.").
  apply ec_size; auto. apply shown_fmtu. unfold u32. lia.
Qed.

Lemma throws_set m w c w' : match (throw_msg elfFormatException m : M world unit) w with Ret _ x => Done tt x | Exc x => Raised (w_code x) x | Ub u => Crashed u end = Raised c w' -> w_msg w' = firstn 1023 m.
Proof.
  intro X. apply (f_equal (fun o => match o with Raised _ x => w_msg x | _ => [] end)) in X. now symmetry.
Qed.

Lemma signed_fmtd v : u32 v -> shown_signed (fmtd v) v.
Proof.
  unfold u32. intro H. split; intro L.
  - rewrite fmtd_low by lia. now apply shown_fmtu.
  - unfold fmtd. replace (v <? 2147483648) with false by lia. eexists. split; [reflexivity|]. apply shown_fmtu. unfold u32. lia.
Qed.
Lemma fmtd_short v : (length (fmtd v) <= 22)%nat.
Proof. unfold fmtd. destruct (v <? 2147483648); [pose proof (fmtu_short v); lia|]. pose proof (fmtu_short (4294967296 - v)). cbn [length]. lia. Qed.

Lemma elf_reports R b w w' : Inv R w -> Forall byte b -> zlen b < 4294901760 -> no_wrap_entries b ->
  api (ElfLoad_FromMemory b) w = Raised elfFormatException w' -> elf_reported b (w_msg w').
Proof.
  intros HI HB HZ NW H. unfold api in H. set (w0 := set_exn w noException []) in *.
  destruct (elf_split b w0 HB) as [(HH & HT & E)|(HX & _)].
  2:{ unfold ElfLoad_FromMemory, initLoadObject in H. unfold bind at 1 in H.
      destruct (fetch_said b 0 SIZEOF_EHDR (s2b "ELF was too short to contain valid header.") w0) as [[X E]|[X E]]; change (W (0 + SIZEOF_EHDR)) with 52 in X; rewrite E in H.
      - destruct X as [_ X]. unfold bind at 1 in H. change (set_exn w0 noException []) with w0 in H.
        destruct (validateElfHeaderContents b 0 w0) as [u w1|w1|] eqn:EV.
        + exfalso. destruct (validate_spec b w0 HB X) as [(H1 & H2 & _)|(_ & m & E2)]; [now apply HX|congruence].
        + assert (w1 = w') as -> by congruence. apply er_right. now apply (header_said b w0).
        + discriminate H.
      - apply (f_equal (fun o => match o with Raised _ x => w_msg x | _ => [] end)) in H. cbn [w_msg set_exn] in H. rewrite <- H. rewrite firstn_all2 by (apply Nat.leb_le; vm_compute; reflexivity). apply er_right, ec_short. pose proof (zlen_nonneg b). lia. }
  change (set_exn w0 noException []) with w0 in E. rewrite E in H. clear E. unfold load_table in H. pose proof (count_range b HB) as HC.
  assert (E0 : entry_at b 0 = table_offset b) by (unfold entry_at; cbn [Z.of_nat Z.mul]; lia). pose proof (num4 b 28 HB) as U. change (u32 (table_offset b)) in U. unfold u32 in U.
  pose proof (table_said b HB HZ NW (Z.to_nat (entry_count b)) 0 0 R w0 (Inv_exn _ _ _ _ HI) eq_refl ltac:(lia) ltac:(lia) ltac:(lia) ltac:(lia)) as P.
  rewrite E0 in P. change (Z.of_nat 0) with 0 in P. unfold post in P. unfold bind in H.
  destruct (loadFlashLoadableEntries _ _ _ _ _ _ w0) as [c w1|w1|]; [| |discriminate H].
  - destruct P as (C1 & -> & GG). destruct (0 + _ =? 0) eqn:EC; [|discriminate H]. apply throws_set in H. rewrite H.
    rewrite firstn_all2 by (apply Nat.leb_le; vm_compute; reflexivity). apply er_right, ec_none; auto. intros k Hk. split; [apply GG; lia|].
    destruct (loadable b k) eqn:L; [|reflexivity]. exfalso.
    assert (IN : In k (filter (loadable b) (seq 0 (Z.to_nat (entry_count b))))) by (apply filter_In; split; [apply in_seq; lia|exact L]).
    destruct (filter _ _); [destruct IN|]. rewrite zlen_cons in EC. pose proof (zlen_nonneg l). lia.
  - injection H as HC1 <-. destruct P as [[P|P]|(_ & k & m & K1 & K2 & K3 & K4)]; [rewrite HC1 in P; discriminate P|rewrite HC1 in P; discriminate P|].
    assert (KC : Z.of_nat k < entry_count b) by lia. assert (KG : forall j, (j < k)%nat -> entry_good b j) by (intros j Hj; apply K2; lia).
    rewrite K4. destruct K3 as [X|X1 X2 X3].
    + unfold entry_text. rewrite fmtd_low by lia.
      assert (KA : u32 (entry_at b k)).
      { pose proof (entry_nonneg b k HB) as NN. destruct k as [|k]; [rewrite E0; unfold u32; lia|]. rewrite entry_next in * by exact HB.
        destruct (KG k ltac:(lia)) as [GI _]. unfold entry_inside in GI. pose proof (num2 b 42 HB) as V. change (0 <= entry_size b < 65536) in V. unfold u32. lia. }
      rewrite firstn_all2; [apply er_right, (ec_entry b k); auto; apply shown_fmtu; auto; unfold u32; lia|].
      pose proof (fmtu_short (Z.of_nat k)). pose proof (fmtu_short (entry_at b k)). rewrite !app_length. cbn [length s2b]. lia.
    + pose proof (NW k KC X1 X2) as HN. pose proof (num4 b (Z.to_nat (entry_at b k) + 4) HB) as V. change (u32 (seg_offset b k)) in V. destruct (loadable_size b k HB X2) as [V1 V2]. unfold u32 in *.
      unfold contents_text. rewrite W_id by (unfold u32; lia).
      rewrite firstn_all2.
      2:{ pose proof (fmtd_short (seg_offset b k)). pose proof (fmtd_short (seg_offset b k + seg_filesize b k - 1)). rewrite !app_length. cbn [length s2b]. lia. }
      destruct (Z_lt_ge_dec 2147483648 (seg_offset b k + seg_filesize b k)) as [F|F].
      * apply (er_far b k); auto; apply signed_fmtd; unfold u32; lia.
      * rewrite !fmtd_low by lia. apply er_right, (ec_contents b k); auto; apply shown_fmtu; auto; unfold u32; lia.
Qed.
Lemma elf_said R b w w' : Inv R w -> Forall byte b -> zlen b < 4294901760 -> low_entries b ->
  api (ElfLoad_FromMemory b) w = Raised elfFormatException w' -> elf_complaint b (w_msg w').
Proof.
  intros HI HB HZ HN H. assert (NW : no_wrap_entries b) by (intros k K1 K2 K3; specialize (HN k K1 K2 K3); lia).
  destruct (elf_reports R b w w' HI HB HZ NW H) as [m X|k tf tl H1 H2 H3 H4 H5 H6 H7 H8 H9 H10]; [exact X|]. specialize (HN k H3 H5 H6). lia.
Qed.
