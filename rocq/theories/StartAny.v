(** Start-up with any files at all: every stage ends, and the only undefined behaviour is a read
    beyond the end of the executable.  Lemmas for PropStartAny.v. *)
From Coq Require Import String ZArith List Bool Lia Permutation.
From Verif Require Import Base World Context MemSim Dump GdbLog Elf CmdLine BaseLemmas MemSpec MemLemmas MemInv MemOps MemHist MemHist2 DumpSpec DumpThms DumpLemmas DumpSafe ElfSpec ElfThms ElfClean CmdSpec CmdThms CmdSafe CmdFull CmdMain StartAnySpec.
Import ListNotations.
Open Scope Z_scope.

(** ** Loading bytes, possibly more than there are *)

Definition tloads (R : list nat) (m : M world unit) (w : world) : Prop :=
  match m w with
  | Ret _ w' => Inv R w' /\ frame w w' /\ w_code w' = w_code w
  | Exc w' => Inv R w' /\ frame w w' /\ w_code w' = Z.max busErrorException (w_code w)
  | Ub u => u = UbBlob
  end.

Lemma tloads_of R m w : loads R m w -> tloads R m w.
Proof. unfold loads, tloads, post. destruct (m w); tauto. Qed.

Lemma tloads_bind R m f w :
  tloads R m w -> (forall w', Inv R w' -> tloads R (f tt) w') -> tloads R (bind m f) w.
Proof.
  unfold tloads, bind. destruct (m w) as [[] w'|w'|u]; auto. intros (HI & HF & HC) H.
  specialize (H w' HI). destruct (f tt w') as [b w2|w2|u]; auto;
    destruct H as (H1 & H2 & H3); (split; [exact H1|]; split; [eapply frame_trans; eauto|congruence]).
Qed.

Lemma load_bytes_tol R n src a w : Inv R w -> u32 a -> Forall byte src -> tloads R (load_bytes n src a) w.
Proof.
  revert src a w. induction n as [|n IH]; intros src a w HI Ha Hb; cbn [load_bytes].
  - apply tloads_of. now apply loads_ret.
  - destruct src as [|b t]; [reflexivity|]. inversion Hb; subst. rewrite load8_eq. apply tloads_bind.
    + apply tloads_of, loadN_loads; auto; rewrite ?zlen_cons, ?zlen_nil; lia || auto.
    + intros w' HI'. apply IH; auto using W_u32.
Qed.

Lemma load_words_tol R n src a w : Inv R w -> u32 a -> Forall byte src -> tloads R (load_words n src a) w.
Proof.
  revert src a w. induction n as [n IH] using (well_founded_induction lt_wf). intros src a w HI Ha Hb.
  destruct n as [|[|[|[|[|m]]]]]; try (apply load_bytes_tol; assumption).
  do 4 (destruct src as [|?b src]; [reflexivity|]).
  do 4 (inversion Hb as [|?x ?y ?Hx Hb']; subst; clear Hb; rename Hb' into Hb).
  rewrite load_words_step. apply tloads_bind.
  - apply tloads_of, loadN_loads; auto. cbv. discriminate.
  - intros w' HI'. apply IH; auto using W_u32; lia.
Qed.

(** ** Any executable *)

(** Blocks may be lost ([X]), never freed twice; a crash is a read beyond the end of the file. *)
Definition tol (R : list nat) {A} (m : M world A) (w : world) : Prop :=
  match m w with
  | Ret _ w' => (exists X, Inv (X ++ R) w') /\ frame w w' /\ w_code w' = 0
  | Exc w' => (exists X, Inv (X ++ R) w') /\ frame w w' /\ elf_code (w_code w')
  | Ub u => u = UbBlob
  end.

Lemma tol_bind R {A B} (m : M world A) (f : A -> M world B) w :
  tol R m w -> (forall a w' X, m w = Ret a w' -> Inv (X ++ R) w' -> w_code w' = 0 -> tol (X ++ R) (f a) w') -> tol R (bind m f) w.
Proof.
  unfold tol, bind. destruct (m w) as [a w'|w'|u]; auto. intros ((X & HI) & HF & HC) H.
  specialize (H a w' X eq_refl HI HC). destruct (f a w') as [b w2|w2|u]; auto;
    destruct H as ((Y & H1) & H2 & H3); (split; [exists (Y ++ X); rewrite <- app_assoc; exact H1|]; split; [eapply frame_trans; eauto|exact H3]).
Qed.

Lemma tol_ret R {A} (a : A) w : Inv R w -> w_code w = 0 -> tol R (ret a) w.
Proof. intros H C. split; [exists []; exact H|]. split; [apply frame_refl|exact C]. Qed.

Lemma tol_rom R w a src n : Inv R w -> u32 a -> u32 n -> Forall byte src -> tol R (rom_region a src n) w.
Proof.
  intros HI Ha Hn Hb. unfold rom_region. 
  assert (C1 : tol R (MemorySim_CreateRegion a n) w).
  { pose proof (CreateRegion_post a n R w HI Ha Hn) as P. unfold post in P. unfold tol. destruct (MemorySim_CreateRegion a n w) as [u w1|w1|]; [| |destruct P].
    - destruct P as (I1 & F1 & _ & C1 & _). split; [exists []; exact I1|auto].
    - destruct P as (I1 & F1 & _ & C1 & _). split; [exists []; exact I1|]. split; [exact F1|]. unfold elf_code. auto. }
  apply tol_bind; [exact C1|]. intros [] w1 X1 _ I1 Z1. apply tol_bind.
  { pose proof (load_words_tol (X1 ++ R) (Z.to_nat n) src a w1 I1 Ha Hb) as P. change (load_words (Z.to_nat n) src a) with (MemorySim_LoadFromFlashImage a src n) in P.
    unfold tloads, tol in *. destruct (MemorySim_LoadFromFlashImage a src n w1) as [u w2|w2|]; [| |exact P]; destruct P as (I2 & F2 & C2); (split; [exists []; exact I2|]; split; [exact F2|]).
    - congruence.
    - rewrite C2, Z1. unfold elf_code. auto. }
  intros [] w2 X2 _ I2 Z2. pose proof (MakeRO_post a (X2 ++ X1 ++ R) w2 I2) as P. unfold post in P. unfold tol.
  destruct (MemorySim_MakeRegionReadOnly a w2) as [u w3|w3|]; [| |destruct P].
  - destruct P as (j & t & a' & _ & _ & _ & I3 & F3 & _ & _ & _ & C3 & _). split; [exists (lost t); exact I3|]. split; [exact F3|congruence].
  - destruct P as (I3 & F3 & _ & _ & _ & H). split; [exists []; exact I3|]. split; [exact F3|]. unfold elf_code.
    destruct H as [(_ & _ & C3)|(? & ? & ? & _ & _ & _ & _ & C3)]; rewrite C3, Z2; auto.
Qed.

Lemma get_tol R b off w : Forall byte b -> Inv R w -> w_code w = 0 ->
  tol R (blob_get b off 4) w /\ forall v w', blob_get b off 4 w = Ret v w' -> u32 v.
Proof.
  intros HB HI HC. unfold blob_get. destruct ((0 <=? off) && (off + 4 <=? zlen b)).
  - split; [now apply tol_ret|]. intros v w' E. injection E as <- _. exact (num4 b (Z.to_nat off) HB).
  - split; [reflexivity|discriminate].
Qed.

Lemma fetch_tol R b off n msg w : Inv R w -> w_code w = 0 ->
  tol R (try_msg (fetchSizedByteArray b off n) msg) w /\ forall v w', try_msg (fetchSizedByteArray b off n) msg w = Ret v w' -> v = off.
Proof.
  intros HI HC. unfold tol. destruct (try_fetch b off n msg w) as [[_ ->]|[_ (m & ->)]].
  - split; [|congruence]. split; [exists []; now apply Inv_exn|]. split; [apply frame_exn|reflexivity].
  - split; [|discriminate]. split; [exists []; now apply Inv_exn|]. split; [apply frame_exn|]. now left.
Qed.

Lemma entry_tol R b ph w : Forall byte b -> Inv R w -> w_code w = 0 -> tol R (loadIfFlashLoadableEntry b ph) w.
Proof.
  intros HB HI HC. unfold loadIfFlashLoadableEntry.
  destruct (get_tol R b ph w HB HI HC) as (T & _). apply tol_bind; [exact T|]. clear T HI HC. intros ty w1 X1 _ I1 C1.
  destruct (negb (ty =? 1)); [now apply tol_ret|].
  destruct (get_tol _ b (ph + 16) w1 HB I1 C1) as (T & U). apply tol_bind; [exact T|]. clear T I1 C1. intros fs w2 X2 E2 I2 C2. specialize (U _ _ E2). clear E2.
  destruct (fs =? 0); [now apply tol_ret|].
  destruct (get_tol _ b (ph + 20) w2 HB I2 C2) as (T & _). apply tol_bind; [exact T|]. clear T I2 C2. intros ms w3 X3 _ I3 C3.
  destruct (ms <? fs); [now apply tol_ret|].
  destruct (get_tol _ b (ph + 4) w3 HB I3 C3) as (T & _). apply tol_bind; [exact T|]. clear T I3 C3. intros po w4 X4 _ I4 C4.
  destruct (get_tol _ b (ph + 12) w4 HB I4 C4) as (T & V). apply tol_bind; [exact T|]. clear T I4 C4. intros pa w5 X5 E5 I5 C5. specialize (V _ _ E5). clear E5.
  match goal with |- tol _ (bind (try_msg ?x ?m) _) _ => destruct (fetch_tol _ b po fs m w5 I5 C5) as (T & _) end. apply tol_bind; [exact T|]. clear T I5 C5. intros data w6 X6 _ I6 C6.
  match goal with |- tol ?R' _ _ => assert (T : tol R' (rom_region pa (skipn (Z.to_nat data) b) fs) w6) end.
  { apply tol_rom; auto. apply Forall_forall. intros x Hx. rewrite Forall_forall in HB. apply HB. rewrite <- (firstn_skipn (Z.to_nat data) b). apply in_or_app. now right. }
  unfold tol, rom_region, bind, ret in *.
  destruct (MemorySim_CreateRegion pa fs w6) as [[] w7|w7|]; [|exact T|exact T].
  destruct (MemorySim_LoadFromFlashImage pa (skipn (Z.to_nat data) b) fs w7) as [[] w8|w8|]; [|exact T|exact T].
  destruct (MemorySim_MakeRegionReadOnly pa w8) as [[] w9|w9|]; exact T.
Qed.

Lemma table_tol b sz : Forall byte b -> forall n i off count R w, Inv R w -> w_code w = 0 -> tol R (loadFlashLoadableEntries n b sz i off count) w.
Proof.
  intro HB. induction n as [|n IH]; intros i off count R w HI HC; cbn [loadFlashLoadableEntries].
  - now apply tol_ret.
  - match goal with |- tol _ (bind (try_msg ?x ?m) _) _ => destruct (fetch_tol _ b off SIZEOF_PHDR m w HI HC) as (T & _) end.
    apply tol_bind; [exact T|]. intros ph w1 X1 _ I1 C1. apply tol_bind; [now apply entry_tol|]. intros c w2 X2 _ I2 C2. now apply IH.
Qed.

Lemma elf_tol R b w : Forall byte b -> Inv R w -> tol R (ElfLoad_FromMemory b) w.
Proof.
  intros HB HI. unfold tol. destruct (elf_split b w HB) as [(_ & _ & ->)|(_ & m & ->)].
  2:{ split; [exists []; now apply Inv_exn|]. split; [apply frame_exn|]. now left. }
  set (w0 := set_exn w noException []). change (tol R (load_table b) w0). unfold load_table. apply tol_bind.
  - apply table_tol; [exact HB|now apply Inv_exn|reflexivity].
  - intros c w1 X1 _ I1 C1. destruct (c =? 0); [|now apply tol_ret]. unfold tol.
    match goal with |- context[throw_msg ?c ?m w1] => destruct (throws_msg (A := unit) c m w1) as (m' & ->) end.
    split; [exists []; now apply Inv_exn|]. split; [apply frame_exn|]. cbn [w_code set_exn]. rewrite C1. now left.
Qed.

(** The executable describes bytes beyond the end of every file that can be loaded. *)
Lemma wrap_witness b : ~ (forall k, Z.of_nat k < entry_count b -> entry_inside b k -> loadable b k = true -> seg_offset b k + seg_filesize b k < 4294967296) ->
  exists k, Z.of_nat k < entry_count b /\ entry_inside b k /\ loadable b k = true /\ 4294967296 <= seg_offset b k + seg_filesize b k.
Proof.
  intro H. set (bad := fun k => (entry_at b k + 32 <=? zlen b) && loadable b k && (4294967296 <=? seg_offset b k + seg_filesize b k)).
  destruct (existsb bad (seq 0 (Z.to_nat (entry_count b)))) eqn:E.
  - apply existsb_exists in E as (k & Hk & B). apply in_seq in Hk. unfold bad in B. apply andb_prop in B as (B & B3). apply andb_prop in B as (B1 & B2).
    exists k. split; [lia|]. split; [unfold entry_inside; lia|]. split; [exact B2|lia].
  - exfalso. apply H. intros k Hk HI HL. destruct (Z.lt_ge_cases (seg_offset b k + seg_filesize b k) 4294967296); [assumption|]. exfalso.
    assert (X : existsb bad (seq 0 (Z.to_nat (entry_count b))) = true).
    { apply existsb_exists. exists k. split; [apply in_seq; lia|]. unfold bad. rewrite HL. unfold entry_inside in HI. lia. }
    congruence.
Qed.

Lemma elf_crash R b w u : Forall byte b -> Inv R w -> ElfLoad_FromMemory b w = Ub u -> u = UbBlob /\ hostile b.
Proof.
  intros HB HI E. split; [pose proof (elf_tol R b w HB HI) as T; unfold tol in T; rewrite E in T; exact T|].
  unfold hostile. destruct (Z.lt_ge_cases (zlen b) 4294901760) as [HZ|HZ]; [left|right; exact HZ].
  apply wrap_witness. intro NW. pose proof (elf_safe R b w HI HB HZ NW) as S. unfold api in S.
  assert (E2 : ElfLoad_FromMemory b (set_exn w noException []) = ElfLoad_FromMemory b w) by reflexivity. rewrite E2, E in S. exact S.
Qed.

(** ** The image *)

Definition okay (R : list nat) (w w' : world) : Prop :=
  (exists X, Inv (X ++ R) w') /\ rest_same w w' /\ fs_open (w_files w') = fs_open (w_files w).

Lemma Inv_perm R R' w : Inv R w -> Permutation R R' -> Inv R' w.
Proof. intros [H1 H2] P. split; [exact H1|]. eapply hp_perm; [exact H2|]. now apply Permutation_app_head. Qed.

Lemma load_any (V : list Z -> Prop) X f R w : Inv R w ->
  (forall b data w1, file_is w f data -> Inv (b :: R) w1 -> regions w1 = regions w ->
     tol (b :: R) (X data) w1 /\ forall u, X data w1 = Ub u -> V data) ->
  match load_with X f w with
  | Ret _ w' => okay R w w' /\ w_ctx w' = w_ctx w /\ w_code w' = 0
  | Exc w' => okay R w w' /\ w_ctx w' = w_ctx w /\ init_code (w_code w')
  | Ub u => u = UbBlob /\ exists data, file_is w f data /\ V data
  end.
Proof.
  intros HI HX. rewrite load_with_run. pose proof (data_safe f R w HI) as P. destruct (loadFileData f w) as [[b data] w1|w1|]; [| |destruct P].
  2:{ destruct P as (I1 & (M1 & X1 & S1 & O1) & _ & C). 
      assert (IC : init_code (w_code w1)) by (unfold init_code; destruct C as [(-> & _)|(-> & _)]; auto).
      destruct (init_code_nonzero _ IC) as (NZ & _). replace (w_code w1 =? 0) with false by lia.
      split; [split; [exists []; exact I1|split; [exact S1|exact O1]]|]. split; [exact X1|exact IC]. }
  destruct P as (HF & I1 & (M1 & X1 & S1 & O1) & C1 & _). assert (R1 : regions w1 = regions w) by (now rewrite M1).
  destruct (HX b data w1 HF I1 R1) as (T & U). unfold tol in T. destruct (X data w1) as [[] w2|w2|u].
  3:{ split; [exact T|]. exists data. split; [exact HF|]. exact (U u eq_refl). }
  all: destruct T as ((Y & I2) & F2 & C2); apply (Inv_perm _ (b :: Y ++ R)) in I2; [|symmetry; apply Permutation_middle];
    destruct (Inv_free _ _ _ I2) as (h' & Ef & I3 & _); unfold bind; rewrite Ef; cbn [w_code set_heap].
  - rewrite C2. cbn [Z.eqb]. split; [split; [exists Y; exact I3|split]|split].
    + eapply rest_trans; [exact S1|]. apply (frame_rest w1 w2 F2).
    + destruct F2 as (F2 & _). cbn [w_files set_heap]. rewrite F2. exact O1.
    + destruct F2 as (_ & F2 & _). cbn [w_ctx set_heap]. congruence.
    + exact C2.
  - destruct (init_code_nonzero _ (elf_init _ C2)) as (NZ & _). replace (w_code w2 =? 0) with false by lia. rewrite rethrow_eq.
    split; [split; [exists Y; exact I3|split]|split].
    + eapply rest_trans; [exact S1|]. apply (frame_rest w1 w2 F2).
    + destruct F2 as (F2 & _). cbn [w_files set_heap]. rewrite F2. exact O1.
    + destruct F2 as (_ & F2 & _). cbn [w_ctx set_heap]. congruence.
    + apply elf_init, C2.
Qed.

Lemma image_any os f R w : Inv R w -> regions w = [] -> (forall f data, file_is w f data -> Forall byte data) -> uses_image os f ->
  match loadImageFile (settings os) w with
  | Ret _ w' => okay R w w' /\ w_ctx w' = w_ctx w /\ w_code w' = 0
  | Exc w' => okay R w w' /\ w_ctx w' = w_ctx w /\ init_code (w_code w')
  | Ub u => u = UbBlob /\ exists data, file_is w f data /\ uses_elf os f /\ hostile data
  end.
Proof.
  intros HI HR FB HU. destruct (image_cases os f HU) as [(U & E)|(a & U & E1 & E2 & E3)].
  - rewrite (image_elf _ _ E). apply (load_any (fun data => uses_elf os f /\ hostile data)); [exact HI|]. intros b data w1 HF I1 R1.
    split; [apply elf_tol; [exact (FB _ _ HF)|exact I1]|]. intros u Eu. split; [exact U|]. exact (proj2 (elf_crash _ _ _ _ (FB _ _ HF) I1 Eu)).
  - rewrite (image_bin _ _ E1 E2), E3. 
    pose proof (load_any (fun _ => False) (loadBinFile (strtou32 a)) f R w HI) as P.
    assert (HX : forall b data w1, file_is w f data -> Inv (b :: R) w1 -> regions w1 = regions w ->
       tol (b :: R) (loadBinFile (strtou32 a) data) w1 /\ forall u, loadBinFile (strtou32 a) data w1 = Ub u -> False).
    { intros b data w1 HF I1 R1. rewrite HR in R1. pose proof (bin_safe _ data (b :: R) w1 I1 R1 (strtou32_u32 a) (FB _ _ HF)) as B. unfold tol.
      destruct (loadBinFile (strtou32 a) data w1) as [[] w2|w2|]; [| |destruct B]; (split; [|discriminate]); destruct B as (B1 & B2); (split; [exists []; exact B1|exact B2]). }
    specialize (P HX). destruct (load_with _ f w); [exact P|exact P|]. destruct P as (_ & ? & _ & []).
Qed.

(** ** All stages *)

Lemma stages_any os R w : complete os -> Inv R w -> regions w = [] -> ctx_sane w -> (forall f data, file_is w f data -> Forall byte data) ->
  match stages os w with
  | Ret _ w' => (exists X, winv (X ++ R) w') /\ rest_same w w' /\ fs_open (w_files w') = fs_open (w_files w) /\ w_code w' = 0
  | Exc w' => (exists X, winv (X ++ R) w') /\ rest_same w w' /\ fs_open (w_files w') = fs_open (w_files w) /\ init_code (w_code w')
  | Ub u => u = UbBlob /\ exists f data, uses_elf os f /\ file_is w f data /\ hostile data
  end.
Proof.
  intros HC HI HR HX FB. destruct (complete_uses _ HC) as ((f & HU) & d & HD). rewrite stages_eq.
  pose proof (image_any os f R w HI HR FB HU) as P. destruct (loadImageFile (settings os) w) as [[] w1|w1|u].
  3:{ destruct P as (E & data & HF & U & H). split; [exact E|]. exists f, data. auto. }
  2:{ destruct P as (((X & P1) & P2 & P3) & _ & P4). split; [exists X; now apply Inv_winv|]. auto. }
  destruct P as (((X & P1) & P2 & P3) & P4 & P5).
  assert (HB : forall f data, file_is w1 f data -> Forall byte data).
  { intros g data. unfold file_is. destruct P2 as (_ & _ & _ & _ & ->). apply FB. }
  assert (HX1 : ctx_sane w1) by (unfold ctx_sane; rewrite P4; exact HX).
  pose proof (dump_safe os d (X ++ R) w1 P1 HX1 P5 HB HD) as Q. destruct (loadDumpFile (settings os) w1) as [[] w2|w2|]; [| |destruct Q].
  2:{ destruct Q as ((Q1 & Q2 & Q3) & Q4). split; [exists X; now apply Inv_winv|]. split; [eapply rest_trans; eauto|]. split; [congruence|exact Q4]. }
  destruct Q as ((Q1 & Q2 & Q3) & _ & Q5).
  pose proof (aliases_safe (X ++ R) os w2 (Inv_winv _ _ Q1) Q5) as S. destruct (make_aliases os w2) as [[] w3|w3|]; [| |destruct S];
    destruct S as (S1 & S2 & S3); (split; [exists X; exact S1|]; split; [eapply rest_trans; [exact P2|]; eapply rest_trans; [exact Q2|]; apply (frame_rest w2 w3 S2)|]; split; [destruct S2 as (-> & _); congruence|]).
  - exact S3.
  - unfold init_code. destruct S3 as [->| ->]; auto.
Qed.

Lemma init_any args os w : heap_sane w -> spells args os -> complete os -> (forall f data, file_is w f data -> Forall byte data) ->
  match api (CrashDebugCommandLine_Init args) w with
  | Done c w' => (exists X, winv (X ++ h_live (w_heap w)) w') /\ w_code w' = 0 /\ fs_open (w_files w') = fs_open (w_files w) /\ w_err w' = w_err w
  | Raised c w' => init_code c /\ regions w' = [] /\ m_xml (w_mem w') = None /\ (exists X, hp (w_heap w') (X ++ h_live (w_heap w))) /\
      fs_open (w_files w') = fs_open (w_files w) /\ w_err w' = usage :: banner :: error_line (w_msg w') :: w_err w
  | Crashed u => u = UbBlob /\ exists f data, uses_elf os f /\ file_is w f data /\ hostile data
  end.
Proof.
  intros HH HS HC HF. unfold api. rewrite (init_stages _ _ _ HS HC). change (set_exn (blank_state (set_exn w noException [])) noException []) with (set_exn (blank_state w) noException []).
  set (w0 := set_exn (blank_state w) noException []).
  pose proof (stages_any os _ w0 HC (blank_inv w HH) eq_refl eq_refl HF) as P. destruct (stages os w0) as [[] w1|w1|]; [| |exact P].
  - destruct P as (I1 & (S & _) & O & C). rewrite C. cbn [Z.eqb]. split; [exact I1|]. split; [exact C|]. split; [exact O|exact S].
  - destruct P as ((X & I1) & (S & _) & O & C). destruct (init_code_nonzero _ C) as (NZ & _). replace (w_code w1 =? 0) with false by lia.
    destruct (failing_true _ _ I1) as (h & -> & Hh). cbn [w_code w_msg w_err w_files w_heap w_mem set_mem set_heap set_err m_xml].
    split; [exact C|]. split; [reflexivity|]. split; [reflexivity|]. split; [exists X; exact Hh|]. split; [exact O|]. rewrite S; reflexivity.
Qed.
