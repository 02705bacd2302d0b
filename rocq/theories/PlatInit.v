(** The invariant of a debug session: established by start-up, kept by every call of the platform. *)
From Coq Require Import String ZArith List Bool Lia ZifyBool ZifyNat Wf_nat Permutation.
From Verif Require Import Base World Context MemSim Dump GdbLog Elf CmdLine Platform Comm BaseLemmas MemSpec Sat MemLemmas MemInv MemOps MemOps2 MemOps3 MemHist MemHist2 MemThms MemThms2 DumpSpec DumpLemmas DumpThms DumpSafe ElfSpec LogSpec CmdSpec Closed CmdThms CmdSafe CtxBytes CmdFull CmdMain PlatSpec.
Import ListNotations.
Open Scope Z_scope.
Open Scope m_scope.

(** ** The image and the dump create no aliases *)

Definition all_plain (w : world) : Prop := Forall (fun r => r_redir r = None) (regions w).
Definition plain (w w' : world) : Prop := all_plain w -> all_plain w'.

Lemma plain_closed : closed plain.
Proof.
  constructor; [split; [intros w H; exact H|intros a b c H1 H2 H; auto]|intros w w1 H; exact H|..]; intros; intro H'; exact H'.
Qed.
Lemma p_pre : preorder plain. Proof. apply plain_closed. Qed.
Lemma p_clear w w1 : plain (set_exn w noException []) w1 -> plain w w1. Proof. apply (cl_clear plain plain_closed). Qed.

Lemma forall_upd (f : region -> region) l : (forall r, r_redir (f r) = r_redir r) -> forall i,
  Forall (fun r => r_redir r = None) l -> Forall (fun r => r_redir r = None) (upd_nth i f l).
Proof.
  intro H. induction l as [|x l IH]; intros [|i] F; cbn [upd_nth]; auto; inversion F as [|? ? F1 F2]; subst; constructor; auto. now rewrite H.
Qed.
Lemma p_upd i f : (forall r, r_redir (f r) = r_redir r) -> sat plain (upd_region i f).
Proof. intros H w. unfold upd_region. intro A. now apply forall_upd. Qed.
Lemma p_add r : r_redir r = None -> sat plain (addRegionToTail r).
Proof. intros H w A. unfold all_plain in *. cbn. apply Forall_app. split; [exact A|]. constructor; auto. Qed.
Lemma p_check r a n t : sat plain (checkForBreakWatchPoint r a n t).
Proof. intro w. unfold checkForBreakWatchPoint. destruct (scan_wps _ _ _ _ _ _) as [h []]; intro A; exact A. Qed.

Ltac ptac := repeat first [ solve [auto 2 using plain_closed with closed] | apply p_pre | apply p_check | apply p_upd; reflexivity | apply p_add; reflexivity
  | match goal with |- forall w w1, _ -> _ => exact p_clear | |- sat plain (try_msg _ _) => apply (c_try_msg plain plain_closed) end | sat_step ].

Lemma p_create b s : sat plain (MemorySim_CreateRegion b s).
Proof. pose proof plain_closed. unfold MemorySim_CreateRegion, freeNewRegion. ptac. Qed.
Lemma p_readonly b : sat plain (MemorySim_MakeRegionReadOnly b).
Proof. pose proof plain_closed. unfold MemorySim_MakeRegionReadOnly, allocateReadCountArrayForReadOnlyRegion. ptac. Qed.
Lemma p_gdp a n t c : sat plain (getDataPointer a n t c).
Proof. pose proof plain_closed. unfold getDataPointer, incReadCount. ptac. Qed.
Lemma p_store p bs : sat plain (store_ptr p bs).
Proof. pose proof plain_closed. unfold store_ptr. ptac. Qed.
Lemma p_writeN n a v : sat plain (writeN n a v).
Proof. pose proof p_gdp. pose proof p_store. unfold writeN. ptac. Qed.
Lemma p_load_bytes n : forall src a, sat plain (load_bytes n src a).
Proof. pose proof p_gdp. pose proof p_store. induction n as [|n IH]; intros [|b src] a; cbn [load_bytes]; unfold load8; ptac. Qed.
Lemma p_load_words n : forall src a, sat plain (load_words n src a).
Proof.
  pose proof p_gdp. pose proof p_store. induction n as [n IH] using lt_wf_ind; intros src a.
  destruct n as [|[|[|[|[|m]]]]]; try apply p_load_bytes. cbn [load_words].
  destruct src as [|b0 [|b1 [|b2 [|b3 t]]]]; try apply sat_ub. unfold load32. ptac. all: first [apply p_load_bytes|apply IH; lia].
Qed.
Lemma p_blob b off n : sat plain (blob_get b off n).
Proof. unfold blob_get. ptac. Qed.
Lemma p_fetch b off n : sat plain (fetchSizedByteArray b off n).
Proof. pose proof plain_closed. unfold fetchSizedByteArray. ptac. Qed.
Lemma p_entry b ph : sat plain (loadIfFlashLoadableEntry b ph).
Proof.
  pose proof plain_closed. pose proof p_create. pose proof p_readonly. pose proof p_load_words. pose proof p_blob. pose proof p_fetch.
  unfold loadIfFlashLoadableEntry, MemorySim_LoadFromFlashImage. ptac.
Qed.
Lemma p_entries n : forall b e i off c, sat plain (loadFlashLoadableEntries n b e i off c).
Proof. pose proof plain_closed. pose proof p_entry. pose proof p_fetch. induction n as [|n IH]; intros; cbn [loadFlashLoadableEntries]; ptac. Qed.
Lemma p_elf b : sat plain (ElfLoad_FromMemory b).
Proof. pose proof plain_closed. pose proof p_entries. pose proof p_blob. pose proof p_fetch. unfold ElfLoad_FromMemory, initLoadObject, validateElfHeaderContents. ptac. Qed.
Lemma p_file_size h : sat plain (GetFileSize h).
Proof. pose proof plain_closed. unfold GetFileSize. ptac. Qed.
Lemma p_file_data name : sat plain (loadFileData name).
Proof. pose proof plain_closed. pose proof p_file_size. unfold loadFileData. ptac. Qed.
Lemma p_image c : sat plain (loadImageFile c).
Proof.
  pose proof plain_closed. pose proof p_file_data. pose proof p_elf. pose proof p_create. pose proof p_readonly. pose proof p_load_words.
  unfold loadImageFile, loadBinFile, MemorySim_LoadFromFlashImage. ptac. intro s. exact I.
Qed.
Lemma p_dump c : sat plain (loadDumpFile c).
Proof. apply c_dump; [apply plain_closed|apply p_create|apply p_writeN]. Qed.

(** ** The dump leaves a context of bytes *)
Lemma k_type name : sat kept (getFileType name).
Proof. unfold getFileType. ktac. Qed.
Lemma k_dump c : sat kept (loadDumpFile c).
Proof.
  pose proof k_type. pose proof k_log. pose proof k_dump_read. unfold loadDumpFile, CrashCatcherDump_ReadHex, CrashCatcherDump_ReadBinary. ktac.
Qed.

(** ** Aliases *)

(** The ranges of the aliases are among [l]. *)
Definition aliases_in (l : list (Z * Z)) (rs : list region) : Prop :=
  forall r, In r rs -> r_redir r <> None -> exists b s, In (b, s) l /\ r_base r = b /\ r_size r <= s.

Definition alias_ranges (os : list opt) : list (Z * Z) :=
  flat_map (fun o => match o with Alias b s _ => [(strtou32 b, strtou32 s)] | _ => [] end) os.

Lemma aliases_inv done os R : forall w, direct_aliases (done ++ os) -> Inv R w -> w_code w = 0 -> aliases_in (alias_ranges done) (regions w) ->
  match make_aliases os w with
  | Ret _ w' => Inv R w'
  | _ => True
  end.
Proof.
  revert done. induction os as [|o os IH]; intros done w HD HI HC HA; cbn [make_aliases]; [exact HI|].
  assert (HD' : direct_aliases ((done ++ [o]) ++ os)) by (rewrite <- app_assoc; exact HD).
  assert (HA' : (forall b s r, o <> Alias b s r) -> aliases_in (alias_ranges (done ++ [o])) (regions w)).
  { intros HO r H1 H2. destruct (HA r H1 H2) as (b & s & H3 & H4). exists b, s. split; [|exact H4]. unfold alias_ranges. rewrite flat_map_app. apply in_or_app. now left. }
  destruct o as [f|f a|f|ob osz ord]; try (apply (IH _ w HD' HI HC), HA'; discriminate).
  assert (DA : direct_alias (regions w) (OAlias (strtou32 ob) (strtou32 ord) (strtou32 osz))).
  { intros i r (F1 & F2 & _). destruct (r_redir r) as [j|] eqn:E; [|reflexivity]. exfalso.
    destruct (HA r) as (b & s & HB & E1 & E2); [eapply nth_error_In; eauto|rewrite E; discriminate|].
    unfold alias_ranges in HB. apply in_flat_map in HB as (o & HO & HB). destruct o as [| | |b' s' r']; [destruct HB|destruct HB|destruct HB|].
    cbn [In] in HB. destruct HB as [HB|[]]. injection HB as <- <-. apply in_split in HO as (l1 & l2 & ->).
    apply (HD l1 b' s' r' l2 ob osz ord os); [now rewrite <- app_assoc|]. unfold covers in F2. lia. }
  unfold bind, createAliasOption. cbv zeta. rewrite try0_eq.
  pose proof (CreateAlias_post (strtou32 ob) (strtou32 ord) (strtou32 osz) R (set_exn w noException []) (Inv_exn _ _ _ _ HI) (strtou32_u32 _) (strtou32_u32 _) (strtou32_u32 _) DA) as P.
  unfold post in P. destruct (MemorySim_CreateAlias _ _ _ _) as [[] w1|w1|]; [| |destruct P].
  - destruct P as (I1 & _ & C1 & _ & _ & j & t & F & E & ER). rewrite C1. cbn [Z.eqb]. apply (IH _ w1 HD' I1 C1).
    rewrite ER. intros r H1 H2. apply in_app_or in H1 as [H1|[<-|[]]].
    + destruct (HA r H1 H2) as (b & s & H3 & H4). exists b, s. split; [|exact H4]. unfold alias_ranges. rewrite flat_map_app. apply in_or_app. now left.
    + exists (strtou32 ob), (strtou32 osz). split; [unfold alias_ranges; rewrite flat_map_app; apply in_or_app; right; now left|]. unfold new_alias. cbn. split; [reflexivity|]. pose proof (strtou32_u32 osz).
      destruct (_ <? _) eqn:L; lia.
  - assert (NZ : w_code w1 <> 0) by (destruct P as (_ & _ & _ & _ & [(-> & _)| ->]); discriminate). replace (w_code w1 =? 0) with false by lia.
    unfold bind, getExceptionCode, throw_msg, throw. exact I.
Qed.

(** ** Start-up *)

Definition session_inv (w : world) : Prop :=
  (exists R, Inv R w) /\ zlen (w_ctx w) = 216 /\ Forall byte (w_ctx w) /\ 0 <= w_faults w < 2147483648.

Lemma start_session args os w c w1 : heap_sane w -> fs_open (w_files w) = [] -> spells args os -> complete os -> files_fine w os -> direct_aliases os ->
  api (CrashDebugCommandLine_Init args) w = Done c w1 -> Inv (h_live (w_heap w)) w1 /\ zlen (w_ctx w1) = 216 /\ Forall byte (w_ctx w1).
Proof.
  intros HH HO HS HC HF HD. unfold api. rewrite (init_stages _ _ _ HS HC). change (set_exn (blank_state (set_exn w noException [])) noException []) with (set_exn (blank_state w) noException []).
  set (w0 := set_exn (blank_state w) noException []).
  pose proof (blank_inv w HH) as HI. fold w0 in HI. set (R := h_live (w_heap w)) in *.
  destruct (complete_uses _ HC) as ((f & HU) & d & HDm). rewrite stages_eq.
  pose proof (image_safe os f R w0 HI eq_refl HF HU) as P. pose proof (p_image (settings os) w0) as PP.
  destruct (loadImageFile (settings os) w0) as [[] w2|w2|]; [| |destruct P].
  2:{ destruct P as (_ & _ & IC). destruct (init_code_nonzero _ IC) as (NZ & _). replace (w_code w2 =? 0) with false by lia.
      pose proof (failing_raises true w2) as F. destruct (failing true w2); [destruct F|discriminate|discriminate]. }
  destruct P as ((P1 & P2 & P3) & P4 & P5).
  assert (HB : forall f data, file_is w2 f data -> Forall byte data).
  { intros g data. unfold file_is. destruct P2 as (_ & _ & _ & _ & ->). apply (proj1 HF). }
  assert (HX1 : ctx_sane w2) by (unfold ctx_sane; rewrite P4; reflexivity).
  assert (CB : cb w2).
  { split; [rewrite P4; apply Forall_forall; intros x Hx; apply repeat_spec in Hx as ->; unfold byte; lia|]. split; [rewrite P3; change (fs_open (w_files w0)) with (fs_open (w_files w)); rewrite HO; intros x []|].
    intros n dt E. apply (HB n dt E). }
  pose proof (dump_safe os d R w2 P1 HX1 P5 HB HDm) as Q. pose proof (p_dump (settings os) w2) as QP. pose proof (k_dump (settings os) w2) as QK.
  destruct (loadDumpFile (settings os) w2) as [[] w3|w3|]; [| |destruct Q].
  2:{ destruct Q as (_ & IC). destruct (init_code_nonzero _ IC) as (NZ & _). replace (w_code w3 =? 0) with false by lia.
      pose proof (failing_raises true w3) as F. destruct (failing true w3); [destruct F|discriminate|discriminate]. }
  destruct Q as ((Q1 & Q2 & Q3) & Q4 & Q5). specialize (QK CB). specialize (QP (PP (Forall_nil _))).
  assert (AI : aliases_in (alias_ranges []) (regions w3)).
  { intros r H1 H2. unfold all_plain in QP. rewrite Forall_forall in QP. destruct (H2 (QP r H1)). }
  pose proof (aliases_inv [] os R w3 HD Q1 Q5 AI) as A. pose proof (aliases_safe R os w3 (Inv_winv _ _ Q1) Q5) as B.
  destruct (make_aliases os w3) as [[] w4|w4|]; [| |destruct B].
  - destruct B as (B1 & B2 & B3). rewrite B3. cbn [Z.eqb]. intro H. injection H as <- <-. split; [eauto|].
    destruct B2 as (_ & -> & _). split; [exact Q4|exact (proj1 QK)].
  - destruct B as (_ & _ & IC). assert (NZ : w_code w4 <> 0) by (destruct IC as [->| ->]; discriminate). replace (w_code w4 =? 0) with false by lia.
    pose proof (failing_raises true w4) as F. destruct (failing true w4); [destruct F|discriminate|discriminate].
Qed.
