(** Relations between the state before and after a call that every loader keeps, given that they are
    kept by the primitive effects. *)
From Coq Require Import String ZArith List Bool Lia ZifyBool ZifyNat Wf_nat.
From Verif Require Import Base World Context MemSim Dump GdbLog Elf CmdLine Sat MemSpec.
Import ListNotations.
Open Scope Z_scope.

Record closed (P : world -> world -> Prop) : Prop := {
  cl_pre : preorder P;
  cl_clear : forall w w1, P (set_exn w noException []) w1 -> P w w1;
  cl_raise : forall w e m, e <> invalidArgumentException -> P w (set_exn w (Z.max e (w_code w)) m);
  cl_again : forall w m, P w (set_exn w (w_code w) m);
  cl_heap : forall w h, P w (set_heap w h);
  cl_files : forall w o n c l, (fs_calls (w_files w) <= c)%nat -> P w (set_files w (mkFiles o n c (l ++ fs_opened (w_files w))));
  cl_ctx : forall w x, P w (set_ctx w x) }.

Section Basics.
Variable P : world -> world -> Prop.
Hypothesis HP : closed P.

Lemma c_pre : preorder P. Proof. apply HP. Qed.
Lemma c_clear w w1 : P (set_exn w noException []) w1 -> P w w1. Proof. apply (cl_clear P HP). Qed.
Lemma c_throw {A} e : e <> invalidArgumentException -> sat P (throw e : M world A).
Proof. intros He w. unfold throw. now apply (cl_raise P HP). Qed.
Lemma c_throw_msg {A} e msg : e <> invalidArgumentException -> sat P (throw_msg e msg : M world A).
Proof. intros He w. unfold throw_msg, throw. apply (cl_raise P HP w e (firstn 1023 msg) He). Qed.
Lemma c_rethrow {A} : sat P (rethrow : M world A).
Proof. intro w. unfold rethrow, throw. rewrite Z.max_id. apply (cl_again P HP). Qed.
Lemma c_code_throw {A} msg : sat P (bind getExceptionCode (fun c => throw_msg c msg) : M world A).
Proof. intro w. unfold bind, getExceptionCode, throw_msg, throw. cbn [w_code set_exn]. rewrite Z.max_id. apply (cl_again P HP w). Qed.
Lemma c_malloc n : sat P (malloc n).
Proof. intro w. unfold malloc. destruct (e_malloc _ _ _); apply (cl_heap P HP). Qed.
Lemma c_zmalloc n : sat P (throwingZeroedMalloc n).
Proof. unfold throwingZeroedMalloc. apply sat_bind; [apply HP|apply c_malloc|]. intros [b|]; [apply sat_ret, HP|apply c_throw; discriminate]. Qed.
Lemma c_free b : sat P (free b).
Proof. intro w. unfold free. destruct (is_live _ _); [apply (cl_heap P HP)|exact I]. Qed.
Lemma c_free_opt b : sat P (free_opt b).
Proof. destruct b; [apply c_free|apply sat_ret, HP]. Qed.
Lemma c_files w o n c : (fs_calls (w_files w) <= c)%nat -> P w (set_files w (mkFiles o n c (fs_opened (w_files w)))).
Proof. apply (cl_files P HP w o n c []). Qed.
Lemma c_next_io : sat P next_io.
Proof. intro w. unfold next_io. apply c_files. lia. Qed.
Lemma c_get_file h : sat P (get_file h).
Proof. intro w. unfold get_file. destruct (lookup_file _ _); [apply (pre_refl P (cl_pre P HP))|exact I]. Qed.
Lemma c_put_file h f : sat P (put_file h f).
Proof. intro w. unfold put_file. apply c_files. lia. Qed.
Lemma c_fopen n : sat P (fopen n).
Proof.
  unfold fopen. apply sat_bind; [apply HP|apply c_next_io|]. intros f w.
  destruct f; destruct (e_fs (w_env w) n); apply (cl_files P HP w _ _ _ [n]); lia.
Qed.
Lemma c_fclose h : sat P (fclose h).
Proof. unfold fclose. apply sat_bind; [apply HP|apply c_get_file|]. intros f w. apply c_files. lia. Qed.
Lemma c_fread h n : sat P (fread h n).
Proof.
  unfold fread. apply sat_bind; [apply HP|apply c_next_io|intro]. apply sat_bind; [apply HP|apply c_get_file|intro]. cbv zeta.
  apply sat_bind; [apply HP|apply c_put_file|intro]. apply sat_ret, HP.
Qed.
Lemma c_fseek_end h : sat P (fseek_end h).
Proof.
  unfold fseek_end. apply sat_bind; [apply HP|apply c_next_io|intros []]; (apply sat_bind; [apply HP|apply c_get_file|intro]);
    try (apply sat_bind; [apply HP|apply c_put_file|intro]); apply sat_ret, HP.
Qed.
Lemma c_fseek_start h : sat P (fseek_start h).
Proof.
  unfold fseek_start. apply sat_bind; [apply HP|apply c_next_io|intros []]; (apply sat_bind; [apply HP|apply c_get_file|intro]);
    try (apply sat_bind; [apply HP|apply c_put_file|intro]); apply sat_ret, HP.
Qed.
Lemma c_ftell h : sat P (ftell h).
Proof.
  unfold ftell. apply sat_bind; [apply HP|apply c_next_io|intros []]; (apply sat_bind; [apply HP|apply c_get_file|intro]); apply sat_ret, HP.
Qed.
Lemma c_fgets h n : sat P (fgets h n).
Proof.
  unfold fgets. apply sat_bind; [apply HP|apply c_next_io|intros []]; (apply sat_bind; [apply HP|apply c_get_file|intro]); cbv zeta;
    try apply (sat_ret P _ _ (cl_pre P HP)); (destruct (take_line _ _); [apply sat_ret, HP|]; apply sat_bind; [apply HP|apply c_put_file|intro]; apply sat_ret, HP).
Qed.
Lemma c_ctx_put o bs : sat P (ctx_put o bs).
Proof. intro w. unfold ctx_put. destruct (_ && _); [apply (cl_ctx P HP)|exact I]. Qed.
Lemma c_ctx_word o : sat P (ctx_word o).
Proof. intro w. unfold ctx_word. destruct (_ && _); [apply (pre_refl P (cl_pre P HP))|exact I]. Qed.
Lemma c_fmr a n : sat P (findMatchingRegion a n).
Proof. intro w. unfold findMatchingRegion. destruct (find_from _ _ _ _); [apply (pre_refl P (cl_pre P HP))|]. apply (c_throw (A := nat * Z)). discriminate. Qed.
Lemma c_get_region i : sat P (get_region i).
Proof. intro w. unfold get_region. destruct (nth_error _ _); [apply (pre_refl P (cl_pre P HP))|exact I]. Qed.
Lemma c_try_msg body msg : sat P body -> sat P (try_msg body msg).
Proof.
  intro H. unfold try_msg. apply sat_try; [apply HP|apply (cl_clear P HP)| |].
  - apply satL_bind; [apply HP|now apply satL_lift|intro]. apply satL_setl, HP.
  - intro. apply c_code_throw.
Qed.
End Basics.

#[export] Hint Resolve c_pre c_rethrow c_code_throw c_malloc c_zmalloc c_free c_free_opt c_next_io c_get_file c_put_file c_fopen c_fclose
  c_fread c_fseek_end c_fseek_start c_ftell c_fgets c_ctx_put c_ctx_word c_fmr c_get_region : closed.
#[export] Hint Extern 1 (sat _ (throw _)) => apply c_throw; [assumption|discriminate] : closed.
#[export] Hint Extern 1 (sat _ (throw_msg _ _)) => apply c_throw_msg; [assumption|discriminate] : closed.
#[export] Hint Extern 1 (sat _ (try_msg _ _)) => apply c_try_msg; [assumption|] : closed.

Ltac ctac := repeat first [ solve [auto 2 with closed] | match goal with |- forall w w1, _ -> _ => solve [apply c_clear; assumption] end | sat_step ].

(** ** Dumps and logs, which only create and write memory *)
Section Readers.
Variable P : world -> world -> Prop.
Hypothesis HP : closed P.
Hypothesis Hcreate : forall b s, sat P (MemorySim_CreateRegion b s).
Hypothesis Hwrite : forall n a v, sat P (writeN n a v).

Lemma c_skip h : forall fuel, sat P (skipNewLines fuel h).
Proof. induction fuel; cbn [skipNewLines]; ctac. Qed.
Lemma c_store_dest d i bs : sat P (store_dest d i bs).
Proof. destruct d; cbn [store_dest]; ctac. Qed.
Lemma c_hex h d n : forall acc, sat P (hexRead_loop h d n acc).
Proof. pose proof (c_skip h). pose proof c_store_dest. induction n; intro acc; cbn [hexRead_loop]; unfold readNextCharacterSkippingNewLines; ctac. Qed.
Lemma c_doRead k h d n : sat P (doRead k h d n).
Proof. pose proof c_store_dest. pose proof c_hex. destruct k; cbn [doRead]; unfold binaryRead, hexRead; ctac. Qed.
Lemma c_loadBytes k h : forall fuel a c, sat P (loadRegionBytes fuel k h a c).
Proof. pose proof c_doRead. induction fuel; intros a c; cbn [loadRegionBytes]; unfold write8; ctac. Qed.
Lemma c_next k h : sat P (readNextMemoryRegion k h).
Proof. pose proof c_doRead. pose proof c_loadBytes. unfold readNextMemoryRegion, createAndLoadMemoryRegion. ctac. Qed.
Lemma c_regions k h : forall fuel, sat P (regionLoop fuel k h).
Proof. pose proof c_next. induction fuel; cbn [regionLoop]; ctac. Qed.
Lemma c_read k name : sat P (CrashCatcherDump_Read k name).
Proof.
  pose proof c_doRead. pose proof c_regions.
  unfold CrashCatcherDump_Read, openDump, readDump, readMemoryRegions, validateDumpSignature, readFlags, readIntegerRegisters, readFloatingPointRegisters, destructObject.
  ctac.
Qed.

Lemma c_values vs : forall a, sat P (writeValues a vs).
Proof. induction vs; intro a0; cbn [writeValues]; unfold write32; ctac. Qed.
Lemma c_first o p : sat P (firstPassHandler o p).
Proof. destruct p; cbn [firstPassHandler]; unfold firstPassMemoryHandler, firstPassRegisterHandler; cbv zeta; ctac. Qed.
Lemma c_second o p : sat P (secondPassHandler o p).
Proof. pose proof c_values. destruct p; cbn [secondPassHandler]; ctac. Qed.
Lemma c_lineLoop h hd (HH : forall o p, sat P (hd o p)) : forall fuel o, sat P (lineLoop fuel h hd o).
Proof. induction fuel; intro o; cbn [lineLoop]; ctac. Qed.
Lemma c_parseLines h hd (HH : forall o p, sat P (hd o p)) : sat P (parseLines h hd).
Proof. unfold parseLines. pose proof (c_lineLoop h hd HH). ctac. Qed.
Lemma c_log name : sat P (GdbLogParse name).
Proof.
  pose proof (fun h => c_parseLines h _ c_first). pose proof (fun h => c_parseLines h _ c_second).
  unfold GdbLogParse, openLog, initPSPandMSP, rewindLogFile. ctac.
Qed.
Lemma c_type name : sat P (getFileType name).
Proof. unfold getFileType. ctac. Qed.
Lemma c_dump c : sat P (loadDumpFile c).
Proof. pose proof c_type. pose proof c_log. pose proof c_read. unfold loadDumpFile, CrashCatcherDump_ReadHex, CrashCatcherDump_ReadBinary. ctac. Qed.
End Readers.

(** ** Everything, for relations that do not look at the memory *)
Section All.
Variable P : world -> world -> Prop.
Hypothesis HP : closed P.
Hypothesis Hmem : forall w m, P w (set_mem w m).

Lemma c_upd_region i f : sat P (upd_region i f).
Proof. intro w. unfold upd_region, modw. apply Hmem. Qed.
Lemma c_add r : sat P (addRegionToTail r).
Proof. intro w. unfold addRegionToTail, modw. apply Hmem. Qed.
Lemma c_check r a n t : sat P (checkForBreakWatchPoint r a n t).
Proof.
  intro w. unfold checkForBreakWatchPoint. destruct (scan_wps _ _ _ _ _ _) as [h []]; [|apply Hmem].
  eapply pre_trans; [apply HP|apply Hmem|]. apply (c_throw P HP (A := unit) hardwareBreakpointException). discriminate.
Qed.
Lemma c_create b s : sat P (MemorySim_CreateRegion b s).
Proof. pose proof c_add. unfold MemorySim_CreateRegion, freeNewRegion. ctac. Qed.
Lemma c_alias b r s : sat P (MemorySim_CreateAlias b r s).
Proof. pose proof c_add. unfold MemorySim_CreateAlias, freeNewRegion. ctac. Qed.
Lemma c_readonly b : sat P (MemorySim_MakeRegionReadOnly b).
Proof. pose proof c_upd_region. unfold MemorySim_MakeRegionReadOnly, allocateReadCountArrayForReadOnlyRegion. ctac. Qed.
Lemma c_gdp a n t c : sat P (getDataPointer a n t c).
Proof. pose proof c_upd_region. pose proof c_check. unfold getDataPointer, incReadCount. ctac. Qed.
Lemma c_store p bs : sat P (store_ptr p bs).
Proof. pose proof c_upd_region. unfold store_ptr. ctac. Qed.
Lemma c_writeN n a v : sat P (writeN n a v).
Proof. pose proof c_gdp. pose proof c_store. unfold writeN. ctac. Qed.
Lemma c_load_bytes n : forall src a, sat P (load_bytes n src a).
Proof. pose proof c_gdp. pose proof c_store. induction n as [|n IH]; intros [|b src] a; cbn [load_bytes]; unfold load8; ctac. Qed.
Lemma c_load_words n : forall src a, sat P (load_words n src a).
Proof.
  pose proof c_gdp. pose proof c_store. induction n as [n IH] using lt_wf_ind; intros src a.
  destruct n as [|[|[|[|[|m]]]]]; try apply c_load_bytes. cbn [load_words].
  destruct src as [|b0 [|b1 [|b2 [|b3 t]]]]; try apply sat_ub. unfold load32. ctac. all: first [apply c_load_bytes|apply IH; lia].
Qed.
Lemma c_blob b off n : sat P (blob_get b off n).
Proof. unfold blob_get. ctac. Qed.
Lemma c_fetch b off n : sat P (fetchSizedByteArray b off n).
Proof. unfold fetchSizedByteArray. ctac. Qed.
Lemma c_entry b ph : sat P (loadIfFlashLoadableEntry b ph).
Proof.
  pose proof c_create. pose proof c_readonly. pose proof c_load_words. pose proof c_blob. pose proof c_fetch.
  unfold loadIfFlashLoadableEntry, MemorySim_LoadFromFlashImage. ctac.
Qed.
Lemma c_entries n : forall b e i off c, sat P (loadFlashLoadableEntries n b e i off c).
Proof. pose proof c_entry. pose proof c_fetch. induction n as [|n IH]; intros; cbn [loadFlashLoadableEntries]; ctac. Qed.
Lemma c_elf b : sat P (ElfLoad_FromMemory b).
Proof. pose proof c_entries. pose proof c_blob. pose proof c_fetch. unfold ElfLoad_FromMemory, initLoadObject, validateElfHeaderContents. ctac. Qed.
Lemma c_file_size h : sat P (GetFileSize h).
Proof. unfold GetFileSize. ctac. Qed.
Lemma c_file_data name : sat P (loadFileData name).
Proof. pose proof c_file_size. unfold loadFileData. ctac. Qed.
Lemma c_image c : sat P (loadImageFile c).
Proof.
  pose proof c_file_data. pose proof c_elf. pose proof c_create. pose proof c_readonly. pose proof c_load_words.
  unfold loadImageFile, loadBinFile, MemorySim_LoadFromFlashImage. ctac. intro s. exact I.
Qed.
Lemma c_alias_option b s r : sat P (createAliasOption b s r).
Proof. pose proof c_alias. unfold createAliasOption. cbv zeta. ctac. Qed.
End All.
