(** Which files are opened, and when.  Lemmas for PropOpen.v. *)
From Coq Require Import String ZArith List Bool Lia ZifyBool ZifyNat Wf_nat Permutation.
From Verif Require Import Base World Context MemSim Dump GdbLog Elf CmdLine Platform Comm MainProg Sat MemSpec DumpSpec CmdSpec CmdThms CmdSafe CmdFull CmdMain StartAnySpec StartAny Closed MemInv MemHist PlatSpec ChanThms OpenSpec.
Import ListNotations.
Open Scope Z_scope.

(** ** Nothing is opened *)

Definition shut (w w' : world) : Prop := fs_opened (w_files w') = fs_opened (w_files w).
Lemma shut_pre : preorder shut.
Proof. split; [reflexivity|]. unfold shut. intros a b c H1 H2. congruence. Qed.
Lemma shut_clear w w1 : shut (set_exn w noException []) w1 -> shut w w1.
Proof. exact (fun H => H). Qed.
Create HintDb sh.
#[export] Hint Resolve shut_pre shut_clear : sh.
Ltac sh_now := intro w; reflexivity.
Ltac stac := repeat first [ solve [auto 2 with sh] | match goal with |- forall w w1, _ -> _ => exact shut_clear end | sat_step ].

Lemma o_throw {A} e : sat shut (throw e : M world A). Proof. sh_now. Qed.
Lemma o_throw_msg {A} e m : sat shut (throw_msg e m : M world A). Proof. sh_now. Qed.
Lemma o_rethrow {A} : sat shut (rethrow : M world A). Proof. sh_now. Qed.
Lemma o_malloc n : sat shut (malloc n). Proof. intro w. unfold malloc. destruct (e_malloc _ _ _); reflexivity. Qed.
Lemma o_free b : sat shut (free b). Proof. intro w. unfold free. destruct (is_live _ _); [reflexivity|exact I]. Qed.
Lemma o_free_opt b : sat shut (free_opt b). Proof. destruct b; [apply o_free|apply sat_ret, shut_pre]. Qed.
Lemma o_next_io : sat shut next_io. Proof. sh_now. Qed.
Lemma o_get_file h : sat shut (get_file h). Proof. intro w. unfold get_file. destruct (lookup_file _ _); [reflexivity|exact I]. Qed.
Lemma o_put_file h f : sat shut (put_file h f). Proof. sh_now. Qed.
Lemma o_modw_exn f : (forall w, shut w (f w)) -> sat shut (modw f). Proof. intros H w. apply H. Qed.
#[export] Hint Resolve o_throw o_throw_msg o_rethrow o_malloc o_free o_free_opt o_next_io o_get_file o_put_file : sh.
Lemma o_zmalloc n : sat shut (throwingZeroedMalloc n). Proof. unfold throwingZeroedMalloc. stac. Qed.
Lemma o_fclose h : sat shut (fclose h). Proof. unfold fclose. stac; intro w; reflexivity. Qed.
Lemma o_fread h n : sat shut (fread h n). Proof. unfold fread. stac. Qed.
Lemma o_fseek_end h : sat shut (fseek_end h). Proof. unfold fseek_end. stac. Qed.
Lemma o_fseek_start h : sat shut (fseek_start h). Proof. unfold fseek_start. stac. Qed.
Lemma o_ftell h : sat shut (ftell h). Proof. unfold ftell. stac. Qed.
Lemma o_fgets h n : sat shut (fgets h n). Proof. unfold fgets. stac. Qed.
Lemma o_ctx_put o bs : sat shut (ctx_put o bs). Proof. intro w. unfold ctx_put. destruct (_ && _); [reflexivity|exact I]. Qed.
Lemma o_ctx_word o : sat shut (ctx_word o). Proof. intro w. unfold ctx_word. destruct (_ && _); [reflexivity|exact I]. Qed.
Lemma o_fmr a n : sat shut (findMatchingRegion a n). Proof. intro w. unfold findMatchingRegion. destruct (find_from _ _ _ _); reflexivity. Qed.
Lemma o_get_region i : sat shut (get_region i). Proof. intro w. unfold get_region. destruct (nth_error _ _); [reflexivity|exact I]. Qed.
Lemma o_upd_region i f : sat shut (upd_region i f). Proof. sh_now. Qed.
Lemma o_add r : sat shut (addRegionToTail r). Proof. sh_now. Qed.
Lemma o_check r a n t : sat shut (checkForBreakWatchPoint r a n t).
Proof. intro w. unfold checkForBreakWatchPoint. destruct (scan_wps _ _ _ _ _ _) as [h []]; reflexivity. Qed.
#[export] Hint Resolve o_zmalloc o_fclose o_fread o_fseek_end o_fseek_start o_ftell o_fgets o_ctx_put o_ctx_word o_fmr o_get_region o_upd_region o_add o_check : sh.
Lemma o_try_msg body msg : sat shut body -> sat shut (try_msg body msg).
Proof. intro. unfold try_msg. stac. Qed.
#[export] Hint Extern 1 (sat _ (try_msg _ _)) => apply o_try_msg : sh.



Lemma o_create b s : sat shut (MemorySim_CreateRegion b s).
Proof. pose proof o_add. unfold MemorySim_CreateRegion, freeNewRegion. stac. Qed.
Lemma o_alias b r s : sat shut (MemorySim_CreateAlias b r s).
Proof. pose proof o_add. unfold MemorySim_CreateAlias, freeNewRegion. stac. Qed.
Lemma o_readonly b : sat shut (MemorySim_MakeRegionReadOnly b).
Proof. pose proof o_upd_region. unfold MemorySim_MakeRegionReadOnly, allocateReadCountArrayForReadOnlyRegion. stac. Qed.
Lemma o_gdp a n t c : sat shut (getDataPointer a n t c).
Proof. pose proof o_upd_region. pose proof o_check. unfold getDataPointer, incReadCount. stac. Qed.
Lemma o_store p bs : sat shut (store_ptr p bs).
Proof. pose proof o_upd_region. unfold store_ptr. stac. Qed.
Lemma o_writeN n a v : sat shut (writeN n a v).
Proof. pose proof o_gdp. pose proof o_store. unfold writeN. stac. Qed.
Lemma o_load_bytes n : forall src a, sat shut (load_bytes n src a).
Proof. pose proof o_gdp. pose proof o_store. induction n as [|n IH]; intros [|b src] a; cbn [load_bytes]; unfold load8; stac. Qed.
Lemma o_load_words n : forall src a, sat shut (load_words n src a).
Proof.
  pose proof o_gdp. pose proof o_store. induction n as [n IH] using lt_wf_ind; intros src a.
  destruct n as [|[|[|[|[|m]]]]]; try apply o_load_bytes. cbn [load_words].
  destruct src as [|b0 [|b1 [|b2 [|b3 t]]]]; try apply sat_ub. unfold load32. stac. all: first [apply o_load_bytes|apply IH; lia].
Qed.
Lemma o_blob b off n : sat shut (blob_get b off n).
Proof. unfold blob_get. stac. Qed.
Lemma o_fetch b off n : sat shut (fetchSizedByteArray b off n).
Proof. unfold fetchSizedByteArray. stac. Qed.
Lemma o_entry b ph : sat shut (loadIfFlashLoadableEntry b ph).
Proof.
  pose proof o_create. pose proof o_readonly. pose proof o_load_words. pose proof o_blob. pose proof o_fetch.
  unfold loadIfFlashLoadableEntry, MemorySim_LoadFromFlashImage. stac.
Qed.
Lemma o_entries n : forall b e i off c, sat shut (loadFlashLoadableEntries n b e i off c).
Proof. pose proof o_entry. pose proof o_fetch. induction n as [|n IH]; intros; cbn [loadFlashLoadableEntries]; stac. Qed.
Lemma o_elf b : sat shut (ElfLoad_FromMemory b).
Proof. pose proof o_entries. pose proof o_blob. pose proof o_fetch. unfold ElfLoad_FromMemory, initLoadObject, validateElfHeaderContents. stac. Qed.
Lemma o_file_size h : sat shut (GetFileSize h).
Proof. unfold GetFileSize. stac. Qed.
Lemma o_alias_option b s r : sat shut (createAliasOption b s r).
Proof. pose proof o_alias. unfold createAliasOption. cbv zeta. stac. Qed.
#[export] Hint Resolve o_create o_alias o_readonly o_gdp o_store o_writeN o_load_bytes o_load_words o_elf o_file_size o_alias_option : sh.


Lemma o_skip h : forall fuel, sat shut (skipNewLines fuel h).
Proof. induction fuel; cbn [skipNewLines]; stac. Qed.
Lemma o_store_dest d i bs : sat shut (store_dest d i bs).
Proof. destruct d; cbn [store_dest]; stac. Qed.
Lemma o_hex h d n : forall acc, sat shut (hexRead_loop h d n acc).
Proof. pose proof (o_skip h). pose proof o_store_dest. induction n; intro acc; cbn [hexRead_loop]; unfold readNextCharacterSkippingNewLines; stac. Qed.
Lemma o_doRead k h d n : sat shut (doRead k h d n).
Proof. pose proof o_store_dest. pose proof o_hex. destruct k; cbn [doRead]; unfold binaryRead, hexRead; stac. Qed.
Lemma o_loadBytes k h : forall fuel a c, sat shut (loadRegionBytes fuel k h a c).
Proof. pose proof o_doRead. induction fuel; intros a c; cbn [loadRegionBytes]; unfold write8; stac. Qed.
Lemma o_next k h : sat shut (readNextMemoryRegion k h).
Proof. pose proof o_doRead. pose proof o_loadBytes. unfold readNextMemoryRegion, createAndLoadMemoryRegion. stac. Qed.
Lemma o_regions k h : forall fuel, sat shut (regionLoop fuel k h).
Proof. pose proof o_next. induction fuel; cbn [regionLoop]; stac. Qed.

Lemma o_values vs : forall a, sat shut (writeValues a vs).
Proof. induction vs; intro a0; cbn [writeValues]; unfold write32; stac. Qed.
Lemma o_first o p : sat shut (firstPassHandler o p).
Proof. destruct p; cbn [firstPassHandler]; unfold firstPassMemoryHandler, firstPassRegisterHandler; cbv zeta; stac. Qed.
Lemma o_second o p : sat shut (secondPassHandler o p).
Proof. pose proof o_values. destruct p; cbn [secondPassHandler]; stac. Qed.
Lemma o_lineLoop h hd (HH : forall o p, sat shut (hd o p)) : forall fuel o, sat shut (lineLoop fuel h hd o).
Proof. induction fuel; intro o; cbn [lineLoop]; stac. Qed.
Lemma o_parseLines h hd (HH : forall o p, sat shut (hd o p)) : sat shut (parseLines h hd).
Proof. unfold parseLines. pose proof (o_lineLoop h hd HH). stac. Qed.

#[export] Hint Resolve o_doRead o_regions : sh.

(** ** One file is opened, first *)

Definition adds (l : list (list Z)) (w w' : world) : Prop := fs_opened (w_files w') = l ++ fs_opened (w_files w).
Lemma adds_shut l a b c : adds l a b -> shut b c -> adds l a c.
Proof. unfold adds, shut. congruence. Qed.
Lemma adds_bind l {A B} (m : M world A) (f : A -> M world B) : sat (adds l) m -> (forall a, sat shut (f a)) -> sat (adds l) (bind m f).
Proof.
  intros Hm Hf w. unfold bind. specialize (Hm w). destruct (m w) as [a w1|w1|]; auto.
  specialize (Hf a w1). destruct (f a w1); auto; eapply adds_shut; eauto.
Qed.
Lemma addsL_bind l {L A B} (m : M (L * world) A) (f : A -> M (L * world) B) : satL (adds l) m -> (forall a, satL shut (f a)) -> satL (adds l) (bind m f).
Proof.
  intros Hm Hf w. unfold bind. specialize (Hm w). destruct (m w) as [a w1|w1|]; auto.
  specialize (Hf a w1). destruct (f a w1); auto; eapply adds_shut; eauto.
Qed.
Lemma adds_try l {L} (l0 : L) body handler : satL (adds l) body -> (forall x, sat shut (handler x)) -> sat (adds l) (try_ l0 body handler).
Proof.
  intros Hb Hh w. unfold try_. specialize (Hb (l0, set_exn w noException [])). cbn [snd] in Hb.
  destruct (body _) as [u [x w1]|[x w1]|]; [| |exact I]; cbn [snd] in Hb; change (adds l w w1) in Hb;
    (destruct (w_code w1 =? 0); [auto|]; specialize (Hh x w1); destruct (handler x w1); auto; eapply adds_shut; eauto).
Qed.
Lemma adds_fopen n : sat (adds [n]) (fopen n).
Proof. intro w. unfold fopen, bind, next_io. destruct (e_io (w_env w) (fs_calls (w_files w))); cbn [w_env set_files]; destruct (e_fs (w_env w) n); reflexivity. Qed.

Lemma adds_data name : sat (adds [name]) (loadFileData name).
Proof.
  unfold loadFileData. apply adds_bind; [|intro; stac]. apply adds_try; [|intro; stac].
  apply addsL_bind; [apply satL_lift, adds_fopen|]. intro. stac.
Qed.
Lemma adds_type name : sat (adds [name]) (getFileType name).
Proof. unfold getFileType. apply adds_bind; [apply adds_fopen|]. intro. stac. Qed.
Lemma adds_read k name : sat (adds [name]) (CrashCatcherDump_Read k name).
Proof.
  unfold CrashCatcherDump_Read, openDump, readDump, readMemoryRegions, validateDumpSignature, readFlags, readIntegerRegisters, readFloatingPointRegisters, destructObject.
  apply adds_bind; [|intro; stac]. apply adds_try; [|intro; stac].
  apply addsL_bind; [apply satL_lift, adds_bind; [apply adds_fopen|intro; stac]|]. intro. stac.
Qed.
Lemma adds_log name : sat (adds [name]) (GdbLogParse name).
Proof.
  pose proof (fun h => o_parseLines h _ o_first). pose proof (fun h => o_parseLines h _ o_second).
  unfold GdbLogParse, openLog, initPSPandMSP, rewindLogFile.
  apply adds_bind; [|intro; stac]. apply adds_try; [|intro; stac].
  apply addsL_bind; [apply satL_lift, adds_bind; [apply adds_fopen|intro; stac]|]. intro. stac.
Qed.

Lemma adds_image os f : uses_image os f -> sat (adds [f]) (loadImageFile (settings os)).
Proof.
  intro HU. assert (K : forall X, (forall d, sat shut (X d)) -> sat (adds [f]) (load_with X f)).
  { intros X HX. unfold load_with. apply adds_bind; [|intro; stac]. apply adds_try; [|intro; stac].
    (* the buffer is loaded first *)
    intro s. unfold bind at 1. 
    assert (B : satL (adds [f]) (d <- lift (loadFileData f);; setl (Some (fst d)) ;;; lift (X (snd d)) : M (option nat * world) unit)).
    { apply addsL_bind; [apply satL_lift, adds_data|]. intro. stac. }
    specialize (B s). destruct ((d <- lift (loadFileData f);; setl (Some (fst d)) ;;; lift (X (snd d)) : M (option nat * world) unit) s) as [u s1|s1|]; [|exact B|exact I].
    assert (G : satL shut (b <- getl;; lift (free_opt b))) by stac. specialize (G s1).
    destruct ((b <- getl;; lift (free_opt b)) s1); [| |exact I]; eapply adds_shut; eauto. }
  destruct (image_cases os f HU) as [(_ & E)|(a & _ & E1 & E2 & E3)].
  - rewrite (image_elf _ _ E). apply K. intro. stac.
  - rewrite (image_bin _ _ E1 E2). apply K. intro. unfold loadBinFile, MemorySim_LoadFromFlashImage. stac.
Qed.

Lemma dump_opens os g w : uses_dump os g ->
  match loadDumpFile (settings os) w with
  | Ret _ w' => adds [g; g] w w'
  | Exc w' => adds [g] w w' \/ adds [g; g] w w'
  | Ub _ => True
  end.
Proof.
  intro HU. unfold loadDumpFile. rewrite (set_dump _ _ HU). unfold bind. pose proof (adds_type g w) as T.
  destruct (getFileType g w) as [t w1|w1|]; [|now left|exact I].
  assert (S : sat (adds [g]) (match t with GDB_LOG => GdbLogParse g | CRASH_CATCHER_BIN => CrashCatcherDump_ReadBinary g | CRASH_CATCHER_HEX => CrashCatcherDump_ReadHex g end))
    by (destruct t; [apply adds_log|apply adds_read|apply adds_read]).
  specialize (S w1). unfold adds in *.
  destruct t; match goal with |- match ?m w1 with _ => _ end => destruct (m w1) end; try exact I; try right; rewrite S, T; reflexivity.
Qed.

Lemma aliases_shut os : sat shut (make_aliases os).
Proof. induction os as [|[f|f a|f|b s r] os IH]; cbn [make_aliases]; try exact IH; stac. Qed.
Lemma freeRegions_shut rs : sat shut (freeRegions rs).
Proof. induction rs as [|r rs IH]; cbn [freeRegions]; unfold freeRegion; stac. Qed.
Lemma uninit_shut : sat shut MemorySim_Uninit.
Proof. pose proof freeRegions_shut. unfold MemorySim_Uninit. stac; intro w; reflexivity. Qed.
Lemma failing_shut b : sat shut (failing b).
Proof.
  pose proof uninit_shut. assert (forall s, sat shut (eprintf s)) by (intros s w; reflexivity).
  unfold failing, displayExceptionMessage, displayCopyrightNotice, displayUsage. stac.
Qed.

Lemma init_opens args os f g w : heap_sane w -> (forall f data, file_is w f data -> Forall byte data) ->
  spells args os -> complete os -> uses_image os f -> uses_dump os g ->
  match CrashDebugCommandLine_Init args w with
  | Ret _ w' => adds [g; g; f] w w'
  | Exc w' => adds [f] w w' \/ adds [g; f] w w' \/ adds [g; g; f] w w'
  | Ub _ => True
  end.
Proof.
  intros HH HB HS HC HU HD. rewrite (init_stages _ _ _ HS HC). set (w0 := set_exn (blank_state w) noException []).
  pose proof (stages_any os _ w0 HC (blank_inv w HH) eq_refl eq_refl HB) as SA. rewrite stages_eq in *.
  assert (FL : forall l w1, adds l w w1 -> match failing true w1 with Ret _ _ => False | Exc w' => adds l w w' | Ub _ => True end).
  { intros l w1 A. pose proof (failing_shut true w1) as S. pose proof (failing_raises true w1) as R. destruct (failing true w1); [exact R| |exact I]. eapply adds_shut; eauto. }
  assert (FM : forall w1, init_code (w_code w1) -> adds [f] w w1 \/ adds [g; f] w w1 \/ adds [g; g; f] w w1 ->
     match (if w_code w1 =? 0 then Ret (settings os, true) w1 else failing true w1) with
     | Ret _ w' => adds [g; g; f] w w'
     | Exc w' => adds [f] w w' \/ adds [g; f] w w' \/ adds [g; g; f] w w'
     | Ub _ => True
     end).
  { intros w1 C A. apply init_code_nonzero in C as (C & _). replace (w_code w1 =? 0) with false by lia.
    destruct A as [A|[A|A]]; specialize (FL _ _ A); destruct (failing true w1); auto; destruct FL. }
  pose proof (adds_image os f HU w0) as P1. destruct (loadImageFile (settings os) w0) as [[] w1|w1|]; [| |exact I].
  2:{ apply FM; [apply SA|]. left. exact P1. }
  pose proof (dump_opens os g w1 HD) as P2. destruct (loadDumpFile (settings os) w1) as [[] w2|w2|]; [| |exact I].
  2:{ apply FM; [apply SA|]. unfold adds in *. change (fs_opened (w_files w0)) with (fs_opened (w_files w)) in P1. right. destruct P2 as [P2|P2]; [left|right]; rewrite P2, P1; reflexivity. }
  assert (A2 : adds [g; g; f] w w2) by (unfold adds in *; rewrite P2, P1; reflexivity).
  pose proof (aliases_shut os w2) as P3. destruct (make_aliases os w2) as [[] w3|w3|]; [| |exact I]; pose proof (adds_shut _ _ _ _ A2 P3) as A3.
  - destruct SA as (_ & _ & _ & ->). cbn [Z.eqb]. exact A3.
  - apply FM; [apply SA|]. right. right. exact A3.
Qed.

(** ** The channel during start-up *)

Lemma image_still c : sat still (loadImageFile c).
Proof. apply (c_image still still_closed). intros; split; reflexivity. Qed.
Lemma dump_still c : sat still (loadDumpFile c).
Proof. apply (c_dump still still_closed); intros; [apply c_create|apply c_writeN]; try exact still_closed; intros; split; reflexivity. Qed.
Lemma aliases_still os : sat still (make_aliases os).
Proof.
  induction os as [|[f|f a|f|b s r] os IH]; cbn [make_aliases]; try exact IH; [apply sat_ret, still_pre|].
  apply sat_bind; [apply still_pre|apply (c_alias_option still still_closed); intros; split; reflexivity|intros; exact IH].
Qed.
Lemma freeRegions_still rs : sat still (freeRegions rs).
Proof.
  assert (F : forall b, sat still (free b)) by (intro; apply (c_free still still_closed)). assert (FO : forall b, sat still (free_opt b)) by (intro; apply (c_free_opt still still_closed)).
  induction rs as [|r rs IH]; cbn [freeRegions]; unfold freeRegion; repeat (apply sat_bind; [apply still_pre| |intros]); auto. apply sat_ret, still_pre.
Qed.
Lemma uninit_still : sat still MemorySim_Uninit.
Proof.
  unfold MemorySim_Uninit. repeat (apply sat_bind; [apply still_pre| |intros]); [apply sat_getw, still_pre|apply freeRegions_still|apply (c_free_opt still still_closed)|].
  intro w. split; reflexivity.
Qed.
Lemma failing_still b : sat still (failing b).
Proof.
  assert (E : forall s, sat still (eprintf s)) by (intros s w; split; reflexivity).
  unfold failing, displayExceptionMessage, displayCopyrightNotice, displayUsage.
  repeat (apply sat_bind; [apply still_pre| |intros]); try apply E; [apply sat_getw, still_pre|destruct b; [apply uninit_still|apply sat_ret, still_pre]|apply (c_rethrow still still_closed)].
Qed.
Lemma init_still args : sat still (CrashDebugCommandLine_Init args).
Proof.
  intro w. destruct (parse_any (length args) args (le_n _)) as [(os & HS)|[N _]].
  2:{ destruct (init_rejected args w) as (m & E); [intros (os & HS & _); exact (N os HS)|]. cbv zeta in E. rewrite E. 
      match goal with |- context[failing false ?x] => pose proof (failing_still false x) as F; destruct (failing false x) end; exact F. }
  destruct (required_check os w) as [[HC _]|[NC _]].
  - rewrite (init_stages _ _ _ HS HC), stages_eq. set (w0 := set_exn (blank_state w) noException []).
    assert (FL : forall w1, still w w1 -> match (if w_code w1 =? 0 then Ret (settings os, true) w1 else failing true w1) with Ret _ w' => still w w' | Exc w' => still w w' | Ub _ => True end).
    { intros w1 S. destruct (w_code w1 =? 0); [exact S|]. pose proof (failing_still true w1) as F. destruct (failing true w1); [| |exact I]; eapply pre_trans; eauto using still_pre. }
    pose proof (image_still (settings os) w0) as P1. change (match loadImageFile (settings os) w0 with Ret _ w' => still w w' | Exc w' => still w w' | Ub _ => True end) in P1.
    destruct (loadImageFile (settings os) w0) as [[] w1|w1|]; [|apply FL, P1|exact I].
    pose proof (dump_still (settings os) w1) as P2. destruct (loadDumpFile (settings os) w1) as [[] w2|w2|]; [| |exact I].
    2:{ apply FL. eapply pre_trans; eauto using still_pre. }
    pose proof (aliases_still os w2) as P3. destruct (make_aliases os w2) as [[] w3|w3|]; [| |exact I]; apply FL; eapply pre_trans; eauto using still_pre; eapply pre_trans; eauto using still_pre.
  - destruct (init_rejected args w) as (m & E).
    { intros (os' & HS' & HC'). apply NC. destruct (parse_spelled _ _ HS) as [P1 _]. destruct (parse_spelled _ _ HS') as [P2 _].
      assert (E : settings os' = settings os) by (specialize (P1 no_settings w); specialize (P2 no_settings w); unfold settings; congruence).
      destruct (required_check os w) as [[Z _]|[_ (m & Z)]]; [exact Z|]. destruct (required_check os' w) as [[_ Z']|[Z' _]]; [congruence|contradiction]. }
    cbv zeta in E. rewrite E. match goal with |- context[failing false ?x] => pose proof (failing_still false x) as F; destruct (failing false x) end; exact F.
Qed.

(** ** The session opens nothing *)

Lemma o_readN n a : sat shut (readN n a). Proof. unfold readN, load_ptr. stac. Qed.
Lemma o_count : sat shut countFault. Proof. intro w. unfold countFault. destruct (_ <? _); [reflexivity|exact I]. Qed.
Lemma o_ctx o n : sat shut (ctx_bytes o n). Proof. intro w. unfold ctx_bytes. destruct (_ && _); [reflexivity|exact I]. Qed.
#[export] Hint Resolve o_readN o_count o_ctx : sh.
Lemma o_fpu : sat shut hasFPURegisters. Proof. unfold hasFPURegisters. stac. Qed.
Lemma o_bytes n : forall o t, sat shut (readBytesFromBufferAsHex n o t).
Proof. induction n as [|n IH]; intros o t; cbn [readBytesFromBufferAsHex]; stac. Qed.
Lemma o_xml : sat shut MemorySim_GetMemoryMapXML.
Proof. unfold MemorySim_GetMemoryMapXML, realloc, set_xml. stac. all: intro w; reflexivity. Qed.
#[export] Hint Resolve o_fpu o_bytes o_xml : sh.
Lemma o_try m : sat shut m -> sat shut (try_read m). Proof. intro. unfold try_read. stac. Qed.
Lemma o_say s : sat shut (say s). Proof. sh_now. Qed.
Lemma o_sayhex s : sat shut (sayHex s). Proof. sh_now. Qed.
Lemma o_sayIf v b s : sat shut (sayIf v b s). Proof. unfold sayIf. destruct (Z.testbit _ _); [apply o_say|apply sat_ret, shut_pre]. Qed.
#[export] Hint Resolve o_say o_sayhex o_sayIf : sh.
#[export] Hint Extern 1 (sat shut (try_read _)) => apply o_try; stac : sh.
Lemma o_report : sat shut Platform_DisplayFaultCauseToGdbConsole.
Proof.
  assert (forall r, sat shut (displayFaultAddress r)) by (intro; unfold displayFaultAddress, read32; stac).
  assert (sat shut displayMemFaultCauseToGdbConsole) by (unfold displayMemFaultCauseToGdbConsole, read32; stac).
  assert (sat shut displayBusFaultCauseToGdbConsole) by (unfold displayBusFaultCauseToGdbConsole, read32; stac).
  assert (sat shut displayUsageFaultCauseToGdbConsole) by (unfold displayUsageFaultCauseToGdbConsole, read32; stac).
  assert (sat shut displayHardFaultCauseToGdbConsole) by (unfold displayHardFaultCauseToGdbConsole, read32; stac).
  unfold Platform_DisplayFaultCauseToGdbConsole, getCurrentlyExecutingExceptionNumber. stac.
Qed.
#[export] Hint Resolve o_report : sh.
Lemma o_hasdata : sat shut hasReceiveData.
Proof. assert (sat shut Console_HasStdInDataToRead) by (intro w; unfold Console_HasStdInDataToRead; destruct (e_poll _ _); reflexivity). assert (sat shut clearExceptionCode) by (intro w; reflexivity). unfold hasReceiveData. stac. Qed.
Lemma o_receive : sat shut receiveChar.
Proof.
  assert (sat shut Console_ReadStdIn) by (intro w; unfold Console_ReadStdIn; destruct (e_read _ _); reflexivity). assert (forall b, sat shut (set_connected b)) by (intros b w; reflexivity).
  unfold receiveChar. stac.
Qed.
Lemma o_send c : sat shut (sendChar c).
Proof. intro w. unfold sendChar, Console_WriteStdOut. destruct (e_write _ _); reflexivity. Qed.
#[export] Hint Resolve o_hasdata o_receive o_send : sh.
Lemma o_pcall p : sat shut (pcall_run p).
Proof.
  assert (sat shut Platform_WasMemoryFaultEncountered) by (intro w; reflexivity).
  destruct p; cbn [pcall_run]; unfold num, nothing; [destruct c; cbn [control_run]; unfold num, nothing|..];
    unfold Platform_MemRead, Platform_MemWrite, Platform_DetermineCauseOfException, getCurrentlyExecutingExceptionNumber, Platform_CopyContextToBuffer,
      Platform_CopyContextFromBuffer, Platform_WriteTResponseRegistersToBuffer, Platform_GetDeviceMemoryMapXml, Platform_GetDeviceMemoryMapXmlSize, Platform_GetTargetXml,
      Platform_GetTargetXmlSize; stac.
  all: try (intro w; reflexivity).
  all: unfold Platform_CommHasReceiveData, Platform_CommReceiveChar, Platform_CommSendChar, Platform_CommIsWaitingForGdbToConnect, isGdbConnected; stac.
Qed.

Lemma o_monitor m : sat shut (monitor_run m).
Proof.
  induction m as [|c|p k IH1 h IH2]; cbn [monitor_run]; [apply sat_ret, shut_pre|apply o_throw|]. intro w. unfold api.
  pose proof (o_pcall p (set_exn w noException [])) as P. destruct (pcall_run p (set_exn w noException [])) as [v w1|w1|]; [| |exact I].
  - specialize (IH1 v w1). destruct (monitor_run (k v) w1); [| |exact I]; unfold shut in *; rewrite IH1; exact P.
  - specialize (IH2 (w_code w1) w1). destruct (monitor_run (h (w_code w1)) w1); [| |exact I]; unfold shut in *; rewrite IH2; exact P.
Qed.

Lemma after_shut w : shut w (after_handler w).
Proof. unfold after_handler. destruct (known_error _); reflexivity. Qed.

(** The whole program opens what start-up opens. *)
Lemma main_opens m args w s w' : main (monitor_run m) args w = Ret s w' ->
  exists w1, (exists a, CrashDebugCommandLine_Init args w = Ret a w1 \/ CrashDebugCommandLine_Init args w = Exc w1) /\ shut w1 w'.
Proof.
  rewrite main_run. intro E.
  assert (U : forall b (s : Z), sat shut (CrashDebugCommandLine_Uninit b ;;; ret s)) by (intros b s0; pose proof uninit_shut; unfold CrashDebugCommandLine_Uninit; destruct b; stac).
  destruct (CrashDebugCommandLine_Init args w) as [[c b] w1|w1|]; [| |discriminate].
  - exists w1. split; [exists (c, b); now left|]. pose proof (o_monitor m (monitor_start w1)) as O. change (match monitor_run m (monitor_start w1) with Ret _ w2 => shut w1 w2 | Exc w2 => shut w1 w2 | Ub _ => True end) in O.
    destruct (monitor_run m (monitor_start w1)) as [[] w2|w2|]; [| |discriminate]; (destruct (w_code w2 =? 0);
      [pose proof (U b 0 w2) as P|pose proof (U b (-1) (after_handler w2)) as P]; rewrite E in P; unfold shut in *; rewrite P; [|rewrite after_shut]; exact O).
  - exists w1. split; [exists (mkCL None None None 0, false); now right|]. destruct (w_code w1 =? 0); injection E as <- <-; [reflexivity|apply after_shut].
Qed.
