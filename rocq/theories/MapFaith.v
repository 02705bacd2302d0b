(** What the memory map says of a region agrees with what the region does: proofs. *)
From Coq Require Import String ZArith List Bool Lia ZifyBool ZifyNat Wf_nat.
From Verif Require Import Base World Context MemSim Dump GdbLog Elf CmdLine Platform Comm BaseLemmas MemSpec Sat MemLemmas MemInv MemOps MemThms DumpSpec ElfSpec CmdSpec Closed CmdThms CmdSafe CmdFull PlatSpec MapSpec MapThms.
Import ListNotations.
Open Scope Z_scope.

(** ** Aliases are read-only exactly if their targets are *)

Definition plain (rs : list region) : Prop := forall r, In r rs -> r_redir r = None.
Definition faithful (rs : list region) : Prop :=
  forall i r j, nth_error rs i = Some r -> r_redir r = Some j -> exists t, nth_error rs j = Some t /\ r_ro t = r_ro r.

Lemma plain_faithful rs : plain rs -> faithful rs.
Proof. intros H i r j N E. rewrite (H r (nth_error_In _ _ N)) in E. discriminate. Qed.
Lemma faithful_add rs r : faithful rs -> (forall j, r_redir r = Some j -> exists t, nth_error rs j = Some t /\ r_ro t = r_ro r) -> faithful (rs ++ [r]).
Proof.
  intros H Hr i x j N E. assert (M : exists t, nth_error rs j = Some t /\ r_ro t = r_ro x).
  { destruct (Nat.lt_ge_cases i (length rs)) as [L|L].
    - rewrite nth_error_app1 in N by exact L. eapply H; eauto.
    - rewrite nth_error_app2 in N by exact L. destruct (i - length rs)%nat as [|k]; cbn in N; [|destruct k; discriminate]. injection N as <-. now apply Hr. }
  destruct M as (t & Nt & Et). exists t. split; [|exact Et]. rewrite nth_error_app1; [exact Nt|]. apply nth_error_Some. congruence.
Qed.
Lemma faithful_upd rs i f : (forall r, r_redir (f r) = r_redir r /\ r_ro (f r) = r_ro r) -> faithful rs -> faithful (upd_nth i f rs).
Proof.
  intros Hf H k x j N E. rewrite nth_error_upd_nth in N.
  assert (X : exists y, nth_error rs k = Some y /\ r_redir x = r_redir y /\ r_ro x = r_ro y).
  { destruct (Nat.eqb i k); [|exists x; auto]. destruct (nth_error rs k) as [y|]; [|discriminate]. injection N as <-. exists y. split; [reflexivity|apply Hf]. }
  destruct X as (y & Ny & E1 & E2). rewrite E1 in E. destruct (H k y j Ny E) as (t & Nt & Et). rewrite nth_error_upd_nth.
  destruct (Nat.eqb i j); [|exists t; split; [exact Nt|congruence]]. rewrite Nt. exists (f t). split; [reflexivity|]. rewrite (proj2 (Hf t)). congruence.
Qed.
Lemma plain_upd rs i f : (forall r, r_redir (f r) = r_redir r) -> plain rs -> plain (upd_nth i f rs).
Proof.
  intros Hf H r I. apply In_nth_error in I as (k & N). rewrite nth_error_upd_nth in N. destruct (Nat.eqb i k); [|eapply H, nth_error_In; eauto].
  destruct (nth_error rs k) as [y|] eqn:Y; [|discriminate]. injection N as <-. rewrite Hf. eapply H, nth_error_In; eauto.
Qed.
Lemma plain_add rs r : plain rs -> r_redir r = None -> plain (rs ++ [r]).
Proof. intros H Hr x I. apply in_app_or in I as [I|[<-|[]]]; auto. Qed.

(** ** No loader makes an alias *)

Definition noal (w w' : world) : Prop := plain (regions w) -> plain (regions w').
Definition faith (w w' : world) : Prop := faithful (regions w) -> faithful (regions w').

Lemma noal_pre : preorder noal. Proof. split; [intros w H; exact H|intros a b c H1 H2 H; auto]. Qed.
Lemma faith_pre : preorder faith. Proof. split; [intros w H; exact H|intros a b c H1 H2 H; auto]. Qed.
Lemma noal_closed : closed noal.
Proof. split; [apply noal_pre| | | | | |]; intros; intro; auto. Qed.
Lemma faith_closed : closed faith.
Proof. split; [apply faith_pre| | | | | |]; intros; intro; auto. Qed.

Lemma no_upd i f : (forall r, r_redir (f r) = r_redir r) -> sat noal (upd_region i f).
Proof. intros Hf w. unfold upd_region, modw. intro H. now apply (plain_upd (regions w)). Qed.
Lemma fa_upd i f : (forall r, r_redir (f r) = r_redir r /\ r_ro (f r) = r_ro r) -> sat faith (upd_region i f).
Proof. intros Hf w. unfold upd_region, modw. intro H. now apply (faithful_upd (regions w)). Qed.
Lemma no_add r : r_redir r = None -> sat noal (addRegionToTail r).
Proof. intros Hr w. unfold addRegionToTail, modw. intro H. now apply (plain_add (regions w)). Qed.
Lemma check_regions P r a n t : closed P -> (forall w h, P w (set_hits w h)) -> sat P (checkForBreakWatchPoint r a n t).
Proof.
  intros HP HH w. unfold checkForBreakWatchPoint. destruct (scan_wps _ _ _ _ _ _) as [h []]; [|apply HH].
  eapply pre_trans; [apply HP|apply HH|]. apply (c_throw P HP (A := unit) hardwareBreakpointException). discriminate.
Qed.
Lemma no_check r a n t : sat noal (checkForBreakWatchPoint r a n t).
Proof. apply check_regions; [apply noal_closed|intros w h H; exact H]. Qed.
Lemma fa_check r a n t : sat faith (checkForBreakWatchPoint r a n t).
Proof. apply check_regions; [apply faith_closed|intros w h H; exact H]. Qed.

#[export] Hint Resolve noal_closed faith_closed no_check fa_check noal_pre faith_pre : closed.
#[export] Hint Extern 1 (sat noal (upd_region _ _)) => apply no_upd; reflexivity : closed.
#[export] Hint Extern 1 (sat faith (upd_region _ _)) => apply fa_upd; split; reflexivity : closed.
#[export] Hint Extern 1 (sat noal (addRegionToTail _)) => apply no_add; reflexivity : closed.

Lemma no_create b s : sat noal (MemorySim_CreateRegion b s).
Proof. pose proof noal_closed. unfold MemorySim_CreateRegion, freeNewRegion. ctac. Qed.
Lemma no_readonly b : sat noal (MemorySim_MakeRegionReadOnly b).
Proof. pose proof noal_closed. unfold MemorySim_MakeRegionReadOnly, allocateReadCountArrayForReadOnlyRegion. ctac. Qed.
Lemma no_gdp a n t c : sat noal (getDataPointer a n t c).
Proof. pose proof noal_closed. unfold getDataPointer, incReadCount. ctac. Qed.
Lemma no_store p bs : sat noal (store_ptr p bs).
Proof. pose proof noal_closed. unfold store_ptr. ctac. Qed.
#[export] Hint Resolve no_create no_readonly no_gdp no_store : closed.
Lemma no_writeN n a v : sat noal (writeN n a v).
Proof. pose proof noal_closed. unfold writeN. ctac. Qed.
Lemma no_load_bytes n : forall src a, sat noal (load_bytes n src a).
Proof. pose proof noal_closed. induction n as [|n IH]; intros [|b src] a; cbn [load_bytes]; unfold load8; ctac. Qed.
#[export] Hint Resolve no_writeN no_load_bytes : closed.
Lemma no_load_words n : forall src a, sat noal (load_words n src a).
Proof.
  pose proof noal_closed. induction n as [n IH] using lt_wf_ind; intros src a.
  destruct n as [|[|[|[|[|m]]]]]; try apply no_load_bytes. cbn [load_words].
  destruct src as [|b0 [|b1 [|b2 [|b3 t]]]]; try apply sat_ub. unfold load32. ctac. all: try (apply IH; lia).
Qed.
#[export] Hint Resolve no_load_words : closed.
Lemma no_entry b ph : sat noal (loadIfFlashLoadableEntry b ph).
Proof.
  pose proof noal_closed. pose proof (c_blob noal noal_closed). pose proof (c_fetch noal noal_closed).
  unfold loadIfFlashLoadableEntry, MemorySim_LoadFromFlashImage. ctac.
Qed.
#[export] Hint Resolve no_entry : closed.
Lemma no_entries n : forall b e i off c, sat noal (loadFlashLoadableEntries n b e i off c).
Proof. pose proof noal_closed. pose proof (c_fetch noal noal_closed). induction n as [|n IH]; intros; cbn [loadFlashLoadableEntries]; ctac. Qed.
#[export] Hint Resolve no_entries : closed.
Lemma no_elf b : sat noal (ElfLoad_FromMemory b).
Proof. pose proof noal_closed. pose proof (c_blob noal noal_closed). pose proof (c_fetch noal noal_closed). unfold ElfLoad_FromMemory, initLoadObject, validateElfHeaderContents. ctac. Qed.
Lemma no_image c : sat noal (loadImageFile c).
Proof.
  pose proof noal_closed. pose proof (c_file_data noal noal_closed). pose proof no_elf.
  unfold loadImageFile, loadBinFile, MemorySim_LoadFromFlashImage. ctac. intro s. exact I.
Qed.
Lemma no_dump c : sat noal (loadDumpFile c).
Proof. apply c_dump; auto with closed. Qed.

(** ** Aliases and everything the monitor calls keep the agreement *)

Lemma fa_alias b r s : sat faith (MemorySim_CreateAlias b r s).
Proof.
  pose proof faith_closed as HC. unfold MemorySim_CreateAlias. apply sat_bind; [apply faith_pre| |intro; apply sat_ret, faith_pre].
  apply sat_try; [apply faith_pre|apply (cl_clear _ HC)| |intro l; unfold freeNewRegion; ctac].
  apply satL_bind; [apply faith_pre|ctac|intro x]. apply satL_bind; [apply faith_pre|ctac|intros _].
  intros [l w]. unfold bind at 1, lift at 1, findMatchingRegion. cbn [fst snd]. destruct (find_from _ _ _ _) as [[j a']|]; [|intro H; exact H].
  unfold bind at 1, lift at 1, get_region. cbn [fst snd]. destruct (nth_error _ j) as [t|] eqn:Nt; [|exact I]. cbv zeta.
  unfold bind at 1, lift at 1. pose proof (c_zmalloc faith HC s w) as F. unfold throwingZeroedMalloc, bind, malloc in *. cbn [fst snd] in *.
  destruct (e_malloc _ _ _); cbn [fst snd ret setl lift addRegionToTail modw throw] in *; [|exact F].
  intro H. change (faithful (regions w ++ [mkR b (if W (r_size t - (r - r_base t)) <? s then W (r_size t - (r - r_base t)) else s) (Some j) r (zeros s) [] 0 None (r_ro t) x (h_next (w_heap w)) None])).
  apply faithful_add; [exact H|]. intros j' E. injection E as <-. exists t. split; [exact Nt|reflexivity].
Qed.

Lemma fa_same m : (forall w, regions (m w) = regions w) -> sat faith (modw m).
Proof. intros E w. unfold modw. intro H. rewrite E. exact H. Qed.
Lemma fa_throw {A} e : sat faith (throw e : M world A).
Proof. intros w H. exact H. Qed.
#[export] Hint Resolve fa_throw fa_alias : closed.
#[export] Hint Extern 1 (sat faith (modw _)) => apply fa_same; reflexivity : closed.

Lemma fa_option b s r : sat faith (createAliasOption b s r).
Proof. pose proof faith_closed. unfold createAliasOption. cbv zeta. ctac. Qed.
Lemma fa_aliases os : sat faith (make_aliases os).
Proof. pose proof faith_closed. pose proof fa_option. induction os as [|[] os IH]; cbn [make_aliases]; ctac. Qed.

Lemma started_faithful args os w c w' : spells args os -> complete os -> api (CrashDebugCommandLine_Init args) w = Done c w' -> faithful (regions w').
Proof.
  intros HS HC HI. destruct (init_done _ _ _ _ _ HS HC HI) as (E & _). set (w0 := set_exn (blank_state w) noException []) in *.
  assert (P0 : plain (regions w0)) by (intros r []). rewrite stages_eq in E.
  pose proof (no_image (settings os) w0) as X. destruct (loadImageFile _ w0) as [u w1|w1|].
  2:{ destruct E as [E|E]; [discriminate|]. injection E as <-. apply plain_faithful, X, P0. }
  2:{ destruct E; discriminate. }
  pose proof (no_dump (settings os) w1) as Y. destruct (loadDumpFile _ w1) as [u2 w2|w2|].
  2:{ destruct E as [E|E]; [discriminate|]. injection E as <-. apply plain_faithful, Y, X, P0. }
  2:{ destruct E; discriminate. }
  pose proof (fa_aliases os w2) as Q. destruct E as [E|E]; rewrite E in Q; apply Q, plain_faithful, Y, X, P0.
Qed.

(** ** The calls of the monitor *)

Lemma fa_gdp a n t c : sat faith (getDataPointer a n t c).
Proof. pose proof faith_closed. unfold getDataPointer, incReadCount. ctac. Qed.
Lemma fa_store p bs : sat faith (store_ptr p bs).
Proof. pose proof faith_closed. unfold store_ptr. ctac. Qed.
#[export] Hint Resolve fa_gdp fa_store : closed.
Lemma fa_readN n a : sat faith (readN n a).
Proof. pose proof faith_closed. unfold readN, load_ptr. ctac. Qed.
Lemma fa_writeN n a v : sat faith (writeN n a v).
Proof. pose proof faith_closed. unfold writeN. ctac. Qed.
Lemma fa_count : sat faith countFault.
Proof. intro w. unfold countFault. destruct (_ <? _); [intro H; exact H|exact I]. Qed.
Lemma fa_ctx o n : sat faith (ctx_bytes o n).
Proof. intro w. unfold ctx_bytes. destruct (_ && _); [intro H; exact H|exact I]. Qed.
#[export] Hint Resolve fa_readN fa_writeN fa_count fa_ctx : closed.
Lemma fa_fpu : sat faith hasFPURegisters.
Proof. pose proof faith_closed. unfold hasFPURegisters. ctac. Qed.
Lemma fa_bytes n : forall o t, sat faith (readBytesFromBufferAsHex n o t).
Proof. pose proof faith_closed. induction n as [|n IH]; intros o t; cbn [readBytesFromBufferAsHex]; ctac. Qed.
Lemma fa_xml : sat faith MemorySim_GetMemoryMapXML.
Proof. pose proof faith_closed. unfold MemorySim_GetMemoryMapXML, realloc, set_xml. ctac. Qed.
#[export] Hint Resolve fa_fpu fa_bytes fa_xml : closed.
Lemma fa_try m : sat faith m -> sat faith (try_read m).
Proof. intro. pose proof faith_closed. unfold try_read. ctac. Qed.
Lemma fa_say s : sat faith (say s). Proof. intros w H. exact H. Qed.
Lemma fa_hex s : sat faith (sayHex s). Proof. intros w H. exact H. Qed.
Lemma fa_sayIf v b s : sat faith (sayIf v b s).
Proof. unfold sayIf. destruct (Z.testbit _ _); [apply fa_say|apply sat_ret, faith_pre]. Qed.
#[export] Hint Resolve fa_say fa_hex fa_sayIf : closed.
#[export] Hint Extern 1 (sat faith (try_read _)) => apply fa_try; ctac : closed.
Lemma fa_report : sat faith Platform_DisplayFaultCauseToGdbConsole.
Proof.
  pose proof faith_closed.
  assert (forall r, sat faith (displayFaultAddress r)) by (intro; unfold displayFaultAddress, read32; ctac).
  assert (sat faith displayMemFaultCauseToGdbConsole) by (unfold displayMemFaultCauseToGdbConsole, read32; ctac).
  assert (sat faith displayBusFaultCauseToGdbConsole) by (unfold displayBusFaultCauseToGdbConsole, read32; ctac).
  assert (sat faith displayUsageFaultCauseToGdbConsole) by (unfold displayUsageFaultCauseToGdbConsole, read32; ctac).
  assert (sat faith displayHardFaultCauseToGdbConsole) by (unfold displayHardFaultCauseToGdbConsole, read32; ctac).
  unfold Platform_DisplayFaultCauseToGdbConsole, getCurrentlyExecutingExceptionNumber. ctac.
Qed.
Lemma fa_hasdata : sat faith hasReceiveData.
Proof.
  pose proof faith_closed. assert (sat faith Console_HasStdInDataToRead) by (intro w; unfold Console_HasStdInDataToRead; destruct (e_poll _ _); intro X; exact X).
  assert (sat faith clearExceptionCode) by (intros w X; exact X). unfold hasReceiveData. ctac.
Qed.
Lemma fa_receive : sat faith receiveChar.
Proof.
  pose proof faith_closed. assert (sat faith Console_ReadStdIn) by (intro w; unfold Console_ReadStdIn; destruct (e_read _ _); intro X; exact X).
  unfold receiveChar, set_connected. ctac.
Qed.
Lemma fa_send c : sat faith (sendChar c).
Proof. intro w. unfold sendChar, Console_WriteStdOut. destruct (e_write _ _); intro X; exact X. Qed.
#[export] Hint Resolve fa_report fa_hasdata fa_receive fa_send : closed.

Lemma fa_pcall p : sat faith (pcall_run p).
Proof.
  pose proof faith_closed. assert (sat faith Platform_WasMemoryFaultEncountered) by (intros w X; exact X). destruct p; cbn [pcall_run]; unfold num, nothing; [destruct c; cbn [control_run]; unfold num, nothing|..];
    unfold Platform_MemRead, Platform_MemWrite, Platform_DetermineCauseOfException, getCurrentlyExecutingExceptionNumber, Platform_CopyContextToBuffer,
      Platform_CopyContextFromBuffer, Platform_WriteTResponseRegistersToBuffer, Platform_GetDeviceMemoryMapXml, Platform_GetDeviceMemoryMapXmlSize, Platform_GetTargetXml,
      Platform_GetTargetXmlSize, Platform_CommHasReceiveData, Platform_CommReceiveChar, Platform_CommSendChar, Platform_CommIsWaitingForGdbToConnect, isGdbConnected; ctac.
  all: try (intros w X; exact X).
Qed.
Lemma fa_api {A} (m : M world A) w : sat faith m -> faithful (regions w) -> match api m w with Done _ w' | Raised _ w' => faithful (regions w') | Crashed _ => True end.
Proof. intros H F. unfold api. specialize (H (set_exn w noException [])). destruct (m _); try exact I; apply H; exact F. Qed.
Lemma fa_prun ps : forall w w', prun ps w = Some w' -> faithful (regions w) -> faithful (regions w').
Proof.
  induction ps as [|p ps IH]; cbn [prun]; intros w w' E F; [injection E as <-; exact F|]. unfold pstep in E. pose proof (fa_api (pcall_run p) w (fa_pcall p) F) as X.
  destruct (api _ w); try discriminate; eauto.
Qed.

(** ** Agreement *)

Lemma write_agrees w a n v i r : faithful (regions w) -> u32 a -> width n -> first_cover (regions w) a n i r ->
  (exists w', api (writeN n a v) w = Raised busErrorException w') <-> r_ro r = true.
Proof.
  intros HF Ha Hn FC. pose proof (width_pos _ Hn) as Hp. pose proof (find_first 0 _ _ _ _ _ FC) as F. cbn [Nat.add] in F. destruct FC as (N & _).
  assert (T : exists j a' t, find_from 0 (regions w) a n = Some (j, a') /\ nth_error (regions w) j = Some t /\ r_ro t = r_ro r).
  { destruct (r_redir r) as [j|] eqn:E; rewrite F.
    - destruct (HF _ _ _ N E) as (t & Nt & Et). eauto 6.
    - eauto 6. }
  destruct T as (j & a' & t & F' & Nt & Et). rewrite <- Et. unfold api, writeN, getDataPointer. set (w0 := set_exn w noException []).
  unfold bind at 1. unfold bind at 1. unfold findMatchingRegion. change (regions w0) with (regions w). rewrite F'. unfold bind at 1, get_region. cbn [fst snd]. change (regions w0) with (regions w). rewrite Nt. cbv zeta.
  change (WRITING =? WRITING) with true. change (WRITING =? READING) with false. cbn [andb]. destruct (r_ro t).
  - split; [reflexivity|]. intros _. unfold bind, throw. eexists. reflexivity.
  - split; [|discriminate]. intros (w' & E). exfalso. unfold bind, ret, checkForBreakWatchPoint in E.
    pose proof (scan_writing (r_wps t) a' (W (a' + n)) n (m_hits (w_mem w0))) as S. destruct (scan_wps _ _ _ _ _ _) as [h brk]. cbn in S. subst brk.
    destruct (_ <=? _); [|discriminate]. unfold store_ptr, bind, get_region in E. cbn [fst snd] in E. destruct (nth_error _ j); [|discriminate]. destruct (_ && _); discriminate.
Qed.

Lemma line_kind r : (flash_line (map_line r) <-> r_ro r = true) /\ (ram_line (map_line r) <-> r_ro r <> true).
Proof.
  unfold flash_line, ram_line, map_line. destruct (r_ro r).
  - split; (split; [|intro]); try reflexivity; try congruence.
    + eexists. rewrite <- (app_assoc (s2b "<memory type=""flash"" start=") (s2b """0x")). reflexivity.
    + intros (x & E). discriminate E.
  - split; (split; [|intro]); try discriminate.
    + intros (x & E). discriminate E.
    + eexists. rewrite <- (app_assoc (s2b "<memory type=""ram"" start=") (s2b """0x")). reflexivity.
Qed.
Lemma xml_keeps w x w1 : api MemorySim_GetMemoryMapXML w = Done x w1 -> regions w1 = regions w.
Proof.
  unfold api, MemorySim_GetMemoryMapXML, bind, getw, realloc, malloc, bind. cbn [w_env set_exn w_heap]. destruct (e_malloc _ _ _); [|discriminate].
  unfold free_opt, free. destruct (option_map _ _) as [b|].
  - destruct (is_live _ _); [|discriminate]. unfold ret. destruct (build_xml _ _); [|discriminate]. intro H. injection H as <- <-. reflexivity.
  - unfold ret. destruct (build_xml _ _); [|discriminate]. intro H. injection H as <- <-. reflexivity.
Qed.

(** ** Nothing simulated *)

Lemma empty_refuses w : regions w = [] -> no_memory w.
Proof.
  intro E. assert (F : forall a n, findMatchingRegion a n (set_exn w noException []) = Exc (set_exn w busErrorException [])).
  { intros a n. unfold findMatchingRegion. change (m_regions (w_mem (set_exn w noException []))) with (regions w). rewrite E. reflexivity. }
  assert (G : forall a n t c, getDataPointer a n t c (set_exn w noException []) = Exc (set_exn w busErrorException [])) by (intros; unfold getDataPointer, bind; now rewrite F).
  unfold no_memory, refused_bus, api.
  repeat split; intros; unfold readN, writeN, MemorySim_MapForRead, MemorySim_MapForWrite, MemorySim_MakeRegionReadOnly, MemorySim_GetFlashReadCount,
    MemorySim_SetHardwareWatchpoint, MemorySim_ClearHardwareWatchpoint, MemorySim_SetHardwareBreakpoint, MemorySim_ClearHardwareBreakpoint, setWatchpoint, clearWatchpoint, bind; rewrite ?G, ?F; reflexivity.
Qed.
