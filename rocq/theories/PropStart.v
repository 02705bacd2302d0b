(** Property C65: what a failing start-up tells its user. *)
From Coq Require Import String ZArith List Bool Lia ZifyBool ZifyNat.
From Verif Require Import Base World Context MemSim Dump GdbLog Elf CmdLine BaseLemmas MemSpec Sat Closed MemLemmas MemInv MemOps DumpSpec DumpRef DumpConv DumpThms DumpSafe ElfSpec ElfThms ElfClean LogSpec LogRef CmdSpec StartSpec CmdThms CmdSafe CmdFull CmdMsg CmdMain MsgThms PropLog MemEx PropMem PropDump PropElf PropCmd.
Import ListNotations.
Open Scope Z_scope.
Open Scope m_scope.

Definition quiet (w w' : world) : Prop := w_env w' = w_env w /\ w_err w' = w_err w.
Lemma quiet_closed : closed quiet.
Proof.
  split; try (intros; split; reflexivity).
  - split; [intro; split; reflexivity|]. intros a b c (A & B) (C & D). split; congruence.
  - intros w w1 (A & B). split; [exact A|exact B].
Qed.
Lemma quiet_mem w m : quiet w (set_mem w m). Proof. split; reflexivity. Qed.
Lemma quiet_stages os : sat quiet (stages os).
Proof.
  assert (P : preorder quiet) by apply quiet_closed. unfold stages.
  apply sat_bind; [exact P|apply (c_image quiet quiet_closed quiet_mem)|intros]. apply sat_bind; [exact P|apply (c_dump quiet quiet_closed); intros; [apply c_create|apply c_writeN]; (exact quiet_closed || exact quiet_mem)|intros].
  induction os as [|[f|f x|f|b s r] os IH]; cbn [make_aliases]; try exact IH; [apply sat_ret, P|]. apply sat_bind; [exact P|apply (c_alias_option quiet quiet_closed quiet_mem)|intros; exact IH].
Qed.
Lemma quiet_image c w w' : loadImageFile c w = Ret tt w' -> w_env w' = w_env w.
Proof. intro E. pose proof (c_image quiet quiet_closed quiet_mem c w) as H. rewrite E in H. apply H. Qed.

Lemma free_err rs : forall w, match freeRegions rs w with Ret _ w' | Exc w' => w_err w' = w_err w | Ub _ => True end.
Proof.
  assert (F : forall b w, match free b w with Ret _ w' | Exc w' => w_err w' = w_err w | Ub _ => True end) by (intros b w; unfold free; destruct (is_live _ _); cbn; auto).
  assert (FO : forall b w, match free_opt b w with Ret _ w' | Exc w' => w_err w' = w_err w | Ub _ => True end) by (intros [b|] w; [apply F|reflexivity]).
  assert (S : forall A B (m : M world A) (n : M world B), (forall w, match m w with Ret _ w' | Exc w' => w_err w' = w_err w | Ub _ => True end) -> (forall w, match n w with Ret _ w' | Exc w' => w_err w' = w_err w | Ub _ => True end) ->
              forall w, match (m ;;; n) w with Ret _ w' | Exc w' => w_err w' = w_err w | Ub _ => True end).
  { intros A B m n Hm Hn w. unfold bind. specialize (Hm w). destruct (m w) as [a w1|w1|]; auto. specialize (Hn w1). destruct (n w1); auto; congruence. }
  induction rs as [|r rs IH]; intro w; [reflexivity|]. cbn [freeRegions]. apply S; [|exact IH]. unfold freeRegion. apply S; [apply FO|]. apply S; [apply FO|]. apply S; apply F.
Qed.

(** What [failing] prints, whatever becomes of the memory. *)
Lemma failing_prints w w' : failing true w = Exc w' -> w_err w' = usage :: banner :: error_line (w_msg w) :: w_err w /\ w_code w' = w_code w /\ w_msg w' = w_msg w.
Proof.
  unfold failing, displayExceptionMessage, displayCopyrightNotice, displayUsage, eprintf, modw. unfold bind at 1 2 3 4, getw at 1. cbn [w_msg w_err set_err].
  match goal with |- context [(bind MemorySim_Uninit _) ?x] => set (w1 := x) end. intro H.
  unfold bind, MemorySim_Uninit in H. unfold bind, getw in H.
  pose proof (free_err (m_regions (w_mem w1)) w1) as F1. pose proof (keeps_freeRegions (m_regions (w_mem w1)) w1) as K1. destruct (freeRegions _ w1) as [u w2|w2|]; [|contradiction|discriminate].
  pose proof (keeps_free_opt (option_map fst (m_xml (w_mem w1))) w2) as K2.
  assert (F2 : match free_opt (option_map fst (m_xml (w_mem w1))) w2 with Ret _ w' => w_err w' = w_err w2 | _ => True end) by (destruct (option_map fst _) as [b|]; cbn; [|reflexivity]; unfold free; destruct (is_live _ _); cbn; auto).
  destruct (free_opt _ w2) as [u2 w3|w3|]; [|contradiction|discriminate]. unfold modw, rethrow, throw in H. injection H as <-. cbn [w_err w_code w_msg set_exn set_mem].
  rewrite Z.max_id, F2, F1. destruct K1 as [A1 A2], K2 as [B1 B2]. rewrite ?B1, ?B2, ?A1, ?A2. repeat split.
Qed.

(** An exception of start-up is one of the stages'. *)
Lemma init_good (Q : Z -> list Z -> Prop) args os w c w' : spells args os -> complete os ->
  ends Q (stages os (set_exn (blank_state w) noException [])) ->
  api (CrashDebugCommandLine_Init args) w = Raised c w' -> exists m, printed w w' m /\ w_msg w' = m /\ Q c m.
Proof.
  intros HS HC HQ. unfold api. rewrite (init_stages _ _ _ HS HC). change (set_exn (blank_state (set_exn w noException [])) noException []) with (set_exn (blank_state w) noException []).
  pose proof (quiet_stages os (set_exn (blank_state w) noException [])) as HK.
  destruct (stages os _) as [u w1|w1|u]; cbn [ends] in HQ; [rewrite HQ; discriminate| |discriminate].
  destruct (w_code w1 =? 0); [discriminate|]. destruct (failing true w1) as [x w2|w2|u] eqn:EF; try discriminate. intro E. injection E as <- <-.
  destruct (failing_prints _ _ EF) as (E1 & E2 & E3). rewrite E2. exists (w_msg w1). split; [|split; assumption]. unfold printed. rewrite E1. destruct HK as [_ ->]. reflexivity.
Qed.

Lemma stages_good (Q : Z -> list Z -> Prop) os w : complete os -> w_code w = 0 -> (forall c t, t <> [] -> Q c t) -> (cl_elf (settings os) <> None -> forall t, Q outOfMemoryException t /\ Q busErrorException t) ->
  (forall w1, w_code w1 = 0 -> w_env w1 = w_env w -> ends Q (loadDumpFile (settings os) w1)) -> ends Q (stages os w).
Proof.
  intros HC HW HT HE HD. rewrite stages_eq. pose proof (g_image Q HT _ HE w HW) as G. destruct (loadImageFile _ w) as [[] w1|w1|] eqn:E1; try exact G.
  specialize (HD w1 G (quiet_image _ _ _ E1)). destruct (loadDumpFile _ w1) as [u w2|w2|]; try exact HD. exact (g_aliases Q HT os w2 HD).
Qed.

(** ** C65: a failing start-up says why *)

(** C65.  A command line that is rejected: what was printed contains a message. *)
Theorem C65_arguments args w : ~ acceptable args ->
  exists m w', api (CrashDebugCommandLine_Init args) w = Raised invalidArgumentException w' /\ printed w w' m /\ m <> [].
Proof.
  intro H. destruct (complaint_exists args H) as (m & Hm). destruct (init_complaint args m (set_exn w noException []) Hm) as (w1 & E & C & T).
  destruct (C36_rejected args w H) as (w' & E' & _ & _ & _ & P). exists (firstn 1023 m), w'. split; [exact E'|]. split.
  - unfold printed. rewrite P. unfold api in E'. rewrite E, failing_false_eq in E'. injection E' as _ <-. cbn [w_msg set_err]. now rewrite T.
  - assert (m <> []) as N; [|destruct m; [congruence|discriminate]]. clear - Hm. destruct Hm as [Hm|(os & _ & [(_ & ->)|(_ & _ & ->)])]; [|discriminate|discriminate].
    induction Hm; try discriminate; assumption.
Qed.

(** C65.  Without file errors, any other failing start-up prints a message too, except for a hex dump
    (one that contains something other than hex digits) and for failures of the memory map with an ELF
    image or a GDB log.  Missing: those, see below. *)
Theorem C65_says_why_partial args os c w w' : spells args os -> complete os -> no_io_faults w ->
  api (CrashDebugCommandLine_Init args) w = Raised c w' ->
  exists m, printed w w' m /\
    (m <> [] \/ (c = fileFormatException /\ dump_hex w os) \/
     ((c = outOfMemoryException \/ c = busErrorException) /\ (elf_used os \/ dump_log w os))).
Proof.
  intros HS HC HN E. set (Q := fun (c : Z) (m : list Z) => m <> [] \/ (c = fileFormatException /\ dump_hex w os) \/ ((c = outOfMemoryException \/ c = busErrorException) /\ (elf_used os \/ dump_log w os))).
  cut (ends Q (stages os (set_exn (blank_state w) noException []))); [intro HG; destruct (init_good Q _ _ _ _ _ HS HC HG E) as (m & P & _ & HQ); exists m; auto|].
  destruct (complete_uses os HC) as ((g & Hg) & f & Hf). apply stages_good; [exact HC|reflexivity|intros; now left| |].
  - intros NE t. assert (elf_used os) as U; [|unfold Q; auto 10]. destruct Hg as [Hg|(a & Hg & _)]; [now exists g|]. now rewrite (set_no_elf os Hg) in NE.
  - intros w1 H1 EE. unfold loadDumpFile. rewrite (set_dump os f Hf). unfold bind. pose proof (g_type Q ltac:(intros; now left) f w1 H1) as T.
    assert (N1 : no_io_faults w1) by (intro n; rewrite EE; apply HN).
    destruct (type_run f w1) as [(data & t & fs & HF & ET & _ & _ & HT)|(_ & fs & mm & ET & _)]; rewrite ET in *; [|exact T]. specialize (HT N1).
    assert (F0 : file_is w f data) by (unfold file_is in *; rewrite EE in HF; exact HF). destruct HT as [(-> & L)|[(-> & L)|(-> & L1 & L2)]].
    + apply (g_catcher Q); [intros; now left|discriminate|exact H1].
    + apply (g_catcher Q); [intros; now left| |exact H1]. intros _ t. right. left. split; [reflexivity|]. exists f, data. auto.
    + apply (g_log Q); [intros; now left| | |exact H1]; intro t; right; right; (split; [auto|]); right; exists f, data; auto.
Qed.

(** C65.  Whatever file operations fail, only these three kinds of failure can lack a message. *)
Theorem C65_any_partial args os c w w' : spells args os -> complete os -> api (CrashDebugCommandLine_Init args) w = Raised c w' ->
  exists m, printed w w' m /\ (m <> [] \/ c = fileFormatException \/ c = outOfMemoryException \/ c = busErrorException).
Proof.
  intros HS HC E. set (Q := fun (c : Z) (m : list Z) => m <> [] \/ c = fileFormatException \/ c = outOfMemoryException \/ c = busErrorException).
  cut (ends Q (stages os (set_exn (blank_state w) noException []))); [intro HG; destruct (init_good Q _ _ _ _ _ HS HC HG E) as (m & P & _ & HQ); exists m; auto|].
  destruct (complete_uses os HC) as (_ & f & Hf). apply stages_good; [exact HC|reflexivity|intros; now left|intros; unfold Q; auto|].
  intros w1 H1 EE. unfold loadDumpFile. rewrite (set_dump os f Hf). revert w1 H1 EE. assert (good Q (t <- getFileType f;; match t with GDB_LOG => GdbLogParse f | CRASH_CATCHER_BIN => CrashCatcherDump_ReadBinary f | CRASH_CATCHER_HEX => CrashCatcherDump_ReadHex f end)) as G; [|intros; now apply G].
  assert (HT : forall c t, t <> [] -> Q c t) by (intros; now left). apply good_bind; [now apply g_type|]. intros [| |]; [apply g_log|apply g_catcher|apply g_catcher]; auto; intros; unfold Q; auto.
Qed.

(** The start-up fails with code [c] although no file operation fails, and the error line is empty. *)
Definition silent (args : list (list Z)) (c : Z) (w : world) : Prop := exists w', api (CrashDebugCommandLine_Init args) w = Raised c w' /\ printed w w' [].
Definition args_raw (f : string) : list (list Z) := argv ["--bin"; "a.bin"; "0x08000000"; "--dump"; f]%string.
Definition opts_raw (f : string) : list opt := [Bin (s2b "a.bin") (s2b "0x08000000"); DumpFile (s2b f)].
Lemma raw_ok f : spells (args_raw f) (opts_raw f) /\ complete (opts_raw f) /\ uses_dump (opts_raw f) (s2b f).
Proof.
  split; [unfold args_raw, opts_raw, argv; cbn [map]; spells_tac|]. split.
  - split; [eexists; split; [now left|reflexivity]|eexists; split; [right; now left|reflexivity]].
  - eexists [_], []. split; [reflexivity|]. split; reflexivity.
Qed.

(** C65 fails in general: a hex dump with something other than a hex digit in it. *)
Definition files_mute : list (string * list Z) :=
  [("a.bin"%string, image_ex); ("c.hex"%string, s2b "6343GG"); ("b.hex"%string, s2b "6343");
   ("c.log"%string, s2b "0xfffffffc:	0x1	0x2" ++ [10]); ("a.elf"%string, elf_ex); ("c.dmp"%string, encode d_ex)].
Theorem C65_hex_refuted : exists args w, heap_sane w /\ no_io_faults w /\ acceptable args /\ silent args fileFormatException w.
Proof.
  exists (args_raw "c.hex"), (w_dir files_mute). split; [apply start_sane|]. split; [intro; reflexivity|]. split; [exists (opts_raw "c.hex"); split; apply raw_ok|].
  eexists. split; vm_compute; reflexivity.
Qed.
(** A GDB log whose memory goes on at address 0. *)
Theorem C65_log_refuted : exists args w, heap_sane w /\ no_io_faults w /\ acceptable args /\ silent args busErrorException w.
Proof.
  exists (args_raw "c.log"), (w_dir files_mute). split; [apply start_sane|]. split; [intro; reflexivity|]. split; [exists (opts_raw "c.log"); split; apply raw_ok|].
  eexists. split; vm_compute; reflexivity.
Qed.
(** An ELF image, when memory runs out. *)
Definition w_poor (k : nat) (files : list (string * list Z)) : world :=
  w_start (mkEnv (fun n _ => Nat.ltb n k) (dir files) (fun _ => IoOk) (fun _ => PollNo) (fun _ => RdEof) (fun _ => true)).
Theorem C65_elf_refuted : exists args w, heap_sane w /\ no_io_faults w /\ acceptable args /\ silent args outOfMemoryException w.
Proof.
  exists args_bad, (w_poor 1 files_mute). split; [apply start_sane|]. split; [intro; reflexivity|]. split; [exists opts_bad; split; apply bad_ok|].
  eexists. split; vm_compute; reflexivity.
Qed.

(** A dump that is too short, a binary image when memory runs out, and an option without arguments: all
    with a message. *)
Example C65_example :
  (exists w', api (CrashDebugCommandLine_Init (args_raw "b.hex")) (w_dir files_mute) = Raised fileFormatException w' /\
     printed (w_dir files_mute) w' (s2b "The dump file was too short to contain the 4-byte signature.")) /\
  (exists w', api (CrashDebugCommandLine_Init (args_raw "c.dmp")) (w_poor 1 files_mute) = Raised outOfMemoryException w' /\
     printed (w_poor 1 files_mute) w' (s2b "Failed to load read-only code into memory region at address 0x08000000.")).
Proof.
  split.
  - eexists. split; vm_compute; reflexivity.
  - eexists. split; vm_compute; reflexivity.
Qed.
Example C65_arguments_example : ~ acceptable (argv ["--elf"; "a.elf"; "--dump"]%string).
Proof. apply C36_rejected_example. Qed.

(** ** C66: only dumps are accepted *)

Lemma split_significant : forall t c s, significant t = c :: s -> exists gap t2, t = gap ++ c :: t2 /\ Forall newline gap /\ significant t2 = s.
Proof.
  induction t as [|x t IH]; intros c s H; [discriminate|]. unfold significant in H. cbn [filter] in H. fold (significant t) in H.
  destruct ((x =? 13) || (x =? 10)) eqn:Q; cbn [negb] in H.
  - destruct (IH _ _ H) as (gap & t2 & -> & G & S2). exists (x :: gap), t2. split; [reflexivity|]. split; [constructor; [unfold newline; lia|exact G]|exact S2].
  - injection H as <- <-. exists [], t. repeat split. constructor.
Qed.
Lemma units_renders : forall n data bs, (length data <= n)%nat -> pairs (significant data) = map Some bs ->
  exists text more, data = text ++ more /\ renders bs text /\ (length (significant more) <= 1)%nat.
Proof.
  induction n as [|n IH]; intros data bs L H.
  { destruct data; cbn [length] in L; [|lia]. destruct bs; [|discriminate]. exists [], []. repeat split; [constructor|cbn; lia]. }
  destruct (significant data) as [|hi [|lo s]] eqn:E.
  - destruct bs; [|discriminate]. exists [], data. split; [reflexivity|]. split; [constructor|]. rewrite E. cbn. lia.
  - destruct bs; [|discriminate]. exists [], data. split; [reflexivity|]. split; [constructor|]. rewrite E. cbn. lia.
  - destruct (split_significant _ _ _ E) as (g1 & t1 & -> & G1 & E1). destruct (split_significant _ _ _ E1) as (g2 & t2 & -> & G2 & E2).
    cbn [pairs] in H. destruct bs as [|b bs]; [discriminate|]. cbn [map] in H. injection H as Hb H.
    destruct (hex_value hi) as [x|] eqn:Hx; [|discriminate]. destruct (hex_value lo) as [y|] eqn:Hy; [|discriminate]. injection Hb as <-.
    rewrite app_length in L. cbn [length] in L. rewrite app_length in L. cbn [length] in L.
    destruct (IH t2 bs) as (text & more & -> & R & M); [lia|rewrite E2; exact H|].
    exists (g1 ++ hi :: g2 ++ lo :: text), more. split; [rewrite <- !app_assoc; cbn [app]; now rewrite <- app_assoc|]. split; [|exact M].
    clear - G1 G2 Hx Hy R. induction G1 as [|c g1 Hc G1 IH]; cbn [app]; [|now constructor]. now constructor.
Qed.

Lemma dump_only os f R w w' : uses_dump os f -> no_io_faults w -> Inv R w -> ctx_sane w -> w_code w = 0 -> (forall data, file_is w f data -> Forall byte data) ->
  loadDumpFile (settings os) w = Ret tt w' ->
  exists data, file_is w f data /\ (whole_binary data \/ whole_hex data \/ (~ looks_binary data /\ ~ looks_hex data)).
Proof.
  intros HU HN HI HC HW HB. unfold loadDumpFile. rewrite (set_dump _ _ HU). unfold bind.
  destruct (type_run f w) as [(data & t & f' & HF & -> & O & _ & HTy)|(_ & fs & mm & -> & _)]; [|discriminate]. specialize (HTy HN). specialize (HB _ HF). intro E. exists data. split; [exact HF|].
  assert (K : forall k, CrashCatcherDump_Read k f (set_files w f') = Ret tt w' -> exists d, valid d /\ units k data = map Some (encode d)).
  { intros k EK. rewrite <- read_clear in EK. pose proof (read_ref k f data (set_files w f') HF HN HC) as P. unfold api in P. rewrite EK in P.
    pose proof (dump_cases R (units k data) (set_exn (set_files w f') noException []) (units_bytes k data HB) (Inv_exn _ _ _ _ (Inv_files _ _ _ HI)) HC eq_refl) as Q.
    destruct (ref_dump _ _) as [[u us'] w2|w2|u]; [| |destruct Q]; [exact (proj1 Q)|]. destruct P as (f2 & P & _). discriminate P. }
  destruct HTy as [(-> & _)|[(-> & _)|(-> & N)]].
  - left. destruct (K Binary E) as (d & V & U). exists d. split; [exact V|]. now apply map_some_inj.
  - right. left. destruct (K Hex E) as (d & V & U). destruct (units_renders _ data (encode d) (le_n _) U) as (text & more & -> & HR & HM). exists d, text, more. auto.
  - right. right. exact N.
Qed.

(** C66.  If start-up succeeds and the dump file starts like a dump, it is a whole one.  Missing: other
    files, see below. *)
Theorem C66_only_dumps_partial args os f w c w' :
  heap_sane w -> no_io_faults w -> files_fine w os -> spells args os -> complete os -> uses_dump os f ->
  api (CrashDebugCommandLine_Init args) w = Done c w' ->
  exists data, file_is w f data /\ (whole_binary data \/ whole_hex data \/ (~ looks_binary data /\ ~ looks_hex data)).
Proof.
  intros HH HN HF HS HC HU HD. destruct (init_done _ _ _ _ _ HS HC HD) as (E & C0 & _). set (w0 := set_exn (blank_state w) noException []) in *. rewrite stages_eq in E.
  destruct (complete_uses os HC) as ((g & Hg) & _). pose proof (image_safe os g _ w0 (blank_inv w HH) eq_refl HF Hg) as P.
  destruct (loadImageFile (settings os) w0) as [[] w1|w1|]; [| |destruct P].
  2:{ destruct P as (_ & _ & P). apply init_code_nonzero in P. destruct E as [E|E]; [discriminate|]. injection E as <-. lia. }
  destruct P as ((P1 & P2 & P3) & P4 & P5). assert (E1 : w_env w1 = w_env w) by (unfold rest_same in P2; change (w_env w) with (w_env w0); tauto).
  assert (B1 : forall f data, file_is w1 f data -> Forall byte data) by (unfold file_is; rewrite E1; apply HF).
  assert (N1 : no_io_faults w1) by (unfold no_io_faults; rewrite E1; exact HN). assert (X1 : ctx_sane w1) by (unfold ctx_sane; rewrite P4; reflexivity).
  pose proof (dump_safe os f _ w1 P1 X1 P5 B1 HU) as Q. pose proof (dump_only os f (h_live (w_heap w)) w1) as D.
  destruct (loadDumpFile (settings os) w1) as [[] w2|w2|]; [| |destruct Q].
  2:{ destruct Q as (_ & Q). apply init_code_nonzero in Q. destruct E as [E|E]; [discriminate|]. injection E as <-. lia. }
  destruct (D _ HU N1 P1 X1 P5 (B1 f) eq_refl) as (data & HFd & R). exists data. split; [|exact R]. unfold file_is in *. congruence.
Qed.

(** C66 fails in general: every text that starts otherwise and says nothing about the crash is taken
    for a log of an empty session, and start-up succeeds with registers nobody recorded. *)
Theorem C66_anything args os ms f data w :
  heap_sane w -> no_io_faults w -> (forall f data, file_is w f data -> Forall byte data) ->
  spells args os -> complete os -> (forall o, In o os -> is_alias o = false) -> image_parts w os ms -> fit [] ms ->
  uses_dump os f -> file_is w f data -> ~ looks_binary data -> ~ looks_hex data -> says_nothing data ->
  (exists c w', api (CrashDebugCommandLine_Init args) w = Done c w' /\ unknown_registers (w_ctx w')) \/
  (exists w', api (CrashDebugCommandLine_Init args) w = Raised outOfMemoryException w' /\ 0 < refusals w w').
Proof.
  intros HH HN HB HS HC HA HP Hfit HU HF NB NX HQ. destruct (lines_exist data) as (ls & HL).
  assert (LL : log_loads ls []). { assert (H : forall l, In l ls -> ~ like_memory l) by (intros; eapply HQ; eassumption). clear - H. induction ls as [|l ls IH]; constructor; [apply H; now left|apply IH; intros; apply H; now right]. }
  assert (NW : no_wrap []) by (split; [constructor|intros [|? [|]]; discriminate]). pose proof (dm_log data ls [] NB NX HL LL NW) as DM. cbn [joined] in DM.
  pose proof (C41_end_to_end args os ms f data [] (log_context ls) w HH HN HB HS HC HP HU HF DM) as T. rewrite app_nil_r in T. specialize (T Hfit).
  destruct (api _ w) as [c w'|c w'|]; [| |destruct T].
  - left. exists c, w'. split; [reflexivity|]. destruct T as (_ & (_ & _ & T1 & T2 & T3) & _). assert (HM : forall t, is_target t -> forall l, In l ls -> ~ mentions l t) by (intros; eapply HQ; eassumption).
    split; [|split; [exact T2|]].
    + intros t Ht. rewrite (T1 t Ht (HM t Ht)). destruct t as [i|i]; cbn [is_target] in Ht; [do 19 (destruct i as [|i]; [reflexivity|]); lia|do 33 (destruct i as [|i]; [reflexivity|]); lia].
    + apply not_true_is_false. intro X. apply T3 in X as (l & i & Hl & Hi & M). apply (HM (TFloat i)) in Hl; [contradiction|]. cbn. lia.
  - right. destruct T as [(-> & T)|(o & Ho & Ha)]; [eauto|]. rewrite (HA o Ho) in Ha. discriminate.
Qed.

Definition files_any : list (string * list Z) := [("a.bin"%string, image_ex); ("empty"%string, []); ("nl.hex"%string, 10 :: hex_ex); ("cut"%string, firstn 40 (encode d_ex))].
(** The same for an empty file, and for a hex dump after an empty line. *)
Theorem C66_empty_refuted : exists args os f w c w', heap_sane w /\ no_io_faults w /\ spells args os /\ complete os /\ uses_dump os f /\ file_is w f [] /\
  api (CrashDebugCommandLine_Init args) w = Done c w' /\ unknown_registers (w_ctx w').
Proof.
  exists (args_raw "empty"), (opts_raw "empty"), (s2b "empty"), (w_dir files_any). eexists _, _.
  split; [apply start_sane|]. split; [intro; reflexivity|]. split; [apply raw_ok|]. split; [apply raw_ok|]. split; [apply raw_ok|]. split; [reflexivity|].
  split; [vm_compute; reflexivity|]. cbn [w_ctx]. split; [|split; vm_compute; reflexivity].
  intros t Ht. destruct t as [i|i]; cbn [is_target] in Ht; [do 19 (destruct i as [|i]; [vm_compute; reflexivity|]); lia|do 33 (destruct i as [|i]; [vm_compute; reflexivity|]); lia].
Qed.
Theorem C66_newline_refuted : exists args os f text w c w', heap_sane w /\ no_io_faults w /\ spells args os /\ complete os /\ uses_dump os f /\ file_is w f text /\
  (exists d, valid d /\ renders (encode d) text /\ reg_word (context d (repeat 0 216)) 0 <> 0) /\
  api (CrashDebugCommandLine_Init args) w = Done c w' /\ unknown_registers (w_ctx w').
Proof.
  exists (args_raw "nl.hex"), (opts_raw "nl.hex"), (s2b "nl.hex"), (10 :: hex_ex), (w_dir files_any). eexists _, _.
  split; [apply start_sane|]. split; [intro; reflexivity|]. split; [apply raw_ok|]. split; [apply raw_ok|]. split; [apply raw_ok|]. split; [reflexivity|].
  split. { exists d_ex. split; [apply ex_valid|]. split; [apply renders_newline; [now right|exact hex_ex_renders]|vm_compute; discriminate]. }
  split; [vm_compute; reflexivity|]. cbn [w_ctx]. split; [|split; vm_compute; reflexivity].
  intros t Ht. destruct t as [i|i]; cbn [is_target] in Ht; [do 19 (destruct i as [|i]; [vm_compute; reflexivity|]); lia|do 33 (destruct i as [|i]; [vm_compute; reflexivity|]); lia].
Qed.

(** A dump cut off in the middle is rejected. *)
Example C66_example : files_fine (w_dir files_any) (opts_raw "cut") /\ outcome_of (api (CrashDebugCommandLine_Init (args_raw "cut")) (w_dir files_any)) = Exception_ fileFormatException /\
  exists c w', api (CrashDebugCommandLine_Init args_ex) (w_dir files_ex) = Done c w'.
Proof.
  split; [|split; [vm_compute; reflexivity|eexists _, _; vm_compute; reflexivity]]. split.
  - unfold file_is, w_dir, w_start, dir, files_any. cbn [w_env e_fs find fst snd]. intros f data H.
    repeat match type of H with context [bytes_eqb f ?s] => destruct (bytes_eqb f s); [cbn [option_map snd] in H; injection H as <-; apply bytes_ok; vm_compute; reflexivity|] end. discriminate.
  - intros f data (b & a & E & K & _). destruct b as [|? [|? [|]]]; try discriminate E; injection E as <-; discriminate.
Qed.
Example C66_anything_example : let text := s2b "just some text" ++ [10] in says_nothing text /\ ~ looks_binary text /\ ~ looks_hex text.
Proof.
  cbv zeta. split; [|split; intros (r & E); discriminate]. intros ls l HL Hl.
  assert (HL' : lines (s2b "just some text" ++ [10]) [s2b "just some text" ++ [10]]) by (apply (PropLog.whole_lines [s2b "just some text" ++ [10]]); vm_compute; reflexivity).
  rewrite (lines_unique _ _ HL _ HL') in Hl. destruct Hl as [<-|[]]. split; [apply PropLog.not_like; vm_compute; reflexivity|].
  intros t Ht (rest & E). destruct t as [i|i]; cbn [is_target] in Ht; [do 19 (destruct i as [|i]; [discriminate E|]); lia|do 33 (destruct i as [|i]; [discriminate E|]); lia].
Qed.

(** ** C50: file errors during start-up *)

Definition w_dir_failing (files : list (string * list Z)) (k : nat) : world :=
  w_start (mkEnv (fun _ _ => true) (dir files) (fun n => if Nat.eqb n k then IoFail else IoOk) (fun _ => PollNo) (fun _ => RdEof) (fun _ => true)).
(** C50 fails for start-up as a whole: if the first bytes of the dump cannot be read when its type is
    determined, a valid binary dump is taken for a log that says nothing, and start-up succeeds. *)
Theorem C50_type_refuted : exists args os f d k w c w', heap_sane w /\ spells args os /\ complete os /\ uses_dump os f /\ valid d /\ file_is w f (encode d) /\
  e_io (w_env w) k = IoFail /\ (forall n, n <> k -> e_io (w_env w) n = IoOk) /\
  api (CrashDebugCommandLine_Init args) w = Done c w' /\ (fs_calls (w_files w) <= k < fs_calls (w_files w'))%nat /\
  reg_word (context d (repeat 0 216)) 0 <> 0 /\ unknown_registers (w_ctx w').
Proof.
  exists (args_raw "d"), (opts_raw "d"), (s2b "d"), d_ex, 6%nat, (w_dir_failing [("a.bin"%string, image_ex); ("d"%string, encode d_ex)] 6). eexists _, _.
  split; [apply start_sane|]. split; [apply raw_ok|]. split; [apply raw_ok|]. split; [apply raw_ok|]. split; [apply ex_valid|]. split; [reflexivity|].
  split; [reflexivity|]. split; [intros n Hn; cbn; destruct (Nat.eqb_spec n 6); [contradiction|reflexivity]|].
  split; [vm_compute; reflexivity|]. split; [vm_compute; lia|]. split; [vm_compute; discriminate|]. cbn [w_ctx]. split; [|split; vm_compute; reflexivity].
  intros t Ht. destruct t as [i|i]; cbn [is_target] in Ht; [do 19 (destruct i as [|i]; [vm_compute; reflexivity|]); lia|do 33 (destruct i as [|i]; [vm_compute; reflexivity|]); lia].
Qed.

(** ** C67: images fit the address space *)

Lemma bin_room base data R w w' : Inv R w -> regions w = [] -> u32 base -> Forall byte data -> loadBinFile base data w = Ret tt w' ->
  0 < W (zlen data) /\ base + W (zlen data) <= 4294967296.
Proof.
  intros HI HR HU HB. unfold loadBinFile. rewrite try0_eq. set (w0 := set_exn w noException []).
  change (MemorySim_CreateRegion base (W (zlen data));;; MemorySim_LoadFromFlashImage base data (W (zlen data));;; MemorySim_MakeRegionReadOnly base) with (rom_region base data (W (zlen data))).
  assert (I0 : Inv R w0) by now apply Inv_exn. pose proof (W_range (zlen data)) as WR.
  assert (WL : W (zlen data) <= zlen data) by (unfold W, zlen; lia).
  assert (NC : forall r, In r (regions w0) -> ~ covers r base 1) by (change (regions w0) with (regions w); rewrite HR; contradiction).
  pose proof (rom_clean R w0 base data (W (zlen data)) I0 HU WR HB WL NC) as P. unfold post in P.
  destruct (rom_region base data (W (zlen data)) w0) as [[] w1|w1|]; [| |destruct P].
  - intros _. destruct P as (_ & _ & _ & RG & RM). unfold ranges in RG at 2. change (regions w0) with (regions w) in RG. rewrite HR in RG. cbn [map app] in RG. rewrite RG in RM. unfold u32 in *.
    assert (K : forall k, k = 0 \/ (0 < W (zlen data) /\ k = W (zlen data) - 1) -> base <= W (base + k) < base + W (zlen data)).
    { intros k Hk. destruct (RM base (W (zlen data)) k (or_introl eq_refl) Hk) as (y & [<-|[]] & Hy). exact Hy. }
    pose proof (K 0 (or_introl eq_refl)) as K0. rewrite Z.add_0_r, (W_id base HU) in K0. split; [lia|].
    destruct (Z_lt_le_dec 4294967296 (base + W (zlen data))) as [Big|]; [exfalso|lia].
    assert (PN : 0 < W (zlen data)) by lia. pose proof (K (W (zlen data) - 1) (or_intror (conj PN eq_refl))) as K1. set (n := W (zlen data)) in *.
    assert (E : W (base + (n - 1)) = base + (n - 1) - 4294967296) by (unfold W; lia). rewrite E in K1. lia.
  - destruct P as (_ & _ & C). apply elf_init, init_code_nonzero in C. replace (w_code w1 =? 0) with false by lia. unfold bind, getExceptionCode.
    match goal with |- context[throw_msg ?c ?m w1] => destruct (throws_msg (A := unit) c m w1) as (m' & ->) end. discriminate.
Qed.

(** What a loaded image file satisfies. *)
Definition image_fits (os : list opt) (f data : list Z) : Prop :=
  (uses_elf os f /\ roomy (seg_ranges data 0 (Z.to_nat (entry_count data))) (seg_ranges data 0 (Z.to_nat (entry_count data)))) \/
  (exists a, uses_bin os f a /\ 0 < W (zlen data) /\ strtou32 a + W (zlen data) <= 4294967296).
Lemma image_room os f R w w1 : Inv R w -> regions w = [] -> files_fine w os -> uses_image os f ->
  loadImageFile (settings os) w = Ret tt w1 -> exists data, file_is w f data /\ image_fits os f data.
Proof.
  intros HI HR [FB FE] HU.
  assert (K : forall X, (forall b data w1, file_is w f data -> Inv (b :: R) w1 -> regions w1 = [] ->
                 match X data w1 with Ret _ w2 => image_fits os f data | Exc w2 => elf_code (w_code w2) | Ub _ => True end) ->
          load_with X f w = Ret tt w1 -> exists data, file_is w f data /\ image_fits os f data).
  { intros X HX. rewrite load_with_run. pose proof (data_safe f R w HI) as D. destruct (loadFileData f w) as [[b data] w2|w2|]; [| |discriminate].
    - destruct D as (HF & I1 & (M1 & _) & _). assert (R1 : regions w2 = []) by (now rewrite M1). specialize (HX b data w2 HF I1 R1).
      destruct (X data w2) as [u w3|w3|]; [intros _; exists data; auto| |discriminate].
      apply elf_init, init_code_nonzero in HX. replace (w_code w3 =? 0) with false by lia. unfold bind. destruct (free b w3); try rewrite rethrow_eq; discriminate.
    - destruct D as (_ & _ & _ & C). replace (w_code w2 =? 0) with false by (destruct C as [(-> & _)|(-> & _)]; reflexivity). discriminate. }
  destruct (image_cases os f HU) as [(U & E)|(a & U & E1 & E2 & E3)].
  - rewrite (image_elf _ _ E). apply K. intros b data w2 HF I1 R1. destruct (FE f data U HF) as (Z1 & Z2 & Z3).
    pose proof (elf_room (b :: R) data w2 I1 R1 (FB _ _ HF) Z1 Z2 Z3) as P. destruct (ElfLoad_FromMemory data w2) as [[] w3|w3|]; [|apply P|exact I].
    destruct P as (_ & _ & _ & RG & RM). left. split; [exact U|]. now rewrite RG in RM.
  - rewrite (image_bin _ _ E1 E2), E3. apply K. intros b data w2 HF I1 R1.
    pose proof (bin_safe _ data (b :: R) w2 I1 R1 (strtou32_u32 a) (FB _ _ HF)) as P. destruct (loadBinFile (strtou32 a) data w2) as [[] w3|w3|] eqn:EB; [|apply P|exact I].
    right. exists a. split; [exact U|]. exact (bin_room _ _ _ _ _ I1 R1 (strtou32_u32 a) (FB _ _ HF) EB).
Qed.
Lemma init_room args os f w c w' : heap_sane w -> files_fine w os -> spells args os -> complete os -> uses_image os f ->
  api (CrashDebugCommandLine_Init args) w = Done c w' -> exists data, file_is w f data /\ image_fits os f data.
Proof.
  intros HH HF HS HC HU HD. destruct (init_done _ _ _ _ _ HS HC HD) as (E & C0 & _). set (w0 := set_exn (blank_state w) noException []) in *. rewrite stages_eq in E.
  pose proof (image_safe os f _ w0 (blank_inv w HH) eq_refl HF HU) as P. pose proof (fun w1 => image_room os f _ w0 w1 (blank_inv w HH) eq_refl HF HU) as Q.
  destruct (loadImageFile (settings os) w0) as [[] w1|w1|]; [exact (Q w1 eq_refl)| |destruct P].
  destruct P as (_ & _ & P). apply init_code_nonzero in P. destruct E as [E|E]; [discriminate|]. injection E as <-. lia.
Qed.
Lemma bin_one os f g a b : uses_bin os f a -> uses_bin os g b -> f = g /\ a = b.
Proof.
  intros (N & H1) (_ & H2). pose proof (set_bin os f a H1) as (A1 & A2). pose proof (set_bin os g b H2) as (B1 & B2). split; [congruence|].
  destruct H1 as (x & y & E & _ & Hy), H2 as (x' & y' & E' & _ & Hy'). rewrite E in E'. clear - E' Hy Hy'.
  revert x' E'. induction x as [|o x IH]; intros [|o' x'] E'; cbn [app] in E'.
  - injection E' as _ <- _. reflexivity.
  - injection E' as <- ->. rewrite forallb_app in Hy. cbn in Hy. rewrite andb_false_r in Hy. discriminate.
  - injection E' as -> <-. rewrite forallb_app in Hy'. cbn in Hy'. rewrite andb_false_r in Hy'. discriminate.
  - injection E' as _ E'. eauto.
Qed.

(** C67.  A raw image that is accepted is not empty and ends within the address space.  (The length
    counts modulo 2^32.) *)
Theorem C67_raw args os f a data w c w' :
  heap_sane w -> files_fine w os -> spells args os -> complete os -> uses_bin os f a -> file_is w f data ->
  api (CrashDebugCommandLine_Init args) w = Done c w' ->
  0 < zlen data mod 4294967296 /\ strtou32 a + zlen data mod 4294967296 <= 4294967296.
Proof.
  intros HH HF HS HC HU HD E. destruct (init_room args os f w c w' HH HF HS HC ltac:(right; eauto) E) as (data' & HD' & [(U & _)|(b & U & H)]).
  - destruct HU as (N & _). destruct U as (x & y & EQ & _). specialize (N (Elf f)). rewrite EQ in N. specialize (N ltac:(apply in_or_app; right; now left)). discriminate.
  - assert (data' = data) as -> by (unfold file_is in *; congruence). destruct (bin_one _ _ _ _ _ U HU) as (_ & ->). exact H.
Qed.

(** C67.  Rejected is one that does not: with a bus error, unless memory ran out first. *)
Theorem C67_raw_rejected args os f a data w :
  heap_sane w -> no_io_faults w -> files_fine w os -> spells args os -> complete os -> uses_bin os f a -> file_is w f data ->
  zlen data < 4294967296 -> zlen data = 0 \/ 4294967296 < strtou32 a + zlen data ->
  exists c w', api (CrashDebugCommandLine_Init args) w = Raised c w' /\
    (c = busErrorException \/ (c = outOfMemoryException /\ 0 < refusals w w')).
Proof.
  intros HH HN HF HS HC HU HD HL HX. assert (U' : uses_image os f) by (right; eauto).
  pose proof (fun c w' => C67_raw args os f a data w c w' HH HF HS HC HU HD) as NR. pose proof (C38_original args os) as OR. pose proof (C38_out_of_memory args w) as OM.
  pose proof (C38_clean_partial args w HH) as CL.
  assert (FF : forall os', spells args os' -> files_fine w os').
  { intros os' HS'. split; [apply HF|]. intros f0 data0 U0. exfalso. destruct (parse_spelled _ _ HS) as [P1 _]. destruct (parse_spelled _ _ HS') as [P2 _].
    assert (E : settings os' = settings os) by (specialize (P1 no_settings w); specialize (P2 no_settings w); unfold settings; congruence).
    pose proof (set_elf os' f0 U0) as E1. rewrite E, (set_no_elf os (proj1 HU)) in E1. discriminate. }
  specialize (CL FF). destruct (api (CrashDebugCommandLine_Init args) w) as [c w'|c w'|] eqn:E; [| |destruct CL].
  { specialize (NR c w' eq_refl). rewrite Z.mod_small in NR by (unfold zlen in *; lia). lia. }
  exists c, w'. split; [reflexivity|]. destruct (OR c w w' HH HS HC HF E) as (w1 & E1 & C1 & _). clear CL OR.
  set (w0 := set_exn (blank_state w) noException []) in *. unfold bind at 1 in E1.
  set (Q := fun (c : Z) (t : list Z) => c = busErrorException \/ c = outOfMemoryException).
  assert (G : match loadImageFile (settings os) w0 with Ret _ _ => False | Exc w2 => Q (w_code w2) [] | Ub _ => True end).
  { destruct (set_bin os f a (proj2 HU)) as (EB1 & EB2). pose proof (set_no_elf os (proj1 HU)) as EE.
    pose proof (fun R w1 => image_room os f R w0 w1) as IR. rewrite (image_bin _ f EE EB1) in IR |- *. rewrite EB2 in IR |- *.
    destruct (load_with (loadBinFile (strtou32 a)) f w0) as [[] w2|w2|] eqn:EL; [| |exact I].
    - destruct (IR _ _ (blank_inv w HH) eq_refl HF U' eq_refl) as (data' & HD' & [(U & _)|(b & U & H)]).
      + destruct HU as (N & _). destruct U as (x & y & EQ & _). specialize (N (Elf f)). rewrite EQ in N. specialize (N ltac:(apply in_or_app; right; now left)). discriminate.
      + assert (data' = data) as -> by (unfold file_is in *; change (w_env w0) with (w_env w) in HD'; congruence). destruct (bin_one _ _ _ _ _ U HU) as (_ & ->). unfold W in H. rewrite Z.mod_small in H by (unfold zlen in *; lia). lia.
    - clear IR. rewrite load_with_run in EL. pose proof (data_safe f _ w0 (blank_inv w HH)) as D. destruct (loadFileData f w0) as [[b data'] w3|w3|]; [| |discriminate].
      + destruct D as (_ & _ & _ & C3 & _).
        assert (GB : ends Q (loadBinFile (strtou32 a) data' w3)).
        { assert (good Q (loadBinFile (strtou32 a) data')) as GG; [|exact (GG w3 C3)]. unfold loadBinFile, try0. apply good_try with Q.
          - apply goodL_lift. assert (Q1 : forall t, Q outOfMemoryException t) by (intro; now right). assert (Q2 : forall t, Q busErrorException t) by (intro; now left).
            apply good_bind; [now apply g_create|intros _]. apply good_bind; [now apply g_flash|intros _; now apply g_readonly].
          - intros _ w4 N4 Q4. unfold bind, getExceptionCode. match goal with |- context[throw_msg ?c ?m w4] => destruct (throws_msg (A := unit) c m w4) as (m' & ->) end.
            cbn [ends w_code set_exn w_msg]. rewrite Z.max_id. exact Q4. }
        destruct (loadBinFile _ data' w3) as [u w4|w4|]; [| |discriminate]; cbn [ends] in GB.
        * exfalso. assert (KF := keeps_free b w4). destruct (free b w4) as [x w5|w5|]; [|contradiction|discriminate]. destruct KF as [KF _]. rewrite KF, GB in EL. discriminate.
        * destruct (w_code w4 =? 0); [discriminate|]. unfold bind in EL. pose proof (keeps_free b w4) as KF. destruct (free b w4) as [x w5|w5|]; [|contradiction|discriminate]. rewrite rethrow_eq in EL. injection EL as <-. destruct KF as [-> _]. exact GB.
      + destruct D as (_ & _ & _ & C). destruct (w_code w3 =? 0); [discriminate|]. injection EL as <-. destruct C as [(_ & Bad)|(C & _)]; [|now right]. exfalso. exact (opens w0 f data HD HN Bad). }
  destruct (loadImageFile (settings os) w0) as [u w2|w2|]; [destruct G| |discriminate]. injection E1 as <-. rewrite C1 in G. destruct G as [G|G]; [now left|right]. split; [exact G|]. apply (OM w'). now rewrite <- G, <- C1.
Qed.

Example C67_raw_example :
  let w d := w_dir [("a.bin"%string, d); ("c.dmp"%string, encode d_ex)] in
  let args a := argv ["--bin"; "a.bin"; a; "--dump"; "c.dmp"]%string in
  (* eight bytes at the very top are fine, nine are not, and none are not *)
  outcome_of (api (CrashDebugCommandLine_Init (args "0xFFFFFFF8"%string)) (w [1; 2; 3; 4; 5; 6; 7; 8])) =
    Value (settings [Bin (s2b "a.bin") (s2b "0xFFFFFFF8"); DumpFile (s2b "c.dmp")], true) /\
  outcome_of (api (CrashDebugCommandLine_Init (args "0xFFFFFFF8"%string)) (w [1; 2; 3; 4; 5; 6; 7; 8; 9])) = Exception_ busErrorException /\
  outcome_of (api (CrashDebugCommandLine_Init (args "0x08000000"%string)) (w [])) = Exception_ busErrorException.
Proof. cbv zeta. split; [vm_compute; reflexivity|]. split; vm_compute; reflexivity. Qed.

(** C67.  A segment of an accepted executable ends within the address space, or its end (modulo 2^32)
    lies in another segment of the executable.  Missing: the second case is wrong. *)
Theorem C67_elf_partial args os f data k w c w' :
  heap_sane w -> files_fine w os -> spells args os -> complete os -> uses_elf os f -> file_is w f data ->
  api (CrashDebugCommandLine_Init args) w = Done c w' ->
  Z.of_nat k < entry_count data -> loadable data k = true ->
  seg_address data k + seg_filesize data k <= 4294967296 \/
  exists j, j <> k /\ Z.of_nat j < entry_count data /\ loadable data j = true /\
    seg_address data j <= seg_address data k + seg_filesize data k - 1 - 4294967296 < seg_address data j + seg_filesize data j.
Proof.
  intros HH HF HS HC HU HD E Hk Lk. destruct (init_room args os f w c w' HH HF HS HC (or_introl HU) E) as (data' & HD' & [(_ & RM)|(a & (N & _) & _)]).
  2: { destruct HU as (x & y & EQ & _). specialize (N (Elf f)). rewrite EQ in N. specialize (N ltac:(apply in_or_app; right; now left)). discriminate. }
  assert (data' = data) as -> by (unfold file_is in *; congruence).
  assert (HB : Forall byte data) by exact (proj1 HF _ _ HD).
  assert (U1 : forall j, u32 (seg_address data j)) by (intro; apply (num_range data _ 4 HB)). assert (U2 : forall j, u32 (seg_filesize data j)) by (intro; apply (num_range data _ 4 HB)).
  destruct (Z_le_gt_dec (seg_address data k + seg_filesize data k) 4294967296) as [|Big]; [now left|right].
  assert (PN : 0 < seg_filesize data k) by (unfold loadable in Lk; specialize (U2 k); unfold u32 in U2; lia).
  assert (IN : In (seg_range data k) (seg_ranges data 0 (Z.to_nat (entry_count data)))) by (unfold seg_ranges; apply in_map, filter_In; split; [apply in_seq; lia|exact Lk]).
  destruct (RM _ _ _ IN (or_intror (conj PN eq_refl))) as (y & Hy & Ry). unfold seg_ranges in Hy. apply in_map_iff in Hy as (j & <- & Hj). apply filter_In in Hj as (Hj & Lj). apply in_seq in Hj.
  pose proof (U1 k) as A1. pose proof (U2 k) as A2. unfold u32 in A1, A2. unfold seg_range in Ry. cbn [fst snd] in Ry.
  assert (EW : W (seg_address data k + (seg_filesize data k - 1)) = seg_address data k + seg_filesize data k - 1 - 4294967296) by (unfold W; lia). rewrite EW in Ry.
  exists j. split; [intros ->; lia|]. split; [lia|]. split; [exact Lj|lia].
Qed.

(** C67 fails for executables: the last four bytes of a segment of eight at 0xfffffffc are written over
    a read-only segment at address 0 and start-up succeeds. *)
Definition elf_round : list Z := elf_header 52 32 2 ++ prog_header 1 0 0 16 16 ++ prog_header 1 0 0xFFFFFFFC 8 8.
Theorem C67_elf_refuted : exists args os f data k w c w',
  heap_sane w /\ no_io_faults w /\ files_fine w os /\ spells args os /\ complete os /\ uses_elf os f /\ file_is w f data /\ executable data /\
  api (CrashDebugCommandLine_Init args) w = Done c w' /\
  Z.of_nat k < entry_count data /\ loadable data k = true /\ 4294967296 < seg_address data k + seg_filesize data k /\
  (* and the first segment does not have its own contents *)
  segment data 0 = (0, firstn 16 data) /\ nth_error data 0 = Some 127 /\ outcome_of (api (readN 1 0) w') = Value 1.
Proof.
  exists args_bad, opts_bad, (s2b "a.elf"), elf_round, 1%nat, (w_dir [("a.elf"%string, elf_round); ("c.dmp"%string, encode d_ex)]). eexists _, _.
  split; [apply start_sane|]. split; [intro; reflexivity|].
  assert (FD : forall f data, file_is (w_dir [("a.elf"%string, elf_round); ("c.dmp"%string, encode d_ex)]) f data -> data = elf_round \/ data = encode d_ex).
  { unfold file_is, w_dir, w_start, dir. cbn [w_env e_fs find fst snd]. intros f data H. destruct (bytes_eqb f (s2b "a.elf")); [injection H as <-; now left|]. destruct (bytes_eqb f (s2b "c.dmp")); [|discriminate]. injection H as <-. now right. }
  assert (EX : executable elf_round).
  { split; [bytes_tac|]. split; [vm_compute; reflexivity|]. split; [repeat split; vm_compute; congruence|]. split; [repeat split; vm_compute; congruence|]. entries_tac 2%nat. }
  split.
  { split; [intros f data H; destruct (FD _ _ H) as [->| ->]; bytes_tac|]. intros f data U H.
    assert (f = s2b "a.elf") as -> by (pose proof (set_elf _ _ U) as E1; pose proof (set_elf _ _ (proj2 (proj2 bad_ok))) as E2; congruence).
    assert (data = elf_round) as -> by (vm_compute in H; injection H as <-; reflexivity).
    split; [vm_compute; reflexivity|]. split.
    - intros k Hk _ _. assert (k = 0 \/ k = 1)%nat as [-> | ->] by (change (entry_count elf_round) with 2 in Hk; lia); vm_compute; reflexivity.
    - intros i j Hij Hj _ _. change (entry_count elf_round) with 2 in Hj. assert (i = 0 /\ j = 1)%nat as (-> & ->) by lia. vm_compute. intros [_ H1]. discriminate. }
  split; [apply bad_ok|]. split; [apply bad_ok|]. split; [apply bad_ok|]. split; [vm_compute; reflexivity|]. split; [exact EX|]. split; [vm_compute; reflexivity|].
  split; [reflexivity|]. split; [reflexivity|]. split; [reflexivity|]. split; [reflexivity|]. split; [reflexivity|]. vm_compute. reflexivity.
Qed.

Print Assumptions C65_arguments.
Print Assumptions C65_says_why_partial.
Print Assumptions C65_any_partial.
Print Assumptions C65_hex_refuted.
Print Assumptions C65_log_refuted.
Print Assumptions C65_elf_refuted.
Print Assumptions C66_only_dumps_partial.
Print Assumptions C66_anything.
Print Assumptions C66_empty_refuted.
Print Assumptions C66_newline_refuted.
Print Assumptions C67_raw.
Print Assumptions C67_raw_rejected.
Print Assumptions C67_elf_partial.
Print Assumptions C67_elf_refuted.
Print Assumptions C50_type_refuted.
