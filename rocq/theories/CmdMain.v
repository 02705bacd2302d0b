(** Which files start-up opens, what a failing start-up leaves, and the main program. *)
From Coq Require Import String ZArith List Bool Lia ZifyBool ZifyNat Permutation.
From Verif Require Import Base World Context MemSim Dump GdbLog Elf CmdLine Platform Comm MainProg BaseLemmas MemSpec Sat MemFair MemLemmas MemInv MemOps MemOps3 MemThms DumpSpec DumpLemmas DumpThms DumpSafe ElfSpec ElfThms ElfClean LogSpec LogThms CmdSpec Closed CmdThms CmdSafe CmdFull.
Import ListNotations.
Open Scope Z_scope.
Open Scope m_scope.

(** ** No invalid-argument exception after the options are accepted *)

Definition mild (w w' : world) : Prop :=
  (w_code w' = invalidArgumentException -> w_code w = invalidArgumentException) /\ exists l, fs_opened (w_files w') = l ++ fs_opened (w_files w).

Lemma mild_same w w' : w_code w' = w_code w -> w_files w' = w_files w -> mild w w'.
Proof. intros E1 E2. split; [congruence|]. exists []. now rewrite E2. Qed.
Lemma mild_closed : closed mild.
Proof.
  split.
  - split; [intro; now apply mild_same|]. intros a b c (A1 & l1 & A2) (B1 & l2 & B2). split; [auto|]. exists (l2 ++ l1). now rewrite B2, A2, app_assoc.
  - intros w w1 (H1 & H2). split; [|exact H2]. intro E. specialize (H1 E). discriminate.
  - intros w e m He. split; [|now exists []]. cbn [w_code set_exn]. unfold invalidArgumentException in *. lia.
  - intros. now apply mild_same.
  - intros. now apply mild_same.
  - intros. split; [auto|]. exists l. reflexivity.
  - intros. now apply mild_same.
Qed.
Lemma mild_mem w m : mild w (set_mem w m).
Proof. now apply mild_same. Qed.
Lemma mild_image c : sat mild (loadImageFile c).
Proof. apply (c_image mild mild_closed mild_mem). Qed.
Lemma mild_dump c : sat mild (loadDumpFile c).
Proof. apply (c_dump mild mild_closed); intros; [apply c_create|apply c_writeN]; (exact mild_closed || exact mild_mem). Qed.
Lemma mild_aliases os : sat mild (make_aliases os).
Proof.
  induction os as [|[f|f a|f|b s r] os IH]; cbn [make_aliases]; try exact IH; [apply sat_ret, mild_closed|].
  apply sat_bind; [apply mild_closed|apply (c_alias_option mild mild_closed mild_mem)|intros; exact IH].
Qed.
Lemma mild_eprintf s : sat mild (eprintf s).
Proof. intro w. now apply mild_same. Qed.
Lemma mild_freeRegions rs : sat mild (freeRegions rs).
Proof.
  assert (F : forall b, sat mild (free b)) by (intro; apply (c_free mild mild_closed)). assert (FO : forall b, sat mild (free_opt b)) by (intro; apply (c_free_opt mild mild_closed)).
  induction rs as [|r rs IH]; cbn [freeRegions]; unfold freeRegion; repeat (apply sat_bind; [apply mild_closed| |intros]); auto. apply sat_ret, mild_closed.
Qed.
Lemma mild_failing b : sat mild (failing b).
Proof.
  unfold failing, displayExceptionMessage, displayCopyrightNotice, displayUsage, MemorySim_Uninit.
  repeat (apply sat_bind; [apply mild_closed| |intros]); try apply mild_eprintf; [apply sat_getw, mild_closed|destruct b|apply (c_rethrow mild mild_closed)].
  - repeat (apply sat_bind; [apply mild_closed| |intros]); [apply sat_getw, mild_closed|apply mild_freeRegions|apply (c_free_opt mild mild_closed)|]. intro w. now apply mild_same.
  - apply sat_ret, mild_closed.
Qed.

(** The image file is the first one opened. *)
Lemma image_first os f R w : Inv R w -> uses_image os f ->
  match loadImageFile (settings os) w with
  | Ret _ w' | Exc w' => exists l, fs_opened (w_files w') = l ++ f :: fs_opened (w_files w)
  | Ub _ => True
  end.
Proof.
  intros HI HU.
  assert (K : forall X, (forall d, sat mild (X d)) -> match load_with X f w with Ret _ w' | Exc w' => exists l, fs_opened (w_files w') = l ++ f :: fs_opened (w_files w) | Ub _ => True end).
  { intros X HX. rewrite load_with_run. pose proof (data_safe f R w HI) as D. destruct (loadFileData f w) as [[b data] w1|w1|]; [| |exact I].
    - destruct D as (_ & _ & _ & _ & O & _). specialize (HX data w1). 
      assert (FR : forall w2, mild w1 w2 -> match (free b ;;; rethrow : M world unit) w2 with Ret _ w' | Exc w' => exists l, fs_opened (w_files w') = l ++ f :: fs_opened (w_files w) | Ub _ => True end).
      { intros w2 H2. assert (S : sat mild (free b ;;; rethrow : M world unit)) by (apply sat_bind; [apply mild_closed|apply (c_free mild mild_closed)|intros; apply (c_rethrow mild mild_closed)]).
        specialize (S w2). destruct ((free b ;;; rethrow : M world unit) w2) as [[] w3|w3|]; [| |exact I]; pose proof (pre_trans _ (cl_pre _ mild_closed) _ _ _ H2 S) as (_ & l & E); exists l; now rewrite E, O. }
      assert (DN : forall w2, mild w1 w2 -> exists l, fs_opened (w_files w2) = l ++ f :: fs_opened (w_files w)) by (intros w2 (_ & l & E); exists l; now rewrite E, O).
      destruct (X data w1) as [[] w2|w2|]; [| |exact I].
      + pose proof (c_free mild mild_closed b w2) as S. destruct (free b w2) as [[] w3|w3|]; [| |exact I]; pose proof (pre_trans _ (cl_pre _ mild_closed) _ _ _ HX S) as H3; (destruct (w_code w3 =? 0); [apply DN, H3|apply FR, H3]).
      + destruct (w_code w2 =? 0); [apply DN, HX|apply FR, HX].
    - destruct D as (_ & _ & O & _). destruct (w_code w1 =? 0); exists []; exact O. }
  destruct (image_cases os f HU) as [(U & E)|(a & U & E1 & E2 & E3)].
  - rewrite (image_elf _ _ E). apply K. intro d. apply (c_elf mild mild_closed mild_mem).
  - rewrite (image_bin _ _ E1 E2). apply K. intro d. unfold loadBinFile. apply sat_try0; [apply mild_closed|apply mild_closed| |apply (c_code_throw mild mild_closed)].
    apply sat_bind; [apply mild_closed|apply (c_create mild mild_closed mild_mem)|intros _]. apply sat_bind; [apply mild_closed| |intros _; apply (c_readonly mild mild_closed mild_mem)].
    unfold MemorySim_LoadFromFlashImage. repeat (apply sat_bind; [apply mild_closed| |intros]); first [apply (c_load_words mild mild_closed mild_mem)|apply (c_load_bytes mild mild_closed mild_mem)].
Qed.

Lemma init_mild args os f w : heap_sane w -> spells args os -> complete os -> uses_image os f ->
  match api (CrashDebugCommandLine_Init args) w with
  | Done _ w' => exists l, fs_opened (w_files w') = l ++ f :: fs_opened (w_files w)
  | Raised c w' => c <> invalidArgumentException /\ exists l, fs_opened (w_files w') = l ++ f :: fs_opened (w_files w)
  | Crashed _ => True
  end.
Proof.
  intros HH HS HC HU. unfold api. rewrite (init_stages _ _ _ HS HC). change (set_exn (blank_state (set_exn w noException [])) noException []) with (set_exn (blank_state w) noException []).
  set (w0 := set_exn (blank_state w) noException []).
  assert (K : match stages os w0 with Ret _ w' | Exc w' => mild w0 w' /\ exists l, fs_opened (w_files w') = l ++ f :: fs_opened (w_files w) | Ub _ => True end).
  { rewrite stages_eq. pose proof (mild_image (settings os) w0) as M1. pose proof (image_first os f _ w0 (blank_inv w HH) HU) as F1.
    destruct (loadImageFile (settings os) w0) as [[] w1|w1|]; [|split; assumption|exact I].
    assert (NX : forall w2, mild w1 w2 -> mild w0 w2 /\ exists l, fs_opened (w_files w2) = l ++ f :: fs_opened (w_files w)).
    { intros w2 H2. split; [eapply (pre_trans _ (cl_pre _ mild_closed)); eassumption|]. destruct F1 as (l & F1). destruct H2 as (_ & l2 & H2). exists (l2 ++ l). rewrite H2, F1, app_assoc. reflexivity. }
    pose proof (mild_dump (settings os) w1) as M2. destruct (loadDumpFile (settings os) w1) as [[] w2|w2|]; [|now apply NX|exact I].
    pose proof (mild_aliases os w2) as M3. destruct (make_aliases os w2) as [[] w3|w3|]; [| |exact I]; apply NX; eapply (pre_trans _ (cl_pre _ mild_closed)); eassumption. }
  assert (FL : forall w1, mild w0 w1 /\ (exists l, fs_opened (w_files w1) = l ++ f :: fs_opened (w_files w)) -> 
     match (match failing true w1 with Ret a w' => Done a w' | Exc w' => Raised (w_code w') w' | Ub u => Crashed u end) with
     | Done _ w' => exists l, fs_opened (w_files w') = l ++ f :: fs_opened (w_files w)
     | Raised c w' => c <> invalidArgumentException /\ exists l, fs_opened (w_files w') = l ++ f :: fs_opened (w_files w)
     | Crashed _ => True end).
  { intros w1 (M1 & l & O1). pose proof (mild_failing true w1) as M2. pose proof (failing_raises true w1) as FR. destruct (failing true w1) as [a w2|w2|]; [destruct FR| |exact I].
    pose proof (pre_trans _ (cl_pre _ mild_closed) _ _ _ M1 M2) as (A & _). destruct M2 as (_ & l2 & B). split; [intro E; specialize (A E); discriminate|].
    exists (l2 ++ l). rewrite B, O1, app_assoc. reflexivity. }
  destruct (stages os w0) as [[] w1|w1|]; [| |exact I]; (destruct (w_code w1 =? 0); [exact (proj2 K)|apply FL, K]).
Qed.

(** ** A failing start-up *)

Lemma init_clean args os w : heap_sane w -> spells args os -> complete os -> files_fine w os ->
  match api (CrashDebugCommandLine_Init args) w with
  | Done c w' => winv (h_live (w_heap w)) w' /\ w_code w' = 0 /\ fs_open (w_files w') = fs_open (w_files w) /\ w_err w' = w_err w
  | Raised c w' => init_code c /\ regions w' = [] /\ m_xml (w_mem w') = None /\ hp (w_heap w') (h_live (w_heap w)) /\
      fs_open (w_files w') = fs_open (w_files w) /\ w_err w' = usage :: banner :: error_line (w_msg w') :: w_err w /\
      exists w1, stages os (set_exn (blank_state w) noException []) = Exc w1 /\ w_code w1 = c /\ w_msg w1 = w_msg w'
  | Crashed _ => False
  end.
Proof.
  intros HH HS HC HF. unfold api. rewrite (init_stages _ _ _ HS HC). change (set_exn (blank_state (set_exn w noException [])) noException []) with (set_exn (blank_state w) noException []).
  set (w0 := set_exn (blank_state w) noException []).
  pose proof (stages_safe os _ w0 HC (blank_inv w HH) eq_refl eq_refl HF) as P. destruct (stages os w0) as [[] w1|w1|]; [| |exact P].
  - destruct P as (I1 & (S & _) & O & C). rewrite C. cbn [Z.eqb]. split; [exact I1|]. split; [exact C|]. split; [exact O|exact S].
  - destruct P as (I1 & (S & _) & O & C). destruct (init_code_nonzero _ C) as (NZ & _). replace (w_code w1 =? 0) with false by lia.
    destruct (failing_true _ _ I1) as (h & -> & Hh). cbn [w_code w_msg w_err w_files w_heap w_mem set_mem set_heap set_err m_xml].
    split; [exact C|]. split; [reflexivity|]. split; [reflexivity|]. split; [exact Hh|]. split; [exact O|]. split; [rewrite S; reflexivity|]. exists w1. auto.
Qed.

(** ** The main program *)

Definition known_error (c : Z) : bool := (c =? fileException) || (c =? elfFormatException) || (c =? invalidArgumentException).
Definition after_handler (w : world) : world :=
  if known_error (w_code w) then w else set_err w ((s2b "Encountered unexpected error: " ++ fmtd (w_code w) ++ [10]) :: w_err w).

Lemma handler_run w : main_handler w = Ret tt (after_handler w).
Proof. unfold main_handler, after_handler, known_error, bind, getExceptionCode, eprintf, ret, modw. destruct (_ || _); reflexivity. Qed.

Lemma init_clear args w : CrashDebugCommandLine_Init args (set_exn w noException []) = CrashDebugCommandLine_Init args w.
Proof. reflexivity. Qed.

(** The state in which the debug monitor starts. *)
Definition monitor_start (w : world) : world :=
  set_faults (set_con w (mkCon (c_polls (w_con w)) (c_reads (w_con w)) (c_writes (w_con w)) false (c_out (w_con w)))) 0.

Lemma main_run run args w : main run args w =
  match CrashDebugCommandLine_Init args w with
  | Ret (c, b) w1 =>
      match run (monitor_start w1) with
      | Ret _ w2 => if w_code w2 =? 0 then (CrashDebugCommandLine_Uninit b ;;; ret 0) w2 else (CrashDebugCommandLine_Uninit b ;;; ret (-1)) (after_handler w2)
      | Exc w2 => if w_code w2 =? 0 then (CrashDebugCommandLine_Uninit b ;;; ret 0) w2 else (CrashDebugCommandLine_Uninit b ;;; ret (-1)) (after_handler w2)
      | Ub u => Ub u
      end
  | Exc w1 => if w_code w1 =? 0 then Ret 0 w1 else Ret (-1) (after_handler w1)
  | Ub u => Ub u
  end.
Proof.
  unfold main. unfold bind at 1, try_, bind at 1, lift at 1. cbn [fst snd]. rewrite init_clear.
  destruct (CrashDebugCommandLine_Init args w) as [[c b] w1|w1|]; [| |reflexivity].
  - cbn [fst snd]. unfold bind at 1, setl at 1. cbn [fst snd]. unfold lift, bind at 1, StandardIComm_Init, set_connected, modw. cbn [fst snd].
    unfold bind at 1, mriPlatform_Init, modw. fold (monitor_start w1). change (set_faults _ 0) with (monitor_start w1).
    destruct (run (monitor_start w1)) as [[] w2|w2|]; [| |reflexivity]; cbn [fst snd]; (destruct (w_code w2 =? 0); [reflexivity|]); unfold bind at 1; rewrite handler_run; reflexivity.
  - cbn [fst snd]. destruct (w_code w1 =? 0); [reflexivity|]. unfold bind at 1. rewrite handler_run. reflexivity.
Qed.

Lemma after_handler_keeps w : w_mem (after_handler w) = w_mem w /\ w_heap (after_handler w) = w_heap w /\ w_files (after_handler w) = w_files w.
Proof. unfold after_handler. destruct (known_error _); auto. Qed.

Lemma init_raises_nonzero args w w1 : CrashDebugCommandLine_Init args w = Exc w1 -> w_code w1 <> 0.
Proof.
  assert (F : forall b w2 w3, w_code w2 <> 0 -> failing b w2 = Exc w3 -> w_code w3 <> 0).
  { intros b w2 w3 NZ. assert (Q : forall (m : M world unit), (forall w, match m w with Ret _ w' => w_code w' = w_code w | Exc w' => w_code w' = w_code w | Ub _ => True end) -> forall w4, match (m ;;; (rethrow : M world (cl * bool))) w4 with Ret _ _ => False | Exc w' => w_code w' = w_code w4 | Ub _ => True end).
    { intros m Hm w4. unfold bind. specialize (Hm w4). destruct (m w4) as [[] w5|w5|]; [|exact Hm|exact I]. rewrite rethrow_eq. exact Hm. }
    assert (CF : forall b w, match free b w with Ret _ w' => w_code w' = w_code w | Exc w' => w_code w' = w_code w | Ub _ => True end) by (intros b' w'; unfold free; destruct (is_live _ _); [reflexivity|exact I]).
    set (P := fun a b : world => w_code b = w_code a). assert (PP : preorder P) by (split; unfold P; congruence).
    assert (CFO : forall b, sat P (free_opt b)) by (intros [b'|]; [exact (CF b')|apply sat_ret, PP]).
    assert (CR : forall rs, sat P (freeRegions rs)).
    { induction rs as [|r rs IH]; cbn [freeRegions]; unfold freeRegion; repeat (apply sat_bind; [exact PP| |intros]); auto; try exact (CF _). apply sat_ret, PP. }
    assert (CU : sat P (if b then MemorySim_Uninit else ret tt)).
    { destruct b; [|apply sat_ret, PP]. unfold MemorySim_Uninit. repeat (apply sat_bind; [exact PP| |intros]); auto; [apply sat_getw, PP|]. intro; reflexivity. }
    unfold failing, displayExceptionMessage, displayCopyrightNotice, displayUsage, eprintf. unfold bind at 1, getw at 1, modw at 1. unfold bind at 1. unfold bind at 1, modw at 1. unfold bind at 1, modw at 1.
    match goal with |- ?m ?s = Exc w3 -> _ => intro E; pose proof (Q (if b then MemorySim_Uninit else ret tt) CU s) as X; rewrite E in X end. cbn [w_code set_err] in X. now rewrite X. }
  intro E. unfold CrashDebugCommandLine_Init, try_ in E.
  match type of E with context[match ?b with Ret _ _ => _ | Exc _ => _ | Ub _ => _ end] => destruct b as [[] [l w2]|[l w2]|] end; try discriminate;
    (destruct (w_code w2 =? 0) eqn:Z; [discriminate|]; apply (F (snd l) w2 w1); [lia|]; exact E).
Qed.

(** ** Order of the options *)

Lemma init_spelled args os w : spells args os ->
  CrashDebugCommandLine_Init args w =
  try_ (mkCL None None None 0, false)
    (lift (modw (fun w => set_ctx w (repeat 0 216))) ;;;
     setl (settings os, false) ;;;
     lift (throwIfRequiredArgumentNotSpecified (settings os)) ;;;
     lift MemorySim_Init ;;;
     setl (settings os, true) ;;;
     lift (loadImageFile (settings os)) ;;;
     lift (loadDumpFile (settings os)) ;;;
     lift (make_aliases os))
    (fun l => failing (snd l)) w.
Proof.
  intro HS. destruct (parse_spelled _ _ HS) as [P1 P2]. unfold CrashDebugCommandLine_Init, try_. fold failing.
  match goal with |- match ?a with Ret _ _ => _ | _ => _ end = match ?b with Ret _ _ => _ | _ => _ end => assert (E : a = b) end.
  2:{ rewrite E. reflexivity. }
  unfold bind at 1, lift at 1, modw at 1. cbn [fst snd]. unfold bind at 1, lift at 1. cbn [fst snd]. rewrite P1. fold (settings os). change (fold_left set_opt os {| cl_elf := None; cl_bin := None; cl_dump := None; cl_base := 0 |}) with (settings os).
  unfold bind, lift, setl, modw. cbn [fst snd].
  match goal with |- context[throwIfRequiredArgumentNotSpecified ?c ?x] => destruct (throwIfRequiredArgumentNotSpecified c x) as [[] w1|w1|] end; try reflexivity. cbn [fst snd].
  destruct (MemorySim_Init w1) as [[] w2|w2|]; try reflexivity. cbn [fst snd].
  destruct (loadImageFile (settings os) w2) as [[] w3|w3|]; try reflexivity. cbn [fst snd].
  destruct (loadDumpFile (settings os) w3) as [[] w4|w4|]; try reflexivity. cbn [fst snd]. rewrite P2. unfold bind.
  destruct (make_aliases os w4) as [[] w5|w5|]; reflexivity.
Qed.

Lemma init_reordered args args' os os' w : spells args os -> spells args' os' -> reordered os os' ->
  CrashDebugCommandLine_Init args w = CrashDebugCommandLine_Init args' w.
Proof.
  intros H1 H2 HR. rewrite (init_spelled _ _ _ H1), (init_spelled _ _ _ H2), (settings_reordered _ _ HR), (aliases_filter os), (aliases_filter os').
  destruct HR as (_ & _ & _ & ->). reflexivity.
Qed.

(** ** Missing files *)

Lemma throw_msg_eq A c msg w : @throw_msg A c msg w = Exc (set_exn w (Z.max c (w_code w)) (firstn 1023 msg)).
Proof. reflexivity. Qed.

Lemma open_fails f w : cannot_open w f -> exists f', fopen f w = Ret None (set_files w f') /\ fs_open f' = fs_open (w_files w).
Proof.
  intro H. unfold fopen, bind, next_io. cbn [w_files set_files fs_open fs_calls fs_opened fs_next w_env].
  destruct H as [-> | ->]; [destruct (e_io (w_env w) _)|destruct (e_fs (w_env w) f)]; (eexists; split; [reflexivity|reflexivity]).
Qed.

Lemma data_missing f w : cannot_open w f -> exists f', loadFileData f w = Exc (set_exn (set_files w f') fileException (open_message f)) /\ fs_open f' = fs_open (w_files w).
Proof.
  intro HN. unfold loadFileData. unfold bind at 1, try_. set (w0 := set_exn w noException []). unfold bind at 1, lift at 1. cbn [fst snd].
  destruct (open_fails f w0 HN) as (f0 & E0 & O0). rewrite E0. unfold lift. cbn [fst snd]. rewrite throw_msg_eq. exists f0. split; [reflexivity|exact O0].
Qed.

Lemma image_missing os f w : uses_image os f -> cannot_open w f ->
  exists f', loadImageFile (settings os) w = Exc (set_exn (set_files w f') fileException (open_message f)) /\ fs_open f' = fs_open (w_files w).
Proof.
  intros HU HN. destruct (data_missing f w HN) as (f' & E & O). exists f'. split; [|exact O].
  destruct (image_cases os f HU) as [(U & E1)|(a & U & E1 & E2 & E3)]; [rewrite (image_elf _ _ E1)|rewrite (image_bin _ _ E1 E2)]; rewrite load_with_run, E; reflexivity.
Qed.

Lemma dump_missing os f w : uses_dump os f -> cannot_open w f -> w_code w = 0 ->
  exists f', loadDumpFile (settings os) w = Exc (set_exn (set_files w f') fileException (open_message f)) /\ fs_open f' = fs_open (w_files w).
Proof.
  intros HU HN HC. destruct (open_fails f w HN) as (f' & E & O). exists f'. split; [|exact O].
  unfold loadDumpFile. rewrite (set_dump _ _ HU). unfold getFileType. unfold bind at 1, bind at 1. rewrite E, throw_msg_eq. unfold fileException in *. cbn [w_code set_files]. rewrite HC. reflexivity.
Qed.

Lemma init_no_image args os f w : heap_sane w -> spells args os -> complete os -> uses_image os f -> cannot_open w f ->
  exists w', api (CrashDebugCommandLine_Init args) w = Raised fileException w' /\ failed_clean fileException (open_message f) w w'.
Proof.
  intros HH HS HC HU HN. unfold api. rewrite (init_stages _ _ _ HS HC). change (set_exn (blank_state (set_exn w noException [])) noException []) with (set_exn (blank_state w) noException []).
  set (w0 := set_exn (blank_state w) noException []). destruct (image_missing os f w0 HU HN) as (f' & E & O).
  assert (ES : stages os w0 = Exc (set_exn (set_files w0 f') fileException (open_message f))) by (rewrite stages_eq, E; reflexivity). rewrite ES. cbn [w_code set_exn]. change (fileException =? 0) with false. cbv iota.
  assert (WI : winv (h_live (w_heap w)) (set_exn (set_files w0 f') fileException (open_message f))).
  { apply Inv_winv, Inv_exn, Inv_files. apply (blank_inv w HH). }
  destruct (failing_true _ _ WI) as (h & -> & (_ & _ & Hh)). eexists. split; [reflexivity|]. unfold failed_clean.
  cbn [w_code w_msg w_err w_files w_heap w_mem set_mem set_heap set_err set_exn set_files m_xml]. repeat split; auto.
Qed.

Lemma init_no_dump args os ms f w : heap_sane w -> no_io_faults w -> spells args os -> complete os -> image_parts w os ms -> fit [] ms ->
  uses_dump os f -> e_fs (w_env w) f = None ->
  (exists w', api (CrashDebugCommandLine_Init args) w = Raised fileException w' /\ failed_clean fileException (open_message f) w w') \/
  (exists w', api (CrashDebugCommandLine_Init args) w = Raised outOfMemoryException w' /\ 0 < refusals w w').
Proof.
  intros HH HF HS HC HP Hfit HU HN. pose proof (fun w' => fair_api _ w w' (sat_init args)) as FA.
  unfold api in *. rewrite (init_stages _ _ _ HS HC) in *. change (set_exn (blank_state (set_exn w noException [])) noException []) with (set_exn (blank_state w) noException []) in *.
  set (w0 := set_exn (blank_state w) noException []) in *. rewrite stages_eq in *.
  pose proof (image_loads os ms _ w0 (blank_inv w HH) eq_refl HP Hfit) as IL. destruct (loadImageFile (settings os) w0) as [[] w1|w1|]; [| |destruct IL].
  - left. destruct IL as (I1 & C1 & HR & X1 & (S1 & S2) & O1 & _). assert (E1 : w_env w1 = w_env w) by (change (w_env w) with (w_env w0); tauto).
    assert (CN : cannot_open w1 f) by (left; now rewrite E1). destruct (dump_missing os f w1 HU CN C1) as (f' & E & O). rewrite E. cbn [w_code set_exn]. change (fileException =? 0) with false. cbv iota.
    assert (WI : winv (h_live (w_heap w)) (set_exn (set_files w1 f') fileException (open_message f))) by (apply Inv_winv, Inv_exn, Inv_files; exact I1).
    destruct (failing_true _ _ WI) as (h & -> & (_ & _ & Hh)). eexists. split; [reflexivity|]. unfold failed_clean.
    cbn [w_code w_msg w_err w_files w_heap w_mem set_mem set_heap set_err set_exn set_files m_xml]. rewrite S1. repeat split; auto. now rewrite O, O1.
  - right. destruct IL as (I1 & NZ & IL). destruct (IL HF) as (C & _). replace (w_code w1 =? 0) with false in * by lia.
    destruct (failing_true _ _ (Inv_winv _ _ I1)) as (h & Ef & Hh). rewrite Ef in *. eexists. cbn [w_code set_mem set_heap set_err]. rewrite C. split; [reflexivity|]. apply FA. cbn [w_code set_mem set_heap set_err]. now rewrite C.
Qed.
