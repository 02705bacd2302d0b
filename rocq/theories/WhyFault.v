(** What the error line of a failing start-up says when file operations may fail. *)
From Coq Require Import String ZArith List Bool Lia ZifyBool ZifyNat.
From Verif Require Import Base World Context MemSim Dump GdbLog Elf CmdLine BaseLemmas TextLemmas MemSpec Sat MemLemmas MemInv MemOps MemOps3 DumpSpec DumpRef DumpConv DumpLemmas DumpThms DumpSafe ElfSpec ElfThms ElfClean LogSpec LogRef LogThms LogMem PropLog CmdSpec StartSpec NumSpec MsgSpec WhySpec Closed CmdThms CmdSafe CmdFull CmdMain MsgThms DumpMsg ElfMsg PropNum PropStart WhyThms.
From Verif Require DumpFault.
Import ListNotations.
Open Scope Z_scope.
Open Scope m_scope.

(** ** File operations are counted upwards *)

Definition onward (w w' : world) : Prop := w_env w' = w_env w /\ (fs_calls (w_files w) <= fs_calls (w_files w'))%nat.
Lemma onward_closed : closed onward.
Proof.
  split; try (intros; split; [reflexivity|cbn [w_files set_exn set_heap set_ctx]; lia]).
  - split; [intro; split; [reflexivity|lia]|]. intros a b c (A1 & A2) (B1 & B2). split; [congruence|lia].
  - intros w w1 H. exact H.
  - intros w o n c l L. split; [reflexivity|exact L].
Qed.
Lemma onward_mem w m : onward w (set_mem w m).
Proof. split; [reflexivity|cbn [w_files set_mem]; lia]. Qed.
Lemma onward_image c : sat onward (loadImageFile c).
Proof. apply (c_image onward onward_closed onward_mem). Qed.
Lemma onward_log f : sat onward (GdbLogParse f).
Proof. apply (c_log onward onward_closed); intros; [apply c_create|apply c_writeN]; (exact onward_closed || exact onward_mem). Qed.
Lemma onward_failing : sat onward (failing true).
Proof.
  assert (F : forall b, sat onward (free b)) by (intro; apply (c_free onward onward_closed)). assert (FO : forall b, sat onward (free_opt b)) by (intro; apply (c_free_opt onward onward_closed)).
  assert (EP : forall s, sat onward (eprintf s)) by (intros s w; split; [reflexivity|cbn [w_files set_err]; lia]).
  assert (FR : forall rs, sat onward (freeRegions rs)).
  { induction rs as [|r rs IH]; cbn [freeRegions]; unfold freeRegion; repeat (apply sat_bind; [apply onward_closed| |intros]); auto. apply sat_ret, onward_closed. }
  unfold failing, displayExceptionMessage, displayCopyrightNotice, displayUsage, MemorySim_Uninit.
  repeat (apply sat_bind; [apply onward_closed| |intros]); try apply EP; try (apply sat_getw, onward_closed); [apply FR|apply FO| |apply (c_rethrow onward onward_closed)]. intro w. apply onward_mem.
Qed.
Lemma fault_wider w0 w w' w1 : onward w0 w -> onward w' w1 -> fault_between w w' -> fault_between w0 w1.
Proof. intros (E0 & L0) (E1 & L1) (n & H & F). exists n. rewrite <- E0. split; [lia|exact F]. Qed.

(** ** What kind of file the dump is taken for *)

Lemma type_any name data w : file_is w name data ->
  match getFileType name w with
  | Ret t w' => (exists f', w' = set_files w f') /\ onward w w' /\
      (t = CRASH_CATCHER_BIN -> looks_binary data) /\ (t = CRASH_CATCHER_HEX -> looks_hex data) /\
      (t = GDB_LOG -> (~ looks_binary data /\ ~ looks_hex data) \/ fault_between w w')
  | Exc w' => w_code w' = Z.max fileException (w_code w)
  | Ub _ => False
  end.
Proof.
  intro HF. unfold getFileType. rewrite brun. set (k := fs_calls (w_files w)). set (h := fs_next (w_files w)).
  assert (EO : fopen name w = Ret None (set_files w (mkFiles (fs_open (w_files w)) h (S k) (name :: fs_opened (w_files w)))) \/
               fopen name w = Ret (Some h) (set_files w (mkFiles ((h, mkFile data 0) :: fs_open (w_files w)) (S h) (S k) (name :: fs_opened (w_files w))))).
  { unfold fopen, bind, next_io. cbn [w_files w_env set_files fs_calls fs_open fs_next fs_opened]. unfold file_is in HF. rewrite HF. destruct (e_io (w_env w) (fs_calls (w_files w))); auto. }
  destruct EO as [-> | ->]; [reflexivity|]. rewrite brun.
  assert (ER : exists j p, fread h 4 (set_files w (mkFiles ((h, mkFile data 0) :: fs_open (w_files w)) (S h) (S k) (name :: fs_opened (w_files w)))) =
                 Ret (firstn j data) (set_files w (mkFiles ((h, mkFile data p) :: fs_open (w_files w)) (S h) (S (S k)) (name :: fs_opened (w_files w)))) /\
               (j <= 4)%nat /\ (j = 4%nat \/ e_io (w_env w) (S k) <> IoOk)).
  { unfold fread, bind, next_io, get_file, put_file, ret. cbn [w_files set_files fs_open fs_calls fs_opened fs_next w_env lookup_file]. rewrite Nat.eqb_refl.
    cbn [w_files set_files fs_open fs_calls fs_opened fs_next w_env f_data f_pos update_file skipn]. rewrite Nat.eqb_refl.
    destruct (e_io (w_env w) (S k)) as [| |m]; [exists 4%nat|exists 0%nat|exists (Nat.min m 4)]; eexists; (split; [reflexivity|]); (split; [lia|]); (now left) || (right; discriminate). }
  destruct ER as (j & p & -> & LJ & HJ). rewrite brun.
  assert (EC : fclose h (set_files w (mkFiles ((h, mkFile data p) :: fs_open (w_files w)) (S h) (S (S k)) (name :: fs_opened (w_files w)))) =
               Ret tt (set_files w (mkFiles (fs_open (w_files w)) (S h) (S (S k)) (name :: fs_opened (w_files w))))).
  { unfold fclose, bind, get_file. cbn [w_files set_files fs_open fs_calls fs_opened fs_next w_env lookup_file]. rewrite Nat.eqb_refl. cbn [w_files set_files fs_open fs_calls fs_opened fs_next remove_file]. now rewrite Nat.eqb_refl. }
  rewrite EC. cbv zeta. set (f2 := mkFiles (fs_open (w_files w)) (S h) (S (S k)) (name :: fs_opened (w_files w))).
  assert (HO : onward w (set_files w f2)) by (split; [reflexivity|cbn [w_files set_files f2 fs_calls]; lia]).
  assert (HFB : e_io (w_env w) (S k) <> IoOk -> fault_between w (set_files w f2)) by (intro X; exists (S k); split; [cbn [w_files set_files f2 fs_calls]; lia|exact X]).
  assert (B1 : hasBinaryCrashCatcherSignature (firstn 4 (firstn j data ++ [0; 0; 0; 0])) = true -> looks_binary data).
  { unfold hasBinaryCrashCatcherSignature, looks_binary, starts_with. rewrite bytes_eqb_spec. change (s2b "cC") with [99; 67]. change [SIGNATURE_BYTE0; SIGNATURE_BYTE1] with [99; 67].
    clear. destruct j as [|[|[|[|j]]]], data as [|a [|b [|c [|d data]]]]; cbn [firstn app]; intro E; try discriminate; injection E as -> ->; eexists; reflexivity. }
  assert (B2 : j = 4%nat -> looks_binary data -> hasBinaryCrashCatcherSignature (firstn 4 (firstn j data ++ [0; 0; 0; 0])) = true).
  { intros -> (r & ->). unfold hasBinaryCrashCatcherSignature. rewrite bytes_eqb_spec. reflexivity. }
  assert (X1 : hasHexCrashCatcherSignature (firstn 4 (firstn j data ++ [0; 0; 0; 0])) = true -> looks_hex data).
  { unfold hasHexCrashCatcherSignature, looks_hex, starts_with. rewrite bytes_eqb_spec. change (s2b "6343") with [54; 51; 52; 51]. match goal with |- _ = ?l -> _ => change l with [54; 51; 52; 51] end.
    clear - LJ. destruct j as [|[|[|[|[|j]]]]]; [| | | | |lia]; destruct data as [|a [|b [|c [|d data]]]]; cbn [firstn app]; intro E; try discriminate; injection E as -> -> -> ->; eexists; reflexivity. }
  assert (X2 : j = 4%nat -> looks_hex data -> hasHexCrashCatcherSignature (firstn 4 (firstn j data ++ [0; 0; 0; 0])) = true).
  { intros -> (r & ->). unfold hasHexCrashCatcherSignature. rewrite bytes_eqb_spec. reflexivity. }
  destruct (hasBinaryCrashCatcherSignature _); [|destruct (hasHexCrashCatcherSignature _)]; unfold ret; (split; [eauto|]); (split; [exact HO|]).
  - split; [auto|]. split; discriminate.
  - split; [discriminate|]. split; [auto|discriminate].
  - split; [discriminate|]. split; [discriminate|]. intros _. destruct HJ as [HJ|HJ]; [left|right; now apply HFB].
    split; intro L; [specialize (B2 HJ L)|specialize (X2 HJ L)]; discriminate.
Qed.

(** ** The image *)

Lemma data_oom name data w : file_is w name data ->
  match loadFileData name w with Exc w' => w_code w' = outOfMemoryException -> w_msg w' = firstn 1023 (alloc_message name (zlen data)) | _ => True end.
Proof.
  intros HF0. unfold loadFileData, bind at 1, try_. set (w0 := set_exn w noException []).
  unfold bind at 1, lift at 1. cbn [fst snd].
  destruct (open_run name w0) as [(data' & f0 & HF & -> & O0 & P0)|(HN & f0 & -> & O0 & P0)].
  2:{ unfold lift at 1. cbn [fst snd]. destruct (throws_msg (A := unit) fileException (s2b "Failed to open """ ++ name ++ s2b """.") (set_files w0 f0)) as (m & ->).
      cbn [fst snd w_code set_exn]. change (w_code (set_files w0 f0)) with 0. change (Z.max fileException 0 =? 0) with false. cbv iota.
      unfold bind, free_opt, ret, rethrow, throw. cbn [l_buf l_file w_code w_msg set_exn]. intro X; discriminate X. }
  assert (data' = data) as -> by (change (file_is w name data') in HF; unfold file_is in *; congruence).
  unfold bind at 1, setl at 1. cbn [fst snd]. unfold bind at 1, lift at 1. cbn [fst snd]. set (h := fs_next (w_files w0)) in *.
  unfold try_msg at 1, bind at 1, try_ at 1, bind at 1, lift at 1. cbn [fst snd].
  change (set_exn (set_files w0 f0) noException []) with (set_files w0 f0).
  pose proof (size_run h data 0 (fs_open (w_files w)) (set_files w0 f0)) as PS. unfold opened in PS. cbn [w_files set_files] in PS. specialize (PS O0).
  destruct (GetFileSize h (set_files w0 f0)) as [n w1|w1|]; [| |destruct PS].
  2:{ destruct PS as (SF & f1 & p & m & -> & O1 & P1). cbn [fst snd w_code set_exn set_files]. change (w_code w0) with 0. change (Z.max fileException 0 =? 0) with false. cbv iota.
      unfold bind at 1, getExceptionCode at 1. cbn [w_code set_exn].
      set (wx := set_exn _ (Z.max fileException 0) m).
      destruct (throws_msg (A := Z) (Z.max fileException 0) (s2b "Failed to get file size of """ ++ name ++ s2b """.") wx) as (m' & ->). unfold wx.
      cbn [fst snd w_code set_exn]. rewrite Z.max_id. change (Z.max fileException 0 =? 0) with false. cbv iota. cbn [l_buf l_file free_opt].
      unfold bind at 1, ret at 1. unfold bind at 1.
      destruct (close_run h (mkFile data p) (fs_open (w_files w)) (set_exn (set_exn (set_files (set_files w0 f0) f1) (Z.max fileException 0) m) (Z.max fileException 0) m')) as (f2 & -> & O2 & P2); [exact O1|].
      unfold rethrow, throw. cbn [w_code set_exn set_files w_msg]. intro X; discriminate X. }
  destruct PS as (-> & f1 & -> & O1 & P1). unfold setl at 1. cbn [fst snd]. change (w_code (set_files (set_files w0 f0) f1)) with 0. cbn [Z.eqb]. unfold ret at 1. rewrite files_files.
  unfold bind at 1, lift at 1. cbn [fst snd]. unfold malloc. cbn [w_env w_heap set_files].
  destruct (e_malloc (w_env w0) (h_calls (w_heap w0)) (zlen data)) eqn:EM.
  2:{ unfold lift at 1. cbn [fst snd]. rewrite throw_msg_eq. cbn [fst snd w_code set_exn]. match goal with |- context[w_code (set_heap ?a ?b)] => change (w_code (set_heap a b)) with 0 end.
      change (Z.max outOfMemoryException 0 =? 0) with false. cbv iota. cbn [l_buf l_file free_opt]. unfold bind at 1, ret at 1. unfold bind at 1.
      match goal with |- context[fclose h ?v] => destruct (close_run h (mkFile data 0) (fs_open (w_files w)) v) as (f2 & -> & O2 & P2); [exact O1|] end.
      rewrite rethrow_eq. intros _. reflexivity. }
  unfold bind at 1, setl at 1. cbn [fst snd]. unfold bind at 1, lift at 1. cbn [fst snd].
  match goal with |- context[fread h ?n ?v] => destruct (read_run h data (fs_open (w_files w)) v O1) as (bs & f2 & -> & (p & O2) & P2 & HB) end.
  cbn [fst snd]. set (wb := set_files (set_heap (set_files w0 f1) _) f2).
  destruct HB as [->|[HB SF]].
  2:{ replace (zlen bs =? zlen data) with false by lia. cbn [negb]. unfold lift at 1. cbn [fst snd].
    destruct (throws_msg (A := unit) fileException (s2b "Failed to read """ ++ name ++ s2b """.") wb) as (m & ->).
    cbn [fst snd w_code set_exn]. change (w_code wb) with 0. change (Z.max fileException 0 =? 0) with false. cbv iota. cbn [l_buf l_file free_opt].
    set (wy := set_exn wb (Z.max fileException 0) m). unfold bind at 1. unfold free. destruct (is_live _ _); [|exact I]. unfold bind at 1.
    match goal with |- context[fclose h ?v] => destruct (close_run h (mkFile data p) (fs_open (w_files w)) v O2) as (f3 & -> & O3 & P3) end. rewrite rethrow_eq. intro X; discriminate X. }
  rewrite Z.eqb_refl. cbn [negb]. unfold bind at 1, setl at 1. cbn [fst snd]. unfold lift at 1. cbn [fst snd].
  destruct (close_run h (mkFile data p) (fs_open (w_files w)) wb O2) as (f3 & -> & O3 & P3). cbn [fst snd].
  change (w_code (set_files wb f3)) with 0. cbn [Z.eqb l_buf l_data]. exact I.
Qed.


Lemma room_any os R w : Inv R w -> regions w = [] ->
  match loadImageFile (settings os) w with Exc w' => w_code w' = outOfMemoryException \/ w_code w' = busErrorException -> no_room w os (w_code w') | _ => True end.
Proof.
  intros HI HR. pose proof (fun ms => image_loads os ms R w HI HR) as P. destruct (loadImageFile (settings os) w) as [u w1|w1|]; auto.
  intros [E|E]; [now left|right]. split; [exact E|]. intros ms HP HF. destruct (P ms HP HF) as (_ & (_ & X) & _). now apply X.
Qed.

Lemma image_any os f R w : Inv R w -> regions w = [] -> files_fine w os -> uses_image os f ->
  match loadImageFile (settings os) w with
  | Ret _ w1 => calm w1 /\ image_ranges w os (ranges w1)
  | Exc w1 => w_code w1 <> fileException -> exists m, w_msg w1 = firstn 1023 m /\ image_complaint w os (w_code w1) m
  | Ub _ => False
  end.
Proof.
  intros HI HR [FB FE] HU. pose proof (room_any os R w HI HR) as RM.
  assert (K : forall X, loadImageFile (settings os) = load_with X f ->
     (forall b data w1, file_is w f data -> Inv (b :: R) w1 -> regions w1 = [] -> calm w1 ->
       match X data w1 with
       | Ret _ w2 => Inv (b :: R) w2 /\ calm w2 /\ image_ranges w os (ranges w2)
       | Exc w2 => Inv (b :: R) w2 /\ elf_code (w_code w2) /\ ((w_code w2 = outOfMemoryException \/ w_code w2 = busErrorException -> no_room w os (w_code w2)) ->
                     exists m, w_msg w2 = firstn 1023 m /\ image_complaint w os (w_code w2) m)
       | Ub _ => False
       end) ->
     match loadImageFile (settings os) w with
     | Ret _ w1 => calm w1 /\ image_ranges w os (ranges w1)
     | Exc w1 => w_code w1 <> fileException -> exists m, w_msg w1 = firstn 1023 m /\ image_complaint w os (w_code w1) m
     | Ub _ => False
     end).
  { intros X EX HX. rewrite EX in *. rewrite load_with_run in *. pose proof (data_safe f R w HI) as D. pose proof (data_calm f w) as DC. pose proof (data_oom f) as DR.
    destruct (loadFileData f w) as [[b data] w2|w2|] eqn:EL; [| |destruct D].
    - destruct D as (HF & I1 & (M1 & _) & _). assert (R1 : regions w2 = []) by (now rewrite M1). specialize (HX b data w2 HF I1 R1 (DC _ _ _ eq_refl)).
      destruct (X data w2) as [[] w3|w3|]; [| |destruct HX].
      + destruct HX as (I3 & C3 & G3). destruct (Inv_free _ _ _ I3) as (h' & E & _). rewrite E in *. change (w_code (set_heap w3 h')) with (w_code w3) in *. rewrite (proj1 C3) in *. cbn [Z.eqb] in *. auto.
      + destruct HX as (I3 & C3 & G3). apply elf_init, init_code_nonzero in C3. replace (w_code w3 =? 0) with false in * by lia. unfold bind in *. destruct (Inv_free _ _ _ I3) as (h' & E & _). rewrite E in *. rewrite rethrow_eq in *.
        intros _. exact (G3 RM).
    - destruct D as (_ & _ & _ & C). replace (w_code w2 =? 0) with false by (destruct C as [(-> & _)|(-> & _)]; reflexivity).
      destruct C as [(C & _)|(C & _)]; [congruence|].
      + intros _. rewrite C. destruct (e_fs (w_env w) f) as [data|] eqn:EF.
        * specialize (DR data w EF). rewrite EL in DR. eexists. split; [exact (DR C)|]. unfold alloc_message. apply ic_alloc with data; [exact HU|exact EF|]. intro L. apply fmtu_shown. split; [apply zlen_nonneg|exact L].
        * exfalso. destruct (data_missing f w (or_introl EF)) as (f' & E & _). rewrite EL in E. injection E as ->. discriminate C. }
  destruct (image_cases os f HU) as [(U & E)|(a & U & E1 & E2 & E3)].
  - apply (K _ (image_elf _ _ E)). intros b data w1 HF I1 R1 C1. destruct (FE f data U HF) as (Z1 & Z2 & Z3).
    pose proof (elf_room (b :: R) data w1 I1 R1 (FB _ _ HF) Z1 Z2 Z3) as P. pose proof (s_elf data w1 C1) as S. pose proof (elf_reports (b :: R) data w1) as ES. unfold api in ES.
    rewrite (calm_eq w1 C1) in ES.
    destruct (ElfLoad_FromMemory data w1) as [[] w3|w3|]; [| |destruct P].
    + destruct P as (I3 & _ & _ & RG & _). split; [exact I3|]. split; [exact S|]. left. exists f, data. split; [exact U|]. split; [exact HF|]. rewrite RG. reflexivity.
    + destruct P as (I3 & _ & C3). split; [exact I3|]. split; [exact C3|]. intro NR.
      destruct S as [[S SM]|[S1 S2]].
      * rewrite S. exists (w_msg w3). split; [now rewrite SM|]. apply ic_elf with f data; [exact U|exact HF|]. apply (ES w3 I1 (FB _ _ HF) Z1 Z2). now rewrite S.
      * exists []. split; [exact S2|]. apply ic_elf_memory with f data; auto.
  - apply (K (loadBinFile (strtou32 a))); [rewrite (image_bin _ _ E1 E2), E3; reflexivity|]. intros b data w2 HF I1 R1 C1.
    pose proof (bin_safe _ data (b :: R) w2 I1 R1 (strtou32_u32 a) (FB _ _ HF)) as P.
    assert (RG : match loadBinFile (strtou32 a) data w2 with Ret _ w3 => calm w3 /\ ranges w3 = [(strtou32 a, W (zlen data))]
                 | Exc w3 => (w_code w3 = outOfMemoryException \/ w_code w3 = busErrorException) /\ w_msg w3 = firstn 1023 (s2b "Failed to load read-only code into memory region at address 0x" ++ fmt08X (strtou32 a) ++ s2b ".") | Ub _ => True end).
    { unfold loadBinFile. rewrite try0_eq. rewrite (calm_eq w2 C1).
      change (MemorySim_CreateRegion (strtou32 a) (W (zlen data));;; MemorySim_LoadFromFlashImage (strtou32 a) data (W (zlen data));;; MemorySim_MakeRegionReadOnly (strtou32 a)) with (rom_region (strtou32 a) data (W (zlen data))).
      assert (S : still of_memory (rom_region (strtou32 a) data (W (zlen data)))).
      { unfold rom_region. apply still_bind; [apply s_create; auto using mem_o, mem_b, mem_0|intros]. apply still_bind; [apply s_flash; auto using mem_o, mem_b, mem_0|intros]. apply s_readonly; auto using mem_o, mem_b, mem_0. }
      specialize (S w2 C1). assert (WL : W (zlen data) <= zlen data) by (pose proof (zlen_nonneg data); unfold W; lia).
      pose proof (rom_clean (b :: R) w2 (strtou32 a) data (W (zlen data)) I1 (strtou32_u32 a) (W_range _) (FB _ _ HF) WL ltac:(rewrite R1; contradiction)) as Q. unfold post in Q.
      destruct (rom_region _ _ _ w2) as [[] w3|w3|]; [| |exact I].
      - rewrite (proj1 S). cbn [Z.eqb]. split; [exact S|]. unfold clean_ret in Q. destruct Q as (_ & _ & _ & Q & _). rewrite Q. unfold ranges. rewrite R1. reflexivity.
      - destruct S as [S1 S2]. replace (w_code w3 =? 0) with false by (destruct S1 as [-> | ->]; reflexivity). unfold bind, getExceptionCode. rewrite throw_msg_eq. cbn [w_code w_msg set_exn]. rewrite Z.max_id. auto. }
    destruct (loadBinFile (strtou32 a) data w2) as [[] w3|w3|]; [| |destruct P].
    + destruct RG as [RC RG]. split; [apply P|]. split; [exact RC|]. right. exists f, a, data, (strtou32 a). split; [exact U|]. split; [exact HF|]. split; [now apply taken_read|]. rewrite RG. reflexivity.
    + destruct RG as [RC RG]. split; [apply P|]. split; [apply P|]. intro NR. eexists. split; [exact RG|]. apply ic_bin with f a data (strtou32 a); auto; [now apply taken_read|apply shown8_fmt, strtou32_u32].
Qed.

(** ** The dump *)

Lemma read_part R k name data w c w' : Inv R w -> file_is w name data -> Forall byte data -> ctx_sane w -> ~ cannot_open w name ->
  api (CrashCatcherDump_Read k name) w = Raised c w' ->
  exists part rest w1, data = part ++ rest /\ (rest = [] \/ fault_between w w') /\
    ref_dump (units k part) (set_exn w noException []) = Exc w1 /\ c = w_code w1 /\ w_msg w' = w_msg w1.
Proof.
  intros HI HF HB HC HN H. destruct (DumpFault.read_faulty k name data R w HI HF HB HC HN) as (cut & rest & w1 & f' & -> & _ & [(_ & _ & EA & _)|(ER & EA & HX)]); [congruence|].
  rewrite EA in H. injection H as <- <-. exists cut, rest, w1. auto.
Qed.
Lemma good_part R data w w1 : Inv R w -> Forall byte data -> ctx_sane w ->
  ref_dump (map Some data) (set_exn w noException []) = Exc w1 -> dump_complaint (ranges w) data (w_code w1) (w_msg w1).
Proof. intros HI HB HC E. exact (dump_said R data (set_exn w noException []) w1 HB (Inv_exn _ _ _ _ HI) HC eq_refl E). Qed.
Lemma bad_part R good more w w1 : Inv R w -> Forall byte good -> ctx_sane w ->
  ref_dump (map Some good ++ None :: more) (set_exn w noException []) = Exc w1 -> hex_complaint (ranges w) good (w_code w1) (w_msg w1).
Proof.
  intros HI HB HC H.
  pose proof (up_dump good more (set_exn w noException []) (conj eq_refl eq_refl)) as U.
  assert (BO : bytes_ok (map Some good)) by (unfold bytes_ok; rewrite Forall_map; exact HB).
  pose proof (dump_cases R (map Some good) (set_exn w noException []) BO (Inv_exn _ _ _ _ HI) HC eq_refl) as Q. rewrite H in U.
  destruct U as [(x & g & w2 & E1 & E2 & C')|[(w2 & E1 & E2 & C')|[(w2 & E1 & C1 & C2 & C3)|(u & E)]]].
  - discriminate.
  - injection E1 as <-. apply hx_same; [|exact C']. exact (good_part R good w w1 HI HB HC E2).
  - injection E1 as <-. rewrite C1, C2.
    destruct (ref_dump (map Some good) (set_exn w noException [])) as [[u us'] w2|w2|u] eqn:E; [| |destruct Q].
    + destruct Q as ((d & V & EU) & _). apply hx_whole with d; [exact V|]. now apply map_some_inj.
    + apply hx_silent with (w_code w2) (w_msg w2); [|exact C3]. exact (good_part R good w w2 HI HB HC E).
  - rewrite E in Q. destruct Q.
Qed.

Lemma dumpfile_any os f R w : Inv R w -> ctx_sane w -> calm w -> (forall f data, file_is w f data -> Forall byte data) -> uses_dump os f -> image_ranges w os (ranges w) ->
  match loadDumpFile (settings os) w with
  | Exc w2 => w_code w2 <> fileException -> exists m, w_msg w2 = firstn 1023 m /\ part_complaint w w2 os (w_code w2) m
  | _ => True
  end.
Proof.
  intros HI HX HC FB HU IR. unfold loadDumpFile. rewrite (set_dump _ _ HU). rewrite brun.
  destruct (e_fs (w_env w) f) as [data|] eqn:HF.
  2:{ pose proof (dump_missing os f w HU (or_introl HF) (proj1 HC)) as (f' & E & _). unfold loadDumpFile in E. rewrite (set_dump _ _ HU), brun in E. rewrite E. intro X. now destruct X. }
  pose proof (type_any f data w HF) as T. destruct (getFileType f w) as [t w1|w1|]; [| |exact I].
  2:{ rewrite T, (proj1 HC). intro X. now destruct X. }
  destruct T as ((f' & ->) & ON & TB & TH & TL). pose proof (FB _ _ HF) as HB.
  assert (K : forall k, match CrashCatcherDump_Read k f (set_files w f') with
     | Exc w2 => w_code w2 <> fileException -> exists part rest w3, data = part ++ rest /\ (rest = [] \/ fault_between w w2) /\
          ref_dump (units k part) (set_exn (set_files w f') noException []) = Exc w3 /\ w_code w2 = w_code w3 /\ w_msg w2 = w_msg w3
     | _ => True end).
  { intros k. pose proof (read_part R k f data (set_files w f')) as P. pose proof (read_missing k f (set_files w f')) as MS. unfold api in P, MS. rewrite read_clear in P, MS. destruct (CrashCatcherDump_Read k f (set_files w f')) as [u w2|w2|]; try exact I.
    intro NE. assert (HN : ~ cannot_open (set_files w f') f) by (intro X; destruct (MS X) as (w3 & E & _); injection E as E1 _; contradiction).
    destruct (P _ _ (Inv_files _ _ _ HI) HF HB HX HN eq_refl) as (part & rest & w3 & E1 & E2 & E3 & E4 & E5). exists part, rest, w3. repeat (split; auto).
    destruct E2 as [E2|E2]; [now left|right]. eapply fault_wider; [exact ON| |exact E2]. apply (pre_refl onward (cl_pre _ onward_closed)). }
  assert (I1 : Inv R (set_files w f')) by now apply Inv_files.
  destruct t.
  - pose proof (s_log f (set_files w f') HC) as S. pose proof (onward_log f (set_files w f')) as OL.
    destruct (GdbLogParse f (set_files w f')) as [u w2|w2|] eqn:EG; [exact I| |exact I]. intro NE.
    destruct S as [[S _]|[S1 S2]]; [contradiction|]. exists []. split; [exact S2|]. apply pc_log with f data; auto.
    destruct (TL eq_refl) as [X|X]; [now left|right]. eapply fault_wider; [|exact OL|exact X]. apply (pre_refl onward (cl_pre _ onward_closed)).
  - specialize (K Binary). unfold CrashCatcherDump_ReadBinary. destruct (CrashCatcherDump_Read Binary f (set_files w f')) as [u w2|w2|]; try exact I.
    intro NE. destruct (K NE) as (part & rest & w3 & -> & E2 & E3 & -> & ->). apply Forall_app in HB as [HB _].
    pose proof (good_part R part (set_files w f') w3 I1 HB HX E3) as D. exists (w_msg w3). split; [symmetry; exact (complaint_short _ _ _ _ D)|].
    now apply pc_binary with f part rest (ranges w); auto.
  - specialize (K Hex). unfold CrashCatcherDump_ReadHex. destruct (CrashCatcherDump_Read Hex f (set_files w f')) as [u w2|w2|]; try exact I.
    intro NE. destruct (K NE) as (part & rest & w3 & -> & E2 & E3 & -> & ->). apply Forall_app in HB as [HB _].
    pose proof (units_bytes Hex part HB) as UB. destruct (stream_cases (units Hex part)) as [(bs & E)|(good & more & E)]; rewrite E in UB, E3; unfold bytes_ok in UB.
    + rewrite Forall_map in UB. pose proof (good_part R bs (set_files w f') w3 I1 UB HX E3) as D. exists (w_msg w3). split; [symmetry; exact (complaint_short _ _ _ _ D)|].
      apply pc_hex with f part rest bs (ranges w); auto. destruct (units_renders _ part bs (le_n _) E) as (text & more & F1 & F2 & F3). exists text, more. auto.
    + apply Forall_app in UB as [UB _]. rewrite Forall_map in UB. pose proof (bad_part R good more (set_files w f') w3 I1 UB HX E3) as D. exists (w_msg w3). split; [symmetry; exact (hex_short _ _ _ _ D)|].
      apply pc_hex_bad with f part rest good (ranges w); auto. exact (units_until _ part good more (le_n _) E).
Qed.

(** ** Start-up *)

Lemma part_wider w0 w w' w1 os c m : onward w0 w -> onward w' w1 -> part_complaint w w' os c m -> part_complaint w0 w1 os c m.
Proof.
  intros O1 O2 H. pose proof (fault_wider _ _ _ _ O1 O2) as F. destruct O1 as (E & _). unfold image_ranges, file_is in *.
  destruct H as [f part rest rs c m H1 H2 H3|f part rest data rs c m H1 H2 H3|f part rest data rs c m H1 H2 H3|f data c H1 H2 H3];
    [eapply pc_binary|eapply pc_hex|eapply pc_hex_bad|eapply pc_log]; unfold image_ranges, file_is in *; rewrite E in *; eauto; tauto.
Qed.
Lemma image_same w0 w os c m : w_env w = w_env w0 -> image_complaint w os c m -> image_complaint w0 os c m.
Proof.
  intros E P. assert (NR : forall c, no_room w os c -> no_room w0 os c) by (unfold no_room, image_parts, file_is; rewrite E; auto). unfold file_is in *.
  destruct P; [eapply ic_open|eapply ic_alloc|eapply ic_elf|eapply ic_elf_memory|eapply ic_bin]; unfold file_is in *; rewrite <- ?E; eauto.
Qed.

Lemma start_any args os c w w' : heap_sane w -> files_fine w os -> spells args os -> complete os ->
  api (CrashDebugCommandLine_Init args) w = Raised c w' -> exists m, printed w w' (firstn 1023 m) /\ faulty_complaint w w' os c m.
Proof.
  intros HH HF HS HC E. destruct (Z.eq_dec c fileException) as [->|NC].
  { destruct (files_said args os w w' HS HC E) as (m & P & N). exists m. split; [exact P|]. left. auto. }
  set (w0 := set_exn (blank_state w) noException []).
  set (v := match stages os w0 with Ret _ x => x | Exc x => x | Ub _ => w0 end).
  set (Q := fun c t => c <> fileException -> exists m, t = firstn 1023 m /\ (image_complaint w os c m \/ part_complaint w v os c m \/ alias_complaint os c m)).
  assert (HV : onward v w').
  { revert E. unfold api. rewrite (init_stages _ _ _ HS HC). change (set_exn (blank_state (set_exn w noException [])) noException []) with w0. unfold v.
    destruct (stages os w0) as [u w1|w1|]; [| |discriminate]; (destruct (w_code w1 =? 0); [discriminate|]); pose proof (onward_failing w1) as OF; destruct (failing true w1) as [x w2|w2|]; try discriminate; intro E; injection E as _ <-; exact OF. }
  cut (ends Q (stages os w0)).
  { intro HG. destruct (init_good Q _ _ _ _ _ HS HC HG E) as (t & P & _ & HQ). destruct (HQ NC) as (m & -> & X). exists m. split; [exact P|]. right. split; [exact NC|].
    destruct X as [X|[X|X]]; [now left| |now right; right]. right. left. eapply part_wider; [|exact HV|exact X]. apply (pre_refl onward (cl_pre _ onward_closed)). }
  destruct (complete_uses os HC) as ((g & Hg) & f & Hf). clear HV. unfold Q, v. clear Q v. rewrite stages_eq.
  pose proof (image_any os g (h_live (w_heap w)) w0 (blank_inv w HH) eq_refl HF Hg) as P. pose proof (image_safe os g (h_live (w_heap w)) w0 (blank_inv w HH) eq_refl HF Hg) as IS.
  pose proof (onward_image (settings os) w0) as OI.
  destruct (loadImageFile (settings os) w0) as [[] w1|w1|] eqn:E1; [| |destruct P].
  2:{ cbn [ends]. intro N1. destruct (P N1) as (m & E2 & X). exists m. split; [exact E2|]. left. exact (image_same w w0 os _ _ eq_refl X). }
  destruct P as [C1 IR]. destruct IS as ((I1 & R1 & _) & X1 & _). pose proof (proj1 OI) as EE. change (w_env w0) with (w_env w) in EE.
  assert (X : ctx_sane w1) by (unfold ctx_sane; rewrite X1; reflexivity).
  assert (B1 : forall f data, file_is w1 f data -> Forall byte data) by (unfold file_is; rewrite EE; apply HF).
  assert (IR1 : image_ranges w1 os (ranges w1)) by (unfold image_ranges, file_is in *; rewrite EE; exact IR).
  pose proof (dumpfile_any os f _ w1 I1 X C1 B1 Hf IR1) as D. pose proof (dump_safe os f _ w1 I1 X (proj1 C1) B1 Hf) as DS.
  destruct (loadDumpFile (settings os) w1) as [[] w2|w2|]; [| |destruct DS].
  2:{ cbn [ends]. intro N1. destruct (D N1) as (m & E2 & D'). exists m. split; [exact E2|]. right. left. apply (part_wider w w1 w2 w2); [exact OI|apply (pre_refl onward (cl_pre _ onward_closed))|exact D']. }
  pose proof (aliases_said os os w2 (fun o H => H)) as A. pose proof (g_aliases any (fun _ _ _ => I) os w2 (proj2 (proj2 DS))) as G.
  destruct (make_aliases os w2) as [u w3|w3|]; [exact G| |exact I]. cbn [ends]. intros _. destruct A as (m & E2 & A). exists m. split; [exact E2|]. right. right. exact A.
Qed.
