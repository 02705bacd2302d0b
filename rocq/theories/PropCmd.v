(** Properties C36 - C41 and C49: the command line and the main program. *)
From Coq Require Import String ZArith List Bool Lia Permutation.
From Verif Require Import Base World Context MemSim Dump GdbLog Elf CmdLine Platform Comm MainProg BaseLemmas MemSpec MemLemmas MemInv MemOps MemHist2 DumpSpec DumpThms DumpSafe ElfSpec ElfThms LogSpec CmdSpec CmdThms CmdSafe CmdFull CmdMain MemEx PropMem PropDump PropElf.
From Verif Require LogMem PropLog.
Import ListNotations.
Open Scope Z_scope.

(** ** Examples *)

(** A directory, and the state in which the program starts with it. *)
Definition dir (files : list (string * list Z)) : list Z -> option (list Z) :=
  fun n => option_map snd (find (fun x => bytes_eqb n (s2b (fst x))) files).
Definition w_dir (files : list (string * list Z)) : world :=
  w_start (mkEnv (fun _ _ => true) (dir files) (fun _ => IoOk) (fun _ => PollNo) (fun _ => RdEof) (fun _ => true)).
Definition argv (l : list string) : list (list Z) := map s2b l.
Definition image_ex : list Z := [0; 16; 0; 32; 9; 0; 0; 8; 1; 2; 3].
(** A hex dump whose first line starts with "6343". *)
Definition hex_ex : list Z := s2b "6343" ++ hexed (skipn 2 (encode d_ex)).
Definition files_ex : list (string * list Z) :=
  [("a.elf"%string, elf_ex); ("a.bin"%string, image_ex); ("c.dmp"%string, encode d_ex); ("c.hex"%string, hex_ex);
   ("c.log"%string, s2b "r0             0x1  1" ++ [10])].
Definition args_ex : list (list Z) := argv ["--Bin"; "a.bin"; "0x08000000"; "--DUMP"; "c.dmp"; "--alias"; "0x30000000"; "4"; "0x20000000"]%string.
Definition opts_ex : list opt :=
  [Bin (s2b "a.bin") (s2b "0x08000000"); DumpFile (s2b "c.dmp"); Alias (s2b "0x30000000") (s2b "4") (s2b "0x20000000")].
Definition args_elf : list (list Z) := argv ["--dump"; "c.hex"; "--elf"; "a.elf"]%string.
Definition opts_elf : list opt := [DumpFile (s2b "c.hex"); Elf (s2b "a.elf")].

Ltac named_tac := unfold names_option; vm_compute; repeat (constructor; [first [left; reflexivity|right; split; [split; discriminate|reflexivity]]|]); constructor.
Ltac spells_tac := repeat (constructor; [named_tac|]); constructor.
Lemma ex_spells : spells args_ex opts_ex /\ spells args_elf opts_elf.
Proof. unfold args_ex, args_elf, opts_ex, opts_elf, argv. cbn [map]. split; spells_tac. Qed.
Lemma ex_complete : complete opts_ex /\ complete opts_elf.
Proof.
  split; (split; [|]).
  - exists (Bin (s2b "a.bin") (s2b "0x08000000")). split; [now left|reflexivity].
  - exists (DumpFile (s2b "c.dmp")). split; [right; now left|reflexivity].
  - exists (Elf (s2b "a.elf")). split; [right; now left|reflexivity].
  - exists (DumpFile (s2b "c.hex")). split; [now left|reflexivity].
Qed.
Lemma ex_uses : uses_bin opts_ex (s2b "a.bin") (s2b "0x08000000") /\ uses_dump opts_ex (s2b "c.dmp") /\ uses_elf opts_elf (s2b "a.elf") /\ uses_dump opts_elf (s2b "c.hex").
Proof.
  split; [split; [intros o [<-|[<-|[<-|[]]]]; reflexivity|eexists [], _; split; [reflexivity|]; split; reflexivity]|].
  split; [eexists [_], _; split; [reflexivity|]; split; reflexivity|]. split; [eexists [_], []; split; [reflexivity|]; split; reflexivity|].
  eexists [], _. split; [reflexivity|]. split; reflexivity.
Qed.

(** ** C36: grammar *)

(** C36.  A command line that is not a sequence of options with an image and a dump raises the
    invalid-argument exception; no file has been opened, nothing allocated and no memory created. *)
Theorem C36_rejected args w : ~ acceptable args ->
  exists w', api (CrashDebugCommandLine_Init args) w = Raised invalidArgumentException w' /\
    w_files w' = w_files w /\ w_heap w' = w_heap w /\ w_mem w' = w_mem w /\
    w_err w' = usage :: banner :: error_line (w_msg w') :: w_err w.
Proof.
  intro H. unfold api. destruct (init_rejected args (set_exn w noException []) H) as (m & E). cbv zeta in E. rewrite E, failing_false_eq.
  eexists. split; [reflexivity|]. repeat split.
Qed.

Example C36_rejected_example : ~ acceptable (argv ["--elf"; "a.elf"; "--dump"]%string) /\
  outcome_of (api (CrashDebugCommandLine_Init (argv ["--elf"; "a.elf"; "--dump"]%string)) (w_dir files_ex)) = Exception_ invalidArgumentException.
Proof.
  split; [|vm_compute; reflexivity]. intros (os & HS & _). inversion HS as [|? ? ? ? N S2|? ? ? ? ? N S2|? ? ? ? N S2|? ? ? ? ? ? N S2]; subst.
  - inversion S2.
  - inversion N as [|? ? ? ? X N1]; subst. inversion N1 as [|? ? ? ? X1 N2]; subst. inversion N2 as [|? ? ? ? X2 N3]; subst. unfold either_case in X2. cbv in X2. lia.
  - inversion S2.
Qed.

(** C36.  Any other command line never raises it: the image file is opened. *)
Theorem C36_accepted args os f w : heap_sane w -> spells args os -> complete os -> uses_image os f ->
  match api (CrashDebugCommandLine_Init args) w with
  | Done _ w' => exists l, fs_opened (w_files w') = l ++ f :: fs_opened (w_files w)
  | Raised c w' => c <> invalidArgumentException /\ exists l, fs_opened (w_files w') = l ++ f :: fs_opened (w_files w)
  | Crashed _ => True
  end.
Proof. apply init_mild. Qed.

(** C36.  Every acceptable command line selects an image and a dump. *)
Theorem C36_selects args : acceptable args -> exists os f g, spells args os /\ complete os /\ uses_image os f /\ uses_dump os g.
Proof. intros (os & HS & HC). destruct (complete_uses os HC) as ((f & Hf) & g & Hg). exists os, f, g. auto. Qed.

Example C36_accepted_example :
  acceptable args_ex /\ uses_image opts_ex (s2b "a.bin") /\
  exists w', api (CrashDebugCommandLine_Init args_ex) (w_dir files_ex) = Done (settings opts_ex, true) w' /\
             fs_opened (w_files w') = [s2b "c.dmp"; s2b "c.dmp"; s2b "a.bin"].
Proof.
  split; [exists opts_ex; split; [apply ex_spells|apply ex_complete]|]. split; [right; eexists; apply ex_uses|].
  eexists. split; vm_compute; reflexivity.
Qed.

(** ** C37: order *)

(** C37.  Reordering whole options, keeping the order of those of the same kind, changes nothing. *)
Theorem C37_order args args' os os' w : spells args os -> spells args' os' -> reordered os os' ->
  api (CrashDebugCommandLine_Init args) w = api (CrashDebugCommandLine_Init args') w.
Proof. intros H1 H2 H3. unfold api. now rewrite (init_reordered _ _ _ _ _ H1 H2 H3). Qed.

Example C37_example :
  let os := [Alias [48] [49] [50]; Elf [97]; DumpFile [98]; Elf [99]; Bin [100] [101]; Alias [49] [49] [50]] in
  let os' := [DumpFile [98]; Bin [100] [101]; Elf [97]; Alias [48] [49] [50]; Alias [49] [49] [50]; Elf [99]] in
  reordered os os' /\ exists args args', spells args os /\ spells args' os'.
Proof.
  cbv zeta. split; [repeat split|].
  exists [s2b "--alias"; [48]; [49]; [50]; s2b "--elf"; [97]; s2b "--dump"; [98]; s2b "--elf"; [99]; s2b "--bin"; [100]; [101]; s2b "--alias"; [49]; [49]; [50]].
  exists [s2b "--dump"; [98]; s2b "--bin"; [100]; [101]; s2b "--elf"; [97]; s2b "--alias"; [48]; [49]; [50]; s2b "--alias"; [49]; [49]; [50]; s2b "--elf"; [99]].
  split; spells_tac.
Qed.

(** C37.  Options of the same kind must keep their order: the last one counts. *)
Example C37_last : exists w1 w2,
  api (CrashDebugCommandLine_Init (argv ["--bin"; "a.bin"; "0"; "--bin"; "a.bin"; "64"; "--dump"; "c.dmp"]%string)) (w_dir files_ex) = Done (mkCL None (Some (s2b "a.bin")) (Some (s2b "c.dmp")) 64, true) w1 /\
  api (CrashDebugCommandLine_Init (argv ["--bin"; "a.bin"; "64"; "--bin"; "a.bin"; "0"; "--dump"; "c.dmp"]%string)) (w_dir files_ex) = Done (mkCL None (Some (s2b "a.bin")) (Some (s2b "c.dmp")) 0, true) w2 /\
  map r_base (regions w1) <> map r_base (regions w2).
Proof. eexists _, _. split; [vm_compute; reflexivity|]. split; [vm_compute; reflexivity|]. vm_compute. discriminate. Qed.

(** ** C38: failing start-ups *)

(** C38.  Start-up never misbehaves, for any file system and any schedule of refused allocations and
    failing file operations; when it raises an exception, the error text and the usage have been
    printed, and no memory, no allocated block and no open file remains.  Missing: ELF files with
    entries that wrap or overlap ([files_fine]); see the refutations below. *)
Theorem C38_clean_partial args w : heap_sane w -> (forall os, spells args os -> files_fine w os) ->
  match api (CrashDebugCommandLine_Init args) w with
  | Done _ w' => fs_open (w_files w') = fs_open (w_files w) /\ w_err w' = w_err w
  | Raised c w' => c <> noException /\
      w_err w' = usage :: banner :: error_line (w_msg w') :: w_err w /\
      (regions w' = [] /\ m_xml (w_mem w') = None \/ w_mem w' = w_mem w) /\
      Permutation (h_live (w_heap w')) (h_live (w_heap w)) /\ fs_open (w_files w') = fs_open (w_files w)
  | Crashed _ => False
  end.
Proof.
  intros HH HF. destruct (parse_any (length args) args (le_n _)) as [(os & HS)|[N _]].
  - destruct (required_check os w) as [[HC _]|[NC _]].
    + pose proof (init_clean args os w HH HS HC (HF os HS)) as P. destruct (api _ w) as [c w'|c w'|u]; [tauto| |exact P].
      destruct P as (C & R & X & (_ & _ & P) & O & E & _). apply init_code_nonzero in C. tauto.
    + destruct (C36_rejected args w) as (w' & -> & H1 & H2 & H3 & H4).
      { intros (os' & HS' & HC'). apply NC. destruct (parse_spelled _ _ HS) as [P1 _]. destruct (parse_spelled _ _ HS') as [P2 _].
        assert (E : settings os' = settings os) by (specialize (P1 no_settings w); specialize (P2 no_settings w); unfold settings; congruence).
        destruct (required_check os w) as [[Z _]|[_ (m & Z)]]; [exact Z|]. destruct (required_check os' w) as [[_ Z']|[Z' _]]; [congruence|contradiction]. }
      rewrite H1, H2, H3. split; [discriminate|]. auto.
  - destruct (C36_rejected args w) as (w' & -> & H1 & H2 & H3 & H4); [intros (os & HS & _); exact (N os HS)|].
    rewrite H1, H2, H3. split; [discriminate|]. auto.
Qed.

(** C38.  A missing image file: the caller sees that exception and message. *)
Theorem C38_missing_image args os f w : heap_sane w -> spells args os -> complete os -> uses_image os f -> cannot_open w f ->
  exists w', api (CrashDebugCommandLine_Init args) w = Raised fileException w' /\ failed_clean fileException (open_message f) w w'.
Proof. apply init_no_image. Qed.

(** C38.  A missing dump file next to an image that loads. *)
Theorem C38_missing_dump args os ms f w : heap_sane w -> no_io_faults w -> spells args os -> complete os -> image_parts w os ms -> fit [] ms ->
  uses_dump os f -> e_fs (w_env w) f = None ->
  (exists w', api (CrashDebugCommandLine_Init args) w = Raised fileException w' /\ failed_clean fileException (open_message f) w w') \/
  (exists w', api (CrashDebugCommandLine_Init args) w = Raised outOfMemoryException w' /\ 0 < refusals w w').
Proof. apply init_no_dump. Qed.

(** C38.  In general the caller sees the code and the message with which loading the image, loading
    the dump or creating the aliases ended. *)
Theorem C38_original args os c w w' : heap_sane w -> spells args os -> complete os -> files_fine w os ->
  api (CrashDebugCommandLine_Init args) w = Raised c w' ->
  exists w1, bind (loadImageFile (settings os)) (fun _ => bind (loadDumpFile (settings os)) (fun _ => make_aliases os))
               (set_exn (blank_state w) noException []) = Exc w1 /\ w_code w1 = c /\ w_msg w1 = w_msg w'.
Proof. intros HH HS HC HF E. pose proof (init_clean args os w HH HS HC HF) as P. rewrite E in P. apply P. Qed.

(** C38.  Out of memory is raised only after a refused allocation. *)
Theorem C38_out_of_memory args w w' : api (CrashDebugCommandLine_Init args) w = Raised outOfMemoryException w' -> 0 < refusals w w'.
Proof. apply MemFair.fair_api, sat_init. Qed.

Lemma ex_bytes f data : file_is (w_dir files_ex) f data -> Forall byte data.
Proof.
  unfold file_is, w_dir, w_start, dir. cbn [w_env e_fs]. intro H. apply byteb_ok.
  destruct (find _ files_ex) as [x|] eqn:E; [|discriminate]. injection H as <-. apply List.find_some in E as (E & _).
  cbn in E. repeat (destruct E as [<-|E]; [vm_compute; reflexivity|]). destruct E.
Qed.

Example C38_example :
  (* an alias onto nothing *)
  let args := argv ["--bin"; "a.bin"; "0x08000000"; "--dump"; "c.dmp"; "--alias"; "0"; "4"; "0x50000000"]%string in
  exists os w', spells args os /\ complete os /\ files_fine (w_dir files_ex) os /\
    api (CrashDebugCommandLine_Init args) (w_dir files_ex) = Raised busErrorException w' /\ h_live (w_heap w') = [] /\ regions w' = [] /\
    rev (w_err w') = [error_line (s2b "Failed to create alias of 0x00000000 to 0x50000000 of size 4."); banner; usage].
Proof.
  cbv zeta. exists [Bin (s2b "a.bin") (s2b "0x08000000"); DumpFile (s2b "c.dmp"); Alias (s2b "0") (s2b "4") (s2b "0x50000000")]. eexists.
  split; [unfold argv; cbn [map]; spells_tac|]. split.
  { split; [exists (Bin (s2b "a.bin") (s2b "0x08000000")); split; [now left|reflexivity]|exists (DumpFile (s2b "c.dmp")); split; [right; now left|reflexivity]]. }
  split; [split; [exact ex_bytes|intros f data (b & a & E & _)]|].
  { destruct b as [|? [|? [|? [|? ?]]]]; discriminate. }
  split; [vm_compute; reflexivity|]. repeat split.
Qed.

Example C38_missing_example :
  cannot_open (w_dir []) (s2b "a.bin") /\ heap_sane (w_dir []) /\ uses_image opts_ex (s2b "a.bin") /\
  exists w', api (CrashDebugCommandLine_Init args_ex) (w_dir []) = Raised fileException w' /\ w_msg w' = s2b "Failed to open ""a.bin"".".
Proof. split; [left; reflexivity|]. split; [apply start_sane|]. split; [right; eexists; apply ex_uses|]. eexists. split; vm_compute; reflexivity. Qed.

(** C38 fails in general: an ELF entry whose end wraps makes start-up read outside the file. *)
Definition args_bad : list (list Z) := argv ["--elf"; "a.elf"; "--dump"; "c.dmp"]%string.
Definition opts_bad : list opt := [Elf (s2b "a.elf"); DumpFile (s2b "c.dmp")].
Lemma bad_ok : spells args_bad opts_bad /\ complete opts_bad /\ uses_elf opts_bad (s2b "a.elf").
Proof.
  split; [unfold args_bad, opts_bad, argv; cbn [map]; spells_tac|]. split.
  - split; [exists (Elf (s2b "a.elf")); split; [now left|reflexivity]|exists (DumpFile (s2b "c.dmp")); split; [right; now left|reflexivity]].
  - eexists [], _. split; [reflexivity|]. split; reflexivity.
Qed.
Theorem C38_crash_refuted : exists args w, heap_sane w /\ acceptable args /\ (forall f data, file_is w f data -> Forall byte data) /\
  api (CrashDebugCommandLine_Init args) w = Crashed UbBlob.
Proof.
  exists args_bad, (w_dir [("a.elf"%string, elf_wrap)]). split; [apply start_sane|]. split; [exists opts_bad; split; apply bad_ok|]. split.
  { unfold file_is, w_dir, w_start, dir. cbn [w_env e_fs find fst snd]. intros f data H. destruct (bytes_eqb f (s2b "a.elf")); [|discriminate]. injection H as <-. bytes_tac. }
  destruct bad_ok as (HS & HC & HU). unfold api. rewrite (init_stages _ _ _ HS HC), stages_eq.
  rewrite (image_elf _ _ (set_elf _ _ HU)). set (w0 := set_exn _ _ _).
  assert (E : exists w1, loadFileData (s2b "a.elf") w0 = Ret (0%nat, elf_wrap) w1 /\ w_env w1 = w_env w0) by (eexists; split; vm_compute; reflexivity).
  destruct E as (w1 & E & EE). rewrite load_with_run, E, <- elf_clear, wrap_crash; [reflexivity|]. rewrite EE. reflexivity.
Qed.

(** C38 fails in general: when an ELF entry starts inside an earlier one, the array of read counts of
    the earlier one is allocated twice and one of them stays allocated. *)
Definition elf_inside : list Z := elf_header 52 32 2 ++ prog_header 1 0 0x1000 16 16 ++ prog_header 1 0 0x1008 16 16.
Theorem C38_leak_refuted : exists args w, heap_sane w /\ acceptable args /\ (forall f data, file_is w f data -> Forall byte data) /\ no_io_faults w /\
  exists c w', api (CrashDebugCommandLine_Init args) w = Raised c w' /\ h_live (w_heap w) = [] /\ h_live (w_heap w') <> [].
Proof.
  exists args_bad, (w_dir [("a.elf"%string, elf_inside)]). split; [apply start_sane|]. split; [exists opts_bad; split; apply bad_ok|]. split.
  { unfold file_is, w_dir, w_start, dir. cbn [w_env e_fs find fst snd]. intros f data H. destruct (bytes_eqb f (s2b "a.elf")); [|discriminate]. injection H as <-. bytes_tac. }
  split; [intro; reflexivity|]. eexists _, _. split; [vm_compute; reflexivity|]. split; [reflexivity|]. vm_compute. discriminate.
Qed.

(** ** C39: dump types *)

(** C39.  The dump file is read as a binary dump iff it starts with the bytes "cC", as a hex dump iff
    it starts with the text "6343", and as a GDB log otherwise; finding out leaves no file open. *)
Theorem C39_type c f data w : cl_dump c = Some f -> file_is w f data -> no_io_faults w ->
  exists fs, fs_open fs = fs_open (w_files w) /\
    (looks_binary data -> loadDumpFile c w = CrashCatcherDump_ReadBinary f (set_files w fs)) /\
    (looks_hex data -> loadDumpFile c w = CrashCatcherDump_ReadHex f (set_files w fs)) /\
    (~ looks_binary data -> ~ looks_hex data -> loadDumpFile c w = GdbLogParse f (set_files w fs)).
Proof.
  intros HC HF HN. unfold loadDumpFile. rewrite HC. unfold bind.
  destruct (type_run f w) as [(data' & t & f' & HF' & E & O & _ & HT)|(Bad & _)]; [|destruct (opens _ _ _ HF HN (or_introl Bad))].
  assert (data' = data) as -> by (unfold file_is in *; congruence). rewrite E. exists f'. split; [exact O|]. specialize (HT HN).
  pose proof (looks_both data). destruct HT as [(-> & T)|[(-> & T)|(-> & T1 & T2)]]; (split; [|split]); intros; try tauto; try reflexivity.
Qed.

(** The file named by the dump option is the last one. *)
Theorem C39_dump_file os f : uses_dump os f -> cl_dump (settings os) = Some f.
Proof. apply set_dump. Qed.

Example C39_example :
  looks_binary (encode d_ex) /\ looks_hex hex_ex /\ ~ looks_binary (s2b "r0 0x1") /\ ~ looks_hex (s2b "r0 0x1").
Proof. split; [eexists; vm_compute; reflexivity|]. split; [|split; intros (x & E); discriminate]. eexists. vm_compute. reflexivity. Qed.

(** ** C40: the image *)

(** C40.  After a successful start-up every byte of every image region has the value it has in the image
    file, whatever the dump contains, whichever aliases are requested, and whatever file operations
    and allocations fail on the way.  Missing: ELF files with overlapping segments or segments beyond
    2^32, see below. *)
Theorem C40_image_kept_partial args os ms w c w' : heap_sane w -> spells args os -> complete os -> image_parts w os ms -> fit [] ms ->
  api (CrashDebugCommandLine_Init args) w = Done c w' -> readable w' ms.
Proof. apply image_stays. Qed.

(** A dump that tries to overwrite the image, from outside (0x07fffffe) and inside it, and adds an alias. *)
Definition d_over : dump := mkDump true 0 (seq_words 0 17) 0 [] [(0x08000003, [99; 99]); (0x08000009, [99; 99; 99; 99])].
Definition d_over_ok : dump := mkDump true 0 (seq_words 0 17) 0 [] [(0x20000000, [7; 8; 9]); (0x0800000B, [99; 99])].
Lemma ex_parts : image_parts (w_dir files_ex) opts_ex [(0x08000000, image_ex)] /\ image_parts (w_dir files_ex) opts_elf ms_elf.
Proof.
  split.
  - right. exists (s2b "a.bin"), (s2b "0x08000000"), image_ex. split; [apply ex_uses|]. split; [vm_compute; reflexivity|]. split; [bytes_tac|]. split; [vm_compute; auto|]. vm_compute. reflexivity.
  - left. exists (s2b "a.elf"), elf_ex. split; [apply ex_uses|]. split; [vm_compute; reflexivity|]. split; [apply elf_ex_ok|]. split; [now rewrite elf_ex_segments|discriminate].
Qed.

Example C40_example :
  let files := [("a.bin"%string, image_ex); ("c.dmp"%string, encode d_over)] in
  image_parts (w_dir files) opts_ex [(0x08000000, image_ex)] /\ fit [] [(0x08000000, image_ex)] /\
  (* such a dump is refused *)
  outcome_of (api (CrashDebugCommandLine_Init args_ex) (w_dir files)) = Exception_ busErrorException /\
  (* one next to the image is loaded *)
  outcome_of (api (CrashDebugCommandLine_Init args_ex) (w_dir [("a.bin"%string, image_ex); ("c.dmp"%string, encode d_over_ok)])) = Value (settings opts_ex, true).
Proof.
  cbv zeta. split; [|split; [fits|split; vm_compute; reflexivity]].
  right. exists (s2b "a.bin"), (s2b "0x08000000"), image_ex. split; [apply ex_uses|]. split; [vm_compute; reflexivity|]. split; [bytes_tac|]. split; [vm_compute; auto|]. vm_compute. reflexivity.
Qed.

(** C40 fails for ELF files in which a segment starts inside an earlier one: it is not made read-only,
    and a dump overwrites it. *)
Definition d_inside : dump := mkDump true 0 (seq_words 0 17) 0 [] [(0x1010, [238])].
Theorem C40_overlap_refuted : exists args os w ms a bs i b c w',
  heap_sane w /\ no_io_faults w /\ spells args os /\ complete os /\ image_parts w os ms /\
  api (CrashDebugCommandLine_Init args) w = Done c w' /\
  In (a, bs) ms /\ nth_error bs i = Some b /\ outside (filter (fun x => negb (fst x =? a)) ms) (a + Z.of_nat i) /\
  outcome_of (api (readN 1 (a + Z.of_nat i)) w') <> Value b.
Proof.
  exists args_bad, opts_bad, (w_dir [("a.elf"%string, elf_inside); ("c.dmp"%string, encode d_inside)]), (segments elf_inside), 0x1008, (firstn 16 elf_inside), 8%nat, 0. eexists _, _.
  split; [apply start_sane|]. split; [intro; reflexivity|]. split; [apply bad_ok|]. split; [apply bad_ok|].
  split.
  { left. exists (s2b "a.elf"), elf_inside. split; [apply bad_ok|]. split; [vm_compute; reflexivity|]. split; [|split; [reflexivity|vm_compute; discriminate]].
    split; [bytes_tac|]. split; [vm_compute; reflexivity|]. split; [repeat split; vm_compute; congruence|]. split; [repeat split; vm_compute; congruence|]. entries_tac 2%nat. }
  split; [vm_compute; reflexivity|]. split; [vm_compute; auto|]. split; [vm_compute; reflexivity|].
  split; [|vm_compute; discriminate]. intros x Hx. vm_compute in Hx. destruct Hx as [<-|[]]. vm_compute. intros [_ H]. discriminate.
Qed.

(** ** C41: end to end *)

(** C41.  With an image (raw, or ELF) and a dump (binary, hex, or a GDB log) whose regions lie below
    2^32 and have no address in common with one another or the image: start-up succeeds (unless an
    allocation is refused, or a requested alias fails), and then every byte, half-word and word of the
    image and of the dump is read at its address, the registers are the dump's, and - without
    aliases - reading any other address is a bus error. *)
Theorem C41_end_to_end args os ms f data mem regs w :
  heap_sane w -> no_io_faults w -> (forall f data, file_is w f data -> Forall byte data) ->
  spells args os -> complete os -> image_parts w os ms -> uses_dump os f -> file_is w f data -> dump_means data mem regs ->
  fit [] (ms ++ mem) ->
  match api (CrashDebugCommandLine_Init args) w with
  | Done _ w' =>
      readable w' (ms ++ mem) /\ regs (w_ctx w') /\
      ((forall o, In o os -> is_alias o = false) -> forall a, u32 a -> outside (ms ++ mem) a ->
         api (readN 1 a) w' = Raised busErrorException (set_exn w' busErrorException []))
  | Raised c w' => (c = outOfMemoryException /\ 0 < refusals w w') \/ exists o, In o os /\ is_alias o = true
  | Crashed _ => False
  end.
Proof. apply end_to_end. Qed.

Lemma hex_ex_renders : renders (encode d_ex) hex_ex.
Proof.
  change (encode d_ex) with (99 :: 67 :: skipn 2 (encode d_ex)). unfold hex_ex. change (s2b "6343") with [54; 51; 52; 51]. cbn [app].
  apply (renders_byte (67 :: skipn 2 (encode d_ex)) 54 [] 51 _ 6 3); [reflexivity|constructor|reflexivity|].
  apply (renders_byte (skipn 2 (encode d_ex)) 52 [] 51 _ 4 3); [reflexivity|constructor|reflexivity|]. apply hexed_renders. vm_compute. reflexivity.
Qed.

Example C41_example :
  (valid d_ex /\ dump_text d_ex (encode d_ex) /\ fit [] ([(0x08000000, image_ex)] ++ d_mem d_ex)) /\
  (dump_text d_ex hex_ex /\ fit [] (ms_elf ++ d_mem d_ex) /\
   exists w', api (CrashDebugCommandLine_Init args_elf) (w_dir files_ex) = Done (settings opts_elf, true) w' /\
     outcome_of (api (readN 1 0x20000004) w') = Value 5 /\ outcome_of (api (readN 1 0x8000) w') = Value 1 /\
     outcome_of (api (readN 1 0x20000005) w') = Exception_ busErrorException).
Proof.
  split; [split; [apply ex_valid|split; [now left|fits]]|]. split; [right; split; [apply hex_ex_renders|eexists; vm_compute; reflexivity]|]. split; [fits|].
  eexists. split; [vm_compute; reflexivity|]. vm_compute. auto.
Qed.

(** A GDB log, with memory and a register. *)
Definition files_log : list (string * list Z) := [("a.bin"%string, image_ex); ("c.dmp"%string, concat PropLog.log_mem)].
Example C41_log_example :
  dump_means (concat PropLog.log_mem) (joined PropLog.ms_ex) (log_context PropLog.log_mem) /\ fit [] ([(0x08000000, image_ex)] ++ joined PropLog.ms_ex) /\
  image_parts (w_dir files_log) opts_ex [(0x08000000, image_ex)] /\
  exists w', api (CrashDebugCommandLine_Init args_ex) (w_dir files_log) = Done (settings opts_ex, true) w' /\
    outcome_of (api (readN 4 0x20000010) w') = Value 0xDEADBEEF /\ outcome_of (api (readN 2 0x20000012) w') = Value 0xDEAD /\
    word_at (w_ctx w') (TInt 1) = 5 /\ word_at (w_ctx w') (TInt 17) = 0xBAADBAAD.
Proof.
  split; [apply dm_log; [intros (x & E); discriminate|intros (x & E); discriminate|apply PropLog.whole_lines; vm_compute; reflexivity|apply LogMem.shows_loads, PropLog.log_mem_shows|apply PropLog.ms_no_wrap]|].
  split; [fits|]. split; [right; exists (s2b "a.bin"), (s2b "0x08000000"), image_ex; split; [apply ex_uses|]; split; [vm_compute; reflexivity|]; split; [bytes_tac|]; split; [vm_compute; auto|]; vm_compute; reflexivity|].
  eexists. split; [vm_compute; reflexivity|]. split; [vm_compute; reflexivity|]. split; [vm_compute; reflexivity|]. split; vm_compute; reflexivity.
Qed.

(** ** C49: exit status *)

(** C49.  Whenever start-up raises an exception the program exits with status -1, whatever the debug
    monitor is; nothing else happens except that an error that start-up does not name is printed. *)
Theorem C49_failure run args w c w1 : api (CrashDebugCommandLine_Init args) w = Raised c w1 ->
  exists w', api (main run args) w = Done (-1) w' /\
    w_mem w' = w_mem w1 /\ w_heap w' = w_heap w1 /\ w_files w' = w_files w1 /\
    w_err w' = if (c =? fileException) || (c =? elfFormatException) || (c =? invalidArgumentException) then w_err w1
               else unexpected_line c :: w_err w1.
Proof.
  unfold api. rewrite main_run. rewrite init_clear. intro H. destruct (CrashDebugCommandLine_Init args w) as [[o b] w2|w2|] eqn:E; try discriminate.
  injection H as <- ->. pose proof (init_raises_nonzero _ _ _ E) as NZ. replace (w_code w1 =? 0) with false by lia.
  destruct (after_handler_keeps w1) as (K1 & K2 & K3). eexists. split; [reflexivity|]. split; [exact K1|]. split; [exact K2|]. split; [exact K3|].
  unfold after_handler, known_error, unexpected_line. destruct (_ || _); reflexivity.
Qed.

(** C49.  Then nothing that was allocated stays allocated and no file stays open.  Missing: ELF files
    with entries that wrap or overlap, see C38_crash_refuted and C38_leak_refuted. *)
Theorem C49_clean_partial run args w c w1 : heap_sane w -> (forall os, spells args os -> files_fine w os) ->
  api (CrashDebugCommandLine_Init args) w = Raised c w1 ->
  exists w', api (main run args) w = Done (-1) w' /\ Permutation (h_live (w_heap w')) (h_live (w_heap w)) /\ fs_open (w_files w') = fs_open (w_files w).
Proof.
  intros HH HF HR. destruct (C49_failure run args w c w1 HR) as (w' & E & _ & E2 & E3 & _). exists w'. split; [exact E|].
  pose proof (C38_clean_partial args w HH HF) as P. rewrite HR in P. rewrite E2, E3. tauto.
Qed.

Example C49_example : exists w',
  api (main (ret tt) (argv ["--dump"; "c.dmp"; "--elf"; "a.bin"]%string)) (w_dir files_ex) = Done (-1) w' /\ h_live (w_heap w') = [] /\
  (exists w'', api (main (ret tt) args_ex) (w_dir files_ex) = Done 0 w'' /\ h_live (w_heap w'') = []).
Proof. eexists. split; [vm_compute; reflexivity|]. split; [reflexivity|]. eexists. split; vm_compute; reflexivity. Qed.

(** C49 fails in general: the leak of C38_leak_refuted is still there when the program exits. *)
Theorem C49_leak_refuted : exists run args w w', heap_sane w /\ acceptable args /\ no_io_faults w /\ h_live (w_heap w) = [] /\
  api (main run args) w = Done (-1) w' /\ h_live (w_heap w') <> [].
Proof.
  exists (ret tt), args_bad, (w_dir [("a.elf"%string, elf_inside)]). eexists. split; [apply start_sane|]. split; [exists opts_bad; split; apply bad_ok|].
  split; [intro; reflexivity|]. split; [reflexivity|]. split; [vm_compute; reflexivity|]. vm_compute. discriminate.
Qed.

Print Assumptions C36_rejected.
Print Assumptions C36_accepted.
Print Assumptions C36_selects.
Print Assumptions C37_order.
Print Assumptions C38_clean_partial.
Print Assumptions C38_missing_image.
Print Assumptions C38_missing_dump.
Print Assumptions C38_original.
Print Assumptions C38_out_of_memory.
Print Assumptions C38_crash_refuted.
Print Assumptions C38_leak_refuted.
Print Assumptions C39_type.
Print Assumptions C39_dump_file.
Print Assumptions C40_image_kept_partial.
Print Assumptions C40_overlap_refuted.
Print Assumptions C41_end_to_end.
Print Assumptions C49_failure.
Print Assumptions C49_clean_partial.
Print Assumptions C49_leak_refuted.
