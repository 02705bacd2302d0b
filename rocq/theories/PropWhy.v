(** Property C74: the error line of a failing start-up tells what is wrong with which input. *)
From Coq Require Import String ZArith List Bool Lia ZifyBool ZifyNat.
From Verif Require Import Base World CmdLine BaseLemmas MemSpec DumpSpec ElfSpec CmdSpec StartSpec NumSpec MsgSpec WhySpec WhyThms WhyFault MemFair CmdThms CmdFull MemEx PropMem PropDump PropElf PropCmd PropStart PropMsg PropText.
Import ListNotations.
Open Scope Z_scope.

(** C74.  When start-up fails although no file operation does, the error line is the message that the
    options and the files call for: the image file does not exist, or is too large for the memory that is
    left, or is no executable (naming the first check that it fails), or does not fit; the dump file does
    not exist, or is no dump (naming the first part of it that is missing or wrong); or an alias cannot be
    made (showing the numbers that were given).  It is blamed on memory only if an allocation was refused.
    Messages that are empty are among these: C65 is about them.
    Missing: files that fail while they are read, for which see C74_any_partial. *)
Theorem C74_why_partial args os c w w' :
  heap_sane w -> no_io_faults w -> files_fine w os -> spells args os -> complete os ->
  api (CrashDebugCommandLine_Init args) w = Raised c w' ->
  (exists m, printed w w' (firstn 1023 m) /\ startup_complaint w os c m) /\
  (c = outOfMemoryException -> 0 < refusals w w').
Proof. intros. split; [eapply start_said; eassumption|]. intros ->. eapply fair_api; [apply sat_init|eassumption]. Qed.

(** C74.  Whatever file operations fail: when start-up fails with a file error, the error line names the
    image file or the dump file, or says that the log could not be read a second time. *)
Theorem C74_files args os w w' : spells args os -> complete os ->
  api (CrashDebugCommandLine_Init args) w = Raised fileException w' ->
  exists m, printed w w' (firstn 1023 m) /\ names_file os m.
Proof. exact (files_said args os w w'). Qed.

(** A dump that is cut off in its second region; an alias that leads nowhere; a missing dump. *)
Definition files_why : list (string * list Z) := [("a.bin"%string, image_ex); ("c.dmp"%string, cut); ("d.dmp"%string, encode d_ex)].
Lemma why_fine os : (forall f, ~ uses_elf os f) -> files_fine (w_dir files_why) os.
Proof.
  intro NE. split; [|intros f data U; destruct (NE f U)]. unfold file_is, w_dir, w_start, dir, files_why. cbn [w_env e_fs find fst snd]. intros f data.
  destruct (bytes_eqb f (s2b "a.bin")); [intro H; injection H as <-; bytes_tac|]. destruct (bytes_eqb f (s2b "c.dmp")); [intro H; injection H as <-; bytes_tac|].
  destruct (bytes_eqb f (s2b "d.dmp")); [intro H; injection H as <-; bytes_tac|discriminate].
Qed.
Example C74_why_example :
  (forall f, heap_sane (w_dir files_why) /\ no_io_faults (w_dir files_why) /\ files_fine (w_dir files_why) (opts_raw f) /\ spells (args_raw f) (opts_raw f) /\ complete (opts_raw f)) /\
  (exists w', api (CrashDebugCommandLine_Init (args_raw "c.dmp")) (w_dir files_why) = Raised fileFormatException w' /\
     printed (w_dir files_why) w' (s2b "The dump file failed to load RAM memory region at 0x20001000 - 0x20001010.")) /\
  (exists w', api (CrashDebugCommandLine_Init (args_raw "e.dmp")) (w_dir files_why) = Raised fileException w' /\
     printed (w_dir files_why) w' (s2b "Failed to open ""e.dmp"".")) /\
  (exists w', api (CrashDebugCommandLine_Init (args_raw "d.dmp" ++ argv ["--alias"; "0x10000000"; "16"; "0x60000000"]%string)) (w_dir files_why) = Raised busErrorException w' /\
     printed (w_dir files_why) w' (s2b "Failed to create alias of 0x10000000 to 0x60000000 of size 16.")).
Proof.
  split; [|split; [|split]]; [|eexists; split; vm_compute; reflexivity..].
  intro f. split; [apply start_sane|]. split; [intro; reflexivity|]. split; [|split; apply raw_ok].
  apply why_fine. intros g (x & y & E & _). unfold opts_raw in E. destruct x as [|o1 [|o2 [|? ?]]]; discriminate E.
Qed.

(** Opening, measuring and reading the image fail, and opening the dump for the second time. *)
Definition w_io (k : nat) : world :=
  w_start (mkEnv (fun _ _ => true) (dir files_why) (fun n => if Nat.eqb n k then IoFail else IoOk) (fun _ => PollNo) (fun _ => RdEof) (fun _ => true)).
Example C74_files_example :
  (exists w', api (CrashDebugCommandLine_Init (args_raw "d.dmp")) (w_io 0) = Raised fileException w' /\ printed (w_io 0) w' (s2b "Failed to open ""a.bin"".")) /\
  (exists w', api (CrashDebugCommandLine_Init (args_raw "d.dmp")) (w_io 2) = Raised fileException w' /\ printed (w_io 2) w' (s2b "Failed to get file size of ""a.bin"".")) /\
  (exists w', api (CrashDebugCommandLine_Init (args_raw "d.dmp")) (w_io 4) = Raised fileException w' /\ printed (w_io 4) w' (s2b "Failed to read ""a.bin"".")) /\
  (exists w', api (CrashDebugCommandLine_Init (args_raw "d.dmp")) (w_io 7) = Raised fileException w' /\ printed (w_io 7) w' (s2b "Failed to open the ""d.dmp"" dump file.")).
Proof. split; [|split; [|split]]; (eexists; split; vm_compute; reflexivity). Qed.

(** Hex dumps with something else than hex digits: among the registers, in the header of a region and in
    its contents; and one that starts with a wrong signature before that. *)
Definition files_bad : list (string * list Z) :=
  [("a.bin"%string, image_ex); ("r.hex"%string, s2b "63430300000000zz"); ("h.hex"%string, s2b "6343" ++ hexed (skipn 2 (enc_head d_ex)) ++ s2b "0010zz");
   ("c.hex"%string, s2b "6343" ++ hexed (skipn 2 cut) ++ s2b "0z"); ("w.hex"%string, s2b "63430400zz")].
Example C74_hex_example :
  hex_until (s2b "63430300000000zz") [99; 67; 3; 0; 0; 0; 0] /\
  (exists w', api (CrashDebugCommandLine_Init (args_raw "r.hex")) (w_dir files_bad) = Raised fileFormatException w' /\ printed (w_dir files_bad) w' []) /\
  (exists w', api (CrashDebugCommandLine_Init (args_raw "h.hex")) (w_dir files_bad) = Raised fileFormatException w' /\ printed (w_dir files_bad) w' []) /\
  (exists w', api (CrashDebugCommandLine_Init (args_raw "c.hex")) (w_dir files_bad) = Raised fileFormatException w' /\
     printed (w_dir files_bad) w' (s2b "The dump file failed to load RAM memory region at 0x20001000 - 0x20001010.")) /\
  (exists w', api (CrashDebugCommandLine_Init (args_raw "w.hex")) (w_dir files_bad) = Raised fileFormatException w' /\
     printed (w_dir files_bad) w' (s2b "The dump file didn't start with the expected 4-byte signature.")).
Proof.
  split; [|split; [|split; [|split]]]; [|eexists; split; vm_compute; reflexivity..].
  exists (s2b "63430300000000"), (s2b "zz"), 122, 122, []. split; [reflexivity|]. split; [|split; [reflexivity|left; reflexivity]].
  change [99; 67; 3; 0; 0; 0; 0] with [16 * 6 + 3; 16 * 4 + 3; 16 * 0 + 3; 16 * 0 + 0; 16 * 0 + 0; 16 * 0 + 0; 16 * 0 + 0].
  repeat (eapply (renders_byte _ _ []); [reflexivity|constructor|reflexivity|]). constructor.
Qed.

(** C74.  Whatever file operations fail or are cut short: when start-up fails, the error line names the file
    that cannot be opened, measured or read; or it is the message that the options and the files call for,
    where the image was read completely, and the dump seems to end where reading it failed for the first
    time (only then is a part of it judged as if it were all).  It is blamed on memory only if an allocation
    was refused.
    Missing: messages that name the defect where the specification has an empty one; C74_silent_refuted. *)
Theorem C74_any_partial args os c w w' :
  heap_sane w -> files_fine w os -> spells args os -> complete os ->
  api (CrashDebugCommandLine_Init args) w = Raised c w' ->
  (exists m, printed w w' (firstn 1023 m) /\ faulty_complaint w w' os c m) /\
  (c = outOfMemoryException -> 0 < refusals w w').
Proof. intros. split; [eapply start_any; eassumption|]. intros ->. eapply fair_api; [apply sat_init|eassumption]. Qed.

(** The dump of this start-up is whole; reading it fails from its signature on, after that, or in the
    contents of its first region. *)
Definition w_part (k : nat) : world :=
  w_start (mkEnv (fun _ _ => true) (dir files_why) (fun n => if Nat.ltb n k then IoOk else IoShort 0) (fun _ => PollNo) (fun _ => RdEof) (fun _ => true)).
Example C74_any_example :
  (forall k, heap_sane (w_part k) /\ files_fine (w_part k) (opts_raw "d.dmp") /\ spells (args_raw "d.dmp") (opts_raw "d.dmp") /\ complete (opts_raw "d.dmp")) /\
  (exists w', api (CrashDebugCommandLine_Init (args_raw "d.dmp")) (w_part 8) = Raised fileFormatException w' /\ fault_between (w_part 8) w' /\
     printed (w_part 8) w' (s2b "The dump file was too short to contain the 4-byte signature.")) /\
  (exists w', api (CrashDebugCommandLine_Init (args_raw "d.dmp")) (w_part 9) = Raised fileFormatException w' /\ fault_between (w_part 9) w' /\
     printed (w_part 9) w' (s2b "The dump file was too short to contain the flags.")) /\
  (exists w', api (CrashDebugCommandLine_Init (args_raw "d.dmp")) (w_part 14) = Raised fileFormatException w' /\ fault_between (w_part 14) w' /\
     printed (w_part 14) w' (s2b "The dump file failed to load RAM memory region at 0x20000000 - 0x20000005.")).
Proof.
  split; [|split; [|split]].
  - intro k. split; [apply start_sane|]. split; [|split; apply raw_ok]. apply (why_fine (opts_raw "d.dmp")). intros g (x & y & E & _). unfold opts_raw in E. destruct x as [|o1 [|o2 [|? ?]]]; discriminate E.
  - eexists. split; [vm_compute; reflexivity|]. split; [exists 8%nat; split; [vm_compute; lia|discriminate]|vm_compute; reflexivity].
  - eexists. split; [vm_compute; reflexivity|]. split; [exists 9%nat; split; [vm_compute; lia|discriminate]|vm_compute; reflexivity].
  - eexists. split; [vm_compute; reflexivity|]. split; [exists 14%nat; split; [vm_compute; lia|discriminate]|vm_compute; reflexivity].
Qed.

(** C74.  Refuted in full: a hex dump with a character that is no hex digit fails start-up with an empty error
    line, which tells nothing. *)
Theorem C74_silent_refuted : exists args os c w w',
  heap_sane w /\ no_io_faults w /\ spells args os /\ complete os /\
  api (CrashDebugCommandLine_Init args) w = Raised c w' /\ c = fileFormatException /\ printed w w' [].
Proof.
  exists (args_raw "r.hex"), (opts_raw "r.hex"), fileFormatException, (w_dir files_bad). eexists. split; [apply start_sane|]. split; [intro; reflexivity|]. split; [apply raw_ok|]. split; [apply raw_ok|].
  split; [vm_compute; reflexivity|]. split; vm_compute; reflexivity.
Qed.

Print Assumptions C74_any_partial.
Print Assumptions C74_silent_refuted.
Print Assumptions C74_why_partial.
Print Assumptions C74_files.
