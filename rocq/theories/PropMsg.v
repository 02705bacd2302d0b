(** Property C72: the message about a file that cannot be loaded names its first defect. *)
From Coq Require Import String ZArith List Bool Lia ZifyBool ZifyNat.
From Verif Require Import Base World Context MemSim Dump Elf BaseLemmas MemSpec Sat MemFair MemInv MemHist2 MemThms DumpSpec DumpThms DumpSafe ElfSpec ElfThms NumSpec MsgSpec DumpMsg ElfMsg MemEx PropMem PropDump PropElf.
Import ListNotations.
Open Scope Z_scope.

(** ** Dumps *)

Lemma said_refused k name w c w' : api (CrashCatcherDump_Read k name) w = Raised c w' -> c = outOfMemoryException -> 0 < refusals w w'.
Proof.
  unfold api. pose proof (sat_read k name (set_exn w noException [])) as S. destruct (CrashCatcherDump_Read k name (set_exn w noException [])) as [a x|x|]; try discriminate.
  intros H E. injection H as <- <-. destruct S as [_ S]. destruct (S E) as [X|X]; [discriminate X|exact X].
Qed.

(** C72.  When a binary dump is not loaded, the message names the first part of it that is missing or
    wrong; if it is a memory region, the message shows the addresses of that region, and the kind of error
    says what is wrong with it: too few bytes, addresses that are taken or do not exist, or memory
    that the system refused. *)
Theorem C72_dump name data w c w' :
  reachable w -> file_is w name data -> Forall byte data -> no_io_faults w -> ctx_sane w ->
  api (CrashCatcherDump_ReadBinary name) w = Raised c w' ->
  dump_complaint (map range_of (regions w)) data c (w_msg w') /\ (c = outOfMemoryException -> 0 < refusals w w').
Proof. intros HR HF HB HI HC H. split; [now apply (read_said Binary name data)|exact (said_refused Binary name w c w' H)]. Qed.

(** C72.  The same for a text file that writes those bytes in hexadecimal. *)
Theorem C72_hex name data text w c w' :
  reachable w -> renders data text -> file_is w name text -> no_io_faults w -> ctx_sane w ->
  api (CrashCatcherDump_ReadHex name) w = Raised c w' ->
  dump_complaint (map range_of (regions w)) data c (w_msg w') /\ (c = outOfMemoryException -> 0 < refusals w w').
Proof. intros HR HT HF HI HC. destruct (renders_units _ _ HT) as (HU & HB). intro H. split; [now apply (read_said Hex name text)|exact (said_refused Hex name w c w' H)]. Qed.

(** The dump of the examples, cut off within its second region; and with a region that crosses the
    end of the address space. *)
Definition message_of {A} (r : result A) : list Z := match r with Done _ w | Raised _ w => w_msg w | Crashed _ => [] end.
Definition cut : list Z := encode d_ex ++ le 4 0x20001000 ++ le 4 0x20001010 ++ [1; 2; 3].
Definition clash : list Z := encode d_ex ++ le 4 0xFFFFFFFE ++ le 4 0x00000003 ++ [1; 2; 3; 4; 5].
Example C72_dump_example :
  (let w := w_with cut in reachable w /\ file_is w [100] cut /\ Forall byte cut /\ no_io_faults w /\ ctx_sane w /\
   outcome_of (api (CrashCatcherDump_ReadBinary [100]) w) = Exception_ fileFormatException /\
   message_of (api (CrashCatcherDump_ReadBinary [100]) w) = s2b "The dump file failed to load RAM memory region at 0x20001000 - 0x20001010.") /\
  (let w := w_with clash in outcome_of (api (CrashCatcherDump_ReadBinary [100]) w) = Exception_ busErrorException /\
   message_of (api (CrashCatcherDump_ReadBinary [100]) w) = s2b "The dump file failed to load RAM memory region at 0xFFFFFFFE - 0x00000003.") /\
  (let w := w_with (firstn 60 cut) in
   message_of (api (CrashCatcherDump_ReadBinary [100]) w) = s2b "The dump file was too short to contain the integer registers.") /\
  (let w := w_with (hexed cut) in renders cut (hexed cut) /\ file_is w [100] (hexed cut) /\
   message_of (api (CrashCatcherDump_ReadHex [100]) w) = s2b "The dump file failed to load RAM memory region at 0x20001000 - 0x20001010.").
Proof.
  cbv zeta. split; [|split; [vm_compute; auto|split; [vm_compute; auto|]]].
  - split; [apply with_reachable|]. split; [apply with_file|]. split; [apply byteb_ok; vm_compute; reflexivity|]. split; [apply with_io|]. split; [apply with_ctx|]. vm_compute. auto.
  - split; [apply hexed_renders; vm_compute; reflexivity|]. split; [apply with_file|]. vm_compute. reflexivity.
Qed.

(** ** Executables *)

(** C72.  When a file is rejected as an executable, the message names the first check it fails, with
    the number of the entry and the offsets in the file where it has them - provided that what the
    loadable entries describe ends within the first 2 GB.  The full claim has no such condition; see
    C72_elf_refuted. *)
Theorem C72_elf_partial b w w' :
  reachable w -> Forall byte b -> zlen b < 4294901760 -> low_entries b ->
  api (ElfLoad_FromMemory b) w = Raised elfFormatException w' -> elf_complaint b (w_msg w').
Proof. intros HR. destruct (reachable_inv _ HR) as (R & HI). now apply (elf_said R). Qed.

Lemma low_cut : low_entries (firstn 207 elf_ex).
Proof. unfold low_entries. change (entry_count (firstn 207 elf_ex)) with (Z.of_nat 4). entries_tac 4%nat. Qed.
Example C72_elf_example :
  (let b := firstn 207 elf_ex in Forall byte b /\ low_entries b /\ zlen b < 4294901760 /\
   outcome_of (api (ElfLoad_FromMemory b) (w_with [])) = Exception_ elfFormatException /\
   message_of (api (ElfLoad_FromMemory b) (w_with [])) = s2b "ELF failed to load entry from file at offsets 205 to 207.") /\
  message_of (api (ElfLoad_FromMemory (elf_header 52 36 4 ++ prog_header 0x70000001 0 0 4 4)) (w_with [])) = s2b "ELF page header entry 1 is at an invalid file offset of 88." /\
  message_of (api (ElfLoad_FromMemory (elf_header 52 31 4)) (w_with [])) = s2b "ELF header contains a page header entry size of 31, which is smaller than the expected size of 32." /\
  message_of (api (ElfLoad_FromMemory (firstn 51 elf_ex)) (w_with [])) = s2b "ELF was too short to contain valid header.".
Proof. cbv zeta. split; [|vm_compute; repeat split]. split; [bytes_tac|]. split; [apply low_cut|]. vm_compute. repeat split. Qed.

(** C72.  For all executables whose entries describe contents below 4 GB: the message names the first check
    that is failed, and is as C72_elf_partial says, or is about contents that would end past 2 GB and shows
    their offsets as signed numbers. *)
Theorem C72_elf_reported b w w' :
  reachable w -> Forall byte b -> zlen b < 4294901760 -> no_wrap_entries b ->
  api (ElfLoad_FromMemory b) w = Raised elfFormatException w' -> elf_reported b (w_msg w').
Proof. intros HR. destruct (reachable_inv _ HR) as (R & HI). now apply (elf_reports R). Qed.

(** C72.  The offsets are printed as signed numbers: an entry whose contents would start at offset
    2147483648 is reported with a negative one. *)
Definition elf_far : list Z := elf_header 52 32 1 ++ prog_header 1 2147483648 0x8000 16 16.
Lemma value_head base ds n : value_of base ds n -> forall c t, ds = c :: t -> exists d, is_digit base c d.
Proof.
  induction 1 as [|ds n c d V IH D]; intros x t E; [discriminate E|]. destruct ds as [|y ds].
  - injection E as <- _. eauto.
  - injection E as <- _. eapply IH. reflexivity.
Qed.
Theorem C72_elf_refuted : exists b w w',
  reachable w /\ Forall byte b /\ zlen b < 4294901760 /\ has_header b /\ has_table b /\ entry_count b = 1 /\ entry_inside b 0 /\ loadable b 0 = true /\
  seg_offset b 0 = 2147483648 /\ seg_filesize b 0 = 16 /\
  api (ElfLoad_FromMemory b) w = Raised elfFormatException w' /\
  w_msg w' = s2b "ELF failed to load entry from file at offsets -2147483648 to -2147483633." /\ ~ elf_complaint b (w_msg w').
Proof.
  exists elf_far, (w_with []). eexists. split; [apply with_reachable|]. split; [bytes_tac|]. split; [vm_compute; reflexivity|].
  split; [repeat split; vm_compute; congruence|]. split; [repeat split; vm_compute; congruence|].
  split; [vm_compute; reflexivity|]. split; [vm_compute; congruence|]. split; [vm_compute; reflexivity|]. split; [vm_compute; reflexivity|]. split; [vm_compute; reflexivity|].
  split; [vm_compute; reflexivity|]. split; [vm_compute; reflexivity|].
  match goal with |- ~ elf_complaint _ ?m => change m with (s2b "ELF failed to load entry from file at offsets -2147483648 to -2147483633.") end.
  intro X. inversion X as [? Y|? ? Y|? ? ? Y|? ? ? ? Y|? ? ? ? ? Y|? ? Y|? ? ? Y|t ? ? ? ? ? Y|k tk ta ? ? ? ? ? ? ? Y|k tf tl H1 H2 H3 H4 H5 H6 H7 S1 S2 Y|? ? ? Y];
    try discriminate.
  destruct S1 as [S1 N1]. destruct tf as [|c tf]; [congruence|]. destruct (value_head _ _ _ S1 _ _ eq_refl) as (v & D). assert (c = 45) as -> by (vm_compute in Y; congruence). destruct D as [D _]. discriminate D.
Qed.

Print Assumptions C72_dump.
Print Assumptions C72_hex.
Print Assumptions C72_elf_partial.
Example C72_elf_reported_example :
  no_wrap_entries elf_far /\ ~ low_entries elf_far /\ outcome_of (api (ElfLoad_FromMemory elf_far) (w_with [])) = Exception_ elfFormatException.
Proof.
  split; [|split; [|vm_compute; reflexivity]].
  - unfold no_wrap_entries. change (entry_count elf_far) with (Z.of_nat 1). entries_tac 1%nat.
  - intro H. specialize (H 0%nat). vm_compute in H. specialize (H eq_refl). apply H; [congruence|reflexivity|reflexivity].
Qed.

Print Assumptions C72_elf_reported.
Print Assumptions C72_elf_refuted.
