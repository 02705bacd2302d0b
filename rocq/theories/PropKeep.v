(** What the image puts into memory stays there, also when its parts overlap. *)
From Coq Require Import String ZArith List Bool Lia ZifyBool ZifyNat.
From Verif Require Import Base World Context MemSim CmdLine Platform Comm MainProg BaseLemmas MemSpec MemInv MemOps DumpSpec DumpThms ElfSpec CmdSpec CmdThms CmdSafe CmdFull CmdMain PlatSpec PlatInit PlatThms PlatSess StartAnySpec StartAny SessAnySpec SessAny LeakSpec LeakThms MemEx PropMem PropElf PropCmd PropPlat PropStartAny PropSessAny Dump Elf KeepThms PropDump PropLeak.
Import ListNotations.
Open Scope Z_scope.

(** ** C40: what start-up does with protected parts of the image *)

(** C40.  Let [w1] be the state right after the image was loaded, into an empty simulator.  Every byte,
    half-word and word that reads as [v] there and that cannot be written there reads as [v] after
    start-up: whatever the dump contains, whichever aliases are requested, whatever file operations and
    allocations fail, and for every image, also with overlapping or repeated entries.  Missing: the parts
    of the image that the loader leaves writable, see [C40_overlap_refuted]. *)
Theorem C40_protected_partial args os w w1 c w' n a v x e : heap_sane w -> spells args os -> complete os ->
  (forall f data, file_is w f data -> Forall byte data) ->
  api (loadImageFile (settings os)) (blank_state w) = Done tt w1 ->
  api (CrashDebugCommandLine_Init args) w = Done c w' ->
  width n -> u32 a -> outcome_of (api (readN n a) w1) = Value v -> outcome_of (api (writeN n a x) w1) = Exception_ e ->
  outcome_of (api (readN n a) w') = Value v.
Proof. apply protected_stays. Qed.

(** C40.  And all that the image puts into memory is of this kind, unless it is an executable with a
    loadable entry that starts inside an earlier one.  An entry may still reach over an earlier
    one. *)
Theorem C40_apart_partial args os w w1 c w' n a v : heap_sane w -> spells args os -> complete os ->
  (forall f data, file_is w f data -> Forall byte data) ->
  (forall f data, uses_elf os f -> file_is w f data -> zlen data < 4294901760 /\ starts_apart data) ->
  api (loadImageFile (settings os)) (blank_state w) = Done tt w1 ->
  api (CrashDebugCommandLine_Init args) w = Done c w' ->
  width n -> u32 a -> outcome_of (api (readN n a) w1) = Value v ->
  outcome_of (api (readN n a) w') = Value v.
Proof. apply apart_stays. Qed.

(** The executable of [C40_overlap_refuted], with two entries 0x1000 to 0x100f and 0x1008 to 0x1017.  The
    first one is protected, so a dump that brings another byte for 0x1010 changes the second one
    only.  The second executable has an entry of two bytes that lies inside the next one: all of it is
    protected, and a word that is read across the small entry comes from the large one. *)
Definition elf_around : list Z := elf_header 52 32 2 ++ prog_header 1 2 0x1008 2 2 ++ prog_header 1 0 0x1000 16 16.
Definition d_beside : dump := mkDump true 0 (seq_words 0 17) 0 [] [(0x2000, [238; 239])].

Example C40_protected_example : let w := w_dir [("a.elf"%string, elf_inside); ("c.dmp"%string, encode d_inside)] in
  exists w1 c w', heap_sane w /\ spells args_bad opts_bad /\ complete opts_bad /\ (forall f data, file_is w f data -> Forall byte data) /\
  api (loadImageFile (settings opts_bad)) (blank_state w) = Done tt w1 /\ api (CrashDebugCommandLine_Init args_bad) w = Done c w' /\
  outcome_of (api (readN 4 0x1008) w1) = Value 1179403647 /\ outcome_of (api (writeN 4 0x1008 7) w1) = Exception_ busErrorException /\
  (* the rest of the second entry is not protected *)
  outcome_of (api (readN 1 0x1010) w1) = Value 0 /\ outcome_of (api (writeN 1 0x1010 7) w1) = Value tt /\ outcome_of (api (readN 1 0x1010) w') = Value 238.
Proof.
  cbv zeta. eexists _, _, _. split; [apply start_sane|]. split; [apply bad_ok|]. split; [apply bad_ok|].
  split. { unfold file_is, w_dir, w_start, dir. cbn [w_env e_fs find fst snd]. intros f data H. destruct (bytes_eqb f (s2b "a.elf")); [injection H as <-; bytes_tac|]. destruct (bytes_eqb f (s2b "c.dmp")); [injection H as <-; bytes_tac|discriminate]. }
  split; [vm_compute; reflexivity|]. split; [vm_compute; reflexivity|]. repeat split; vm_compute; reflexivity.
Qed.

Example C40_apart_example : let w := w_dir [("a.elf"%string, elf_around); ("c.dmp"%string, encode d_beside)] in
  exists w1 c w', heap_sane w /\ spells args_bad opts_bad /\ complete opts_bad /\ (forall f data, file_is w f data -> Forall byte data) /\
  (forall f data, uses_elf opts_bad f -> file_is w f data -> zlen data < 4294901760 /\ starts_apart data) /\
  api (loadImageFile (settings opts_bad)) (blank_state w) = Done tt w1 /\ api (CrashDebugCommandLine_Init args_bad) w = Done c w' /\
  outcome_of (api (readN 1 0x1008) w1) = Value 76 /\ outcome_of (api (readN 4 0x1008) w1) = Value 0 /\
  outcome_of (api (readN 2 0x2000) w') = Value 61422.
Proof.
  cbv zeta. eexists _, _, _. split; [apply start_sane|]. split; [apply bad_ok|]. split; [apply bad_ok|].
  split. { unfold file_is, w_dir, w_start, dir. cbn [w_env e_fs find fst snd]. intros f data H. destruct (bytes_eqb f (s2b "a.elf")); [injection H as <-; bytes_tac|]. destruct (bytes_eqb f (s2b "c.dmp")); [injection H as <-; bytes_tac|discriminate]. }
  split. { intros f data (bf & af & E & _). assert (f = s2b "a.elf") as -> by (destruct bf as [|? [|? [|? ?]]]; try discriminate E; now injection E as <-).
    unfold file_is. change (e_fs _ _) with (Some elf_around). intro H. injection H as <-. split; [vm_compute; reflexivity|]. intros i j L HJ _ _. assert (C2 : entry_count elf_around = 2) by (vm_compute; reflexivity). rewrite C2 in HJ. assert (j = 1%nat) as -> by lia. assert (i = 0%nat) as -> by lia. vm_compute. intros (X & _). now apply X. }
  split; [vm_compute; reflexivity|]. split; [vm_compute; reflexivity|]. repeat split; vm_compute; reflexivity.
Qed.

Print Assumptions C40_protected_partial.
Print Assumptions C40_apart_partial.
