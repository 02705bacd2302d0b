(** Property C55: aliases on the command line; and the messages of property C36. *)
From Coq Require Import String ZArith List Bool Lia.
From Verif Require Import Base World Context MemSim Dump GdbLog Elf CmdLine BaseLemmas MemSpec MemLemmas MemInv MemOps MemHist2 DumpSpec DumpThms DumpSafe ElfSpec ElfThms LogSpec CmdSpec CmdThms CmdSafe CmdFull AliasSpec CmdAlias CmdMsg MemEx PropMem PropDump PropElf PropCmd.
Import ListNotations.
Open Scope Z_scope.

(** ** C36: messages *)

(** C36.  The exception message names the first thing that is wrong with the command line. *)
Theorem C36_message args m w : complaint args m ->
  exists w', api (CrashDebugCommandLine_Init args) w = Raised invalidArgumentException w' /\ w_msg w' = firstn 1023 m.
Proof.
  intro H. unfold api. destruct (init_complaint args m (set_exn w noException []) H) as (w1 & -> & C & M). rewrite failing_false_eq. eexists. split; [cbn [w_code set_err]; rewrite C; reflexivity|exact M].
Qed.

(** C36.  Every command line that is not acceptable has such a message. *)
Theorem C36_complaint args : ~ acceptable args -> exists m, complaint args m.
Proof. apply complaint_exists. Qed.

Example C36_message_example :
  complaint (argv ["--elf"; "a.elf"; "-dump"; "c.dmp"]%string) (s2b "Command line options must start with ""--"".") /\
  complaint (argv ["--alias"; "0"; "4"; "8"; "--foo"]%string) (s2b """--foo"" isn't a valid command line option.") /\
  complaint (argv ["--DUMP"; "c.dmp"]%string) (s2b "Must provide --bin or --elf command line option.").
Proof.
  split; [|split].
  - left. unfold argv. cbn [map]. apply co_after_elf; [named_tac|]. apply co_dashes. intros (r & E). discriminate E.
  - left. unfold argv. cbn [map]. apply co_after_alias; [named_tac|]. apply (co_unknown (s2b "--foo")); [exists (s2b "foo"); reflexivity|].
    unfold is_option, names_option, either_case. intros [N|[N|[N|N]]]; pose proof (forall2_length _ _ _ N) as L; try discriminate L;
    vm_compute in N; repeat match goal with H : Forall2 _ (_ :: _) _ |- _ => inversion H; clear H; subst end; lia.
  - right. exists [DumpFile (s2b "c.dmp")]. split; [unfold argv; cbn [map]; spells_tac|]. left. split; [|reflexivity]. intros o [<-|[]]. reflexivity.
Qed.

(** ** C55: aliases *)

(** C55.  Let the parts of the image and the dump lie below 2^32 and have no address in common, and let
    every requested alias redirect into one of them.  Then start-up succeeds unless an allocation is
    refused.  Afterwards bytes, half-words and words in no part, from which an alias leads, read as what
    it leads to, the first such alias counting; those from which none leads are a bus error.  (What lies
    in a part reads as without aliases: C41.) *)
Theorem C55_aliases args os ms f data mem regs w :
  heap_sane w -> no_io_faults w -> (forall f data, file_is w f data -> Forall byte data) ->
  spells args os -> complete os -> image_parts w os ms -> uses_dump os f -> file_is w f data -> dump_means data mem regs ->
  fit [] (ms ++ mem) -> Forall (grounded (ms ++ mem)) (aliases os) ->
  match api (CrashDebugCommandLine_Init args) w with
  | Done _ w' =>
      (forall before al after n a a' v, aliases os = before ++ al :: after -> width n -> u32 a -> in_no_part (ms ++ mem) n a ->
         (forall x y, In x before -> ~ leads (ms ++ mem) x n a y) -> leads (ms ++ mem) al n a a' -> number_at (ms ++ mem) n a' v ->
         exists w'', api (readN n a) w' = Done v w'') /\
      (forall n a, width n -> u32 a -> in_no_part (ms ++ mem) n a -> (forall al y, In al (aliases os) -> ~ leads (ms ++ mem) al n a y) ->
         api (readN n a) w' = Raised busErrorException (set_exn w' busErrorException []))
  | Raised c w' => c = outOfMemoryException /\ 0 < refusals w w'
  | Crashed _ => False
  end.
Proof. apply with_aliases. Qed.

(** C55.  An alias that redirects to an address that is neither in a part nor in an earlier alias makes
    start-up fail with a bus error whose message shows the numbers of the alias. *)
Theorem C55_nowhere args os1 b s r os2 ms f data mem regs w : let os := os1 ++ Alias b s r :: os2 in
  heap_sane w -> no_io_faults w -> (forall f data, file_is w f data -> Forall byte data) ->
  spells args os -> complete os -> image_parts w os ms -> uses_dump os f -> file_is w f data -> dump_means data mem regs ->
  fit [] (ms ++ mem) -> Forall (grounded (ms ++ mem)) (aliases os1) -> in_no_part (ms ++ mem) 1 (strtou32 r) ->
  (forall al y, In al (aliases os1) -> ~ leads (ms ++ mem) al 1 (strtou32 r) y) ->
  (exists w', api (CrashDebugCommandLine_Init args) w = Raised busErrorException w' /\ w_msg w' = firstn 1023 (alias_message (strtou32 b, strtou32 s, strtou32 r))) \/
  (exists w', api (CrashDebugCommandLine_Init args) w = Raised outOfMemoryException w' /\ 0 < refusals w w').
Proof. apply alias_nowhere. Qed.

(** Two aliases into the dump, the second overlapping the first and reaching beyond the end of the part
    (5 bytes at 0x20000000), and an alias of the image. *)
Definition args_al : list (list Z) :=
  argv ["--bin"; "a.bin"; "0x08000000"; "--alias"; "0x30000000"; "2"; "0x20000000"; "--dump"; "c.dmp"; "--alias"; "0x30000001"; "99"; "0x20000001"; "--alias"; "0"; "11"; "134217728"]%string.
Definition opts_al : list opt :=
  [Bin (s2b "a.bin") (s2b "0x08000000"); Alias (s2b "0x30000000") (s2b "2") (s2b "0x20000000"); DumpFile (s2b "c.dmp");
   Alias (s2b "0x30000001") (s2b "99") (s2b "0x20000001"); Alias (s2b "0") (s2b "11") (s2b "134217728")].
Example C55_example :
  let ps := [(0x08000000, image_ex)] ++ d_mem d_ex in
  spells args_al opts_al /\ Forall (grounded ps) (aliases opts_al) /\ fit [] ps /\
  exists w', api (CrashDebugCommandLine_Init args_al) (w_dir files_ex) = Done (settings opts_al, true) w' /\
    outcome_of (api (readN 1 0x30000004) w') = Value 5 /\ outcome_of (api (readN 1 0x30000005) w') = Exception_ busErrorException /\
    outcome_of (api (readN 1 10) w') = Value 3.
Proof.
  cbv zeta. split; [unfold args_al, opts_al, argv; cbn [map]; spells_tac|]. split.
  { repeat apply Forall_cons; [| | |apply Forall_nil]; unfold grounded; cbn [strtou32].
    - exists (0x20000000, [1; 2; 3; 4; 5]). split; [vm_compute; auto|vm_compute; split; congruence].
    - exists (0x20000000, [1; 2; 3; 4; 5]). split; [vm_compute; auto|vm_compute; split; congruence].
    - exists (0x08000000, image_ex). split; [vm_compute; auto|vm_compute; split; congruence]. }
  split; [fits|]. eexists. split; [vm_compute; reflexivity|]. vm_compute. auto.
Qed.

(** C07 on the command line: an alias may redirect into another alias: start-up succeeds, and reading through it
    leaves the simulator's storage. *)
Definition args_al2 : list (list Z) :=
  argv ["--bin"; "a.bin"; "0x08000000"; "--dump"; "c.dmp"; "--alias"; "0x30000000"; "4"; "0x20000000"; "--alias"; "0x50000000"; "4"; "0x30000000"]%string.
Theorem C07_command_line_refuted : exists args w c w', heap_sane w /\ acceptable args /\ no_io_faults w /\
  (forall f data, file_is w f data -> Forall byte data) /\
  api (CrashDebugCommandLine_Init args) w = Done c w' /\ api (readN 1 0x50000000) w' = Crashed UbData.
Proof.
  exists args_al2, (w_dir files_ex). eexists _, _. split; [apply start_sane|]. split.
  { exists [Bin (s2b "a.bin") (s2b "0x08000000"); DumpFile (s2b "c.dmp"); Alias (s2b "0x30000000") (s2b "4") (s2b "0x20000000"); Alias (s2b "0x50000000") (s2b "4") (s2b "0x30000000")].
    split; [unfold args_al2, argv; cbn [map]; spells_tac|]. split.
    - exists (Bin (s2b "a.bin") (s2b "0x08000000")). split; [now left|reflexivity].
    - exists (DumpFile (s2b "c.dmp")). split; [right; now left|reflexivity]. }
  split; [intro; reflexivity|]. split; [exact ex_bytes|]. split; [vm_compute; reflexivity|]. vm_compute. reflexivity.
Qed.

Print Assumptions C36_message.
Print Assumptions C36_complaint.
Print Assumptions C55_aliases.
Print Assumptions C55_nowhere.
Print Assumptions C07_command_line_refuted.
