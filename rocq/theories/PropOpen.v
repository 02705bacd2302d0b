(** Property C80: which files are opened. *)
From Coq Require Import String ZArith List Bool Lia Permutation.
From Verif Require Import Base World Context MemSim Dump Elf CmdLine Platform Comm MainProg BaseLemmas MemSpec MemInv DumpSpec ElfSpec CmdSpec CmdThms CmdSafe CmdMain PlatSpec ChanThms StartAnySpec StartAny OpenSpec OpenThms MemEx PropMem PropDump PropElf PropCmd PropStartAny.
Import ListNotations.
Open Scope Z_scope.

(** C80.  Whatever the files contain and whatever fails: start-up opens the image named on the command
    line once and then the dump twice (once to find out its type), nothing else.  A start-up that fails
    has stopped somewhere on that way; with a command line that is not in order nothing was opened. *)
Theorem C80_start args w : heap_sane w -> (forall f data, file_is w f data -> Forall byte data) ->
  match api (CrashDebugCommandLine_Init args) w with
  | Done _ w' => exists f g, asks_for args f g /\ opened_since w w' [g; g; f]
  | Raised c w' =>
      if c =? invalidArgumentException then opened_since w w' []
      else exists f g, asks_for args f g /\ (opened_since w w' [f] \/ opened_since w w' [g; f] \/ opened_since w w' [g; g; f])
  | Crashed _ => True
  end.
Proof.
  intros HH HB. pose proof (C79_start args w HH HB) as P.
  assert (K : acceptable args -> exists f g, asks_for args f g /\
     match api (CrashDebugCommandLine_Init args) w with
     | Done _ w' => opened_since w w' [g; g; f]
     | Raised c w' => opened_since w w' [f] \/ opened_since w w' [g; f] \/ opened_since w w' [g; g; f]
     | Crashed _ => True end).
  { intros (os & HS & HC). destruct (complete_uses os HC) as ((f & Hf) & g & Hg). exists f, g. split; [exists os; auto|].
    pose proof (init_opens args os f g w HH HB HS HC Hf Hg) as O. unfold api. change (CrashDebugCommandLine_Init args (set_exn w noException [])) with (CrashDebugCommandLine_Init args w).
    destruct (CrashDebugCommandLine_Init args w) as [a w1|w1|]; exact O. }
  destruct (api (CrashDebugCommandLine_Init args) w) as [a w'|c w'|u] eqn:E; [| |exact I].
  - destruct (K (proj1 P)) as (f & g & A & O). exists f, g. auto.
  - destruct (c =? invalidArgumentException).
    + destruct P as ((N & _) & _). destruct (C36_rejected args w N) as (w2 & E2 & F & _). rewrite E in E2. injection E2 as _ ->. unfold opened_since. now rewrite F.
    + destruct (K (proj1 (proj1 P))) as (f & g & A & O). exists f, g. auto.
Qed.

(** C80.  Start-up does not touch the channel to GDB: nothing is sent, nothing read, and it is not even
    asked whether there is input. *)
Theorem C80_channel args w :
  match api (CrashDebugCommandLine_Init args) w with
  | Done _ w' | Raised _ w' => w_con w' = w_con w
  | Crashed _ => True
  end.
Proof.
  pose proof (init_still args (set_exn w noException [])) as P. unfold api. destruct (CrashDebugCommandLine_Init args (set_exn w noException [])); [apply P|apply P|exact I].
Qed.

(** C80.  No call of the debug monitor opens a file ... *)
Theorem C80_pcall p w :
  match api (pcall_run p) w with
  | Done _ w' | Raised _ w' => opened_since w w' []
  | Crashed _ => True
  end.
Proof.
  pose proof (o_pcall p (set_exn w noException [])) as P. unfold api. destruct (pcall_run p (set_exn w noException [])); [exact P|exact P|exact I].
Qed.

(** ... so that the program as a whole, whatever the monitor does, opens no other files than the image
    and the dump named on its command line. *)
Theorem C80_main m args w s w' : heap_sane w -> (forall f data, file_is w f data -> Forall byte data) ->
  main (monitor_run m) args w = Ret s w' ->
  opened_since w w' [] \/
  exists f g, asks_for args f g /\ (opened_since w w' [f] \/ opened_since w w' [g; f] \/ opened_since w w' [g; g; f]).
Proof.
  intros HH HB E. destruct (main_opens m args w s w' E) as (w1 & (a & A) & S). pose proof (C80_start args w HH HB) as P. unfold api in P.
  change (CrashDebugCommandLine_Init args (set_exn w noException [])) with (CrashDebugCommandLine_Init args w) in P. unfold opened_since, shut in *.
  destruct A as [A|A]; rewrite A in P.
  - destruct P as (f & g & Q & O). right. exists f, g. rewrite S. auto.
  - destruct (w_code w1 =? invalidArgumentException); [left; rewrite S; exact P|]. destruct P as (f & g & Q & O). right. exists f, g. rewrite S. auto.
Qed.

(** A start-up with a dump, and one whose dump does not exist; an image that is named but does not
    count is not opened. *)
Definition args_two : list (list Z) := argv ["--bin"; "a.bin"; "0"; "--dump"; "c.hex"; "--elf"; "b.elf"; "--elf"; "a.elf"]%string.
Example C80_example :
  heap_sane (w_dir files_ex) /\ (forall f data, file_is (w_dir files_ex) f data -> Forall byte data) /\
  asks_for args_two (s2b "a.elf") (s2b "c.hex") /\
  (exists a w', api (CrashDebugCommandLine_Init args_two) (w_dir files_ex) = Done a w' /\ opened_since (w_dir files_ex) w' [s2b "c.hex"; s2b "c.hex"; s2b "a.elf"]) /\
  (exists c w', api (CrashDebugCommandLine_Init args_bad) (w_dir [("a.elf"%string, elf_ex)]) = Raised c w' /\ opened_since (w_dir []) w' [s2b "c.dmp"; s2b "a.elf"]) /\
  (exists w', main (monitor_run (MCall PGetRegs (fun _ => MDone) (fun _ => MDone))) args_two (w_dir files_ex) = Ret 0 w').
Proof.
  split; [apply start_sane|]. split.
  { unfold file_is, w_dir, w_start, dir, files_ex. cbn [w_env e_fs find fst snd]. intros f data H. repeat (destruct (bytes_eqb f _); [injection H as <-; bytes_tac|]). discriminate. }
  split; [|split; [|split]].
  - exists [Bin (s2b "a.bin") (s2b "0"); DumpFile (s2b "c.hex"); Elf (s2b "b.elf"); Elf (s2b "a.elf")]. split; [unfold args_two, argv; cbn [map]; spells_tac|]. split.
    + split; [exists (Elf (s2b "a.elf")); split; [cbn; auto|reflexivity]|exists (DumpFile (s2b "c.hex")); split; [cbn; auto|reflexivity]].
    + split; [left; eexists [_; _; _], []; split; [reflexivity|]; split; reflexivity|]. eexists [_], _. split; [reflexivity|]. split; reflexivity.
  - eexists _, _. split; [vm_compute; reflexivity|reflexivity].
  - eexists _, _. split; [vm_compute; reflexivity|reflexivity].
  - eexists. vm_compute. reflexivity.
Qed.

Print Assumptions C80_start.
Print Assumptions C80_channel.
Print Assumptions C80_pcall.
Print Assumptions C80_main.
