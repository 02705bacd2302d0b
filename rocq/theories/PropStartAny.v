(** Property C79: start-up with any files at all. *)
From Coq Require Import String ZArith List Bool Lia Permutation.
From Verif Require Import Base World Context MemSim Dump Elf CmdLine BaseLemmas MemSpec MemInv MemOps MemHist MemHist2 DumpSpec DumpThms ElfSpec ElfThms CmdSpec CmdThms CmdSafe CmdFull CmdMain StartAnySpec StartAny MemEx PropMem PropDump PropElf PropCmd.
Import ListNotations.
Open Scope Z_scope.

(** C79.  Whatever the command line and the bytes of the files, and whatever allocations and file
    operations fail, start-up comes to an end.  Either it is done: then nothing has been printed.  Or it
    raises an exception: then its message and the usage have been printed and no memory of the target
    remains; the exception is the one for invalid arguments exactly when the command line is not in
    order.  Either way every file is closed again and no block that was in use before has been freed.
    Or it reads beyond the end of a hostile executable: nothing else can bring it down. *)
Theorem C79_start args w : heap_sane w -> (forall f data, file_is w f data -> Forall byte data) ->
  match api (CrashDebugCommandLine_Init args) w with
  | Done _ w' => acceptable args /\ w_err w' = w_err w /\ fs_open (w_files w') = fs_open (w_files w) /\
      incl (h_live (w_heap w)) (h_live (w_heap w'))
  | Raised c w' =>
      (if c =? invalidArgumentException then ~ acceptable args /\ w_mem w' = w_mem w
       else acceptable args /\ file_trouble c /\ regions w' = [] /\ m_xml (w_mem w') = None) /\
      w_err w' = usage :: banner :: error_line (w_msg w') :: w_err w /\
      fs_open (w_files w') = fs_open (w_files w) /\ incl (h_live (w_heap w)) (h_live (w_heap w'))
  | Crashed u => u = UbBlob /\ names_hostile args w
  end.
Proof.
  intros HH HB.
  assert (RJ : ~ acceptable args -> match api (CrashDebugCommandLine_Init args) w with
    | Done _ w' => False
    | Raised c w' => c = invalidArgumentException /\ w_mem w' = w_mem w /\ w_err w' = usage :: banner :: error_line (w_msg w') :: w_err w /\
        fs_open (w_files w') = fs_open (w_files w) /\ incl (h_live (w_heap w)) (h_live (w_heap w'))
    | Crashed u => False end).
  { intro N. destruct (C36_rejected args w N) as (w' & -> & H1 & H2 & H3 & H4). rewrite H1, H2, H3. split; [reflexivity|]. split; [reflexivity|]. split; [exact H4|]. split; [reflexivity|apply incl_refl]. }
  assert (RK : ~ acceptable args -> match api (CrashDebugCommandLine_Init args) w with
    | Done _ w' => acceptable args /\ w_err w' = w_err w /\ fs_open (w_files w') = fs_open (w_files w) /\ incl (h_live (w_heap w)) (h_live (w_heap w'))
    | Raised c w' =>
        (if c =? invalidArgumentException then ~ acceptable args /\ w_mem w' = w_mem w
         else acceptable args /\ file_trouble c /\ regions w' = [] /\ m_xml (w_mem w') = None) /\
        w_err w' = usage :: banner :: error_line (w_msg w') :: w_err w /\
        fs_open (w_files w') = fs_open (w_files w) /\ incl (h_live (w_heap w)) (h_live (w_heap w'))
    | Crashed u => u = UbBlob /\ names_hostile args w end).
  { intro N. specialize (RJ N). destruct (api _ w) as [c w'|c w'|u]; [destruct RJ| |destruct RJ]. destruct RJ as (-> & R1 & R2). rewrite Z.eqb_refl. tauto. }
  destruct (parse_any (length args) args (le_n _)) as [(os & HS)|[N _]].
  2:{ apply RK. intros (os & HS & _). exact (N os HS). }
  destruct (required_check os w) as [[HC _]|[NC _]].
  - assert (AC : acceptable args) by (exists os; split; assumption).
    pose proof (init_any args os w HH HS HC HB) as P. destruct (api _ w) as [c w'|c w'|u].
    + destruct P as ((X & (_ & _ & PE) & _) & _ & O & E). split; [exact AC|]. split; [exact E|]. split; [exact O|].
      intros b Hb. eapply Permutation_in; [symmetry; exact PE|]. apply in_or_app. right. apply in_or_app. now right.
    + destruct P as (C & R & M & (X & (_ & _ & PE)) & O & E). destruct (init_code_nonzero _ C) as (_ & NI). replace (c =? invalidArgumentException) with false by lia.
      split; [split; [exact AC|]; split; [exact C|]; split; assumption|]. split; [exact E|]. split; [exact O|].
      intros b Hb. eapply Permutation_in; [symmetry; exact PE|]. apply in_or_app. now right.
    + destruct P as (E & f & data & U & F & H). split; [exact E|]. exists os, f, data. auto.
  - apply RK. intros (os' & HS' & HC'). apply NC. destruct (parse_spelled _ _ HS) as [P1 _]. destruct (parse_spelled _ _ HS') as [P2 _].
    assert (E : settings os' = settings os) by (specialize (P1 no_settings w); specialize (P2 no_settings w); unfold settings; congruence).
    destruct (required_check os w) as [[Z _]|[_ (m & Z)]]; [exact Z|]. destruct (required_check os' w) as [[_ Z']|[Z' _]]; [congruence|contradiction].
Qed.

(** C79.  In particular a start-up without a hostile executable never misbehaves, also when entries of
    the executable overlap. *)
Theorem C79_benign args w : heap_sane w -> (forall f data, file_is w f data -> Forall byte data) -> ~ names_hostile args w ->
  forall u, api (CrashDebugCommandLine_Init args) w <> Crashed u.
Proof. intros HH HB NH u E. pose proof (C79_start args w HH HB) as P. rewrite E in P. exact (NH (proj2 P)). Qed.

(** Files of random bytes; an executable with an entry inside another one, and a dump that is cut off;
    and one that is hostile.  The first two raise an exception, the last brings start-up down. *)
Definition w_junk : world := w_dir [("a.elf"%string, [127; 69; 76; 70; 1; 1; 7; 200]); ("c.dmp"%string, [255; 0; 17])].
Definition w_inside : world := w_dir [("a.elf"%string, elf_inside); ("c.dmp"%string, [99; 67; 3])].
Definition w_wrap : world := w_dir [("a.elf"%string, elf_wrap)].
Example C79_example :
  (heap_sane w_junk /\ (forall f data, file_is w_junk f data -> Forall byte data) /\
   exists w', api (CrashDebugCommandLine_Init args_bad) w_junk = Raised elfFormatException w') /\
  (heap_sane w_inside /\ (forall f data, file_is w_inside f data -> Forall byte data) /\
   exists w', api (CrashDebugCommandLine_Init args_bad) w_inside = Raised fileFormatException w') /\
  (heap_sane w_wrap /\ (forall f data, file_is w_wrap f data -> Forall byte data) /\ names_hostile args_bad w_wrap).
Proof.
  split; [|split]; (split; [apply start_sane|]).
  - split; [|eexists; vm_compute; reflexivity].
    unfold file_is, w_junk, w_dir, w_start, dir. cbn [w_env e_fs find fst snd]. intros f data H. destruct (bytes_eqb f (s2b "a.elf")); [|destruct (bytes_eqb f (s2b "c.dmp")); [|discriminate]]; injection H as <-; bytes_tac.
  - split; [|eexists; vm_compute; reflexivity].
    unfold file_is, w_inside, w_dir, w_start, dir. cbn [w_env e_fs find fst snd]. intros f data H. destruct (bytes_eqb f (s2b "a.elf")); [|destruct (bytes_eqb f (s2b "c.dmp")); [|discriminate]]; injection H as <-; bytes_tac.
  - split.
    + unfold file_is, w_wrap, w_dir, w_start, dir. cbn [w_env e_fs find fst snd]. intros f data H. destruct (bytes_eqb f (s2b "a.elf")); [|discriminate]. injection H as <-. bytes_tac.
    + exists opts_bad, (s2b "a.elf"), elf_wrap. split; [apply bad_ok|]. split; [apply bad_ok|]. split; [reflexivity|]. left. exists 0%nat. vm_compute. repeat split; discriminate.
Qed.

(** C35.  The same for loading an executable alone, into any state of the simulator: whatever its size
    and contents, it is read beyond its end only if it is hostile, and nothing else goes wrong. *)
Theorem C35_any_partial b w : reachable w -> Forall byte b ->
  match api (ElfLoad_FromMemory b) w with
  | Done _ w' => frame w w'
  | Raised c w' => (c = elfFormatException \/ c = busErrorException \/ c = outOfMemoryException) /\ frame w w'
  | Crashed u => u = UbBlob /\ hostile b
  end.
Proof.
  intros HR HB. destruct (reachable_inv _ HR) as (R & HI). apply (Inv_exn _ _ noException []) in HI.
  pose proof (elf_tol R b _ HB HI) as T. pose proof (fun u => elf_crash R b _ u HB HI) as U. unfold api, tol in *.
  destruct (ElfLoad_FromMemory b (set_exn w noException [])) as [[] w'|w'|u]; [apply T| |exact (U u eq_refl)].
  destruct T as (_ & F & C). split; [exact C|exact F].
Qed.

Example C35_any_example : reachable (w_with []) /\ Forall byte elf_inside /\ hostile elf_wrap.
Proof. split; [apply with_reachable|]. split; [bytes_tac|]. left. exists 0%nat. vm_compute. repeat split; discriminate. Qed.

Print Assumptions C35_any_partial.
Print Assumptions C79_start.
Print Assumptions C79_benign.
