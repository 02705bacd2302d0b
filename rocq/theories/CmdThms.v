(** The command line: its grammar, its options, and the stages of start-up. *)
From Coq Require Import String ZArith List Bool Lia ZifyBool ZifyNat Permutation.
From Verif Require Import Base World Context MemSim Dump GdbLog Elf CmdLine BaseLemmas MemSpec Sat MemLemmas MemInv MemOps DumpSpec ElfSpec CmdSpec Closed.
Import ListNotations.
Open Scope Z_scope.
Open Scope m_scope.

(** ** Option names *)

Lemma bytes_eqb_spec a b : bytes_eqb a b = true <-> a = b.
Proof.
  revert b. induction a as [|x a IH]; intros [|y b]; cbn; try (split; congruence).
  rewrite andb_true_iff, IH. split; [intros [H ->]; f_equal; lia|intros [= -> ->]; split; [lia|reflexivity]].
Qed.

Lemma lower_either x y : ~ (65 <= y <= 90) -> (tolower x = y <-> either_case x y).
Proof. unfold tolower, either_case. destruct ((65 <=? x) && (x <=? 90)) eqn:E; lia. Qed.

Lemma named a name : Forall (fun y => ~ (65 <= y <= 90)) (s2b name) -> (strcaseeq a (s2b name) = true <-> names_option a name).
Proof.
  unfold strcaseeq, names_option. rewrite bytes_eqb_spec. generalize (s2b name). intros l H. revert a. induction H as [|y l Hy _ IH]; intros [|x a]; cbn [map].
  - split; constructor.
  - split; [discriminate|]. intro H. inversion H.
  - split; [discriminate|]. intro H. inversion H.
  - assert (Ey : tolower y = y) by (unfold tolower; destruct ((65 <=? y) && (y <=? 90)) eqn:E; lia). rewrite Ey.
    split.
    + intro E. injection E as E1 E2. constructor; [now apply lower_either|now apply IH].
    + intro E. inversion E; subst. f_equal; [now apply lower_either|now apply IH].
Qed.

Ltac lower_case := repeat (constructor; [lia|]); constructor.
Lemma named_bin a : strcaseeq a (s2b "--bin") = true <-> names_option a "--bin".
Proof. apply named. cbn. lower_case. Qed.
Lemma named_elf a : strcaseeq a (s2b "--elf") = true <-> names_option a "--elf".
Proof. apply named. cbn. lower_case. Qed.
Lemma named_dump a : strcaseeq a (s2b "--dump") = true <-> names_option a "--dump".
Proof. apply named. cbn. lower_case. Qed.
Lemma named_alias a : strcaseeq a (s2b "--alias") = true <-> names_option a "--alias".
Proof. apply named. cbn. lower_case. Qed.

Lemma dashes a name rest : s2b name = 45 :: 45 :: rest -> names_option a name -> hasDoubleDashPrefix a = true.
Proof.
  unfold names_option. intros -> H. inversion H as [|x y l l' Hx H1]; subst. inversion H1 as [|x' y' l1 l1' Hx' H2]; subst.
  unfold either_case in *. replace x with 45 by lia. replace x' with 45 by lia. reflexivity.
Qed.

Ltac dashed N := eapply dashes; [|exact N]; reflexivity.

Lemma one_name a n m : strcaseeq a (s2b n) = true -> strcaseeq a (s2b m) = true -> map tolower (s2b n) = map tolower (s2b m).
Proof. unfold strcaseeq. rewrite !bytes_eqb_spec. congruence. Qed.

(** ** The parser *)

(** The effect of an option on the parsed settings. *)
Definition set_opt (c : cl) (o : opt) : cl :=
  match o with
  | Elf f => mkCL (Some f) (cl_bin c) (cl_dump c) (cl_base c)
  | Bin f b => mkCL (cl_elf c) (Some f) (cl_dump c) (strtou32 b)
  | DumpFile f => mkCL (cl_elf c) (cl_bin c) (Some f) (cl_base c)
  | Alias _ _ _ => c
  end.
Definition no_settings : cl := mkCL None None None 0.
Definition settings (os : list opt) : cl := fold_left set_opt os no_settings.

Fixpoint make_aliases (os : list opt) : M world unit :=
  match os with
  | [] => ret tt
  | Alias b s r :: t => createAliasOption b s r ;;; make_aliases t
  | _ :: t => make_aliases t
  end.

Lemma parse_spelled args os : spells args os ->
  (forall c w, parseArguments FIRST_PASS args c w = Ret (fold_left set_opt os c) w) /\
  (forall c w, parseArguments SECOND_PASS args c w = (make_aliases os ;;; ret c) w).
Proof.
  induction 1 as [|a f args os N _ [IH1 IH2]|a f b args os N _ [IH1 IH2]|a f args os N _ [IH1 IH2]|a b s r args os N _ [IH1 IH2]].
  - split; reflexivity.
  - assert (D : hasDoubleDashPrefix a = true) by dashed N. apply named_elf in N.
    destruct (strcaseeq a (s2b "--bin")) eqn:B; [pose proof (one_name _ _ _ N B); discriminate|].
    split; intros c w; cbn [parseArguments fold_left set_opt make_aliases]; rewrite D, B, N; cbn [negb]; [apply IH1|apply IH2].
  - assert (D : hasDoubleDashPrefix a = true) by dashed N. apply named_bin in N.
    split; intros c w; cbn [parseArguments fold_left set_opt make_aliases]; rewrite D, N; cbn [negb]; [apply IH1|apply IH2].
  - assert (D : hasDoubleDashPrefix a = true) by dashed N. apply named_dump in N.
    destruct (strcaseeq a (s2b "--bin")) eqn:B; [pose proof (one_name _ _ _ N B); discriminate|].
    destruct (strcaseeq a (s2b "--elf")) eqn:E; [pose proof (one_name _ _ _ N E); discriminate|].
    split; intros c w; cbn [parseArguments fold_left set_opt make_aliases]; rewrite D, B, E, N; cbn [negb]; [apply IH1|apply IH2].
  - assert (D : hasDoubleDashPrefix a = true) by dashed N. apply named_alias in N.
    destruct (strcaseeq a (s2b "--bin")) eqn:B; [pose proof (one_name _ _ _ N B); discriminate|].
    destruct (strcaseeq a (s2b "--elf")) eqn:E; [pose proof (one_name _ _ _ N E); discriminate|].
    destruct (strcaseeq a (s2b "--dump")) eqn:U; [pose proof (one_name _ _ _ N U); discriminate|].
    split; intros c w; cbn [parseArguments fold_left set_opt make_aliases]; rewrite D, B, E, U, N; cbn [negb].
    + apply IH1.
    + unfold bind at 1. unfold bind at 1. unfold bind at 1. destruct (createAliasOption b s r w) as [[] w1|w1|]; [apply IH2|reflexivity|reflexivity].
Qed.

Definition invalid (w : world) (m : list Z) : world := set_exn w (Z.max invalidArgumentException (w_code w)) m.

(** Either the arguments are spelled, or the first pass raises the invalid-argument exception. *)
Lemma parse_any : forall n args, (length args <= n)%nat ->
  (exists os, spells args os) \/
  ((forall os, ~ spells args os) /\ forall c w, exists m, parseArguments FIRST_PASS args c w = Exc (invalid w m)).
Proof.
  induction n as [|n IH]; intros [|a t] L; cbn [length] in L; try lia; try (left; exists []; constructor).
  assert (T : forall A w msg, exists m, (throw_msg invalidArgumentException msg : M world A) w = Exc (invalid w m)) by (intros; eexists; reflexivity).
  cbn [parseArguments].
  destruct (hasDoubleDashPrefix a) eqn:D; cbn [negb].
  2:{ right. split; [|intros; apply T]. intros os H. inversion H as [|? ? ? ? N|? ? ? ? ? N|? ? ? ? N|? ? ? ? ? ? N]; subst; (assert (D2 : hasDoubleDashPrefix a = true) by dashed N); congruence. }
  destruct (strcaseeq a (s2b "--bin")) eqn:B.
  { assert (X : forall args' os, spells (a :: args') os -> exists f b rest os', args' = f :: b :: rest /\ spells rest os').
    { intros args' os H. inversion H as [|? ? ? ? N|? ? ? ? ? N|? ? ? ? N|? ? ? ? ? ? N]; subst; try (solve [eauto 10]); exfalso;
        first [apply named_elf in N|apply named_dump in N|apply named_alias in N]; pose proof (one_name _ _ _ N B); discriminate. }
    destruct t as [|f [|b t']].
    - right. split; [|intros; apply T]. intros os H. apply X in H as (? & ? & ? & ? & E & _). discriminate.
    - right. split; [|intros; apply T]. intros os H. apply X in H as (? & ? & ? & ? & E & _). discriminate.
    - destruct (IH t') as [(os & H)|[H1 H2]]; [cbn [length] in L; lia| |].
      + left. exists (Bin f b :: os). constructor; [now apply named_bin|exact H].
      + right. split; [|intros; apply H2]. intros os H. apply X in H as (? & ? & ? & os' & E & H). injection E as <- <- <-. exact (H1 _ H). }
  destruct (strcaseeq a (s2b "--elf")) eqn:E.
  { assert (X : forall args' os, spells (a :: args') os -> exists f rest os', args' = f :: rest /\ spells rest os').
    { intros args' os H. inversion H as [|? ? ? ? N|? ? ? ? ? N|? ? ? ? N|? ? ? ? ? ? N]; subst; try (solve [eauto 10]); exfalso;
        first [apply named_bin in N|apply named_dump in N|apply named_alias in N]; pose proof (one_name _ _ _ N E); discriminate. }
    destruct t as [|f t'].
    - right. split; [|intros; apply T]. intros os H. apply X in H as (? & ? & ? & Q & _). discriminate.
    - destruct (IH t') as [(os & H)|[H1 H2]]; [cbn [length] in L; lia| |].
      + left. exists (Elf f :: os). constructor; [now apply named_elf|exact H].
      + right. split; [|intros; apply H2]. intros os H. apply X in H as (? & ? & os' & Q & H). injection Q as <- <-. exact (H1 _ H). }
  destruct (strcaseeq a (s2b "--dump")) eqn:U.
  { assert (X : forall args' os, spells (a :: args') os -> exists f rest os', args' = f :: rest /\ spells rest os').
    { intros args' os H. inversion H as [|? ? ? ? N|? ? ? ? ? N|? ? ? ? N|? ? ? ? ? ? N]; subst; try (solve [eauto 10]); exfalso;
        first [apply named_bin in N|apply named_elf in N|apply named_alias in N]; pose proof (one_name _ _ _ N U); discriminate. }
    destruct t as [|f t'].
    - right. split; [|intros; apply T]. intros os H. apply X in H as (? & ? & ? & Q & _). discriminate.
    - destruct (IH t') as [(os & H)|[H1 H2]]; [cbn [length] in L; lia| |].
      + left. exists (DumpFile f :: os). constructor; [now apply named_dump|exact H].
      + right. split; [|intros; apply H2]. intros os H. apply X in H as (? & ? & os' & Q & H). injection Q as <- <-. exact (H1 _ H). }
  destruct (strcaseeq a (s2b "--alias")) eqn:A.
  { assert (X : forall args' os, spells (a :: args') os -> exists b s r rest os', args' = b :: s :: r :: rest /\ spells rest os').
    { intros args' os H. inversion H as [|? ? ? ? N|? ? ? ? ? N|? ? ? ? N|? ? ? ? ? ? N]; subst; try (solve [eauto 10]); exfalso;
        first [apply named_bin in N|apply named_elf in N|apply named_dump in N]; pose proof (one_name _ _ _ N A); discriminate. }
    destruct t as [|b [|s [|r t']]].
    - right. split; [|intros; apply T]. intros os H. apply X in H as (? & ? & ? & ? & ? & Q & _). discriminate.
    - right. split; [|intros; apply T]. intros os H. apply X in H as (? & ? & ? & ? & ? & Q & _). discriminate.
    - right. split; [|intros; apply T]. intros os H. apply X in H as (? & ? & ? & ? & ? & Q & _). discriminate.
    - destruct (IH t') as [(os & H)|[H1 H2]]; [cbn [length] in L; lia| |].
      + left. exists (Alias b s r :: os). constructor; [now apply named_alias|exact H].
      + right. split; [|intros; apply H2]. intros os H. apply X in H as (? & ? & ? & ? & os' & Q & H). injection Q as <- <- <- <-. exact (H1 _ H). }
  right. split; [|intros; apply T]. intros os H.
  inversion H as [|? ? ? ? N|? ? ? ? ? N|? ? ? ? N|? ? ? ? ? ? N]; subst; first [apply named_bin in N|apply named_elf in N|apply named_dump in N|apply named_alias in N]; congruence.
Qed.

(** ** Settings *)

Lemma fold_elf os : forall c, cl_elf (fold_left set_opt os c) = fold_left (fun x o => match o with Elf f => Some f | _ => x end) (filter is_elf os) (cl_elf c).
Proof. induction os as [|[] os IH]; intro c; cbn [fold_left filter is_elf]; [reflexivity|rewrite IH; reflexivity..]. Qed.
Lemma fold_bin os : forall c, (cl_bin (fold_left set_opt os c), cl_base (fold_left set_opt os c)) =
  fold_left (fun x o => match o with Bin f b => (Some f, strtou32 b) | _ => x end) (filter is_bin os) (cl_bin c, cl_base c).
Proof. induction os as [|[] os IH]; intro c; cbn [fold_left filter is_bin]; [reflexivity|rewrite IH; reflexivity..]. Qed.
Lemma fold_dump os : forall c, cl_dump (fold_left set_opt os c) = fold_left (fun x o => match o with DumpFile f => Some f | _ => x end) (filter is_dump os) (cl_dump c).
Proof. induction os as [|[] os IH]; intro c; cbn [fold_left filter is_dump]; [reflexivity|rewrite IH; reflexivity..]. Qed.

Lemma settings_reordered os os' : reordered os os' -> settings os = settings os'.
Proof.
  intros (H1 & H2 & H3 & _). pose proof (fold_elf os no_settings) as A. pose proof (fold_elf os' no_settings) as A'.
  pose proof (fold_bin os no_settings) as B. pose proof (fold_bin os' no_settings) as B'.
  pose proof (fold_dump os no_settings) as C. pose proof (fold_dump os' no_settings) as C'.
  rewrite H1, <- A' in A. rewrite H2, <- B' in B. rewrite H3, <- C' in C. unfold settings in *.
  destruct (fold_left set_opt os no_settings), (fold_left set_opt os' no_settings). cbn in *. congruence.
Qed.

Lemma aliases_filter os : make_aliases os = make_aliases (filter is_alias os).
Proof. induction os as [|[] os IH]; cbn [make_aliases filter is_alias]; [reflexivity|exact IH|exact IH|exact IH|]. now rewrite IH. Qed.

(** The last option of a kind. *)
Lemma last_of kind os : (forall o, In o os -> kind o = false) \/ exists o, last_such kind os o.
Proof.
  induction os as [|o os [IH|(x & b & a & -> & K & H)]]; [left; contradiction| |right; exists x, (o :: b), a; auto].
  destruct (kind o) eqn:K; [right|left; intros y [<-|Hy]; auto].
  exists o, [], os. split; [reflexivity|]. split; [exact K|]. apply forallb_forall. intros y Hy. now rewrite (IH y Hy).
Qed.

Lemma filter_none {A} (f : A -> bool) l : (forall x, In x l -> f x = false) -> filter f l = [].
Proof. induction l as [|x l IH]; intro H; [reflexivity|]. cbn. rewrite (H x) by now left. apply IH. intros y Hy. apply H. now right. Qed.
Lemma filter_last kind os o : last_such kind os o -> exists l, filter kind os = l ++ [o].
Proof.
  intros (b & a & -> & K & H). exists (filter kind b). rewrite filter_app. cbn [filter]. rewrite K. rewrite (filter_none kind a); [reflexivity|].
  intros x Hx. rewrite forallb_forall in H. specialize (H x Hx). now destruct (kind x).
Qed.

Lemma set_elf os f : uses_elf os f -> cl_elf (settings os) = Some f.
Proof. intro H. unfold settings. rewrite fold_elf. destruct (filter_last _ _ _ H) as (l & ->). now rewrite fold_left_app. Qed.
Lemma set_no_elf os : (forall o, In o os -> is_elf o = false) -> cl_elf (settings os) = None.
Proof. intro H. unfold settings. rewrite fold_elf, filter_none by exact H. reflexivity. Qed.
Lemma set_dump os f : uses_dump os f -> cl_dump (settings os) = Some f.
Proof. intro H. unfold settings. rewrite fold_dump. destruct (filter_last _ _ _ H) as (l & ->). now rewrite fold_left_app. Qed.
Lemma set_no_dump os : (forall o, In o os -> is_dump o = false) -> cl_dump (settings os) = None.
Proof. intro H. unfold settings. rewrite fold_dump, filter_none by exact H. reflexivity. Qed.
Lemma set_bin os f b : last_such is_bin os (Bin f b) -> cl_bin (settings os) = Some f /\ cl_base (settings os) = strtou32 b.
Proof.
  intro H. pose proof (fold_bin os no_settings) as E. destruct (filter_last _ _ _ H) as (l & El). rewrite El, fold_left_app in E. cbn [fold_left] in E.
  unfold settings. now injection E.
Qed.
Lemma set_no_bin os : (forall o, In o os -> is_bin o = false) -> cl_bin (settings os) = None.
Proof. intro H. pose proof (fold_bin os no_settings) as E. rewrite filter_none in E by exact H. cbn in E. unfold settings. now injection E. Qed.

Lemma complete_uses os : complete os -> (exists f, uses_image os f) /\ exists f, uses_dump os f.
Proof.
  intros [(o & Ho & K) (d & Hd & KD)]. split.
  - unfold uses_image, uses_bin, uses_elf. destruct (last_of is_elf os) as [N|(x & H)].
    + destruct (last_of is_bin os) as [N2|(x & H)].
      * rewrite (N _ Ho), (N2 _ Ho) in K. discriminate.
      * pose proof H as (_ & _ & _ & Kx & _). destruct x; try discriminate. eauto.
    + pose proof H as (_ & _ & _ & Kx & _). destruct x; try discriminate. eauto.
  - unfold uses_dump. destruct (last_of is_dump os) as [N|(x & H)]; [rewrite (N _ Hd) in KD; discriminate|].
    pose proof H as (_ & _ & _ & Kx & _). destruct x; try discriminate. eauto.
Qed.

(** Which file is the image, and how it is loaded. *)
Lemma image_cases os f : uses_image os f ->
  (uses_elf os f /\ cl_elf (settings os) = Some f) \/
  (exists a, uses_bin os f a /\ cl_elf (settings os) = None /\ cl_bin (settings os) = Some f /\ cl_base (settings os) = strtou32 a).
Proof.
  intros [H|(a & N & H)]; [left; split; [exact H|now apply set_elf]|right]. exists a. split; [split; assumption|].
  split; [now apply set_no_elf|]. now apply set_bin.
Qed.

(** The required options are checked. *)
Lemma required_check os w :
  (complete os /\ throwIfRequiredArgumentNotSpecified (settings os) w = Ret tt w) \/
  (~ complete os /\ exists m, throwIfRequiredArgumentNotSpecified (settings os) w = Exc (invalid w m)).
Proof.
  unfold throwIfRequiredArgumentNotSpecified.
  assert (T : forall A w msg, exists m, (throw_msg invalidArgumentException msg : M world A) w = Exc (invalid w m)) by (intros; eexists; reflexivity).
  destruct (last_of is_elf os) as [NE|(e & HE)]; [destruct (last_of is_bin os) as [NB|(b & HB)]|].
  - right. split; [|rewrite (set_no_elf _ NE), (set_no_bin _ NB); apply T]. intros [(o & Ho & K) _]. rewrite (NE _ Ho), (NB _ Ho) in K. discriminate.
  - pose proof HB as (pre & post & Eos & KB & _). assert (IB : In b os) by (rewrite Eos; apply in_elt). destruct b as [| f a| |]; try discriminate. destruct (set_bin _ _ _ HB) as [-> _].
    destruct (last_of is_dump os) as [ND|(d & HD)].
    + right. split; [|rewrite (set_no_dump _ ND); apply T]. intros [_ (o & Ho & K)]. rewrite (ND _ Ho) in K. discriminate.
    + left. pose proof HD as (pre' & post' & Eos' & KD & _). assert (ID : In d os) by (rewrite Eos'; apply in_elt). destruct d; try discriminate. rewrite (set_dump _ _ HD).
      split; [split; eauto|reflexivity].
  - pose proof HE as (pre & post & Eos & KE & _). assert (IE : In e os) by (rewrite Eos; apply in_elt). destruct e as [f| | |]; try discriminate. rewrite (set_elf _ _ HE).
    assert (X : forall (x : M world unit), match cl_bin (settings os) with Some _ => x | None => x end = x) by (intro x; now destruct (cl_bin _)). rewrite X.
    destruct (last_of is_dump os) as [ND|(d & HD)].
    + right. split; [|rewrite (set_no_dump _ ND); apply T]. intros [_ (o & Ho & K)]. rewrite (ND _ Ho) in K. discriminate.
    + left. pose proof HD as (pre' & post' & Eos' & KD & _). assert (ID : In d os) by (rewrite Eos'; apply in_elt). destruct d; try discriminate. rewrite (set_dump _ _ HD).
      split; [split; eauto|reflexivity].
Qed.

(** ** The stages *)

Definition stages (os : list opt) : M world unit :=
  loadImageFile (settings os) ;;; loadDumpFile (settings os) ;;; make_aliases os.

Lemma stages_eq os w : stages os w =
  match loadImageFile (settings os) w with
  | Ret _ w1 => match loadDumpFile (settings os) w1 with Ret _ w2 => make_aliases os w2 | Exc w2 => Exc w2 | Ub u => Ub u end
  | Exc w1 => Exc w1
  | Ub u => Ub u
  end.
Proof. reflexivity. Qed.

(** What a failure of a stage leads to. *)
Definition failing (hasMemory : bool) : M world (cl * bool) :=
  displayExceptionMessage ;;; displayCopyrightNotice ;;; displayUsage ;;;
  (if hasMemory then MemorySim_Uninit else ret tt) ;;; rethrow.

Lemma init_stages args os w : spells args os -> complete os ->
  CrashDebugCommandLine_Init args w =
  match stages os (set_exn (blank_state w) noException []) with
  | Ret _ w1 => if w_code w1 =? 0 then Ret (settings os, true) w1 else failing true w1
  | Exc w1 => if w_code w1 =? 0 then Ret (settings os, true) w1 else failing true w1
  | Ub u => Ub u
  end.
Proof.
  intros HS HC. destruct (parse_spelled _ _ HS) as [P1 P2].
  unfold CrashDebugCommandLine_Init, try_. set (w0 := set_exn w noException []).
  unfold bind at 1, lift at 1, modw at 1. cbn [fst snd]. set (w1 := set_ctx w0 (repeat 0 216)).
  unfold bind at 1, lift at 1. cbn [fst snd]. rewrite P1. unfold bind at 1, setl at 1. cbn [fst snd].
  change (fold_left set_opt os (mkCL None None None 0)) with (settings os).
  unfold bind at 1, lift at 1. cbn [fst snd]. destruct (required_check os w1) as [[_ ->]|[N _]]; [|contradiction].
  unfold bind at 1, lift at 1, MemorySim_Init, modw at 1. cbn [fst snd].
  change (set_mem w1 (mkMem [] None 0)) with (set_exn (blank_state w) noException []).
  set (w2 := set_exn (blank_state w) noException []). unfold bind at 1, setl at 1. cbn [fst snd].
  rewrite stages_eq. unfold bind at 1, lift at 1. cbn [fst snd].
  destruct (loadImageFile (settings os) w2) as [[] w3|w3|]; [|reflexivity|reflexivity].
  unfold bind at 1, lift at 1. cbn [fst snd]. destruct (loadDumpFile (settings os) w3) as [[] w4|w4|]; [|reflexivity|reflexivity].
  unfold bind at 1, lift at 1. cbn [fst snd]. rewrite P2. unfold bind at 1. destruct (make_aliases os w4) as [[] w5|w5|]; reflexivity.
Qed.

Lemma failing_false w : exists s w', failing false w = Exc w' /\ w' = set_exn (set_err w s) (Z.max (w_code w) (w_code w)) (w_msg w) /\
  s = usage :: banner :: (s2b "ERROR: " ++ w_msg w ++ [10]) :: w_err w.
Proof. eexists. eexists. split; [reflexivity|]. split; [reflexivity|]. reflexivity. Qed.

(** A rejected command line. *)
Lemma init_rejected args w : ~ acceptable args -> exists m,
  let w1 := set_exn (set_ctx w (repeat 0 216)) invalidArgumentException m in
  CrashDebugCommandLine_Init args w = failing false w1.
Proof.
  intro H. unfold CrashDebugCommandLine_Init, try_. set (w0 := set_exn w noException []).
  unfold bind at 1, lift at 1, modw at 1. cbn [fst snd]. set (w1 := set_ctx w0 (repeat 0 216)).
  unfold bind at 1, lift at 1. cbn [fst snd].
  destruct (parse_any (length args) args (le_n _)) as [(os & HS)|[_ E]].
  - destruct (parse_spelled _ _ HS) as [P1 _]. rewrite P1. unfold bind at 1, setl at 1. cbn [fst snd].
    change (fold_left set_opt os (mkCL None None None 0)) with (settings os).
    unfold bind at 1, lift at 1. cbn [fst snd]. destruct (required_check os w1) as [[HC _]|[_ (m & ->)]]; [exfalso; apply H; exists os; auto|].
    exists m. reflexivity.
  - destruct (E (mkCL None None None 0) w1) as (m & ->). exists m. reflexivity.
Qed.
