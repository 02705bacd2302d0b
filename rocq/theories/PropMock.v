(** Properties C59 to C62: the test doubles. *)
From Coq Require Import String ZArith List Bool Lia.
From Verif Require Import Base BaseLemmas World Comm DumpSpec Mocks MockSpec.
Import ListNotations.
Open Scope Z_scope.

Lemma fold_snoc {A B} (f : A -> B -> A) h c a : fold_left f (h ++ [c]) a = f (fold_left f h a) c.
Proof. rewrite fold_left_app. reflexivity. Qed.

Lemma zlen_snoc {A} (l : list A) x : zlen (l ++ [x]) = zlen l + 1.
Proof. unfold zlen. rewrite app_length. cbn. lia. Qed.

(** ** C59: failing allocations *)

Definition pending (h : list malloc_call) (n : Z) : Prop :=
  exists before m after, h = before ++ FailAllocation m :: after /\ Forall (eq Allocate) after /\ n = m - zlen after.

Lemma pending_snoc_alloc h n : pending h n -> pending (h ++ [Allocate]) (n - 1).
Proof.
  intros (b & m & a & -> & F & ->). exists b, m, (a ++ [Allocate]). rewrite <- app_assoc. cbn. split; [reflexivity|].
  split; [apply Forall_app; split; [exact F|constructor; [reflexivity|constructor]]|]. rewrite zlen_snoc. lia.
Qed.

Lemma pending_pre_alloc h n : pending (h ++ [Allocate]) n -> pending h (n + 1).
Proof.
  intros (b & m & a & E & F & ->). destruct a as [|x a] using rev_ind.
  - apply app_inj_tail in E as (_ & E). discriminate.
  - rewrite app_comm_cons, app_assoc in E. apply app_inj_tail in E as (-> & <-). exists b, m, a.
    apply Forall_app in F as (F & _). rewrite zlen_snoc. split; [reflexivity|split; [exact F|lia]].
Qed.

Lemma pending_fun h n n' : pending h n -> pending h n' -> n = n'.
Proof.
  revert n n'. induction h as [|c h IH] using rev_ind; intros n n' P P'.
  - destruct P as (b & m & a & E & _). destruct b; discriminate.
  - destruct c as [m| |].
    + destruct P as (b & m1 & a & E & F & ->), P' as (b' & m2 & a' & E' & F' & ->).
      destruct a as [|x a _] using rev_ind.
      * apply app_inj_tail in E as (-> & E). injection E as ->.
        destruct a' as [|x' a' _] using rev_ind; [apply app_inj_tail in E' as (_ & E'); injection E' as ->; reflexivity|].
        rewrite app_comm_cons, app_assoc in E'. apply app_inj_tail in E' as (_ & <-). apply Forall_app in F' as (_ & F'). inversion F'; discriminate.
      * rewrite app_comm_cons, app_assoc in E. apply app_inj_tail in E as (_ & <-). apply Forall_app in F as (_ & F). inversion F; discriminate.
    + destruct P as (b & m1 & a & E & F & ->). destruct a as [|x a _] using rev_ind.
      * apply app_inj_tail in E as (_ & E). discriminate.
      * rewrite app_comm_cons, app_assoc in E. apply app_inj_tail in E as (_ & <-). apply Forall_app in F as (_ & F). inversion F; discriminate.
    + apply pending_pre_alloc in P, P'. specialize (IH _ _ P P'). lia.
Qed.

Definition requests_fit (h : list malloc_call) : Prop := forall n, In (FailAllocation n) h -> u32 n.

Lemma malloc_state h : requests_fit h ->
  let s := after_mallocs h in
  (0 <= mi_toFail s < 2 ^ 32) /\
  (mi_hooked s = true -> exists n, pending h n /\ mi_toFail s = Z.max 0 n) /\
  (mi_hooked s = false -> forall n, ~ pending h n).
Proof.
  induction h as [|c h IH] using rev_ind; intro F.
  - cbn. split; [lia|]. split; [discriminate|]. intros _ n (b & m & a & E & _). destruct b; discriminate.
  - assert (F' : requests_fit h) by (intros n I; apply F, in_or_app; left; exact I). specialize (IH F'). unfold after_mallocs in *. rewrite fold_snoc.
    set (s := fold_left malloc_step h malloc_inject0) in *. destruct IH as (R & H1 & H2). destruct c as [n| |]; cbn [malloc_step].
    + assert (U : u32 n) by (apply F, in_or_app; right; left; reflexivity).
      cbn. rewrite W_id by exact U. unfold u32 in U. split; [exact U|]. split; [intros _|discriminate].
      exists n. split; [|lia]. exists h, n, []. cbn. split; [reflexivity|]. split; [constructor|]. unfold zlen; cbn; lia.
    + cbn. split; [exact R|]. split; [discriminate|]. intros _ n (b & m & a & E & G & _).
      destruct a as [|x a _] using rev_ind; [apply app_inj_tail in E as (_ & E); discriminate|].
      rewrite app_comm_cons, app_assoc in E. apply app_inj_tail in E as (_ & <-). apply Forall_app in G as (_ & G). inversion G; discriminate.
    + unfold hook_alloc, shouldThisAllocationBeFailed. destruct (mi_hooked s) eqn:K; cbn.
      * destruct (H1 eq_refl) as (n & P & E). destruct (Z.eqb_spec (mi_toFail s) 0) as [Z0|Z0]; cbn.
        -- split; [exact R|]. rewrite K. split; [intros _|discriminate]. exists (n - 1). split; [apply pending_snoc_alloc, P|lia].
        -- rewrite W_id by (unfold u32; lia). split; [lia|]. split; [intros _|discriminate].
           exists (n - 1). split; [apply pending_snoc_alloc, P|lia].
      * split; [exact R|]. rewrite K. split; [discriminate|]. intros _ n P. apply pending_pre_alloc in P. exact (H2 eq_refl _ P).
Qed.

(** For every history of requests and allocations, the next allocation fails exactly if it is the one
    asked for. *)
Theorem C59_failing_allocation h : requests_fit h ->
  fst (hook_alloc (after_mallocs h)) = false <-> asked_to_fail h.
Proof.
  intro F. destruct (malloc_state h F) as (R & H1 & H2). set (s := after_mallocs h) in *.
  assert (A : asked_to_fail h <-> pending h 1).
  { split; intros (b & m & a & E & G & N); exists b, m, a; split; try exact E; split; try exact G; lia. }
  rewrite A. unfold hook_alloc, shouldThisAllocationBeFailed. destruct (mi_hooked s).
  - destruct (H1 eq_refl) as (n & P & E). destruct (Z.eqb_spec (mi_toFail s) 0) as [Z0|Z0]; cbn.
    + split; [discriminate|]. intro Q. pose proof (pending_fun _ _ _ P Q). lia.
    + rewrite W_id by (unfold u32; lia). split.
      * intro X. assert (n = 1) by (destruct (Z.eqb_spec (mi_toFail s - 1) 0); [lia|discriminate]). subst n. exact P.
      * intro Q. pose proof (pending_fun _ _ _ P Q). subst n. rewrite E. reflexivity.
  - cbn. split; [discriminate|]. intro Q. destruct (H2 eq_refl _ Q).
Qed.

Example C59_example :
  let h := [Allocate; FailAllocation 1; FailAllocation 3; Allocate; Allocate] in
  requests_fit h /\ asked_to_fail h /\ ~ asked_to_fail (h ++ [Allocate]) /\ ~ asked_to_fail (h ++ [RestoreAllocation]).
Proof.
  cbn zeta. assert (G : forall l, (forall n, In (FailAllocation n) l -> n = 1 \/ n = 3) -> requests_fit l).
  { intros l H n I. unfold u32. destruct (H n I); lia. }
  split; [apply G; intros n I; repeat (destruct I as [I|I]; [try discriminate I; injection I; lia|]); destruct I|].
  split; [exists [Allocate; FailAllocation 1], 3, [Allocate; Allocate]; repeat constructor|].
  split; intro A; apply C59_failing_allocation in A;
    try (apply G; intros n I; repeat (destruct I as [I|I]; [try discriminate I; injection I; lia|]); destruct I);
    vm_compute in A; discriminate.
Qed.

(** ** C60: failing file functions *)

(** A call to [f] after the history. *)
Definition result_of (f : file_fn) (size : Z) (h : list file_call) : file_result := fst (file_hook f size (after_files h)).

(** The part of the state that matters for one function, and its invariance. *)
Definition view (f : file_fn) (s : file_inject) : option Z * bool * Z * Z * list (list Z) * nat :=
  match f with
  | F_fopen => (fi_fopen s, true, 0, 0, [], O)
  | F_fclose => (None, fi_fclose s, 0, 0, [], O)
  | F_fseek => (None, fi_fseek s, fi_fseekReturn s, fi_fseekToPass s, [], O)
  | F_ftell => (fi_ftell s, true, 0, 0, [], O)
  | F_fwrite => (fi_fwrite s, true, 0, 0, [], O)
  | F_fread => (None, fi_fread s, fi_freadReturn s, fi_freadToFail s, [], O)
  | F_fgets => (None, fi_fgets s, 0, 0, fi_lines s, fi_curr s)
  end.

Lemma view_other f c s : about c <> Some f -> (forall size, c <> Call f size) -> view f (file_step s c) = view f s.
Proof.
  intros A N. destruct c; cbn [about] in A; cbn [file_step];
    try (destruct f; solve [reflexivity|exfalso; apply A; reflexivity]).
  rename f0 into g. assert (G : g <> f) by (intros ->; exact (N size eq_refl)).
  destruct g; cbn [file_hook]; unfold hook_fopen, hook_fclose, hook_fseek, hook_ftell, hook_fwrite, hook_fread, hook_fgets; cbn [snd];
    try reflexivity.
  - destruct (fi_fseek s); [|reflexivity]. destruct (0 <? fi_fseekToPass s); [|reflexivity]. destruct f; solve [reflexivity|congruence].
  - destruct (fi_fread s); [|reflexivity]. destruct (0 <? fi_freadToFail s); [|reflexivity].
    cbv zeta. destruct (fi_freadToFail s - 1 =? 0); destruct f; solve [reflexivity|congruence].
  - destruct (fi_fgets s); [|reflexivity]. destruct (nth_error _ _); destruct f; solve [reflexivity|congruence].
Qed.

Lemma result_view f size s s' : view f s = view f s' -> fst (file_hook f size s) = fst (file_hook f size s').
Proof.
  destruct f; cbn; unfold hook_fopen, hook_fclose, hook_fseek, hook_ftell, hook_fwrite, hook_fread, hook_fgets; cbn [fst];
    intro E; injection E; intros.
  - rewrite H. reflexivity.
  - rewrite H. reflexivity.
  - rewrite H, H0, H1. destruct (fi_fseek s'); [|reflexivity]. destruct (0 <? _); reflexivity.
  - rewrite H. reflexivity.
  - rewrite H. reflexivity.
  - rewrite H, H0, H1. destruct (fi_fread s'); [|reflexivity]. destruct (0 <? _); [|reflexivity]. destruct (_ =? 0); reflexivity.
  - rewrite H, H0, H1. destruct (fi_fgets s'); [|reflexivity]. destruct (nth_error _ _); reflexivity.
Qed.

(** An invariant kept by the calls of [f] is kept by every history without requests about [f]. *)
Lemma quiet_invariant f (I : nat -> file_inject -> Prop) :
  (forall k s s', view f s = view f s' -> I k s -> I k s') ->
  (forall k s size, I k s -> I (S k) (file_step s (Call f size))) ->
  forall h k, no_request f h -> calls f h k -> forall j s, I j s -> I (j + k)%nat (fold_left file_step h s).
Proof.
  intros V C h k Q K. induction K as [|size h k K IH|c h k N K IH]; intros j s J; cbn [fold_left].
  - rewrite Nat.add_0_r. exact J.
  - inversion Q; subst. rewrite <- Nat.add_succ_comm. apply IH; [assumption|]. apply C, J.
  - inversion Q; subst. apply IH; [assumption|]. apply (V _ s); [|exact J]. symmetry. apply view_other; assumption.
Qed.

Lemma fn_dec (f g : file_fn) : {f = g} + {f <> g}.
Proof. decide equality. Qed.

Lemma calls_total f h : exists k, calls f h k.
Proof.
  induction h as [|c h (k & IH)]; [exists O; constructor|]. destruct c;
    try (exists k; apply c_other; [intros; discriminate|exact IH]).
  destruct (fn_dec f0 f) as [->|N]; [exists (S k); constructor; exact IH|]. exists k. apply c_other; [intros s E; injection E; intros; congruence|exact IH].
Qed.

(** Without a request, or after the request was taken back, every call reaches the library. *)
Lemma passing f h s size : no_request f h ->
  match f with F_fopen => fi_fopen s = None | F_fclose => fi_fclose s = false | F_fseek => fi_fseek s = false | F_ftell => fi_ftell s = None
             | F_fwrite => fi_fwrite s = None | F_fread => fi_fread s = false | F_fgets => fi_fgets s = false end ->
  fst (file_hook f size (fold_left file_step h s)) = Passed.
Proof.
  intros Q H. destruct (calls_total f h) as (k & K).
  pose (I := fun (_ : nat) s => match f with F_fopen => fi_fopen s = None | F_fclose => fi_fclose s = false | F_fseek => fi_fseek s = false
     | F_ftell => fi_ftell s = None | F_fwrite => fi_fwrite s = None | F_fread => fi_fread s = false | F_fgets => fi_fgets s = false end).
  assert (J : I (O + k)%nat (fold_left file_step h s)).
  { apply (quiet_invariant f I); [| |exact Q|exact K|exact H].
    - intros j s1 s2 E X. unfold I in *. destruct f; cbn in E; injection E; intros; congruence.
    - intros j s1 z X. unfold I in *. destruct f; cbn [file_step file_hook];
        unfold hook_fopen, hook_fclose, hook_fseek, hook_ftell, hook_fwrite, hook_fread, hook_fgets; try rewrite X; cbn [snd]; exact X. }
  unfold I in J. destruct f; cbn [file_hook];
    unfold hook_fopen, hook_fclose, hook_fseek, hook_ftell, hook_fwrite, hook_fread, hook_fgets; rewrite J; reflexivity.
Qed.

Theorem C60_untouched f size h : no_request f h -> result_of f size h = Passed.
Proof. intro Q. apply passing; [exact Q|]. destruct f; reflexivity. Qed.

Theorem C60_restored f size h h' : no_request f h' -> result_of f size (h ++ restore f :: h') = Passed.
Proof.
  intro Q. unfold result_of, after_files. rewrite fold_left_app. cbn [fold_left]. apply passing; [exact Q|]. destruct f; reflexivity.
Qed.

(** After a request that a function return a value it does so, until the next request about it. *)
Theorem C60_returned f v r size h h' : request f v r -> no_request f h' ->
  result_of f size (h ++ r :: h') = Returned v.
Proof.
  intros R Q. unfold result_of, after_files. rewrite fold_left_app. cbn [fold_left].
  set (s := fold_left file_step h file_inject0). destruct (calls_total f h') as (k & K).
  pose (I := fun (_ : nat) s => match f with F_fopen => fi_fopen s = Some v | F_fclose => fi_fclose s = true | F_fseek => False
     | F_ftell => fi_ftell s = Some v | F_fwrite => fi_fwrite s = Some v
     | F_fread => fi_fread s = true /\ fi_freadReturn s = v /\ fi_freadToFail s = -1 | F_fgets => False end).
  assert (J : I (O + k)%nat (fold_left file_step h' (file_step s r))).
  { apply (quiet_invariant f I); [| |exact Q|exact K|].
    - intros j s1 s2 E X. unfold I in *. destruct f; cbn in E; injection E; intros; try congruence; destruct X as (? & ? & ?); repeat split; congruence.
    - intros j s1 z X. unfold I in *. destruct f; cbn [file_step file_hook];
        unfold hook_fopen, hook_fclose, hook_ftell, hook_fwrite, hook_fread; cbn [snd]; try exact X; try contradiction.
      destruct X as (X1 & X2 & X3). rewrite X1, X3. cbn [Z.ltb Z.compare snd]. auto.
    - unfold I. clear Q K I. destruct R; cbn; auto. }
  unfold I in J. destruct R; cbn [file_hook]; unfold hook_fopen, hook_fclose, hook_ftell, hook_fwrite, hook_fread; try (rewrite J; reflexivity).
  destruct J as (J1 & J2 & J3). rewrite J1, J2, J3. reflexivity.
Qed.

Lemma fseek_counts v n h k s size : no_request F_fseek h -> calls F_fseek h k ->
  fi_fseek s = true -> fi_fseekReturn s = v -> fi_fseekToPass s = n ->
  fst (file_hook F_fseek size (fold_left file_step h s)) = if Z.of_nat k <? n then Passed else Returned v.
Proof.
  intros Q K H1 H2 H3.
  pose (I := fun (k : nat) s => fi_fseek s = true /\ fi_fseekReturn s = v /\ (fi_fseekToPass s = n - Z.of_nat k \/ (fi_fseekToPass s <= 0 /\ n - Z.of_nat k <= 0))).
  assert (J : I (O + k)%nat (fold_left file_step h s)).
  { apply (quiet_invariant F_fseek I); [| |exact Q|exact K|].
    - intros j s1 s2 E X. unfold I in *. cbn in E. injection E; intros. rewrite <- H, <- H0, <- H4. exact X.
    - intros j s1 z (X1 & X2 & X3). unfold I. cbn [file_step file_hook]. unfold hook_fseek. rewrite X1.
      destruct (Z.ltb_spec 0 (fi_fseekToPass s1)); cbn; (split; [assumption|split; [assumption|lia]]).
    - unfold I. split; [exact H1|split; [exact H2|left; lia]]. }
  destruct J as (J1 & J2 & J3). cbn [Nat.add] in J3. cbn [file_hook]. unfold hook_fseek. rewrite J1, J2.
  destruct (Z.ltb_spec 0 (fi_fseekToPass (fold_left file_step h s))), (Z.ltb_spec (Z.of_nat k) n); cbn; try reflexivity; lia.
Qed.

(** fseek can be told to fail, and how many calls to let through before; in either order. *)
Theorem C60_fseek_partial v n h0 h h' k size : no_request F_fseek h -> no_request F_fseek h' -> calls F_fseek h' k ->
  result_of F_fseek size (h0 ++ FseekSetReturn v :: h ++ FseekSetCallsBeforeFailure n :: h') = if Z.of_nat k <? n then Passed else Returned v.
Proof.
  intros Q Q' K. unfold result_of, after_files. rewrite fold_left_app. cbn [fold_left]. rewrite fold_left_app. cbn [fold_left].
  set (s := fold_left file_step h0 file_inject0). destruct (calls_total F_fseek h) as (j & KJ).
  pose (I := fun (_ : nat) s => fi_fseek s = true /\ fi_fseekReturn s = v).
  assert (J : I (O + j)%nat (fold_left file_step h (file_step s (FseekSetReturn v)))).
  { apply (quiet_invariant F_fseek I); [| |exact Q|exact KJ|].
    - intros i s1 s2 E X. unfold I in *. cbn in E. injection E; intros. rewrite <- H0, <- H1. exact X.
    - intros i s1 z (X1 & X2). unfold I. cbn [file_step file_hook]. unfold hook_fseek. rewrite X1. destruct (0 <? _); cbn; auto.
    - unfold I. cbn. auto. }
  destruct J as (J1 & J2). apply fseek_counts; try assumption. cbn. reflexivity.
Qed.

Theorem C60_fseek_count_first v n h0 h h' k size : no_request F_fseek h -> calls F_fseek h 0 -> no_request F_fseek h' -> calls F_fseek h' k ->
  result_of F_fseek size (h0 ++ FseekSetCallsBeforeFailure n :: h ++ FseekSetReturn v :: h') = if Z.of_nat k <? n then Passed else Returned v.
Proof.
  intros Q C Q' K. unfold result_of, after_files. rewrite fold_left_app. cbn [fold_left]. rewrite fold_left_app. cbn [fold_left].
  set (s := fold_left file_step h0 file_inject0).
  assert (J : fi_fseekToPass (fold_left file_step h (file_step s (FseekSetCallsBeforeFailure n))) = n).
  { assert (G : forall h k, calls F_fseek h k -> k = O -> no_request F_fseek h -> forall s, fi_fseekToPass (fold_left file_step h s) = fi_fseekToPass s).
    { intros g i X. induction X; intros E N0 s0; cbn [fold_left]; [reflexivity|discriminate|]. inversion N0; subst.
      rewrite IHX by (assumption || reflexivity). pose proof (view_other F_fseek c s0 H2 H) as V. cbn in V. injection V. auto. }
    rewrite (G h O C eq_refl Q). reflexivity. }
  apply fseek_counts; try assumption; reflexivity.
Qed.

(** Told to fail, and never to let calls through before, fseek fails at once and at every call. *)
Theorem C60_fseek_at_once v h0 h size : (forall n, ~ In (FseekSetCallsBeforeFailure n) h0) -> no_request F_fseek h ->
  result_of F_fseek size (h0 ++ FseekSetReturn v :: h) = Returned v.
Proof.
  intros N Q. unfold result_of, after_files. rewrite fold_left_app. cbn [fold_left].
  assert (J : fi_fseekToPass (fold_left file_step h0 file_inject0) <= 0).
  { assert (G : forall h s, (forall n, ~ In (FseekSetCallsBeforeFailure n) h) -> fi_fseekToPass s <= 0 -> fi_fseekToPass (fold_left file_step h s) <= 0).
    { clear. induction h as [|c h IH]; intros s N L; cbn [fold_left]; [exact L|]. apply IH; [intros n I; exact (N n (or_intror I))|].
      destruct c; cbn [file_step]; try exact L.
      - exfalso. exact (N _ (or_introl eq_refl)).
      - destruct f; cbn [file_hook]; unfold hook_fopen, hook_fclose, hook_fseek, hook_ftell, hook_fwrite, hook_fread, hook_fgets; cbn [snd]; try exact L.
        + destruct (fi_fseek s); [|exact L]. destruct (Z.ltb_spec 0 (fi_fseekToPass s)); [lia|exact L].
        + destruct (fi_fread s); [|exact L]. destruct (0 <? _); [|exact L]. cbv zeta. destruct (_ =? 0); exact L.
        + destruct (fi_fgets s); [|exact L]. destruct (nth_error _ _); exact L. }
    apply G; [exact N|reflexivity || (cbn; lia)]. }
  destruct (calls_total F_fseek h) as (k & K).
  rewrite (fseek_counts v (fi_fseekToPass (fold_left file_step h0 file_inject0)) h k _ size Q K); [|reflexivity..].
  replace (Z.of_nat k <? _) with false; [reflexivity|]. symmetry. apply Z.ltb_ge. lia.
Qed.

(** fread can be told which call is to fail: that one fails, all others reach the library. *)
Theorem C60_fread v n h0 h h' k size : 1 <= n -> no_request F_fread h -> no_request F_fread h' -> calls F_fread h' k ->
  result_of F_fread size (h0 ++ FreadFail v :: h ++ FreadToFail n :: h') = if Z.of_nat k + 1 =? n then Returned v else Passed.
Proof.
  intros N Q Q' K. unfold result_of, after_files. rewrite fold_left_app. cbn [fold_left]. rewrite fold_left_app. cbn [fold_left].
  set (s := fold_left file_step h0 file_inject0). destruct (calls_total F_fread h) as (j & KJ).
  pose (I := fun (_ : nat) s => fi_fread s = true /\ fi_freadReturn s = v /\ fi_freadToFail s = -1).
  assert (J : I (O + j)%nat (fold_left file_step h (file_step s (FreadFail v)))).
  { apply (quiet_invariant F_fread I); [| |exact Q|exact KJ|].
    - intros i s1 s2 E X. unfold I in *. cbn in E. injection E; intros. rewrite <- H, <- H0, <- H1. exact X.
    - intros i s1 z (X1 & X2 & X3). unfold I. cbn [file_step file_hook]. unfold hook_fread. rewrite X1, X3. cbn. auto.
    - unfold I. cbn. auto. }
  set (s1 := fold_left file_step h (file_step s (FreadFail v))) in *. destruct J as (J1 & J2 & J3).
  pose (I2 := fun (i : nat) s => (fi_fread s = true /\ fi_freadReturn s = v /\ fi_freadToFail s = n - Z.of_nat i /\ Z.of_nat i < n)
                              \/ (fi_fread s = false /\ n <= Z.of_nat i)).
  assert (L : I2 (O + k)%nat (fold_left file_step h' (file_step s1 (FreadToFail n)))).
  { apply (quiet_invariant F_fread I2); [| |exact Q'|exact K|].
    - intros i s2 s3 E X. unfold I2 in *. cbn in E. injection E; intros. rewrite <- H, <- H0, <- H1. exact X.
    - intros i s2 z [(X1 & X2 & X3 & X4)|(X1 & X2)]; unfold I2; cbn [file_step file_hook]; unfold hook_fread; rewrite X1.
      + destruct (Z.ltb_spec 0 (fi_freadToFail s2)); [|lia]. cbv zeta. destruct (Z.eqb_spec (fi_freadToFail s2 - 1) 0); cbn.
        * right. split; [reflexivity|lia].
        * left. repeat split; try assumption; lia.
      + right. cbn. split; [assumption|lia].
    - unfold I2. left. cbn. repeat split; try assumption; lia. }
  cbn [Nat.add] in L. cbn [file_hook]. unfold hook_fread. destruct L as [(L1 & L2 & L3 & L4)|(L1 & L2)]; rewrite L1.
  - destruct (Z.ltb_spec 0 (fi_freadToFail (fold_left file_step h' (file_step s1 (FreadToFail n))))); [|lia]. cbv zeta.
    destruct (Z.eqb_spec (fi_freadToFail (fold_left file_step h' (file_step s1 (FreadToFail n))) - 1) 0), (Z.eqb_spec (Z.of_nat k + 1) n); try lia; cbn [fst]; [rewrite L2|]; reflexivity.
  - destruct (Z.eqb_spec (Z.of_nat k + 1) n); [lia|reflexivity].
Qed.

Lemma cstr_line (l : list Z) : ~ In 0 l -> cstr l = l.
Proof.
  induction l as [|c l IH]; intro N; [reflexivity|]. cbn. destruct (Z.eqb_spec c 0) as [->|]; [exfalso; apply N; left; reflexivity|].
  f_equal. apply IH. intro I. apply N. right. exact I.
Qed.

Lemma copied_line l size : ~ In 0 l -> 1 <= size -> holds_line l size (copied l size).
Proof.
  intros N P. unfold holds_line, copied. rewrite (cstr_line l N). cbv zeta. set (t := firstn (Z.to_nat size - 1) l).
  assert (T : (length t <= Z.to_nat size - 1)%nat) by (unfold t; rewrite firstn_length; lia). split.
  - unfold zlen. rewrite app_length, repeat_length. lia.
  - exists (Z.to_nat size - 1)%nat. replace (Z.to_nat size - length t)%nat with (S (Z.to_nat size - 1 - length t)) by lia. cbn [repeat].
    exists (repeat 0 (Z.to_nat size - 1 - length t)). split; [reflexivity|]. left. lia.
Qed.

(** fgets gives the lines one after the other, then once the end of the file, then starts again. *)
Theorem C60_fgets_partial lines h0 h k size : Forall (fun l => ~ In 0 l) lines -> 1 <= size ->
  no_request F_fgets h -> calls F_fgets h k ->
  match nth_error lines (k mod (length lines + 1)) with
  | Some line => exists buffer, result_of F_fgets size (h0 ++ FgetsSetData lines :: h) = Filled buffer /\ holds_line line size buffer
  | None => result_of F_fgets size (h0 ++ FgetsSetData lines :: h) = Returned 0
  end.
Proof.
  intros F P Q K. unfold result_of, after_files. rewrite fold_left_app. cbn [fold_left].
  set (s := fold_left file_step h0 file_inject0).
  pose (I := fun (i : nat) s => fi_fgets s = true /\ fi_lines s = lines /\ fi_curr s = (i mod (length lines + 1))%nat).
  assert (J : I (O + k)%nat (fold_left file_step h (file_step s (FgetsSetData lines)))).
  { apply (quiet_invariant F_fgets I); [| |exact Q|exact K|].
    - intros i s1 s2 E X. unfold I in *. cbn in E. injection E; intros. rewrite <- H, <- H0, <- H1. exact X.
    - intros i s1 z (X1 & X2 & X3). unfold I. cbn [file_step file_hook]. unfold hook_fgets. rewrite X1, X2, X3.
      pose proof (Nat.mod_upper_bound i (length lines + 1) ltac:(lia)) as B. pose proof (Nat.div_mod i (length lines + 1) ltac:(lia)) as D.
      destruct (nth_error lines (i mod (length lines + 1))) eqn:E; cbn.
      + assert (i mod (length lines + 1) < length lines)%nat by (apply nth_error_Some; congruence). split; [reflexivity|]. split; [reflexivity|].
        apply (Nat.mod_unique _ _ (i / (length lines + 1))); lia.
      + apply nth_error_None in E. split; [reflexivity|]. split; [reflexivity|].
        apply (Nat.mod_unique _ _ (i / (length lines + 1) + 1)); lia.
    - unfold I. cbn. repeat split. symmetry. apply Nat.mod_0_l. lia. }
  destruct J as (J1 & J2 & J3). cbn [Nat.add] in J3. cbn [file_hook]. unfold hook_fgets. rewrite J1, J2, J3.
  destruct (nth_error lines (k mod (length lines + 1))) as [l|] eqn:E; [|reflexivity].
  destruct (Z.leb_spec size 0); [lia|]. cbn. eexists. split; [reflexivity|]. apply copied_line; [|exact P].
  rewrite Forall_forall in F. apply F. eapply nth_error_In, E.
Qed.

(** fgets with room for nothing writes outside the buffer, unlike the library's. *)
Theorem C60_no_room_refuted : exists h size, size = 0 /\ result_of F_fgets size h = Outside.
Proof. exists [FgetsSetData [[65]]], 0. split; [reflexivity|]. vm_compute. reflexivity. Qed.

(** A number of fseek calls to let through that was not used up is still in force after fseek was
    restored and is told to fail again. *)
Theorem C60_left_over_refuted : exists h v,
  h = [FseekSetReturn v; FseekSetCallsBeforeFailure 2; Call F_fseek 0; FseekRestore; FseekSetReturn v] /\
  result_of F_fseek 0 h = Passed.
Proof. exists [FseekSetReturn (-1); FseekSetCallsBeforeFailure 2; Call F_fseek 0; FseekRestore; FseekSetReturn (-1)], (-1). split; [reflexivity|]. vm_compute. reflexivity. Qed.

Example C60_fseek_example : no_request F_fseek [Call F_fseek 0; FopenSetReturn 0] /\
  result_of F_fseek 0 ([FseekSetReturn 5; Call F_fseek 0; FseekRestore] ++ FseekSetReturn (-1) :: [Call F_fseek 0; FopenSetReturn 0]) = Returned (-1).
Proof. split; [|vm_compute; reflexivity]. repeat constructor; discriminate. Qed.

Example C60_example :
  no_request F_fread [FopenSetReturn 0; Call F_fread 0; Call F_fopen 0; Call F_fread 0] /\
  calls F_fread [FopenSetReturn 0; Call F_fread 0; Call F_fopen 0; Call F_fread 0] 2 /\
  Forall (fun l => ~ In 0 l) [[65]; [66; 67; 68]] /\
  holds_line [66; 67; 68] 3 [66; 67; 0] /\ holds_line [65] 3 [65; 0; 0] /\ request F_fread 7 (FreadFail 7).
Proof.
  split; [repeat constructor; discriminate|].
  split; [apply c_other; [discriminate|]; apply c_call; apply c_other; [discriminate|]; apply c_call, c_nil|].
  split; [repeat constructor; intro I; cbn in I; lia|].
  split; [split; [reflexivity|]; exists 2%nat, []; cbn; split; [reflexivity|]; left; lia|].
  split; [|constructor]. split; [reflexivity|]. exists 2%nat, [0]. cbn. split; [reflexivity|]. left. lia.
Qed.

(** ** C61: watching printf *)

Lemma set_nth_length {A} (l : list A) j x : length (set_nth l j x) = length l.
Proof. revert j. induction l as [|y l IH]; intros [|j]; cbn; auto. Qed.

Lemma nth_set_nth {A} (l : list A) i j x d : (j < length l)%nat ->
  nth i (set_nth l j x) d = if Nat.eqb i j then x else nth i l d.
Proof.
  revert i j. induction l as [|y l IH]; intros i j L; cbn in L; [lia|]. destruct j as [|j], i as [|i]; cbn; try reflexivity.
  apply IH. lia.
Qed.

(** The contents of slot [i], in terms of what was printed. *)
Definition slot_ok (ps : printed) (f : stream) (i : nat) (o : option (list Z)) : Prop :=
  match o with
  | Some t => exists q, (q mod 4 = i)%nat /\ nth_error ps q = Some (f, t) /\
                forall q' t', (q' mod 4 = i)%nat -> (q < q')%nat -> nth_error ps q' <> Some (f, t')
  | None => forall q t, (q mod 4 = i)%nat -> nth_error ps q <> Some (f, t)
  end.

Lemma nth_error_snoc {A} (l : list A) x q : nth_error (l ++ [x]) q = if Nat.eqb q (length l) then Some x else nth_error l q.
Proof.
  destruct (Nat.eqb_spec q (length l)) as [->|N]; [rewrite nth_error_app2, Nat.sub_diag by lia; reflexivity|].
  destruct (Nat.lt_ge_cases q (length l)); [apply nth_error_app1; lia|].
  rewrite (proj2 (nth_error_None _ _)) by (rewrite app_length; cbn; lia). symmetry. apply nth_error_None. lia.
Qed.

Lemma slot_hit ps f i t : (length ps mod 4 = i)%nat -> slot_ok (ps ++ [(f, t)]) f i (Some t).
Proof.
  intro E. exists (length ps). split; [exact E|]. split; [rewrite nth_error_snoc, Nat.eqb_refl; reflexivity|].
  intros q' t' _ L. rewrite nth_error_snoc. destruct (Nat.eqb_spec q' (length ps)); [lia|]. rewrite (proj2 (nth_error_None _ _)) by lia. discriminate.
Qed.

Lemma slot_miss ps f i o g t : (length ps mod 4 <> i)%nat \/ g <> f -> slot_ok ps f i o -> slot_ok (ps ++ [(g, t)]) f i o.
Proof.
  intros D. assert (X : forall q t', (q mod 4 = i)%nat -> nth_error (ps ++ [(g, t)]) q = Some (f, t') -> nth_error ps q = Some (f, t')).
  { intros q t' E. rewrite nth_error_snoc. destruct (Nat.eqb_spec q (length ps)) as [->|]; [|auto]. intro H. injection H as -> ->. destruct D; congruence. }
  destruct o as [t0|]; cbn.
  - intros (q & E & H & L). exists q. split; [exact E|]. split; [rewrite nth_error_app1; [exact H|]; apply nth_error_Some; congruence|].
    intros q' t' E' L' Y. exact (L q' t' E' L' (X _ _ E' Y)).
  - intros L q t' E Y. exact (L q t' E (X _ _ E Y)).
Qed.

Definition bufs (f : stream) (s : spy) : list (option (list Z)) := match f with Stdout => spy_out s | _ => spy_err s end.

Definition spy_inv (size : Z) (ps : printed) (s : spy) : Prop :=
  spy_hooked s = true /\ spy_size s = size + 1 /\ spy_calls s = zlen ps /\ spy_index s = (length ps mod 4)%nat /\
  forall f, f <> Other -> length (bufs f s) = 4%nat /\
    forall i, (i < 4)%nat -> exists o, slot_ok ps f i o /\ nth i (bufs f s) None = option_map (firstn (Z.to_nat size)) o.

Lemma mod4_succ k : ((k mod 4 + 1) mod 4 = (k + 1) mod 4)%nat.
Proof. rewrite Nat.add_mod_idemp_l by lia. reflexivity. Qed.

Lemma spy_runs size ps s0 : 0 <= size -> to_terminal ps ->
  exists s, fold_left spy_step (Hook size :: prints ps) (Some s0) = Some s /\ spy_inv size ps s.
Proof.
  intros P. induction ps as [|(g & t) ps IH] using rev_ind; intro T.
  - cbn. eexists. split; [reflexivity|]. unfold spy_inv. cbn. repeat (split; [reflexivity|]).
    intros f F. assert (E : bufs f (printfSpy_Hook size s0) = [None; None; None; None]) by (destruct f; reflexivity). cbn in E. rewrite E.
    split; [reflexivity|]. intros i L. exists None. split; [intros [|q] t _; discriminate|]. do 4 (destruct i as [|i]; [reflexivity|]). lia.
  - apply Forall_app in T as (T & T'). inversion T' as [|x l G _]; subst. cbn [fst] in G. destruct (IH T) as (s & R & H1 & H2 & H3 & H4 & H5).
    unfold prints in *. rewrite map_app. cbn [map fst snd]. rewrite app_comm_cons, fold_snoc, R. cbn [spy_step]. unfold hook_fprintf. rewrite H1.
    assert (SZ : (Z.to_nat (spy_size s) - 1)%nat = Z.to_nat size) by (rewrite H2; lia).
    assert (IX : (spy_index s < 4)%nat) by (rewrite H4; apply Nat.mod_upper_bound; lia).
    assert (NI : nextIndex s = (length (ps ++ [(g, t)]) mod 4)%nat).
    { unfold nextIndex, OUTPUT_COUNT. rewrite H4, app_length. cbn [length]. apply mod4_succ. }
    unfold mock_common. rewrite !andb_false_r. cbv zeta. rewrite SZ.
    assert (K : forall f, f <> Other -> length (set_nth (bufs f s) (spy_index s) (Some (firstn (Z.to_nat size) t))) = 4%nat /\
       forall i, (i < 4)%nat -> exists o, slot_ok (ps ++ [(f, t)]) f i o /\
         nth i (set_nth (bufs f s) (spy_index s) (Some (firstn (Z.to_nat size) t))) None = option_map (firstn (Z.to_nat size)) o).
    { intros f F. destruct (H5 f F) as (L & S). split; [rewrite set_nth_length; exact L|]. intros i Li. rewrite nth_set_nth by lia.
      destruct (Nat.eqb_spec i (spy_index s)) as [->|N].
      - exists (Some t). split; [apply slot_hit; symmetry; exact H4|reflexivity].
      - destruct (S i Li) as (o & So & E). exists o. split; [|exact E]. apply slot_miss; [|exact So]. left. congruence. }
    assert (K2 : forall f, f <> Other -> f <> g -> length (bufs f s) = 4%nat /\
       forall i, (i < 4)%nat -> exists o, slot_ok (ps ++ [(g, t)]) f i o /\ nth i (bufs f s) None = option_map (firstn (Z.to_nat size)) o).
    { intros f F N. destruct (H5 f F) as (L & S). split; [exact L|]. intros i Li. destruct (S i Li) as (o & So & E). exists o. split; [|exact E].
      apply slot_miss; [|exact So]. right. congruence. }
    destruct g; [| |congruence]; (eexists; split; [reflexivity|]; unfold spy_inv; cbn [spy_hooked spy_size spy_calls spy_index];
      split; [exact H1|]; split; [exact H2|]; split; [rewrite zlen_snoc, H3; reflexivity|]; split; [exact NI|]).
    + intros [| |] F; [exact (K Stdout F)|exact (K2 Stderr F ltac:(discriminate))|congruence].
    + intros [| |] F; [exact (K2 Stdout F ltac:(discriminate))|exact (K Stderr F)|congruence].
Qed.

Definition nth_output (f : stream) (n : nat) (s : spy) : option (option (list Z)) :=
  match f with Stdout => printfSpy_GetNthOutput n s | _ => printfSpy_GetNthErrorOutput n s end.

Lemma slot_latest ps f n o : (1 <= n <= 4)%nat -> (n <= length ps)%nat ->
  slot_ok ps f ((length ps mod 4 + 4 - n) mod 4)%nat o -> latest ps f (length ps - n) o.
Proof.
  intros N L. set (k := length ps) in *.
  assert (S1 : forall q, in_step (k - n) q -> (q mod 4 = (k mod 4 + 4 - n) mod 4)%nat).
  { intros q (j & E). pose proof (Nat.div_mod k 4 ltac:(lia)). pose proof (Nat.mod_upper_bound k 4 ltac:(lia)).
    pose proof (Nat.div_mod q 4 ltac:(lia)). pose proof (Nat.mod_upper_bound q 4 ltac:(lia)).
    pose proof (Nat.div_mod (k mod 4 + 4 - n) 4 ltac:(lia)). pose proof (Nat.mod_upper_bound (k mod 4 + 4 - n) 4 ltac:(lia)). lia. }
  assert (S2 : forall q, (q < k)%nat -> (q mod 4 = (k mod 4 + 4 - n) mod 4)%nat -> in_step (k - n) q).
  { intros q Q E. pose proof (Nat.div_mod k 4 ltac:(lia)). pose proof (Nat.mod_upper_bound k 4 ltac:(lia)).
    pose proof (Nat.div_mod q 4 ltac:(lia)). pose proof (Nat.mod_upper_bound q 4 ltac:(lia)).
    pose proof (Nat.div_mod (k mod 4 + 4 - n) 4 ltac:(lia)). pose proof (Nat.mod_upper_bound (k mod 4 + 4 - n) 4 ltac:(lia)).
    exists ((k - n - q) / 4)%nat. pose proof (Nat.div_mod (k - n - q) 4 ltac:(lia)). pose proof (Nat.mod_upper_bound (k - n - q) 4 ltac:(lia)). lia. }
  destruct o as [t|]; cbn.
  - intros (q & E & H & M0). exists q. split; [apply S2; [apply nth_error_Some; congruence|exact E]|]. split; [exact H|].
    intros q' t' I L'. apply M0; [apply S1, I|exact L'].
  - intros M0 q t I. apply M0, S1, I.
Qed.

(** After the hook was set and any number of texts were printed to stdout and stderr, the number of
    calls is right, and ... *)
Theorem C61_call_count size ps s0 : 0 <= size -> to_terminal ps ->
  exists s, fold_left spy_step (Hook size :: prints ps) (Some s0) = Some s /\ printfSpy_GetCallCount s = zlen ps.
Proof. intros P T. destruct (spy_runs size ps s0 P T) as (s & R & _ & _ & C & _). exists s. split; [exact R|exact C]. Qed.

(** ... the n-th last text, for n up to 4, can be looked up on the stream it was printed to: its first
    [size] characters. *)
Theorem C61_output_partial size ps s0 n f t : 0 <= size -> to_terminal ps ->
  (1 <= n <= 4)%nat -> (n <= length ps)%nat -> nth_error ps (length ps - n) = Some (f, t) ->
  exists s, fold_left spy_step (Hook size :: prints ps) (Some s0) = Some s /\
    nth_output f n s = Some (Some (firstn (Z.to_nat size) t)).
Proof.
  intros P T N L E. destruct (spy_runs size ps s0 P T) as (s & R & H1 & H2 & H3 & H4 & H5). exists s. split; [exact R|].
  assert (F : f <> Other). { unfold to_terminal in T. rewrite Forall_forall in T. apply (T (f, t)). eapply nth_error_In, E. }
  destruct (H5 f F) as (_ & S). destruct (S (prevIndex s n)) as (o & So & Eo).
  { unfold prevIndex, OUTPUT_COUNT. apply Nat.mod_upper_bound. lia. }
  unfold prevIndex, OUTPUT_COUNT in So. rewrite H4 in So. apply slot_latest in So; [|lia|exact L].
  assert (o = Some t).
  { destruct o as [t'|]; cbn in So.
    - destruct So as (q & (j & Q) & X & Y). destruct j as [|j]; [replace q with (length ps - n)%nat in X by lia; congruence|].
      exfalso. apply (Y (length ps - n)%nat t); [exists O; lia|lia|exact E].
    - exfalso. apply (So (length ps - n)%nat t); [exists O; lia|exact E]. }
  subst o. unfold nth_output, printfSpy_GetNthOutput, printfSpy_GetNthErrorOutput. unfold bufs in Eo.
  assert (B : Nat.leb n OUTPUT_COUNT = true) by (apply Nat.leb_le; unfold OUTPUT_COUNT; lia). rewrite B.
  destruct f; [| |congruence]; rewrite Eo; reflexivity.
Qed.

(** Exactly what is found in general: on the other stream it is an older text, 4, 8, ... calls before,
    or NULL. *)
Theorem C61_exactly size ps s0 n f : 0 <= size -> to_terminal ps ->
  (1 <= n <= 4)%nat -> (n <= length ps)%nat -> f <> Other ->
  exists s o, fold_left spy_step (Hook size :: prints ps) (Some s0) = Some s /\
    latest ps f (length ps - n) o /\ nth_output f n s = Some (option_map (firstn (Z.to_nat size)) o).
Proof.
  intros P T N L F. destruct (spy_runs size ps s0 P T) as (s & R & H1 & H2 & H3 & H4 & H5).
  destruct (H5 f F) as (_ & S). destruct (S (prevIndex s n)) as (o & So & Eo).
  { unfold prevIndex, OUTPUT_COUNT. apply Nat.mod_upper_bound. lia. }
  exists s, o. split; [exact R|]. unfold prevIndex, OUTPUT_COUNT in So. rewrite H4 in So. split; [apply slot_latest; [lia|exact L|exact So]|].
  unfold nth_output, printfSpy_GetNthOutput, printfSpy_GetNthErrorOutput. unfold bufs in Eo.
  assert (B : Nat.leb n OUTPUT_COUNT = true) by (apply Nat.leb_le; unfold OUTPUT_COUNT; lia). rewrite B.
  destruct f; [| |congruence]; rewrite Eo; reflexivity.
Qed.

(** The last text printed to stdout is not found if something was printed to stderr after it. *)
Theorem C61_other_stream_refuted : exists s, after_prints [Hook 10; Print Stdout [65]; Print Stderr [66]] = Some s /\
  printfSpy_GetLastOutput s = Some None /\ printfSpy_GetCallCount s = 2.
Proof. eexists. split; [vm_compute; reflexivity|]. split; vm_compute; reflexivity. Qed.

(** What the hooked printf returns is the length of the whole text. *)
Theorem C61_return_value s f t : spy_hooked s = true -> f <> Other -> exists s', hook_fprintf f t true s = Printed (zlen t) s'.
Proof. intros H F. unfold hook_fprintf. rewrite H. unfold mock_common. rewrite !andb_false_r. destruct f; [eexists; reflexivity|eexists; reflexivity|congruence]. Qed.

(** The calls for the last and the previous text of a stream give these. *)
Theorem C61_last size ps s0 f t : 0 <= size -> to_terminal (ps ++ [(f, t)]) ->
  exists s, fold_left spy_step (Hook size :: prints (ps ++ [(f, t)])) (Some s0) = Some s /\
    match f with Stdout => printfSpy_GetLastOutput s | _ => printfSpy_GetLastErrorOutput s end = Some (Some (firstn (Z.to_nat size) t)).
Proof.
  intros P T. assert (F : f <> Other). { unfold to_terminal in T. rewrite Forall_forall in T. apply (T (f, t)). apply in_or_app. right. now left. }
  destruct (C61_output_partial size (ps ++ [(f, t)]) s0 1 f t P T) as (s & R & E).
  - lia.
  - rewrite app_length. cbn. lia.
  - rewrite app_length. cbn [length]. rewrite Nat.add_sub, nth_error_app2, Nat.sub_diag by lia. reflexivity.
  - exists s. split; [exact R|]. destruct f; [exact E|exact E|destruct (F eq_refl)].
Qed.

Theorem C61_previous size ps s0 f t x : 0 <= size -> to_terminal (ps ++ [(f, t); x]) ->
  exists s, fold_left spy_step (Hook size :: prints (ps ++ [(f, t); x])) (Some s0) = Some s /\
    match f with Stdout => printfSpy_GetPreviousOutput s | _ => printfSpy_GetPreviousErrorOutput s end = Some (Some (firstn (Z.to_nat size) t)).
Proof.
  intros P T. assert (F : f <> Other). { unfold to_terminal in T. rewrite Forall_forall in T. apply (T (f, t)). apply in_or_app. right. now left. }
  destruct (C61_output_partial size (ps ++ [(f, t); x]) s0 2 f t P T) as (s & R & E).
  - lia.
  - rewrite app_length. cbn. lia.
  - rewrite app_length. cbn [length]. rewrite Nat.add_sub, nth_error_app2, Nat.sub_diag by lia. reflexivity.
  - exists s. split; [exact R|]. destruct f; [exact E|exact E|destruct (F eq_refl)].
Qed.

Example C61_last_example : to_terminal ([(Stdout, [65])] ++ [(Stderr, [66; 67]); (Stdout, [68])]) /\
  exists s, fold_left spy_step (Hook 8 :: prints [(Stdout, [65]); (Stderr, [66; 67]); (Stdout, [68])]) (Some spy0) = Some s /\
    printfSpy_GetPreviousErrorOutput s = Some (Some [66; 67]) /\ printfSpy_GetLastOutput s = Some (Some [68]).
Proof. split; [repeat constructor; discriminate|]. eexists. split; [vm_compute; reflexivity|]. split; vm_compute; reflexivity. Qed.

Example C61_example :
  let ps := [(Stdout, [65; 66; 67]); (Stderr, [68]); (Stdout, [69]); (Stdout, []); (Stdout, [70; 71]); (Stderr, [72])] in
  to_terminal ps /\ nth_error ps (length ps - 2) = Some (Stdout, [70; 71]) /\ latest ps Stdout (length ps - 1) None /\
  exists s, fold_left spy_step (Hook 1 :: prints ps) (Some spy0) = Some s /\ nth_output Stdout 2 s = Some (Some [70]).
Proof.
  cbn zeta. split; [repeat constructor; discriminate|]. split; [reflexivity|]. split.
  - intros q t (j & E). cbn in E. assert (q = 5 \/ q = 1)%nat as [-> | ->] by lia; discriminate.
  - eexists. split; vm_compute; reflexivity.
Qed.

(** ** C62: the mock console *)

Lemma filter_snoc {A} (p : A -> bool) l x : filter p (l ++ [x]) = filter p l ++ if p x then [x] else [].
Proof. induction l as [|y l IH]; cbn; [destruct (p x); reflexivity|]. rewrite IH. destruct (p y); reflexivity. Qed.

Lemma flat_map_snoc {A B} (f : A -> list B) l x : flat_map f (l ++ [x]) = flat_map f l ++ f x.
Proof. rewrite flat_map_app. cbn. rewrite app_nil_r. reflexivity. Qed.

Definition no_call {A} (P : A -> Prop) (h : list A) : Prop := Forall (fun c => ~ P c) h.
Definition sets_read_exception (c : console_call) : Prop := exists e, c = ReadException e.
Definition sets_write_exception (c : console_call) : Prop := exists e, c = WriteException e.

Lemma no_exceptions h s :
  (no_call sets_read_exception h -> mc_readException s = noException -> mc_readException (fold_left console_step h s) = noException) /\
  (no_call sets_write_exception h -> mc_writeException s = noException -> mc_writeException (fold_left console_step h s) = noException).
Proof.
  revert s. induction h as [|c h IH]; intro s; [auto|]. cbn [fold_left]. split; intros N E; inversion N as [|x l Nc Nh]; subst; apply IH; try exact Nh.
  - destruct c; cbn; try exact E; try reflexivity; [exfalso; apply Nc; eexists; reflexivity| |].
    + unfold mock_ReadStdIn. rewrite E. cbn. destruct (mc_read s); cbn; exact E.
    + unfold mock_WriteStdOut. destruct (_ =? _); cbn; exact E.
  - destruct c; cbn; try exact E; try reflexivity; [exfalso; apply Nc; eexists; reflexivity| |].
    + unfold mock_ReadStdIn. destruct (_ =? _); [|exact E]. destruct (mc_read s); cbn; exact E.
    + unfold mock_WriteStdOut. rewrite E. reflexivity.
Qed.

Lemma read_left h s l : no_call read_request h -> mc_readException s = noException -> mc_read s = l ->
  mc_readException (fold_left console_step h s) = noException /\ mc_read (fold_left console_step h s) = skipn (reads h) l.
Proof.
  intros N E R. induction h as [|c h IH] using rev_ind; [auto|]. apply Forall_app in N as (N & Nc). inversion Nc as [|x y Nx _]; subst.
  destruct (IH N) as (H1 & H2). rewrite fold_snoc. unfold reads in *. rewrite filter_snoc, app_length.
  destruct c; cbn in Nx; try contradiction; cbn [console_step length]; rewrite ?Nat.add_0_r; try (split; [exact H1|exact H2]).
  - unfold mock_ReadStdIn. rewrite H1. cbn. rewrite H2.
    set (k := length _). assert (X : forall (m : list Z) i, skipn (i + 1) m = tl (skipn i m)).
    { intros m. induction m as [|y m IHm]; intros [|i]; cbn; auto. }
    rewrite X. destruct (skipn k (mc_read s)) eqn:Q; cbn; [split; [exact H1|rewrite H2; exact Q]|split; [exact H1|reflexivity]].
  - unfold mock_WriteStdOut. destruct (_ =? _); cbn; split; [exact H1|exact H2|exact H1|exact H2].
Qed.

(** The characters set for standard input are read in order, then zeros. *)
Theorem C62_read h l h' : no_call sets_read_exception h -> no_call read_request h' -> Forall byte l ->
  exists c, fst (mock_ReadStdIn (after_console (h ++ ReadBuffer l :: h'))) = inl c /\
    match nth_error l (reads h') with Some b => signed_char b c | None => c = 0 end.
Proof.
  intros N N' B. unfold after_console. rewrite fold_left_app. cbn [fold_left console_step].
  destruct (no_exceptions h ConsoleMock_Uninit) as (E & _). specialize (E N eq_refl).
  destruct (read_left h' (ConsoleMock_ReadStdIn_SetBuffer l (fold_left console_step h ConsoleMock_Uninit)) l N' E eq_refl) as (H1 & H2).
  unfold mock_ReadStdIn. rewrite H1, H2. cbn.
  generalize (fold_left console_step h' (ConsoleMock_ReadStdIn_SetBuffer l (fold_left console_step h ConsoleMock_Uninit))). intro st. clear -B. revert B. generalize (reads h'). intros k B. revert k. induction l as [|b l IH]; intros [|k]; cbn.
  - exists 0. auto.
  - exists 0. auto.
  - eexists. split; [reflexivity|]. inversion B; subst. unfold byte in *. unfold schar, signed_char. destruct (Z.ltb_spec b 128); lia.
  - apply IH. inversion B; assumption.
Qed.

(** An exception set for a function is thrown by it. *)
Theorem C62_exceptions e h h' : e <> noException ->
  (no_call read_request h' -> fst (mock_ReadStdIn (after_console (h ++ ReadException e :: h'))) = inr e) /\
  (no_call write_request h' -> forall ch, fst (mock_WriteStdOut ch (after_console (h ++ WriteException e :: h'))) = inr e) /\
  (no_call (fun c => c = UninitConsole \/ exists e, c = HasException e) h' -> mock_HasStdInDataToRead (after_console (h ++ HasException e :: h')) = inr e).
Proof.
  intro NE. unfold after_console. rewrite !fold_left_app. cbn [fold_left console_step]. set (s := fold_left console_step h ConsoleMock_Uninit).
  assert (D : (e =? noException) = false) by (apply Z.eqb_neq; exact NE).
  assert (S : forall s0, mc_readException s0 = e -> snd (mock_ReadStdIn s0) = s0) by (intros s0 E; unfold mock_ReadStdIn; rewrite E, D; reflexivity).
  assert (S' : forall s0 ch, mc_writeException s0 = e -> snd (mock_WriteStdOut ch s0) = s0) by (intros s0 ch E; unfold mock_WriteStdOut; rewrite E, D; reflexivity).
  split; [|split].
  - intro N. assert (G : forall s0, mc_readException s0 = e -> mc_readException (fold_left console_step h' s0) = e).
    { induction h' as [|c h' IH]; intros s0 E; [exact E|]. inversion N as [|x y Nc Nh]; subst x y. cbn [fold_left]. apply (IH Nh).
      destruct c; cbn in Nc; try contradiction; cbn [console_step]; try exact E; [rewrite (S _ E); exact E|]. unfold mock_WriteStdOut. destruct (mc_writeException s0 =? noException); exact E. }
    unfold mock_ReadStdIn. rewrite G by reflexivity. rewrite D. reflexivity.
  - intros N ch. assert (G : forall s0, mc_writeException s0 = e -> mc_writeException (fold_left console_step h' s0) = e).
    { induction h' as [|c h' IH]; intros s0 E; [exact E|]. inversion N as [|x y Nc Nh]; subst x y. cbn [fold_left]. apply (IH Nh).
      destruct c; cbn in Nc; try contradiction; cbn [console_step]; try exact E; [|rewrite (S' _ _ E); exact E]. unfold mock_ReadStdIn. destruct (mc_readException s0 =? noException); [|exact E]. destruct (mc_read s0); exact E. }
    unfold mock_WriteStdOut. rewrite G by reflexivity. rewrite D. reflexivity.
  - intro N. assert (G : forall s0, mc_hasException s0 = e -> mc_hasException (fold_left console_step h' s0) = e).
    { induction h' as [|c h' IH]; intros s0 E; [exact E|]. inversion N as [|x y Nc Nh]; subst x y. cbn [fold_left]. apply (IH Nh).
      destruct c; cbn in Nc; try (exfalso; apply Nc; eauto; fail); cbn [console_step]; try exact E.
      - unfold mock_ReadStdIn. destruct (mc_readException s0 =? noException); [|exact E]. destruct (mc_read s0); exact E.
      - unfold mock_WriteStdOut. destruct (mc_writeException s0 =? noException); exact E. }
    unfold mock_HasStdInDataToRead, thrown_or. rewrite G by reflexivity. rewrite D. reflexivity.
Qed.

(** A poll returns the value given last, unless an exception was asked for. *)
Theorem C62_polled v h h' : no_call (fun c => exists e, c = HasException e) (h ++ h') -> no_call (fun c => c = UninitConsole \/ exists v, c = HasReturn v) h' ->
  mock_HasStdInDataToRead (after_console (h ++ HasReturn v :: h')) = inl v.
Proof.
  intros N N'. apply Forall_app in N as (N1 & N2). unfold after_console. rewrite fold_left_app. cbn [fold_left console_step].
  assert (K : forall c s, (forall e, c <> HasException e) -> mc_hasException s = noException -> mc_hasException (console_step s c) = noException).
  { intros c s X E. destruct c; cbn [console_step]; try exact E; try reflexivity; [destruct (X e eq_refl)| |].
    - unfold mock_ReadStdIn. destruct (mc_readException s =? noException); [|exact E]. destruct (mc_read s); exact E.
    - unfold mock_WriteStdOut. destruct (mc_writeException s =? noException); exact E. }
  assert (R : forall h s, no_call (fun c => exists e, c = HasException e) h -> mc_hasException s = noException -> mc_hasException (fold_left console_step h s) = noException).
  { intro g. induction g as [|c g IH]; intros s N E; [exact E|]. inversion N; subst. cbn [fold_left]. apply IH; [assumption|]. apply K; [|exact E].
    intros e ->. apply H1. eexists. reflexivity. }
  assert (V : forall h s, no_call (fun c => c = UninitConsole \/ exists v, c = HasReturn v) h -> mc_hasReturn (fold_left console_step h s) = mc_hasReturn s).
  { intro g. induction g as [|c g IH]; intros s N; [reflexivity|]. inversion N; subst. cbn [fold_left]. rewrite IH by assumption.
    destruct c; cbn [console_step]; try reflexivity; try (exfalso; apply H1; eauto; fail).
    - unfold mock_ReadStdIn. destruct (mc_readException s =? noException); [|reflexivity]. destruct (mc_read s); reflexivity.
    - unfold mock_WriteStdOut. destruct (mc_writeException s =? noException); reflexivity. }
  unfold mock_HasStdInDataToRead, thrown_or. rewrite R, V; [reflexivity|exact N'|exact N2|]. cbn. apply R; [exact N1|reflexivity].
Qed.

Lemma capture_grows b l n : 0 <= n -> capture_byte b (Some (firstn (Z.to_nat n) l, n)) = Some (firstn (Z.to_nat n) (l ++ [b mod 256]), n).
Proof.
  intro P. cbn. unfold zlen. rewrite firstn_length, firstn_app.
  destruct (Nat.lt_ge_cases (length l) (Z.to_nat n)) as [L|L].
  - destruct (Z.ltb_spec (Z.of_nat (Nat.min (Z.to_nat n) (length l))) n); [|lia]. rewrite firstn_all2 by lia.
    replace (Z.to_nat n - length l)%nat with (S (Z.to_nat n - length l - 1)) by lia. cbn. rewrite firstn_nil. reflexivity.
  - destruct (Z.ltb_spec (Z.of_nat (Nat.min (Z.to_nat n) (length l))) n); [lia|].
    replace (Z.to_nat n - length l)%nat with O by lia. cbn. rewrite app_nil_r. reflexivity.
Qed.

Lemma cstr_up_to_zero l : up_to_zero l (cstr l).
Proof.
  induction l as [|c l IH]; [constructor; intros []|]. cbn. destruct (Z.eqb_spec c 0) as [->|N]; [apply (u_zero [] l); intros []|].
  destruct IH as [m H|m r H].
  - apply u_none. intros [I|I]; [lia|exact (H I)].
  - apply (u_zero (c :: m) r). intros [I|I]; [lia|exact (H I)].
Qed.

(** The captured text is what was written since the buffer was set up, as far as it fits (and up to the
    first zero byte, being a C string). *)
Theorem C62_captured_partial h n h' : 0 <= n -> no_call sets_write_exception h -> no_call write_request h' ->
  exists t, ConsoleMock_WriteStdOut_GetCapturedText (after_console (h ++ CaptureSize n :: h')) = Some t /\
    up_to_zero (firstn (Z.to_nat n) (written h')) t.
Proof.
  intros P N N'. unfold after_console. rewrite fold_left_app. cbn [fold_left console_step].
  destruct (no_exceptions h ConsoleMock_Uninit) as (_ & E). specialize (E N eq_refl). set (s := fold_left console_step h ConsoleMock_Uninit) in *.
  assert (G : let s' := fold_left console_step h' (ConsoleMock_WriteStdOut_SetCaptureBufferSize n s) in
     mc_writeException s' = noException /\ mc_capture s' = Some (firstn (Z.to_nat n) (written h'), n)).
  { induction h' as [|c h' IH] using rev_ind; [cbn; rewrite firstn_nil; auto|]. apply Forall_app in N' as (N' & Nc). inversion Nc as [|x y Nx _]; subst.
    destruct (IH N') as (H1 & H2). cbv zeta in *. rewrite fold_snoc. unfold written in *. rewrite flat_map_snoc.
    destruct c; cbn in Nx; try contradiction; cbn [console_step]; rewrite ?app_nil_r; try (split; [exact H1|exact H2]).
    - unfold mock_ReadStdIn. destruct (_ =? _); [|split; [exact H1|exact H2]]. destruct (mc_read _); split; [exact H1|exact H2|exact H1|exact H2].
    - unfold mock_WriteStdOut. rewrite H1. cbn [snd noException Z.eqb mc_writeException mc_capture]. split; [reflexivity|]. rewrite H2. apply capture_grows, P. }
  destruct G as (_ & G). unfold ConsoleMock_WriteStdOut_GetCapturedText. rewrite G. cbn. eexists. split; [reflexivity|]. apply cstr_up_to_zero.
Qed.

(** Without a buffer, asking for the captured text writes through a null pointer. *)
Theorem C62_no_buffer_refuted : exists h, ConsoleMock_WriteStdOut_GetCapturedText (after_console h) = None.
Proof. exists [Write 65]. reflexivity. Qed.

Example C62_example :
  let h' := [Write 72; Read; HasData; Write 105; HasReturn 1; Read; Write 33] in
  no_call read_request h' /\ no_call write_request h' /\ reads h' = 2%nat /\ written h' = [72; 105; 33] /\
  up_to_zero (firstn 2 (written h')) [72; 105] /\ up_to_zero [65; 0; 66] [65].
Proof.
  cbn zeta. assert (X : forall P : console_call -> Prop, ~ P (Write 72) -> ~ P Read -> ~ P HasData -> ~ P (Write 105) -> ~ P (HasReturn 1) -> ~ P (Write 33) ->
    no_call P [Write 72; Read; HasData; Write 105; HasReturn 1; Read; Write 33]) by (intros; repeat constructor; assumption).
  split; [apply X; cbn; auto|]. split; [apply X; cbn; auto|]. split; [reflexivity|]. split; [reflexivity|]. split.
  - cbn. constructor. cbn. lia.
  - apply (u_zero [65] [66]). cbn. lia.
Qed.

(** ** C63: the mock communication channel *)

(** What is still to be received. *)
Definition rest (s : mock_icomm) : list Z :=
  match ic_index s with O => ic_first s ++ ic_second s | 1%nat => ic_second s | _ => [] end.

Lemma poll_rest s : rest (snd (mock_hasReceiveData s)) = rest s.
Proof.
  unfold mock_hasReceiveData. destruct (0 <? ic_delay s); [reflexivity|]. unfold isReceiveBufferEmpty, receiveBuffer.
  destruct (ic_index s) as [|[|i]] eqn:I; cbn.
  - destruct (ic_first s) eqn:F; cbn; unfold rest; cbn; rewrite ?I, ?F; reflexivity.
  - destruct (ic_second s) eqn:F; cbn; unfold rest; cbn; rewrite ?I, ?F; reflexivity.
  - unfold rest. rewrite I. reflexivity.
Qed.

Lemma poll_true s : fst (mock_hasReceiveData s) = true -> snd (mock_hasReceiveData s) = s /\ exists c s', getNextChar s = Some (c, s') /\ exists b, c = schar b /\ rest s = b :: rest s' /\ ic_transmit s' = ic_transmit s.
Proof.
  unfold mock_hasReceiveData. destruct (0 <? ic_delay s); [discriminate|]. unfold isReceiveBufferEmpty, receiveBuffer, getNextChar, rest.
  destruct (ic_index s) as [|[|i]] eqn:I; cbn; [| |discriminate].
  - destruct (ic_first s) as [|b t] eqn:F; cbn; [discriminate|]. intros _. split; [reflexivity|]. eexists _, _. split; [reflexivity|]. exists b. cbn. auto.
  - destruct (ic_second s) as [|b t] eqn:F; cbn; [discriminate|]. intros _. split; [reflexivity|]. eexists _, _. split; [reflexivity|]. exists b. cbn. auto.
Qed.

Lemma poll_transmit s : ic_transmit (snd (mock_hasReceiveData s)) = ic_transmit s.
Proof.
  unfold mock_hasReceiveData. destruct (0 <? ic_delay s); [reflexivity|]. destruct (isReceiveBufferEmpty s); [|reflexivity]. cbn [snd]. destruct (Nat.ltb (ic_index s) 2); reflexivity.
Qed.

Lemma wait_keeps fuel s s' : waitForReceiveData fuel s = Some s' -> rest s' = rest s /\ ic_transmit s' = ic_transmit s /\ fst (mock_hasReceiveData s') = true.
Proof.
  revert s. induction fuel as [|k IH]; intros s; cbn; [discriminate|].
  pose proof (poll_rest s) as R. pose proof (poll_transmit s) as T. pose proof (poll_true s) as P. destruct (mock_hasReceiveData s) as ([|] & s1) eqn:E; cbn [fst snd] in *.
  - intro H. injection H as <-. destruct (P eq_refl) as (-> & _). rewrite E. auto.
  - intro H. destruct (IH _ H) as (A & B & C). split; [congruence|]. split; [congruence|exact C].
Qed.

Lemma wait_more k k' s s' : (k <= k')%nat -> waitForReceiveData k s = Some s' -> waitForReceiveData k' s = Some s'.
Proof.
  revert k' s. induction k as [|k IH]; intros k' s L; cbn; [discriminate|]. destruct k' as [|k']; [lia|]. cbn.
  destruct (mock_hasReceiveData s) as ([|] & s1); [auto|]. apply IH. lia.
Qed.

Lemma wait_done s : rest s <> [] -> exists k s', waitForReceiveData k s = Some s'.
Proof.
  intro R. remember (Z.to_nat (ic_delay s)) as d eqn:D. revert s R D. induction d as [|d IH]; intros s R D.
  - assert (Dl : (0 <? ic_delay s) = false) by (apply Z.ltb_ge; lia).
    exists 2%nat. cbn. unfold mock_hasReceiveData, isReceiveBufferEmpty, receiveBuffer. rewrite Dl. unfold rest in R.
    destruct (ic_index s) as [|[|i]] eqn:I; cbn; [| |congruence].
    + destruct (ic_first s) eqn:F; cbn; [|eauto]. rewrite Dl. destruct (ic_second s) eqn:F2; cbn; [|eauto]. destruct (R eq_refl).
    + destruct (ic_second s) eqn:F2; cbn; [congruence|eauto].
  - assert (Dl : (0 <? ic_delay s) = true) by (apply Z.ltb_lt; lia).
    destruct (IH (mockIComm_DelayReceiveData (ic_delay s - 1) s)) as (k & s' & H); [exact R|cbn; lia|].
    exists (S k), s'. cbn. unfold mock_hasReceiveData. rewrite Dl. exact H.
Qed.

Lemma wait_forever fuel s : rest s = [] -> waitForReceiveData fuel s = None.
Proof.
  revert s. induction fuel as [|k IH]; intros s R; [reflexivity|]. cbn. pose proof (poll_rest s) as Q. pose proof (poll_true s) as P.
  destruct (mock_hasReceiveData s) as ([|] & s1); cbn [fst snd] in *; [|apply IH; congruence].
  destruct (P eq_refl) as (_ & c & s' & _ & b & _ & E & _). congruence.
Qed.

Lemma receive_gives s b l : rest s = b :: l -> exists k, forall k', (k <= k')%nat ->
  exists s', mock_receiveChar k' s = Some (schar b, s') /\ rest s' = l /\ ic_transmit s' = ic_transmit s.
Proof.
  intro R. destruct (wait_done s) as (k & s1 & H); [rewrite R; discriminate|]. exists k. intros k' L. unfold mock_receiveChar.
  rewrite (wait_more k k' s s1 L H). destruct (wait_keeps _ _ _ H) as (R1 & T1 & P). destruct (poll_true _ P) as (_ & c & s2 & G & b2 & C & R2 & T2).
  assert (b2 = b /\ rest s2 = l) as (-> & E) by (split; congruence). exists s2. rewrite G, C. split; [reflexivity|]. split; [exact E|congruence].
Qed.

Definition second (d2 : option (list Z)) : list Z := match d2 with Some d => d | None => s2b "$#00" end.

Lemma text_cstr l : text l -> cstr l = l.
Proof. intro T. apply cstr_line. intro I. unfold text in T. rewrite Forall_forall in T. destruct (T 0 I). lia. Qed.

Lemma step_more k k' s c s' : (k <= k')%nat -> comm_step k (Some s) c = Some s' -> comm_step k' (Some s) c = Some s'.
Proof.
  intros L. destruct c; cbn; auto. unfold mock_receiveChar. destruct (waitForReceiveData k s) as [s1|] eqn:E; [|discriminate].
  rewrite (wait_more _ _ _ _ L E). auto.
Qed.

Lemma run_more k k' h s s' : (k <= k')%nat -> fold_left (comm_step k) h (Some s) = Some s' -> fold_left (comm_step k') h (Some s) = Some s'.
Proof.
  intro L. revert s. induction h as [|c h IH]; intros s; cbn [fold_left]; [auto|]. destruct (comm_step k (Some s) c) as [s1|] eqn:E.
  - rewrite (step_more _ _ _ _ _ L E). apply IH.
  - intro H. exfalso. clear -H. induction h; cbn in H; [discriminate|auto].
Qed.

Lemma runs_rest h s : no_call receive_request h -> (received h <= length (rest s))%nat ->
  exists k s', fold_left (comm_step k) h (Some s) = Some s' /\ rest s' = skipn (received h) (rest s).
Proof.
  induction h as [|c h IH] using rev_ind; intros N L; [exists O, s; auto|]. apply Forall_app in N as (N & Nc). inversion Nc as [|x y Nx _]; subst.
  assert (Q : received (h ++ [c]) = (received h + match c with Receive => 1 | _ => 0 end)%nat).
  { unfold received. rewrite filter_snoc, app_length. destruct c; reflexivity. }
  rewrite Q in L |- *. clear Q. destruct (IH N ltac:(lia)) as (k & s' & H & R). set (n := received h) in *.
  destruct c; cbn in Nx; try contradiction; cbn [length] in L |- *; rewrite ?Nat.add_0_r in *;
    try (exists k; eexists; rewrite fold_snoc, H; cbn [comm_step]; split; [reflexivity|]; first [exact R|rewrite poll_rest; exact R]).
  destruct (skipn n (rest s)) as [|b l] eqn:E.
  { pose proof (skipn_length n (rest s)) as Q. rewrite E in Q. cbn in Q. lia. }
  destruct (receive_gives s' b l R) as (k2 & G). destruct (G (Nat.max k k2) ltac:(lia)) as (s2 & G1 & G2 & _).
  exists (Nat.max k k2), s2. rewrite fold_snoc, (run_more k (Nat.max k k2) h s s' ltac:(lia) H). cbn [comm_step]. rewrite G1. split; [reflexivity|].
  rewrite G2. assert (X : forall (m : list Z) i, skipn (i + 1) m = tl (skipn i m)).
  { intros m. induction m as [|y m IHm]; intros [|i]; cbn; auto. }
  rewrite X, E. reflexivity.
Qed.

(** After data was set up for receiving, the characters come in order: those of the first string, then
    those of the second one, whatever else is called in between.  Each receiveChar returns if there is
    a character left, after enough polls ... *)
Theorem C63_received d1 d2 h s : text d1 -> text (second d2) -> no_call receive_request h ->
  (received h < length (d1 ++ second d2))%nat ->
  exists polls, forall polls', (polls <= polls')%nat -> exists s' s'' c,
    fold_left (comm_step polls') (InitReceive d1 d2 :: h) (Some s) = Some s' /\
    mock_receiveChar polls' s' = Some (c, s'') /\ signed_char (nth (received h) (d1 ++ second d2) 0) c.
Proof.
  intros T1 T2 N L. set (s0 := mockIComm_InitReceiveData d1 d2 s).
  assert (R0 : rest s0 = d1 ++ second d2).
  { unfold s0, rest, mockIComm_InitReceiveData. cbn. rewrite (text_cstr _ T1). f_equal. destruct d2 as [d|]; [apply text_cstr, T2|reflexivity]. }
  destruct (runs_rest h s0 N) as (k & s' & H & R); [rewrite R0; lia|]. rewrite R0 in R.
  assert (B : Forall byte (d1 ++ second d2)).
  { apply Forall_app. split; [eapply Forall_impl; [|exact T1]|eapply Forall_impl; [|exact T2]]; cbn; intros a (Ba & _); exact Ba. }
  set (n := received h) in *. set (D := d1 ++ second d2) in *.
  assert (exists l, skipn n D = nth n D 0 :: l) as (l & E).
  { revert L. generalize D n. clear. intro D. induction D as [|x D IH]; intros [|n] L; cbn in L; try lia; [exists D; reflexivity|]. apply IH. lia. }
  rewrite E in R. destruct (receive_gives s' _ _ R) as (k2 & G). exists (Nat.max k k2). intros k' Lk. destruct (G k' ltac:(lia)) as (s2 & G1 & _).
  exists s', s2, (schar (nth n D 0)). split; [cbn [fold_left]; change (comm_step k' (Some s) (InitReceive d1 d2)) with (Some s0); exact (run_more k k' h s0 s' ltac:(lia) H)|].
  split; [exact G1|]. rewrite Forall_forall in B. pose proof (B (nth n D 0) ltac:(apply nth_In; exact L)) as X. unfold byte in X.
  unfold schar, signed_char. destruct (Z.ltb_spec (nth n D 0) 128); lia.
Qed.

(** ... and never returns if there is none. *)
Theorem C63_exhausted d1 d2 h s polls s' : text d1 -> text (second d2) -> no_call receive_request h ->
  received h = length (d1 ++ second d2) ->
  fold_left (comm_step polls) (InitReceive d1 d2 :: h) (Some s) = Some s' ->
  forall polls', mock_receiveChar polls' s' = None.
Proof.
  intros T1 T2 N L H polls'. set (s0 := mockIComm_InitReceiveData d1 d2 s).
  assert (R0 : rest s0 = d1 ++ second d2).
  { unfold s0, rest, mockIComm_InitReceiveData. cbn. rewrite (text_cstr _ T1). f_equal. destruct d2 as [d|]; [apply text_cstr, T2|reflexivity]. }
  destruct (runs_rest h s0 N) as (k & s1 & H1 & R); [rewrite R0; lia|].
  cbn [fold_left] in H. change (comm_step polls (Some s) (InitReceive d1 d2)) with (Some s0) in H.
  apply (run_more polls (Nat.max polls k)) in H; [|lia]. apply (run_more k (Nat.max polls k)) in H1; [|lia]. assert (s1 = s') by congruence. subst s1.
  unfold mock_receiveChar. rewrite wait_forever; [reflexivity|]. rewrite R, R0, L. apply skipn_all.
Qed.

(** What was sent since the transmit buffer was set up, as far as it fits. *)
Theorem C63_sent n h s polls s' : 0 <= n -> no_call transmit_request h ->
  fold_left (comm_step polls) (InitTransmit n :: h) (Some s) = Some s' ->
  exists t, mockIComm_GetTransmittedData s' = Some t /\ up_to_zero (firstn (Z.to_nat n) (sent h)) t.
Proof.
  intros P N H. assert (G : ic_transmit s' = Some (firstn (Z.to_nat n) (sent h), n)).
  { revert s' N H. induction h as [|c h IH] using rev_ind; intros s' N H; [cbn in H; injection H as <-; cbn; rewrite firstn_nil; reflexivity|].
    apply Forall_app in N as (N & Nc). inversion Nc as [|x y Nx _]; subst. rewrite app_comm_cons, fold_snoc in H.
    destruct (fold_left (comm_step polls) (InitTransmit n :: h) (Some s)) as [s1|] eqn:E; [|destruct c; discriminate].
    specialize (IH _ N eq_refl). unfold sent in *. rewrite flat_map_snoc. destruct c; cbn in Nx; try contradiction; cbn [comm_step] in H; rewrite ?app_nil_r;
      try (injection H as <-; first [exact IH|rewrite poll_transmit; exact IH]).
    - unfold mockIComm_InitReceiveChecksummedData in H. destruct (allocateAndCopyChecksummedData d1); [|discriminate].
      destruct (match d2 with Some _ => _ | None => _ end); [|discriminate]. injection H as <-. exact IH.
    - unfold mock_receiveChar in H. destruct (waitForReceiveData polls s1) as [s2|] eqn:Wt; [|discriminate]. destruct (wait_keeps _ _ _ Wt) as (_ & T & Q).
      destruct (poll_true _ Q) as (_ & c & s3 & G & b & _ & _ & T3). rewrite G in H. cbn in H. injection H as <-. congruence.
    - injection H as <-. cbn. rewrite IH. apply capture_grows, P. }
  unfold mockIComm_GetTransmittedData. rewrite G. cbn. eexists. split; [reflexivity|]. apply cstr_up_to_zero.
Qed.

(** *** Checksums *)

Lemma copy_plain l : plain l -> forall acc r, copyChecksummedData acc (l ++ r) = l ++ copyChecksummedData (acc + sum l) r.
Proof.
  intro Pl. induction Pl as [|c l (B & Z0 & D & H) Pl IH]; intros acc r; [cbn; rewrite Z.add_0_r; reflexivity|].
  cbn [copyChecksummedData app sum fold_right]. destruct (Z.eqb_spec c 36); [lia|]. destruct (Z.eqb_spec c 35); [lia|]. rewrite IH. replace (acc + (c + fold_right Z.add 0 l)) with (acc + c + sum l) by (unfold sum; lia). reflexivity.
Qed.

Lemma nibble n a : 0 <= n < 16 -> hex_value a = Some n -> ~ (65 <= a <= 70) -> NibbleToHexChar n = a.
Proof.
  intros B H N. unfold hex_value in H. unfold NibbleToHexChar.
  assert (a = if n <? 10 then n + 48 else n + 87).
  { destruct (Z.leb_spec 48 a), (Z.leb_spec a 57); cbn in H.
    - injection H as H. destruct (Z.ltb_spec n 10); lia.
    - destruct (Z.leb_spec 97 a), (Z.leb_spec a 102); cbn in H; [injection H as H; destruct (Z.ltb_spec n 10); lia| | |];
        destruct (Z.leb_spec 65 a), (Z.leb_spec a 70); cbn in H; try discriminate; lia.
    - destruct (Z.leb_spec 97 a), (Z.leb_spec a 102); cbn in H; [injection H as H; destruct (Z.ltb_spec n 10); lia| | |];
        destruct (Z.leb_spec 65 a), (Z.leb_spec a 70); cbn in H; try discriminate; lia.
    - lia. }
  subst a. assert (exists k, (k < 16)%nat /\ n = Z.of_nat k) as (k & L & ->) by (exists (Z.to_nat n); lia). rewrite Nat2Z.id.
  do 16 (destruct k as [|k]; [reflexivity|]). lia.
Qed.

Lemma copy_checksums d t : with_checksums d t -> forall acc, copyChecksummedData acc d = t ++ [0].
Proof.
  intro H. induction H as [noise Pn|noise body digits d t Pn Pb (a & b & -> & Ha & Hb & Na & Nb) H IH]; intro acc.
  - rewrite <- (app_nil_r noise) at 1. rewrite copy_plain by exact Pn. reflexivity.
  - rewrite copy_plain by exact Pn. rewrite <- app_assoc. f_equal. cbn [copyChecksummedData Z.eqb Pos.eqb]. cbn [app]. f_equal.
    rewrite copy_plain by exact Pb. rewrite <- app_assoc. f_equal. cbn [copyChecksummedData Z.eqb Pos.eqb app]. f_equal.
    rewrite Z.add_0_l. rewrite (nibble _ a) by (assumption || (pose proof (Z.mod_pos_bound (sum body) 256); lia)).
    rewrite (nibble _ b).
    + do 2 f_equal. apply IH.
    + pose proof (Z.mod_pos_bound (sum body) 16); lia.
    + rewrite Hb. f_equal. lia.
    + exact Nb.
Qed.

Lemma checksums_text d t : with_checksums d t -> text d /\ text t.
Proof.
  assert (P : forall l, plain l -> text l) by (intros l H; eapply Forall_impl; [|exact H]; cbn; tauto).
  intro H. induction H as [noise Pn|noise body digits d t Pn Pb (a & b & -> & Ha & Hb & Na & Nb) H (IH1 & IH2)]; [split; apply P; assumption|].
  assert (X : forall c n, hex_value c = Some n -> byte c /\ c <> 0).
  { intros c n E. unfold hex_value in E. unfold byte. destruct (Z.leb_spec 48 c), (Z.leb_spec c 57), (Z.leb_spec 97 c), (Z.leb_spec c 102), (Z.leb_spec 65 c), (Z.leb_spec c 70); cbn in E; try discriminate; lia. }
  split; apply Forall_app; (split; [apply P, Pn|]); (constructor; [unfold byte; lia|]); apply Forall_app; (split; [apply P, Pb|]); (constructor; [unfold byte; lia|]).
  - exact IH1.
  - cbn. constructor; [eapply X, Ha|]. constructor; [eapply X, Hb|]. exact IH2.
Qed.

Lemma copy_length acc l : zlen (copyChecksummedData acc l) = zlen l + 2 * countPoundSigns l + 1.
Proof.
  revert acc. induction l as [|c l IH]; intro acc; [reflexivity|]. cbn [copyChecksummedData countPoundSigns]. unfold zlen in *.
  destruct (Z.eqb_spec c 36) as [->|]; [|destruct (Z.eqb_spec c 35)]; cbn [length] in *; specialize (IH acc) as I1.
  - cbn [Z.eqb Pos.eqb]. specialize (IH 0). lia.
  - lia.
  - specialize (IH (acc + c)). lia.
Qed.

(** The checksums are those of the remote protocol: after each packet, the sum of the characters of
    its body as two hexadecimal digits. *)
Theorem C63_checksums d t : with_checksums d t -> mockIComm_ChecksumData d = Some t.
Proof.
  intro H. destruct (checksums_text d t H) as (T1 & T2). unfold mockIComm_ChecksumData, allocateAndCopyChecksummedData.
  rewrite copy_length, (text_cstr _ T1), Z.ltb_irrefl. cbn [option_map]. rewrite (copy_checksums d t H).
  f_equal. assert (Y : forall l, text l -> cstr (l ++ [0]) = l).
  { intros l X. induction X as [|c l (_ & N) X IH]; [reflexivity|]. cbn. destruct (Z.eqb_spec c 0); [lia|]. f_equal. exact IH. }
  apply Y, T2.
Qed.

(** Data set up with checksums is received as if it had been given with them. *)
Theorem C63_checksummed_data d1 d2 t1 t2 s :
  with_checksums d1 t1 -> match d2, t2 with Some d, Some t => with_checksums d t | None, None => True | _, _ => False end ->
  mockIComm_InitReceiveChecksummedData d1 d2 s = Some (mockIComm_InitReceiveData t1 t2 s).
Proof.
  intros H1 H2. pose proof (C63_checksums _ _ H1) as C1. destruct (checksums_text _ _ H1) as (_ & T1). unfold mockIComm_ChecksumData in C1.
  unfold mockIComm_InitReceiveChecksummedData, mockIComm_InitReceiveData.
  destruct (allocateAndCopyChecksummedData d1) as [x1|]; [|discriminate]. cbn in C1. injection C1 as C1. rewrite C1, (text_cstr _ T1).
  destruct d2 as [d|], t2 as [t|]; try contradiction; [|reflexivity].
  pose proof (C63_checksums _ _ H2) as C2. destruct (checksums_text _ _ H2) as (_ & T2). unfold mockIComm_ChecksumData in C2.
  destruct (allocateAndCopyChecksummedData d) as [x2|]; [|discriminate]. cbn in C2. injection C2 as C2. rewrite C2, (text_cstr _ T2). reflexivity.
Qed.

(** For any data the copy stays inside the block allocated for it. *)
Theorem C63_inside d : mockIComm_ChecksumData d <> None.
Proof. unfold mockIComm_ChecksumData, allocateAndCopyChecksummedData. rewrite copy_length, Z.ltb_irrefl. discriminate. Qed.

Example C63_example :
  with_checksums (s2b "+$g#$m0,4#+") (s2b "+$g#67$m0,4#fd+") /\ text (s2b "+$g#") /\
  let h := [Receive; HasReceive; DelayReceive 3; Send 43; Receive; HasReceive] in no_call receive_request h /\ no_call transmit_request h /\ received h = 2%nat /\ sent h = [43].
Proof.
  split; [|split].
  - apply (w_packet (s2b "+") (s2b "g") (s2b "67") (s2b "$m0,4#+") (s2b "$m0,4#fd+")).
    + repeat constructor; try discriminate; unfold byte; try lia.
    + repeat constructor; try discriminate; unfold byte; try lia.
    + exists 54, 55. split; [reflexivity|]. split; [reflexivity|]. split; [reflexivity|]. lia.
    + apply (w_packet [] (s2b "m0,4") (s2b "fd") (s2b "+") (s2b "+")).
      * constructor.
      * repeat constructor; try discriminate; unfold byte; try lia.
      * exists 102, 100. split; [reflexivity|]. split; [reflexivity|]. split; [reflexivity|]. lia.
      * constructor. repeat constructor; try discriminate; unfold byte; try lia.
  - repeat constructor; try discriminate; unfold byte; try lia.
  - cbn zeta. assert (X : forall P : comm_call -> Prop, ~ P Receive -> ~ P HasReceive -> ~ P (DelayReceive 3) -> ~ P (Send 43) ->
      no_call P [Receive; HasReceive; DelayReceive 3; Send 43; Receive; HasReceive]) by (intros; repeat constructor; assumption).
    split; [apply X; cbn; auto|]. split; [apply X; cbn; auto|]. split; reflexivity.
Qed.

(** *** Polling *)

(** A poll, and a receive if there is something, [n] times. *)
Definition poll_and_receive (n : nat) : list comm_call := concat (repeat [HasReceive; Receive] n).
Definition has_data (s : option mock_icomm) : option bool := option_map (fun s => fst (mock_hasReceiveData s)) s.

Lemma wait_now fuel s : fst (mock_hasReceiveData s) = true -> waitForReceiveData (S fuel) s = Some s.
Proof. intro H. destruct (poll_true s H) as (E & _). cbn. destruct (mock_hasReceiveData s) as (b & s1). cbn in *. subst. reflexivity. Qed.

Lemma first_round polls n s : ic_index s = 0%nat -> ic_delay s = 0 -> (n <= length (ic_first s))%nat ->
  exists s', fold_left (comm_step (S polls)) (poll_and_receive n) (Some s) = Some s' /\
    ic_index s' = 0%nat /\ ic_delay s' = 0 /\ ic_first s' = skipn n (ic_first s) /\ ic_second s' = ic_second s.
Proof.
  revert s. induction n as [|n IH]; intros s I D L; [exists s; auto|].
  destruct (ic_first s) as [|c t] eqn:F; [cbn in L; lia|]. cbn [length] in L.
  assert (P : mock_hasReceiveData s = (true, s)).
  { unfold mock_hasReceiveData, isReceiveBufferEmpty, receiveBuffer. rewrite D, I, F. reflexivity. }
  assert (E : comm_step (S polls) (comm_step (S polls) (Some s) HasReceive) Receive =
    Some (mkIC t (ic_second s) 0 (ic_delay s) (ic_transmit s) (ic_stop s) (ic_connected s))).
  { cbn [comm_step]. rewrite P. cbn [snd]. unfold mock_receiveChar. rewrite wait_now by (rewrite P; reflexivity). unfold getNextChar. rewrite I, F. reflexivity. }
  destruct (IH (mkIC t (ic_second s) 0 (ic_delay s) (ic_transmit s) (ic_stop s) (ic_connected s)) eq_refl D ltac:(cbn; lia)) as (s' & H & H1 & H2 & H3 & H4).
  exists s'. unfold poll_and_receive in *. cbn [repeat concat app fold_left]. rewrite E. auto.
Qed.

Lemma second_round polls n s : ic_index s = 1%nat -> ic_delay s = 0 -> (n <= length (ic_second s))%nat ->
  exists s', fold_left (comm_step (S polls)) (poll_and_receive n) (Some s) = Some s' /\
    ic_index s' = 1%nat /\ ic_delay s' = 0 /\ ic_second s' = skipn n (ic_second s).
Proof.
  revert s. induction n as [|n IH]; intros s I D L; [exists s; auto|].
  destruct (ic_second s) as [|c t] eqn:F; [cbn in L; lia|]. cbn [length] in L.
  assert (P : mock_hasReceiveData s = (true, s)).
  { unfold mock_hasReceiveData, isReceiveBufferEmpty, receiveBuffer. rewrite D, I, F. reflexivity. }
  assert (E : comm_step (S polls) (comm_step (S polls) (Some s) HasReceive) Receive =
    Some (mkIC (ic_first s) t 1 (ic_delay s) (ic_transmit s) (ic_stop s) (ic_connected s))).
  { cbn [comm_step]. rewrite P. cbn [snd]. unfold mock_receiveChar. rewrite wait_now by (rewrite P; reflexivity). unfold getNextChar. rewrite I, F. reflexivity. }
  destruct (IH (mkIC (ic_first s) t 1 (ic_delay s) (ic_transmit s) (ic_stop s) (ic_connected s)) eq_refl D ltac:(cbn; lia)) as (s' & H & H1 & H2 & H3).
  exists s'. unfold poll_and_receive in *. cbn [repeat concat app fold_left]. rewrite E. auto.
Qed.

(** A loop that receives while there is data gets the first string; polling says no once; the next
    such loop gets the second string; polling then says no. *)
Theorem C63_polled d1 d2 s polls i : text d1 -> text (second d2) ->
  ((i <= length d1)%nat ->
     has_data (fold_left (comm_step (S polls)) (InitReceive d1 d2 :: poll_and_receive i) (Some s)) = Some (Nat.ltb i (length d1))) /\
  ((i <= length (second d2))%nat ->
     has_data (fold_left (comm_step (S polls)) (InitReceive d1 d2 :: poll_and_receive (length d1) ++ HasReceive :: poll_and_receive i) (Some s))
       = Some (Nat.ltb i (length (second d2)))).
Proof.
  intros T1 T2. set (s0 := mockIComm_InitReceiveData d1 d2 s).
  assert (F1 : ic_first s0 = d1) by (cbn; apply text_cstr, T1).
  assert (F2 : ic_second s0 = second d2) by (destruct d2 as [d|]; [cbn; apply text_cstr, T2|reflexivity]).
  assert (E0 : ic_index s0 = 0%nat /\ ic_delay s0 = 0) by (split; reflexivity). destruct E0 as (I0 & D0).
  assert (LT : forall (l : list Z) k, (k <= length l)%nat -> Nat.ltb k (length l) = match skipn k l with [] => false | _ => true end).
  { induction l as [|x l IHl]; intros [|k] L; cbn in L; try lia; try reflexivity. cbn [length skipn]. rewrite <- IHl by lia. reflexivity. }
  split; intro L; cbn [fold_left]; change (comm_step (S polls) (Some s) (InitReceive d1 d2)) with (Some s0).
  - destruct (first_round polls i s0 I0 D0) as (s' & H & H1 & H2 & H3 & _); [rewrite F1; exact L|]. rewrite H. cbn [has_data option_map]. f_equal.
    unfold mock_hasReceiveData, isReceiveBufferEmpty, receiveBuffer. rewrite H1, H2, H3, F1, LT by exact L. destruct (skipn i d1); reflexivity.
  - rewrite fold_left_app. destruct (first_round polls (length d1) s0 I0 D0) as (s' & H & H1 & H2 & H3 & H4); [rewrite F1; lia|]. rewrite H. cbn [fold_left].
    rewrite F1, skipn_all in H3.
    assert (E : comm_step (S polls) (Some s') HasReceive = Some (mkIC [] (ic_second s') 1 0 (ic_transmit s') (ic_stop s') (ic_connected s'))).
    { cbn [comm_step]. unfold mock_hasReceiveData, isReceiveBufferEmpty, receiveBuffer. rewrite H1, H2, H3. reflexivity. }
    rewrite E. destruct (second_round polls i (mkIC [] (ic_second s') 1 0 (ic_transmit s') (ic_stop s') (ic_connected s')) eq_refl eq_refl) as (s2 & G & G1 & G2 & G3); [|rewrite G].
    { cbn. rewrite H4, F2. exact L. }
    cbn [has_data option_map]. f_equal. cbn [ic_second] in G3. rewrite H4, F2 in G3.
    unfold mock_hasReceiveData, isReceiveBufferEmpty, receiveBuffer. rewrite G1, G2, G3, LT by exact L. destruct (skipn i (second d2)); reflexivity.
Qed.

(** A delay of [n] makes the next [n] polls say no. *)
Theorem C63_delayed n k s polls : (k < n)%nat ->
  has_data (fold_left (comm_step polls) (DelayReceive (Z.of_nat n) :: repeat HasReceive k) (Some s)) = Some false.
Proof.
  intro L. cbn [fold_left comm_step]. assert (G : forall k m s, (k < m)%nat -> ic_delay s = Z.of_nat m -> has_data (fold_left (comm_step polls) (repeat HasReceive k) (Some s)) = Some false).
  { induction k0 as [|k0 IH]; intros m s0 Lm E; cbn [repeat fold_left comm_step].
    - cbn. unfold mock_hasReceiveData. destruct (Z.ltb_spec 0 (ic_delay s0)); [reflexivity|lia].
    - unfold mock_hasReceiveData. destruct (Z.ltb_spec 0 (ic_delay s0)); [|lia]. cbn [snd]. apply (IH (m - 1)%nat); [lia|]. cbn. lia. }
  apply (G k n); [exact L|reflexivity].
Qed.

(** The flags are as set last. *)
Theorem C63_flags b h s polls s' :
  (Forall (fun c => forall x, c <> SetStop x) h -> fold_left (comm_step polls) (SetStop b :: h) (Some s) = Some s' -> mock_shouldStopRun s' = b) /\
  (Forall (fun c => c <> UninitComm /\ forall x, c <> SetConnected x) h -> fold_left (comm_step polls) (SetConnected b :: h) (Some s) = Some s' -> mock_isGdbConnected s' = b).
Proof.
  assert (P : forall s, ic_stop (snd (mock_hasReceiveData s)) = ic_stop s /\ ic_connected (snd (mock_hasReceiveData s)) = ic_connected s).
  { intro s0. unfold mock_hasReceiveData. destruct (0 <? ic_delay s0); [auto|]. destruct (isReceiveBufferEmpty s0); [|auto]. cbn [snd]. destruct (Nat.ltb (ic_index s0) 2); auto. }
  assert (Wt : forall k s s', waitForReceiveData k s = Some s' -> ic_stop s' = ic_stop s /\ ic_connected s' = ic_connected s).
  { induction k as [|k IH]; intros s0 s1; cbn; [discriminate|]. specialize (P s0) as (P1 & P2). destruct (mock_hasReceiveData s0) as ([|] & s2); cbn in P1, P2.
    - intro H. injection H as <-. auto.
    - intro H. destruct (IH _ _ H). split; congruence. }
  assert (G : forall c s s', comm_step polls (Some s) c = Some s' ->
     ((forall x, c <> SetStop x) -> ic_stop s' = ic_stop s) /\ ((c <> UninitComm /\ forall x, c <> SetConnected x) -> ic_connected s' = ic_connected s)).
  { intros c s0 s1 H. destruct c; cbn [comm_step] in H; try (injection H as <-; split; [intro N|intros (N0 & N)]; cbn; first [reflexivity|destruct (N _ eq_refl)|congruence]).
    - unfold mockIComm_InitReceiveChecksummedData in H. destruct (allocateAndCopyChecksummedData d1); [|discriminate].
      destruct (match d2 with Some _ => _ | None => _ end); [|discriminate]. injection H as <-. auto.
    - injection H as <-. destruct (P s0) as (P1 & P2). auto.
    - unfold mock_receiveChar in H. destruct (waitForReceiveData polls s0) as [s2|] eqn:E; [|discriminate]. destruct (Wt _ _ _ E) as (W1 & W2).
      unfold getNextChar in H. destruct (ic_index s2) as [|[|i]]; [destruct (ic_first s2)|destruct (ic_second s2)|]; try discriminate; cbn in H; injection H as <-; cbn; auto. }
  assert (R : forall h s, (Forall (fun c => forall x, c <> SetStop x) h -> fold_left (comm_step polls) h (Some s) = Some s' -> ic_stop s' = ic_stop s) /\
     (Forall (fun c => c <> UninitComm /\ forall x, c <> SetConnected x) h -> fold_left (comm_step polls) h (Some s) = Some s' -> ic_connected s' = ic_connected s)).
  { clear h. intro h. induction h as [|c h IH]; intro s0; [split; intros _ H; cbn in H; injection H as ->; reflexivity|]. cbn [fold_left].
    destruct (comm_step polls (Some s0) c) as [s1|] eqn:E.
    - destruct (G _ _ _ E) as (G1 & G2). destruct (IH s1) as (I1 & I2). split; intros F H; inversion F; subst.
      + rewrite I1 by assumption. apply G1; assumption.
      + rewrite I2 by assumption. apply G2; assumption.
    - split; intros _ H; exfalso; clear -H; induction h; cbn in H; [discriminate|auto|discriminate|auto]. }
  split; intros F H; cbn [fold_left comm_step] in H.
  - destruct (R h (mockIComm_SetShouldStopRunFlag b s)) as (R1 & _). exact (R1 F H).
  - destruct (R h (mockIComm_SetIsGdbConnectedFlag b s)) as (_ & R2). exact (R2 F H).
Qed.

Print Assumptions C59_failing_allocation.
Print Assumptions C60_untouched.
Print Assumptions C60_restored.
Print Assumptions C60_returned.
Print Assumptions C60_fseek_partial.
Print Assumptions C60_fseek_at_once.
Print Assumptions C60_fseek_count_first.
Print Assumptions C60_fread.
Print Assumptions C60_fgets_partial.
Print Assumptions C60_no_room_refuted.
Print Assumptions C60_left_over_refuted.
Print Assumptions C61_call_count.
Print Assumptions C61_output_partial.
Print Assumptions C61_exactly.
Print Assumptions C61_last.
Print Assumptions C61_previous.
Print Assumptions C61_other_stream_refuted.
Print Assumptions C61_return_value.
Print Assumptions C62_read.
Print Assumptions C62_exceptions.
Print Assumptions C62_captured_partial.
Print Assumptions C62_no_buffer_refuted.
Print Assumptions C63_received.
Print Assumptions C63_exhausted.
Print Assumptions C63_sent.
Print Assumptions C63_checksums.
Print Assumptions C63_checksummed_data.
Print Assumptions C63_inside.
Print Assumptions C63_polled.
Print Assumptions C63_delayed.
Print Assumptions C63_flags.
Print Assumptions C62_polled.
