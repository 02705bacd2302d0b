(** Properties C47 and C48: the exception macros. *)
From Coq Require Import String ZArith List Bool Lia.
From Verif Require Import Base World Platform MemSpec MemEx TryCatch TrySpec TryThms.
Import ListNotations.
Open Scope Z_scope.
Open Scope m_scope.

Lemma boot_inv {S} (s : stmt S) st : contained s = true -> inv S (boot s st).
Proof. intro C. split; [reflexivity|]. cbn. auto. Qed.

Lemma machine_cases {S} (s : stmt S) st z : contained s = true -> steps (boot s st) z -> (forall y, step z <> Next y) ->
  exists o c m st', exec S s (0, [], st) o (c, m, st') /\
    match o with
    | ET => exists y, step z = NoHandler y /\ m_code y = c /\ m_text y = m /\ m_state y = st'
    | _ => step z = Finished z /\ m_code z = c /\ m_text z = m /\ m_state z = st'
    end.
Proof.
  intros C H T. destruct (stepsn_of S _ _ H) as (n & Hn).
  destruct (machine_exec S n s (0, [], st) [] None [] z Hn T eq_refl C ltac:(intros; exact I) I) as (o & ((c & m) & st') & X).
  exists o, c, m, st'. split; [exact X|]. destruct (exec_machine S _ _ _ _ X [] None [] eq_refl C ltac:(intros; exact I) I) as (ext & P).
  assert (TE : forall y, steps (boot s st) y -> (forall y', step y <> Next y') -> y = z).
  { intros y Py Ty. destruct (stepsn_rest S _ _ _ _ Hn T Py) as (m0 & _ & Q). inversion Q; subst; [reflexivity|]. destruct (Ty _ H0). }
  destruct o; cbn [unwind leave] in P.
  - rewrite <- (TE _ P) by discriminate. auto.
  - destruct P as (x & y & P1 & P2 & P3). rewrite <- (TE _ P1) by (intros y' E; rewrite P2 in E; discriminate). exists y. injection P3 as -> -> ->. auto.
  - rewrite <- (TE _ P) by discriminate. auto.
Qed.

(** Running the machine, for the examples. *)
Fixpoint iter {S} (n : nat) (x : machine S) : machine S :=
  match n with O => x | Datatypes.S n' => match step x with Next y => iter n' y | _ => x end end.
Lemma iter_steps {S} n : forall x : machine S, steps x (iter n x).
Proof. induction n as [|n IH]; intro x; cbn [iter]; [apply steps_refl|]. destruct (step x) eqn:E; try apply steps_refl. eapply steps_next; [exact E|apply IH]. Qed.
Definition last_ {S} (x : machine S) : machine S := match step x with NoHandler y => y | _ => x end.
Lemma stops_by {S} n (s : stmt S) st e st' : (match step (iter n (boot s st)) with NoHandler _ => true | _ => false end) = true ->
  m_code (last_ (iter n (boot s st))) = e -> m_state (last_ (iter n (boot s st))) = st' -> stops_with s st e st'.
Proof.
  intros H E1 E2. exists (iter n (boot s st)), (last_ (iter n (boot s st))). split; [apply iter_steps|]. unfold last_ in *. destruct (step _); try discriminate. auto.
Qed.
Lemma finishes_by {S} n (s : stmt S) st st' : m_rest (iter n (boot s st)) = [] -> m_state (iter n (boot s st)) = st' -> finishes s st st'.
Proof. intros H E. exists (iter n (boot s st)). split; [apply iter_steps|]. split; [|exact E]. unfold step. now rewrite H. Qed.

(** ** C47 *)

(** C47.  Programs that use the macros properly behave as specified: they finish in the states in which
    the specification ends (normally or by a return), and stop with an uncaught exception exactly when,
    with the code, and in the state, the specification says.  In particular a handler runs iff its body
    raises ([ideal]'s rules for try blocks). *)
Theorem C47_proper {S} (s : stmt S) st st' : proper (Some Clean) Clean s Clean ->
  (finishes s st st' <-> exists o cur, (o = Normal \/ o = Returns) /\ ideal 0 s st o cur st') /\
  (forall e, stops_with s st e st' <-> exists cur, ideal 0 s st (Raises e) cur st').
Proof.
  intro P. destruct (proper_contained S _ _ _ _ P) as [C _].
  assert (A : forall o c m st1, exec S s (0, [], st) o (c, m, st1) -> exists o' cur', ideal 0 s st o' cur' st1 /\ agree (Some Clean) Clean o o' c cur').
  { intros o c m st1 X. exact (exec_ideal S _ _ _ _ X _ _ _ 0 P (conj eq_refl eq_refl)). }
  assert (B : forall o cur st1, ideal 0 s st o cur st1 -> exists oo c m, exec S s (0, [], st) oo (c, m, st1) /\ agree (Some Clean) Clean oo o c cur).
  { intros o cur st1 X. exact (ideal_exec S _ _ _ _ _ _ X _ _ _ 0 [] P (conj eq_refl eq_refl)). }
  split.
  - split.
    + intros (z & H & F & E). destruct (machine_cases s st z C H ltac:(rewrite F; discriminate)) as (o & c & m & st1 & X & Q).
      destruct (A _ _ _ _ X) as (o' & cur' & I' & G). exists o', cur'. destruct o; cbn [agree] in G.
      * destruct Q as (_ & _ & _ & Q). rewrite <- E, Q. destruct G as [-> _]. auto.
      * destruct Q as (y & Q & _). rewrite F in Q. discriminate.
      * destruct Q as (_ & _ & _ & Q). rewrite <- E, Q. destruct G as [-> _]. auto.
    + intros (o & cur & Ho & I'). destruct (B _ _ _ I') as (oo & c & m & X & G).
      destruct (exec_machine S _ _ _ _ X [] None [] eq_refl C ltac:(intros; exact I) I) as (ext & Q). destruct oo; cbn [agree unwind leave] in *.
      * eexists. split; [exact Q|]. split; reflexivity.
      * destruct G as [-> _]. destruct Ho; discriminate.
      * eexists. split; [exact Q|]. split; reflexivity.
  - intro e. split.
    + intros (z & y & H & F & E & ES). destruct (machine_cases s st z C H ltac:(rewrite F; discriminate)) as (o & c & m & st1 & X & Q).
      destruct (A _ _ _ _ X) as (o' & cur' & I' & G). exists cur'. destruct o; cbn [agree] in G.
      * destruct Q as (Q & _). rewrite F in Q. discriminate.
      * destruct Q as (y' & Q1 & Q2 & Q3 & Q4). rewrite F in Q1. injection Q1 as <-. rewrite <- E, <- ES, Q2, Q4. destruct G as [-> _]. exact I'.
      * destruct Q as (Q & _). rewrite F in Q. discriminate.
    + intros (cur & I'). destruct (B _ _ _ I') as (oo & c & m & X & G).
      destruct (exec_machine S _ _ _ _ X [] None [] eq_refl C ltac:(intros; exact I) I) as (ext & Q). destruct oo; cbn [agree unwind leave] in *.
      * destruct G as [G _]. discriminate.
      * destruct G as [G _]. injection G as ->. destruct Q as (x & y & Q1 & Q2 & Q3). exists x, y. injection Q3 as Q3 Q4 Q5. auto.
      * destruct G as [G _]. discriminate.
Qed.

(** C47.  Spelled out for one try block whose handler marks the state: the mark is there iff the body
    raised an exception. *)
Theorem C47_handler_iff_raised {S} (b : stmt S) (mark : S -> S) st st' : proper None Clean b Clean ->
  (finishes (Try b (Seq (Do mark) Clear)) st st' <->
   (exists cur, ideal 0 b st Normal cur st') \/ (exists e cur st1, ideal 0 b st (Raises e) cur st1 /\ st' = mark st1)).
Proof.
  intro P. assert (PT : proper (Some Clean) Clean (Try b (Seq (Do mark) Clear)) Clean).
  { apply p_try; [exact P|]. eapply p_seq; [apply p_do|apply p_clear]. }
  rewrite (proj1 (C47_proper _ st st' PT)). split.
  - intros (o & cur & Ho & I'). inversion I' as [ | | | | | | | | | | | | |? ? ? ? ? ? ? X Y|? ? ? ? ? ? ? ? ? ? X Y]; subst.
    + destruct Y as [->| ->]; [left; eauto|]. exfalso. destruct (ideal_exec S _ _ _ _ _ _ X _ _ _ 0 [] P (conj eq_refl eq_refl)) as (oo & c & m & _ & G).
      destruct oo; cbn [agree] in G; [destruct G; discriminate|destruct G; discriminate|]. destruct G as (_ & a & E & _). discriminate.
    + right. exists e, cur1, st1. split; [exact X|]. inversion Y as [ | | | | |? ? ? ? ? ? ? ? ? Y1 Y2|? ? ? ? ? ? ? Y1 Y2| | | | | | | | ]; subst.
      * inversion Y1; subst. inversion Y2; subst. reflexivity.
      * inversion Y1; subst. congruence.
  - intros [(cur & I')|(e & cur & st1 & I' & ->)].
    + exists Normal, 0. split; [auto|]. eapply i_try_fine; [exact I'|auto].
    + exists Normal, 0. split; [auto|]. eapply i_try_caught; [exact I'|]. eapply i_seq; [apply i_do|apply i_clear].
Qed.

(** A program with a retry loop, a rethrow, an escalation and a function that returns from its handler:
    its state is the list of what happened. *)
Definition say_ (n : Z) : stmt (list Z) := Do (fun l => l ++ [n]).
Definition shorter (n : nat) (l : list Z) : bool := Nat.ltb (length l) n.
Definition prog_ex : stmt (list Z) :=
  Seq (While (shorter 2) (Try (Seq (say_ 1) (Throw 20)) Clear))
 (Seq (Call (Try (If (shorter 1) (say_ 9) (Throw 28)) (Seq (say_ 2) (Seq Clear Return))))
      (Try (Seq (say_ 3) (Try (Throw 28) (Seq (say_ 4) (Throw 20)))) (If (fun _ => true) (Seq (say_ 5) Rethrow) Rethrow))).
Example C47_example : proper (Some Clean) Clean prog_ex Clean /\ stops_with prog_ex [] 28 [1; 1; 2; 3; 4; 5].
Proof.
  assert (P : proper (Some Clean) Clean prog_ex Clean).
  { unfold prog_ex, say_. eapply p_seq; [apply p_while; apply p_try; [eapply p_seq; [apply p_do|apply p_throw; lia]|apply p_clear]|].
    eapply p_seq; [apply p_call; apply p_try; [apply p_if; [apply p_do|apply p_throw; lia]|]|].
    - eapply p_seq; [apply p_do|]. eapply p_seq; [apply p_clear|]. apply p_return.
    - apply p_try; [|apply p_if; [eapply p_seq; [apply p_do|apply p_rethrow]|apply p_rethrow]].
      eapply p_seq; [apply p_do|]. apply p_try; [apply p_throw; lia|]. eapply p_seq; [apply p_do|apply p_throw; lia]. }
  split; [exact P|]. apply (stops_by 100); vm_compute; reflexivity.
Qed.

(** C47 fails in general: a handler that ends without clearing the code makes the handler of the try
    block around it run although that block's body ends normally. *)
Theorem C47_stale_code_refuted : exists (b : stmt (list Z)) st' st'' cur,
  ideal 0 b [] Normal cur st' /\ finishes (Try b (say_ 2)) [] st'' /\ st'' = st' ++ [2].
Proof.
  exists (Try (Throw 20) (say_ 1)), [1], [1; 2], 0. split; [eapply i_try_caught; [apply i_throw|apply (i_do _ (fun l => l ++ [1]) [])]|]. split; [|reflexivity].
  apply (finishes_by 50); vm_compute; reflexivity.
Qed.
(** The program does this: the debugger's memory read catches the bus error and returns normally, but a
    handler around it runs. *)
Theorem C47_memory_read_refuted : exists w w1, Platform_MemRead 4 0 (set_exn w noException []) = Ret 0 w1 /\
  forall handler, try0 (bind (Platform_MemRead 4 0) (fun _ => ret tt)) handler w = handler w1.
Proof. exists (w_start env0). eexists. split; [vm_compute; reflexivity|]. intro handler. reflexivity. Qed.

(** ** C48 *)

(** C48.  In every program in which no body of a try block returns from the function around it: no jump
    goes to a try block that is gone; the chain of handlers is empty at the end. *)
Theorem C48_never_dangling {S} (s : stmt S) st x : contained s = true -> steps (boot s st) x ->
  step x <> Dangling /\ (step x = Finished x -> m_top x = None).
Proof.
  intros C H. pose proof (inv_step S x (inv_steps S _ _ (boot_inv s st C) H)) as P. destruct (step x) as [y|y|y|]; try (split; [discriminate|]; intro E); try discriminate; [tauto|]. destruct P.
Qed.

(** C48.  After a try statement the chain of handlers is as before it: whenever the machine gets to
    what follows the statement, the current handler is the one there was at the statement. *)
Theorem C48_balanced {S} (s : stmt S) st x y b h k : contained s = true -> steps (boot s st) x -> steps x y ->
  m_rest x = IStmt (Try b h) :: k -> m_rest y = k -> m_top y = m_top x.
Proof.
  intros C H1 H2 E1 E2. pose proof (inv_steps S _ _ (boot_inv s st C) H1) as IX. pose proof (inv_steps S _ _ IX H2) as IY.
  destruct IX as [LX _], IY as [LY _]. rewrite E1 in LX. rewrite E2 in LY. cbn [linked] in LX. revert LX LY. generalize (m_store x) (m_store y) (m_top x) (m_top y). clear.
  induction k as [|i k IH]; intros sx sy tx ty LX LY; cbn [linked] in *; [congruence|]. destruct i; cbn [linked] in *; eauto. destruct LX as [-> _], LY as [-> _]. reflexivity.
Qed.

(** The end of the nearest enclosing try block, in what remains. *)
Fixpoint nearest {S} (k : list (item S)) : list (item S) :=
  match k with
  | [] => []
  | IPop id :: k' => k
  | _ :: k' => nearest k'
  end.
Lemma nearest_unwind {S} (k : list (item S)) : nearest k = unwind S k.
Proof. induction k as [|i k IH]; [reflexivity|]. destruct i; cbn; auto. Qed.

(** C48.  A throw goes to the handler test of the nearest enclosing try block, with the code thrown or
    a higher one already there, and takes that block from the chain; if there is no such block the
    program stops. *)
Theorem C48_nearest {S} (s : stmt S) st x e k : contained s = true -> steps (boot s st) x -> m_rest x = IStmt (Throw e) :: k ->
  match nearest k with
  | [] => exists y, step x = NoHandler y /\ m_code y = Z.max e (m_code x)
  | after => exists y, step x = Next y /\ m_rest y = after /\ m_code y = Z.max e (m_code x) /\ m_state y = m_state x /\ e <= m_code y
  end.
Proof.
  intros C H E. destruct (inv_steps S _ _ (boot_inv s st C) H) as [L _]. rewrite E in L. cbn [linked] in L. rewrite nearest_unwind.
  pose proof (throw_goes S k (m_top x) (m_store x) (m_code x) (m_text x) (m_state x) e (m_text x) L) as T. rewrite <- E in T.
  assert (EX : mkM (m_rest x) (m_top x) (m_store x) (m_code x) (m_text x) (m_state x) = x) by now destruct x. rewrite EX in T.
  assert (ES : step x = do_throw k x e (m_text x)) by (unfold step; now rewrite E). rewrite up_max in T. rewrite ES, T. destruct (unwind S k).
  - eexists. split; reflexivity.
  - eexists. split; [reflexivity|]. cbn [m_rest m_code m_state]. repeat (split; [reflexivity|]). lia.
Qed.
(** C48.  The test then runs the handler, as the code is not 0, if a positive code was thrown. *)
Theorem C48_caught {S} (s : stmt S) st x e k id h k' : contained s = true -> steps (boot s st) x -> m_rest x = IStmt (Throw e) :: k ->
  nearest k = IPop id :: ICatch h :: k' -> 0 < e ->
  exists y, steps x y /\ m_rest y = IStmt h :: k' /\ m_code y = Z.max e (m_code x) /\ m_state y = m_state x.
Proof.
  intros C H E N He. pose proof (C48_nearest s st x e k C H E) as P. rewrite N in P. destruct P as (y & S1 & R1 & C1 & ST1 & G1).
  assert (Hy : steps (boot s st) y) by (eapply steps_trans; [exact H|now apply steps_one]).
  pose proof (inv_step S y (inv_steps S _ _ (boot_inv s st C) Hy)) as IV. destruct (inv_steps S _ _ (boot_inv s st C) Hy) as [L _]. rewrite R1 in L. cbn [linked] in L. destruct L as (T & prev & NE & _).
  pose proof (steps_one S x y S1) as X1.
  assert (S2 : step y = Next (mkM (ICatch h :: k') prev (m_store y) (m_code y) (m_text y) (m_state y))) by (unfold step; now rewrite R1, NE).
  assert (S3 : step (mkM (ICatch h :: k') prev (m_store y) (m_code y) (m_text y) (m_state y)) = Next (mkM (IStmt h :: k') prev (m_store y) (m_code y) (m_text y) (m_state y))).
  { unfold step. cbn [m_rest m_code]. now replace (m_code y =? 0) with false by lia. }
  eexists. split; [eapply steps_trans; [exact X1|]; eapply steps_next; [exact S2|]; apply steps_one; exact S3|]. cbn [m_rest m_code m_state]. auto.
Qed.

Example C48_example : contained prog_ex = true /\ exists x k, steps (boot prog_ex []) x /\ m_rest x = IStmt (Throw 20) :: k /\ nearest k <> [].
Proof. split; [reflexivity|]. eexists _, _. split; [do 5 (eapply steps_next; [reflexivity|]); apply steps_refl|]. split; [reflexivity|]. discriminate. Qed.

(** C48 fails if the body of a try block returns: the handler structure of the block that is gone stays
    in the chain and a later throw jumps to it. *)
Theorem C48_return_in_try_refuted : exists (s : stmt (list Z)) x, steps (boot s []) x /\ step x = Dangling.
Proof. exists (Seq (Call (Try Return (say_ 1))) (Throw 20)). exists (iter 5 (boot (Seq (Call (Try Return (say_ 1))) (Throw 20)) [])). split; [apply iter_steps|]. vm_compute. reflexivity. Qed.

(** C48 fails for the code delivered: an exception that was caught, and not cleared, replaces a later
    one with a lower code. *)
Theorem C48_other_code_refuted : exists (b : stmt (list Z)) cur,
  ideal 0 b [] (Raises 20) cur [1] /\ contained b = true /\ stops_with b [] 28 [1].
Proof.
  exists (Seq (Try (Throw 28) (say_ 1)) (Throw 20)), 0. split; [eapply i_seq; [eapply i_try_caught; [apply i_throw|apply i_do]|apply (i_throw 0 20)]|]. split; [reflexivity|].
  apply (stops_by 50); vm_compute; reflexivity.
Qed.

(** C48 fails for rethrow: a handler that uses a try block before it rethrows loses the exception. *)
Theorem C48_lost_rethrow_refuted : exists b : stmt (list Z), 
  ideal 0 b [] (Raises 20) 0 [1] /\ contained b = true /\ finishes (Try b (say_ 2)) [] [1].
Proof.
  exists (Try (Throw 20) (Seq (Try (say_ 1) (say_ 3)) Rethrow)). split; [|split; [reflexivity|]].
  - eapply i_try_caught; [apply i_throw|]. eapply i_seq; [eapply i_try_fine; [apply (i_do _ (fun l => l ++ [1]) [])|auto]|]. apply i_rethrow. discriminate.
  - apply (finishes_by 50); vm_compute; reflexivity.
Qed.

(** C48.  The computations with which the other files model throws and try blocks are the macros: if a
    computation is built like a statement ([follows], closed under the model's throw, throw_msg, rethrow,
    clearExceptionCode, sequence and try0), the machine that runs the statement ends like it. *)
Theorem C48_model_is_macros {A} (m : M world A) (s : stmt world) w : follows m s -> contained s = true -> w_code w = 0 -> w_msg w = [] ->
  match m w with
  | Ret _ w' => exists x, steps (boot s w) x /\ step x = Finished x /\ m_code x = w_code w' /\ m_text x = w_msg w' /\ m_state x = set_exn w' 0 []
  | Exc w' => exists x y, steps (boot s w) x /\ step x = NoHandler y /\ m_code y = w_code w' /\ m_text y = w_msg w' /\ m_state y = set_exn w' 0 []
  | Ub _ => True
  end.
Proof.
  intros F C E1 E2. specialize (F w). assert (EP : parts w = (0, [], w)) by (unfold parts, plain; rewrite E1, E2; destruct w; cbn in *; subst; reflexivity). rewrite EP in F.
  destruct (m w) as [a w'|w'|u]; [| |exact I].
  - destruct (exec_machine world _ _ _ _ F [] None [] eq_refl C ltac:(intros; exact I) I) as (ext & Q). eexists. split; [exact Q|]. repeat split.
  - destruct (exec_machine world _ _ _ _ F [] None [] eq_refl C ltac:(intros; exact I) I) as (ext & Q). cbn [unwind] in Q. destruct Q as (x & y & Q1 & Q2 & Q3). exists x, y. injection Q3 as -> -> ->. auto.
Qed.
(** The pattern of the dump readers: run something that throws, clean up, throw again with a message. *)
Example C48_model_example : follows (try0 (throw busErrorException) (clearExceptionCode ;;; throw_msg fileFormatException (s2b "x"%string)))
  (Try (Throw busErrorException) (Seq Clear (ThrowMsg fileFormatException (s2b "x"%string)))) .
Proof. apply follows_try; [apply follows_throw|]. apply follows_seq; [apply follows_clear|apply follows_throw_msg]. Qed.

(** C48.  A code tells what was thrown: no two kinds of failure share one, and none is the code for "no
    exception".  Of mri's codes, those that are thrown here are included. *)
Theorem C48_codes :
  Forall (fun p => fst p = mriMaxException + snd p) own_codes /\
  NoDup (noException :: invalidArgumentException :: bufferOverrunException :: map fst own_codes) /\
  Forall (fun e => 0 < e <= mriMaxException) [invalidArgumentException; bufferOverrunException].
Proof.
  split; [repeat constructor|]. split; [|repeat constructor; discriminate].
  repeat (constructor; [vm_compute; intro H; repeat destruct H as [H|H]; try discriminate; contradiction|]). constructor.
Qed.

Print Assumptions C48_codes.
Print Assumptions C47_proper.
Print Assumptions C47_handler_iff_raised.
Print Assumptions C47_stale_code_refuted.
Print Assumptions C47_memory_read_refuted.
Print Assumptions C48_never_dangling.
Print Assumptions C48_balanced.
Print Assumptions C48_nearest.
Print Assumptions C48_caught.
Print Assumptions C48_return_in_try_refuted.
Print Assumptions C48_other_code_refuted.
Print Assumptions C48_lost_rethrow_refuted.
Print Assumptions C48_model_is_macros.
