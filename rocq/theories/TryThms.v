(** The machine of TryCatch.v runs programs as structured statements with one global code, and properly
    used macros behave as TrySpec.v says. *)
From Coq Require Import ZArith List Bool Lia Arith.
From Verif Require Import Base World TryCatch TrySpec.
Import ListNotations.
Open Scope Z_scope.

Section Thms.
Variable S : Type.
Implicit Types (s t b h : stmt S) (k : list (item S)) (x y z : machine S).

(** ** Structured execution with the global code *)

Inductive how := EN | ET | ER.
(** Code, message, state. *)
Definition glob : Type := Z * list Z * S.
Definition up (c e : Z) : Z := if c <? e then e else c.

Inductive exec : stmt S -> glob -> how -> glob -> Prop :=
| e_do f c m st : exec (Do f) (c, m, st) EN (c, m, f st)
| e_throw e c m st : exec (Throw e) (c, m, st) ET (up c e, m, st)
| e_throw_msg e txt c m st : exec (ThrowMsg e txt) (c, m, st) ET (up c e, firstn 1023 txt, st)
| e_rethrow c m st : exec Rethrow (c, m, st) ET (up c c, m, st)
| e_clear c m st : exec Clear (c, m, st) EN (0, m, st)
| e_seq s t g g1 o g2 : exec s g EN g1 -> exec t g1 o g2 -> exec (Seq s t) g o g2
| e_seq_ends s t g o g1 : exec s g o g1 -> o <> EN -> exec (Seq s t) g o g1
| e_if (c : S -> bool) s t g o g1 : exec (if c (snd g) then s else t) g o g1 -> exec (If c s t) g o g1
| e_while_end (c : S -> bool) s g : c (snd g) = false -> exec (While c s) g EN g
| e_while (c : S -> bool) s g g1 o g2 : c (snd g) = true -> exec s g EN g1 -> exec (While c s) g1 o g2 -> exec (While c s) g o g2
| e_while_ends (c : S -> bool) s g o g1 : c (snd g) = true -> exec s g o g1 -> o <> EN -> exec (While c s) g o g1
| e_call s g o g1 : exec s g o g1 -> exec (Call s) g (match o with ER => EN | _ => o end) g1
| e_return g : exec Return g ER g
| e_try_skip b h c m st o m1 st1 : exec b (0, [], st) o (0, m1, st1) -> o <> ER -> exec (Try b h) (c, m, st) EN (0, m1, st1)
| e_try_catch b h c m st o c1 m1 st1 o2 g2 : exec b (0, [], st) o (c1, m1, st1) -> o <> ER -> c1 <> 0 ->
    exec h (c1, m1, st1) o2 g2 -> exec (Try b h) (c, m, st) o2 g2.

Lemma exec_returns s g o g' : exec s g o g' -> o = ER -> returns s = true.
Proof.
  induction 1; intro E; cbn [returns]; try discriminate; try (now rewrite ?IHexec, ?IHexec1, ?IHexec2, ?orb_true_r by assumption); auto.
  - destruct (c (snd g)); rewrite IHexec by exact E; [reflexivity|apply orb_true_r].
  - destruct o; discriminate.
Qed.

(** ** Steps *)

Lemma steps_trans x y z : steps x y -> steps y z -> steps x z.
Proof. induction 1; intro H1; [exact H1|]. econstructor; [eassumption|auto]. Qed.
Lemma steps_one x y : step x = Next y -> steps x y.
Proof. intro H. econstructor; [exact H|constructor]. Qed.

(** ** The chain of handlers *)

(** The handler structures in the chain are those of the active try blocks, innermost first. *)
Fixpoint linked (store : list (handler S)) (k : list (item S)) (top : option nat) : Prop :=
  match k with
  | [] => top = None
  | IPop id :: k' => top = Some id /\ exists prev, nth_error store id = Some (mkHandler prev (IPop id :: k')) /\ linked store k' prev
  | _ :: k' => linked store k' top
  end.
(** No try block ends before the function does. *)
Fixpoint popfree (k : list (item S)) : Prop :=
  match k with
  | [] | IRet :: _ => True
  | IPop _ :: _ => False
  | _ :: k' => popfree k'
  end.
(** Everything that remains is contained. *)
Fixpoint kept (k : list (item S)) : Prop :=
  match k with
  | [] => True
  | IStmt s :: k' | ICatch s :: k' => contained s = true /\ (returns s = true -> popfree k') /\ kept k'
  | _ :: k' => kept k'
  end.

Lemma linked_mono store ext k : forall top, linked store k top -> linked (store ++ ext) k top.
Proof.
  induction k as [|i k IH]; intros top H; [exact H|]. destruct i; cbn [linked] in *; auto. destruct H as (E & prev & N & L). split; [exact E|].
  exists prev. split; [|auto]. rewrite nth_error_app1; [exact N|]. apply nth_error_Some. congruence.
Qed.
Lemma leave_linked store k top : popfree k -> linked store k top -> linked store (leave k) top.
Proof. induction k as [|i k IH]; intros P H; [exact H|]. destruct i; cbn [leave popfree linked] in *; auto. contradiction. Qed.
Lemma leave_kept k : kept k -> kept (leave k).
Proof. induction k as [|i k IH]; intros H; [exact H|]. destruct i; cbn [leave kept] in *; intuition. Qed.

(** Where the nearest enclosing try block ends. *)
Fixpoint unwind (k : list (item S)) : list (item S) :=
  match k with
  | [] => []
  | IPop id :: k' => k
  | _ :: k' => unwind k'
  end.
Lemma unwind_kept k : kept k -> kept (unwind k).
Proof. induction k as [|i k IH]; intros H; [exact H|]. destruct i; cbn [unwind kept] in *; intuition. Qed.
Lemma unwind_linked store k : forall top, linked store k top -> linked store (unwind k) top.
Proof. induction k as [|i k IH]; intros top H; [exact H|]. destruct i; cbn [unwind linked] in *; auto. Qed.

(** A throw goes to the end of the nearest enclosing try block. *)
Lemma throw_goes k top store c m st e text : linked store k top ->
  do_throw k (mkM (IStmt (Throw e) :: k) top store c m st) e text =
  match unwind k with
  | [] => NoHandler (mkM k None store (up c e) text st)
  | k' => Next (mkM k' top store (up c e) text st)
  end.
Proof.
  intro H. unfold do_throw. cbn [m_top m_store m_code m_state].
  assert (G : match unwind k with [] => top = None | k' => exists id prev, top = Some id /\ nth_error store id = Some (mkHandler prev k') /\ active id k = true end).
  { revert H. induction k as [|i k IH]; intro H; cbn [unwind linked] in *; [exact H|]. destruct i; cbn [linked] in H.
    - specialize (IH H). destruct (unwind k); [exact IH|]. destruct IH as (id & prev & E & N & A). exists id, prev. auto.
    - destruct H as (E & prev & N & _). exists id, prev. split; [exact E|]. split; [exact N|]. cbn [active existsb]. now rewrite Nat.eqb_refl.
    - specialize (IH H). destruct (unwind k); [exact IH|]. destruct IH as (id & prev & E & N & A). exists id, prev. auto.
    - specialize (IH H). destruct (unwind k); [exact IH|]. destruct IH as (id & prev & E & N & A). exists id, prev. auto. }
  destruct (unwind k) as [|i k'].
  - rewrite G. reflexivity.
  - destruct G as (id & prev & -> & N & A). rewrite N, A. reflexivity.
Qed.

(** ** Invariant *)

Definition inv x : Prop := linked (m_store x) (m_rest x) (m_top x) /\ kept (m_rest x).

Lemma inv_step x : inv x -> match step x with Next y => inv y | Finished y => y = x /\ m_top x = None | NoHandler y => unwind (m_rest x) = [] | Dangling => False end.
Proof.
  destruct x as [k top store c m st]. unfold inv. cbn [m_rest m_top m_store]. intros [L K]. unfold step. cbn [m_rest m_top m_store m_code m_text m_state].
  destruct k as [|i k]; [auto|].
  assert (TH : forall e text, linked store k top -> kept k ->
    match do_throw k (mkM (i :: k) top store c m st) e text with Next y => linked (m_store y) (m_rest y) (m_top y) /\ kept (m_rest y) | Finished _ => False | NoHandler _ => unwind k = [] | Dangling => False end).
  { intros e text Lk Kk. replace (do_throw k (mkM (i :: k) top store c m st) e text) with (do_throw k (mkM (IStmt (Throw e) :: k) top store c m st) e text) by reflexivity.
    rewrite throw_goes by exact Lk. pose proof (unwind_kept k Kk) as K'. pose proof (unwind_linked store k top Lk) as L'. destruct (unwind k); [reflexivity|]. auto. }
  destruct i as [s|id|h|].
  - cbn [linked kept] in L, K. destruct K as (K1 & K2 & K3). cbn [unwind].
    assert (TH2 : forall e text, match do_throw k (mkM (IStmt s :: k) top store c m st) e text with Next y => linked (m_store y) (m_rest y) (m_top y) /\ kept (m_rest y)
       | Finished y => y = mkM (IStmt s :: k) top store c m st /\ top = None | NoHandler _ => unwind k = [] | Dangling => False end).
    { intros e text. specialize (TH e text L K3). destruct (do_throw _ _ _ _); try exact TH. destruct TH. }
    destruct s; cbn [contained returns] in *; try (apply TH2); cbn [m_rest m_top m_store linked kept].
    + auto.
    + auto.
    + apply andb_prop in K1 as [C1 C2]. split; [exact L|]. split; [exact C1|]. split; [intro R; cbn [popfree]; apply K2; now rewrite R|]. split; [exact C2|]. split; [intro R; apply K2; rewrite R; apply orb_true_r|exact K3].
    + apply andb_prop in K1 as [C1 C2]. split; [exact L|]. destruct (c0 st); (split; [assumption|]); (split; [|exact K3]); intro R; apply K2; rewrite R; [reflexivity|apply orb_true_r].
    + destruct (c0 st); cbn [m_rest m_top m_store linked kept]; [|auto]. split; [exact L|]. split; [exact K1|]. split; [intro R; cbn [popfree]; auto|]. split; [exact K1|]. auto.
    + split; [exact L|]. split; [exact K1|]. split; [intros _; exact I|exact K3].
    + split; [apply leave_linked; auto|apply leave_kept; exact K3].
    + apply andb_prop in K1 as [K1 C3]. apply andb_prop in K1 as [C1 C2]. split.
      * split; [reflexivity|]. exists top. split; [rewrite nth_error_app2 by lia; now rewrite Nat.sub_diag|now apply linked_mono].
      * split; [exact C2|]. split; [intro R; rewrite R in C1; discriminate|]. split; [exact C3|]. split; [|exact K3]. intro R. apply K2. rewrite R. apply orb_true_r.
  - cbn [linked kept] in L, K. destruct L as (-> & prev & N & L). rewrite N. cbn [h_prev m_rest m_top m_store]. auto.
  - cbn [linked kept] in L, K. destruct K as (K1 & K2 & K3). destruct (c =? 0); cbn [m_rest m_top m_store linked kept]; auto.
  - cbn [linked kept] in L, K. cbn [m_rest m_top m_store]. auto.
Qed.
Lemma inv_steps x y : inv x -> steps x y -> inv y.
Proof. intros H. induction 1 as [|x y z E _ IH]; [exact H|]. apply IH. pose proof (inv_step x H) as P. now rewrite E in P. Qed.

(** ** Structured execution describes the machine *)

Definition at_ (k : list (item S)) (top : option nat) (store : list (handler S)) (g : glob) : machine S :=
  mkM k top store (fst (fst g)) (snd (fst g)) (snd g).

Definition reaches s g o g' k top store : Prop := exists ext,
  match o with
  | EN => steps (at_ (IStmt s :: k) top store g) (at_ k top (store ++ ext) g')
  | ER => steps (at_ (IStmt s :: k) top store g) (at_ (leave k) top (store ++ ext) g')
  | ET => match unwind k with
          | [] => exists x y, steps (at_ (IStmt s :: k) top store g) x /\ step x = NoHandler y /\ (m_code y, m_text y, m_state y) = g'
          | k' => steps (at_ (IStmt s :: k) top store g) (at_ k' top (store ++ ext) g')
          end
  end.

Lemma reaches_step s g o g' k top store y : step (at_ (IStmt s :: k) top store g) = Next y ->
  (exists ext, match o with
  | EN => steps y (at_ k top (store ++ ext) g')
  | ER => steps y (at_ (leave k) top (store ++ ext) g')
  | ET => match unwind k with
          | [] => exists x z, steps y x /\ step x = NoHandler z /\ (m_code z, m_text z, m_state z) = g'
          | k' => steps y (at_ k' top (store ++ ext) g')
          end end) -> reaches s g o g' k top store.
Proof.
  intros E (ext & H). exists ext. destruct o.
  - econstructor; eassumption.
  - destruct (unwind k); [|econstructor; eassumption]. destruct H as (x & z & A & B & C). exists x, z. split; [econstructor; eassumption|auto].
  - econstructor; eassumption.
Qed.

Lemma throw_reaches s g k top store c m st e text : linked store k top -> g = (c, m, st) ->
  step (at_ (IStmt s :: k) top store g) = do_throw k (at_ (IStmt s :: k) top store g) e text -> reaches s g ET (up c e, text, st) k top store.
Proof.
  intros L -> E. unfold at_ in *. cbn [fst snd] in *. unfold reaches, at_. cbn [fst snd]. exists []. rewrite app_nil_r.
  pose proof (throw_goes k top store c m st e text L) as T. change (do_throw k (mkM (IStmt (Throw e) :: k) top store c m st) e text) with (do_throw k (mkM (IStmt s :: k) top store c m st) e text) in T.
  rewrite <- E in T. destruct (unwind k).
  - eexists _, _. split; [apply steps_refl|]. split; [exact T|reflexivity].
  - apply steps_one. exact T.
Qed.

Lemma exec_machine s g o g' : exec s g o g' -> forall k top store, linked store k top -> contained s = true -> (returns s = true -> popfree k) -> kept k ->
  reaches s g o g' k top store.
Proof.
  induction 1; intros k top store L C R K.
  - exists []. rewrite app_nil_r. apply steps_one. reflexivity.
  - eapply throw_reaches; [exact L|reflexivity|reflexivity].
  - eapply throw_reaches; [exact L|reflexivity|reflexivity].
  - eapply throw_reaches; [exact L|reflexivity|reflexivity].
  - exists []. rewrite app_nil_r. apply steps_one. reflexivity.
  - (* Seq *)
    cbn [contained] in C. apply andb_prop in C as [C1 C2]. cbn [returns] in R.
    eapply reaches_step; [reflexivity|].
    destruct (IHexec1 (IStmt t :: k) top store L C1) as (x1 & S1); [intro Rs; cbn [popfree]; apply R; now rewrite Rs|cbn [kept]; split; [exact C2|split; [intro Rt; apply R; rewrite Rt; apply orb_true_r|exact K]]|].
    destruct (IHexec2 k top (store ++ x1) (linked_mono _ _ _ _ L) C2) as (x2 & S2); [intro Rt; apply R; rewrite Rt; apply orb_true_r|exact K|].
    exists (x1 ++ x2). rewrite app_assoc. destruct o.
    + eapply steps_trans; [exact S1|exact S2].
    + destruct (unwind k); [|eapply steps_trans; [exact S1|exact S2]]. destruct S2 as (x & y & A & B & D). exists x, y. split; [eapply steps_trans; [exact S1|exact A]|auto].
    + eapply steps_trans; [exact S1|exact S2].
  - (* Seq ends *)
    cbn [contained] in C. apply andb_prop in C as [C1 C2]. cbn [returns] in R.
    eapply reaches_step; [reflexivity|].
    destruct (IHexec (IStmt t :: k) top store L C1) as (x1 & S1); [intro Rs; cbn [popfree]; apply R; now rewrite Rs|cbn [kept]; split; [exact C2|split; [intro Rt; apply R; rewrite Rt; apply orb_true_r|exact K]]|].
    exists x1. destruct o; [congruence|exact S1|exact S1].
  - (* If *)
    cbn [contained] in C. apply andb_prop in C as [C1 C2]. cbn [returns] in R.
    eapply reaches_step; [reflexivity|]. cbn [at_ m_state]. apply IHexec; [exact L|destruct (c (snd g)); assumption| |exact K].
    intro Rs. apply R. destruct (c (snd g)); rewrite Rs; [reflexivity|apply orb_true_r].
  - (* While ends *)
    exists []. rewrite app_nil_r. apply steps_one. unfold step, at_. cbn [m_rest m_state m_top m_store m_code m_text]. now rewrite H.
  - (* While *)
    cbn [contained] in C. cbn [returns] in R. assert (E : step (at_ (IStmt (While c s) :: k) top store g) = Next (at_ (IStmt s :: IStmt (While c s) :: k) top store g)).
    { unfold step, at_. cbn [m_rest m_state m_top m_store m_code m_text]. now rewrite H. }
    eapply reaches_step; [exact E|].
    destruct (IHexec1 (IStmt (While c s) :: k) top store L C) as (x1 & S1); [exact R|cbn [kept contained returns]; auto|].
    destruct (IHexec2 k top (store ++ x1) (linked_mono _ _ _ _ L) C) as (x2 & S2); [exact R|exact K|].
    exists (x1 ++ x2). rewrite app_assoc. destruct o.
    + eapply steps_trans; [exact S1|exact S2].
    + destruct (unwind k); [|eapply steps_trans; [exact S1|exact S2]]. destruct S2 as (x & y & A & B & D). exists x, y. split; [eapply steps_trans; [exact S1|exact A]|auto].
    + eapply steps_trans; [exact S1|exact S2].
  - (* While, body ends otherwise *)
    cbn [contained] in C. cbn [returns] in R. assert (E : step (at_ (IStmt (While c s) :: k) top store g) = Next (at_ (IStmt s :: IStmt (While c s) :: k) top store g)).
    { unfold step, at_. cbn [m_rest m_state m_top m_store m_code m_text]. now rewrite H. }
    eapply reaches_step; [exact E|].
    destruct (IHexec (IStmt (While c s) :: k) top store L C) as (x1 & S1); [exact R|cbn [kept contained returns]; auto|].
    exists x1. destruct o; [congruence|exact S1|exact S1].
  - (* Call *)
    cbn [contained] in C. eapply reaches_step; [reflexivity|].
    destruct (IHexec (IRet :: k) top store L C) as (x1 & S1); [intros _; exact I|exact K|]. exists x1. destruct o.
    + eapply steps_trans; [exact S1|]. apply steps_one. reflexivity.
    + exact S1.
    + exact S1.
  - (* Return *)
    exists []. rewrite app_nil_r. apply steps_one. reflexivity.
  - (* Try, not caught *)
    cbn [contained] in C. apply andb_prop in C as [C C3]. apply andb_prop in C as [C1 C2].
    set (id := length store). set (k1 := IPop id :: ICatch h :: k). set (store1 := store ++ [mkHandler top k1]).
    assert (N : forall ext, nth_error (store1 ++ ext) id = Some (mkHandler top k1)).
    { intro ext. unfold store1. rewrite <- app_assoc, nth_error_app2 by (unfold id; lia). unfold id. now rewrite Nat.sub_diag. }
    assert (L1 : linked store1 k1 (Some id)).
    { cbn [linked k1]. split; [reflexivity|]. exists top. split; [specialize (N []); now rewrite app_nil_r in N|now apply linked_mono]. }
    assert (E : step (at_ (IStmt (Try b h) :: k) top store (c, m, st)) = Next (at_ (IStmt b :: k1) (Some id) store1 (0, [], st))) by reflexivity.
    eapply reaches_step; [exact E|].
    assert (K1 : kept k1) by (cbn [kept k1]; split; [exact C3|split; [intro Rh; apply R; cbn [returns]; rewrite Rh; apply orb_true_r|exact K]]).
    destruct (IHexec k1 (Some id) store1 L1 C2) as (x1 & S1); [intro Rb; rewrite Rb in C1; discriminate|exact K1|].
    assert (S1' : steps (at_ (IStmt b :: k1) (Some id) store1 (0, [], st)) (at_ k1 (Some id) (store1 ++ x1) (0, m1, st1))) by (destruct o; [exact S1|exact S1|congruence]).
    exists (mkHandler top k1 :: x1). replace (store ++ mkHandler top k1 :: x1) with (store1 ++ x1) by (unfold store1; now rewrite <- app_assoc).
    eapply steps_trans; [exact S1'|]. apply steps_next with (at_ (ICatch h :: k) top (store1 ++ x1) (0, m1, st1)); [|apply steps_one; reflexivity].
    unfold step, at_, k1. cbn [m_rest m_store m_state m_top m_code m_text]. fold k1. now rewrite N.
  - (* Try, caught *)
    cbn [contained] in C. apply andb_prop in C as [C C3]. apply andb_prop in C as [C1 C2].
    set (id := length store). set (k1 := IPop id :: ICatch h :: k). set (store1 := store ++ [mkHandler top k1]).
    assert (N : forall ext, nth_error (store1 ++ ext) id = Some (mkHandler top k1)).
    { intro ext. unfold store1. rewrite <- app_assoc, nth_error_app2 by (unfold id; lia). unfold id. now rewrite Nat.sub_diag. }
    assert (L1 : linked store1 k1 (Some id)).
    { cbn [linked k1]. split; [reflexivity|]. exists top. split; [specialize (N []); now rewrite app_nil_r in N|now apply linked_mono]. }
    assert (E : step (at_ (IStmt (Try b h) :: k) top store (c, m, st)) = Next (at_ (IStmt b :: k1) (Some id) store1 (0, [], st))) by reflexivity.
    eapply reaches_step; [exact E|].
    assert (Rh : returns h = true -> popfree k) by (intro Rh; apply R; cbn [returns]; rewrite Rh; apply orb_true_r).
    assert (K1 : kept k1) by (cbn [kept k1]; auto).
    destruct (IHexec1 k1 (Some id) store1 L1 C2) as (x1 & S1); [intro Rb; rewrite Rb in C1; discriminate|exact K1|].
    assert (S1' : steps (at_ (IStmt b :: k1) (Some id) store1 (0, [], st)) (at_ (IStmt h :: k) top (store1 ++ x1) (c1, m1, st1))).
    { eapply steps_trans; [destruct o; [exact S1|exact S1|congruence]|]. apply steps_next with (at_ (ICatch h :: k) top (store1 ++ x1) (c1, m1, st1)).
      - unfold step, at_, k1. cbn [m_rest m_store m_state m_top m_code m_text]. fold k1. now rewrite N.
      - apply steps_one. unfold step, at_. cbn [m_rest m_store m_state m_top m_code m_text fst snd]. now replace (c1 =? 0) with false by lia. }
    assert (L2 : linked (store1 ++ x1) k top) by (apply linked_mono; now apply linked_mono).
    destruct (IHexec2 k top (store1 ++ x1) L2 C3 Rh K) as (x2 & S2).
    exists (mkHandler top k1 :: x1 ++ x2). replace (store ++ mkHandler top k1 :: x1 ++ x2) with ((store1 ++ x1) ++ x2) by (unfold store1; rewrite <- !app_assoc; reflexivity).
    destruct o2.
    + eapply steps_trans; [exact S1'|exact S2].
    + destruct (unwind k); [|eapply steps_trans; [exact S1'|exact S2]]. destruct S2 as (x & y & A & B & D). exists x, y. split; [eapply steps_trans; [exact S1'|exact A]|auto].
    + eapply steps_trans; [exact S1'|exact S2].
Qed.

(** ** Every run of the machine that ends is a structured execution *)

Inductive stepsn : nat -> machine S -> machine S -> Prop :=
| sn_0 x : stepsn 0 x x
| sn_S n x y z : step x = Next y -> stepsn n y z -> stepsn (Datatypes.S n) x z.
Lemma stepsn_of x z : steps x z -> exists n, stepsn n x z.
Proof. induction 1 as [x|x y z E _ (n & IH)]; [exists 0%nat; constructor|]. exists (Datatypes.S n). econstructor; eassumption. Qed.
Definition terminal x : Prop := forall y, step x <> Next y.
Lemma stepsn_rest n x z y : stepsn n x z -> terminal z -> steps x y -> exists m, (m <= n)%nat /\ stepsn m y z.
Proof.
  intros H T P. revert n H. induction P as [x|x y0 y E P IH]; intros n H; [exists n; auto|]. inversion H; subst.
  - destruct (T _ E).
  - rewrite E in H0. injection H0 as <-. destruct (IH _ H1) as (m & Q1 & Q2). exists m. split; [lia|exact Q2].
Qed.

Lemma machine_exec n : forall s g k top store z, stepsn n (at_ (IStmt s :: k) top store g) z -> terminal z ->
  linked store k top -> contained s = true -> (returns s = true -> popfree k) -> kept k -> exists o g', exec s g o g'.
Proof.
  induction n as [n IH] using lt_wf_ind. intros s g k top store z H T L C R K.
  destruct g as [[c m] st]. destruct s as [f|e|e txt| | |s t|cc s t|cc s|s| |b h].
  - eexists _, _. constructor.
  - eexists _, _. constructor.
  - eexists _, _. constructor.
  - eexists _, _. constructor.
  - eexists _, _. constructor.
  - (* Seq *)
    cbn [contained] in C. apply andb_prop in C as [C1 C2]. cbn [returns] in R.
    inversion H as [x|n0 x y z0 E H0]; subst; [edestruct (T _ eq_refl)|]. injection E as <-.
    assert (K1 : kept (IStmt t :: k)) by (cbn [kept]; split; [exact C2|split; [intro Rt; apply R; rewrite Rt; apply orb_true_r|exact K]]).
    assert (R1 : returns s = true -> popfree (IStmt t :: k)) by (intro Rs; cbn [popfree]; apply R; now rewrite Rs).
    destruct (IH n0 ltac:(lia) s (c, m, st) (IStmt t :: k) top store z H0 T L C1 R1 K1) as (o & g1 & X).
    destruct o; [|exists ET, g1; apply e_seq_ends; [exact X|discriminate]|exists ER, g1; apply e_seq_ends; [exact X|discriminate]].
    destruct (exec_machine _ _ _ _ X (IStmt t :: k) top store L C1 R1 K1) as (ext & P). destruct (stepsn_rest _ _ _ _ H0 T P) as (n1 & Hn & H1).
    destruct (IH n1 ltac:(lia) t g1 k top (store ++ ext) z H1 T (linked_mono _ _ _ _ L) C2) as (o & g2 & Y); [intro Rt; apply R; rewrite Rt; apply orb_true_r|exact K|].
    exists o, g2. eapply e_seq; eassumption.
  - (* If *)
    cbn [contained] in C. apply andb_prop in C as [C1 C2]. cbn [returns] in R.
    inversion H as [x|n0 x y z0 E H0]; subst; [edestruct (T _ eq_refl)|]. injection E as <-. cbn [m_state] in H0.
    destruct (IH n0 ltac:(lia) (if cc st then s else t) (c, m, st) k top store z H0 T L) as (o & g1 & X); [destruct (cc st); assumption| |exact K|exists o, g1; apply e_if; exact X].
    intro Rs. apply R. destruct (cc st); rewrite Rs; [reflexivity|apply orb_true_r].
  - (* While *)
    cbn [contained] in C. cbn [returns] in R. destruct (cc st) eqn:EC; [|exists EN, (c, m, st); apply e_while_end; exact EC].
    assert (E1 : step (at_ (IStmt (While cc s) :: k) top store (c, m, st)) = Next (at_ (IStmt s :: IStmt (While cc s) :: k) top store (c, m, st))).
    { unfold step, at_. cbn [m_rest m_state m_top m_store m_code m_text snd]. now rewrite EC. }
    inversion H as [x|n0 x y z0 E H0]; subst; [destruct (T _ E1)|]. rewrite E1 in E. injection E as <-.
    assert (K1 : kept (IStmt (While cc s) :: k)) by (cbn [kept contained returns]; auto).
    destruct (IH n0 ltac:(lia) s (c, m, st) (IStmt (While cc s) :: k) top store z H0 T L C R K1) as (o & g1 & X).
    destruct o; [|exists ET, g1; apply e_while_ends; [exact EC|exact X|discriminate]|exists ER, g1; apply e_while_ends; [exact EC|exact X|discriminate]].
    destruct (exec_machine _ _ _ _ X (IStmt (While cc s) :: k) top store L C R K1) as (ext & P). destruct (stepsn_rest _ _ _ _ H0 T P) as (n1 & Hn & H1).
    destruct (IH n1 ltac:(lia) (While cc s) g1 k top (store ++ ext) z H1 T (linked_mono _ _ _ _ L) C R K) as (o & g2 & Y).
    exists o, g2. eapply e_while; eassumption.
  - (* Call *)
    cbn [contained] in C. inversion H as [x|n0 x y z0 E H0]; subst; [edestruct (T _ eq_refl)|]. injection E as <-.
    destruct (IH n0 ltac:(lia) s (c, m, st) (IRet :: k) top store z H0 T L C ltac:(intros _; exact I) K) as (o & g1 & X). eexists _, g1. apply e_call. exact X.
  - eexists _, _. constructor.
  - (* Try *)
    cbn [contained] in C. apply andb_prop in C as [C C3]. apply andb_prop in C as [C1 C2].
    set (id := length store). set (k1 := IPop id :: ICatch h :: k). set (store1 := store ++ [mkHandler top k1]).
    assert (N : forall ext, nth_error (store1 ++ ext) id = Some (mkHandler top k1)).
    { intro ext. unfold store1. rewrite <- app_assoc, nth_error_app2 by (unfold id; lia). unfold id. now rewrite Nat.sub_diag. }
    assert (L1 : linked store1 k1 (Some id)).
    { cbn [linked k1]. split; [reflexivity|]. exists top. split; [specialize (N []); now rewrite app_nil_r in N|now apply linked_mono]. }
    assert (E1 : step (at_ (IStmt (Try b h) :: k) top store (c, m, st)) = Next (at_ (IStmt b :: k1) (Some id) store1 (0, [], st))) by reflexivity.
    inversion H as [x|n0 x y z0 E H0]; subst; [destruct (T _ E1)|]. rewrite E1 in E. injection E as <-.
    assert (Rh : returns h = true -> popfree k) by (intro Rh; apply R; cbn [returns]; rewrite Rh; apply orb_true_r).
    assert (K1 : kept k1) by (cbn [kept k1]; auto). assert (R1 : returns b = true -> popfree k1) by (intro Rb; rewrite Rb in C1; discriminate).
    destruct (IH n0 ltac:(lia) b (0, [], st) k1 (Some id) store1 z H0 T L1 C2 R1 K1) as (o & ((c1 & m1) & st1) & X).
    assert (NR : o <> ER) by (intros ->; apply exec_returns in X; [rewrite X in C1; discriminate|reflexivity]).
    destruct (Z.eq_dec c1 0) as [->|NZ]; [exists EN, (0, m1, st1); eapply e_try_skip; eassumption|].
    destruct (exec_machine _ _ _ _ X k1 (Some id) store1 L1 C2 R1 K1) as (x1 & S1).
    assert (S1' : steps (at_ (IStmt b :: k1) (Some id) store1 (0, [], st)) (at_ (IStmt h :: k) top (store1 ++ x1) (c1, m1, st1))).
    { eapply steps_trans; [destruct o; [exact S1|exact S1|congruence]|]. apply steps_next with (at_ (ICatch h :: k) top (store1 ++ x1) (c1, m1, st1)).
      - unfold step, at_, k1. cbn [m_rest m_store m_state m_top m_code m_text]. fold k1. now rewrite N.
      - apply steps_one. unfold step, at_. cbn [m_rest m_store m_state m_top m_code m_text fst snd]. now replace (c1 =? 0) with false by lia. }
    destruct (stepsn_rest _ _ _ _ H0 T S1') as (n1 & Hn & H1).
    destruct (IH n1 ltac:(lia) h (c1, m1, st1) k top (store1 ++ x1) z H1 T ltac:(apply linked_mono; now apply linked_mono) C3 Rh K) as (o2 & g2 & Y).
    exists o2, g2. eapply e_try_catch; eassumption.
Qed.

(** ** Proper use *)

Definition rel (a : status) (code cur : Z) : Prop := match a with Clean => code = 0 /\ cur = 0 | Handling => code = cur /\ 0 < cur end.
Definition code_of (g : glob) : Z := fst (fst g).

Definition agree (r : option status) (b : status) (o : how) (o' : ending) (c cur : Z) : Prop :=
  match o with
  | EN => o' = Normal /\ rel b c cur
  | ET => o' = Raises c /\ 0 < c
  | ER => o' = Returns /\ exists a, r = Some a /\ rel a c cur
  end.

Lemma rel_up a c cur e : rel a c cur -> 0 < e -> up c e = Z.max e cur /\ 0 < up c e.
Proof. unfold rel, up. destruct a; intros [-> H] He; destruct (_ <? e) eqn:E; lia. Qed.

Lemma pi_do r a f (b : status) : proper r a (Do f : stmt S) b -> b = a. Proof. now inversion 1. Qed.
Lemma pi_throw r a e (b : status) : proper r a (Throw e : stmt S) b -> 0 < e. Proof. now inversion 1. Qed.
Lemma pi_throw_msg r a e m (b : status) : proper r a (ThrowMsg e m : stmt S) b -> 0 < e. Proof. now inversion 1. Qed.
Lemma pi_rethrow r a (b : status) : proper r a (Rethrow : stmt S) b -> a = Handling. Proof. now inversion 1. Qed.
Lemma pi_clear r a (b : status) : proper r a (Clear : stmt S) b -> b = Clean. Proof. now inversion 1. Qed.
Lemma pi_seq r a s t (b : status) : proper r a (Seq s t) b -> exists b1 : status, proper r a s b1 /\ proper r b1 t b. Proof. inversion 1; subst. eauto. Qed.
Lemma pi_if r a c s t (b : status) : proper r a (If c s t) b -> proper r a s b /\ proper r a t b. Proof. now inversion 1. Qed.
Lemma pi_while r a c s (b : status) : proper r a (While c s) b -> b = a /\ proper r a s a. Proof. now inversion 1. Qed.
Lemma pi_call r a s (b : status) : proper r a (Call s) b -> proper (Some b) a s b. Proof. now inversion 1. Qed.
Lemma pi_return r a (b : status) : proper r a (Return : stmt S) b -> r = Some a. Proof. now inversion 1. Qed.
Lemma pi_try r a s h (b : status) : proper r a (Try s h) b -> a = Clean /\ b = Clean /\ proper None Clean s Clean /\ proper (match r with Some Clean => r | _ => None end) Handling h Clean.
Proof. inversion 1; subst. auto. Qed.

Lemma exec_ideal s g o g' : exec s g o g' -> forall r a (b : status) cur, proper r a s b -> rel a (code_of g) cur ->
  exists o' cur', ideal cur s (snd g) o' cur' (snd g') /\ agree r b o o' (code_of g') cur'.
Proof.
  unfold code_of. induction 1; intros r a b0 cur P RL; cbn [fst snd] in *.
  - apply pi_do in P as ->. exists Normal, cur. split; [constructor|split; [reflexivity|exact RL]].
  - apply pi_throw in P. destruct (rel_up _ _ _ _ RL P) as [U V]. exists (Raises (Z.max e cur)), cur. split; [constructor|]. rewrite U in *. split; [reflexivity|exact V].
  - apply pi_throw_msg in P. destruct (rel_up _ _ _ _ RL P) as [U V]. exists (Raises (Z.max e cur)), cur. split; [constructor|]. rewrite U in *. split; [reflexivity|exact V].
  - apply pi_rethrow in P as ->. destruct RL as [-> Hp]. exists (Raises cur), cur. split; [apply i_rethrow; lia|]. unfold up. rewrite Z.ltb_irrefl. split; [reflexivity|exact Hp].
  - apply pi_clear in P as ->. exists Normal, 0. split; [constructor|]. split; [reflexivity|split; reflexivity].
  - apply pi_seq in P as (b1 & P1 & P2). destruct (IHexec1 _ _ _ _ P1 RL) as (o1 & cur1 & I1 & A1). cbn [agree] in A1. destruct A1 as [-> RL1].
    destruct (IHexec2 _ _ _ _ P2 RL1) as (o2 & cur2 & I2 & A2). exists o2, cur2. split; [eapply i_seq; eassumption|exact A2].
  - apply pi_seq in P as (b1 & P1 & P2). destruct (IHexec _ _ _ _ P1 RL) as (o1 & cur1 & I1 & A1). exists o1, cur1. destruct o; [congruence| |]; cbn [agree] in *.
    + split; [apply i_seq_ends; [exact I1|destruct A1 as [-> _]; discriminate]|exact A1].
    + split; [apply i_seq_ends; [exact I1|destruct A1 as [-> _]; discriminate]|exact A1].
  - apply pi_if in P as [P1 P2]. destruct (IHexec r a b0 cur) as (o1 & cur1 & I1 & A1); [destruct (c (snd g)); assumption|exact RL|]. exists o1, cur1. split; [apply i_if; exact I1|exact A1].
  - apply pi_while in P as [-> P]. exists Normal, cur. split; [apply i_while_end; exact H|]. split; [reflexivity|exact RL].
  - destruct (pi_while _ _ _ _ _ P) as [-> P1]. destruct (IHexec1 _ _ _ _ P1 RL) as (o1 & cur1 & I1 & A1). cbn [agree] in A1. destruct A1 as [-> RL1].
    destruct (IHexec2 _ _ _ _ P RL1) as (o2 & cur2 & I2 & A2). exists o2, cur2. split; [eapply i_while; eassumption|exact A2].
  - destruct (pi_while _ _ _ _ _ P) as [-> P1]. destruct (IHexec _ _ _ _ P1 RL) as (o1 & cur1 & I1 & A1). exists o1, cur1. destruct o; [congruence| |]; cbn [agree] in *.
    + split; [apply i_while_ends; [exact H|exact I1|destruct A1 as [-> _]; discriminate]|exact A1].
    + split; [apply i_while_ends; [exact H|exact I1|destruct A1 as [-> _]; discriminate]|exact A1].
  - apply pi_call in P. destruct (IHexec _ _ _ _ P RL) as (o1 & cur1 & I1 & A1). exists (after_call o1), cur1. split; [apply i_call; exact I1|].
    destruct o; cbn [agree] in *; [destruct A1 as [-> RL1]; auto|destruct A1 as [-> A1]; auto|]. destruct A1 as (-> & a' & E & RL1). injection E as <-. auto.
  - apply pi_return in P as ->. exists Returns, cur. split; [constructor|]. cbn [agree]. split; [reflexivity|]. exists a. auto.
  - apply pi_try in P as (-> & -> & P1 & P2). destruct RL as [-> ->]. destruct (IHexec _ _ _ 0 P1 ltac:(split; reflexivity)) as (o1 & cur1 & I1 & A1).
    destruct o; cbn [agree fst snd] in A1; [|exfalso; lia|congruence]. destruct A1 as [-> _]. exists Normal, 0. split; [eapply i_try_fine; [exact I1|auto]|]. split; [reflexivity|split; reflexivity].
  - apply pi_try in P as (-> & -> & P1 & P2). destruct RL as [-> ->]. destruct (IHexec1 _ _ _ 0 P1 ltac:(split; reflexivity)) as (o1 & cur1 & I1 & A1).
    destruct o; cbn [agree fst snd rel] in A1; [exfalso; tauto| |congruence]. destruct A1 as [-> Hp].
    destruct (IHexec2 _ _ _ c1 P2 ltac:(split; [reflexivity|exact Hp])) as (o3 & cur3 & I3 & A3). exists o3, 0. split; [eapply i_try_caught; eassumption|].
    destruct o2; cbn [agree fst snd] in *.
    + destruct A3 as (-> & E & _). rewrite E. split; [reflexivity|split; reflexivity].
    + exact A3.
    + destruct A3 as (-> & a' & E & RL'). split; [reflexivity|]. destruct r as [[|]|]; try discriminate. injection E as <-. exists Clean. split; [reflexivity|]. destruct RL' as [E _]. rewrite E. split; reflexivity.
Qed.

Lemma ideal_exec cur s st o cur' st' : ideal cur s st o cur' st' -> forall r a (b : status) c m, proper r a s b -> rel a c cur ->
  exists oo c' m', exec s (c, m, st) oo (c', m', st') /\ agree r b oo o c' cur'.
Proof.
  induction 1; intros r a b0 cc m P RL.
  - apply pi_do in P as ->. exists EN, cc, m. split; [constructor|]. split; [reflexivity|exact RL].
  - apply pi_throw in P. destruct (rel_up _ _ _ _ RL P) as [U V]. exists ET, (up cc e), m. split; [constructor|]. rewrite U in *. split; [reflexivity|exact V].
  - apply pi_throw_msg in P. destruct (rel_up _ _ _ _ RL P) as [U V]. exists ET, (up cc e), (firstn 1023 t). split; [constructor|]. rewrite U in *. split; [reflexivity|exact V].
  - apply pi_rethrow in P as ->. destruct RL as [-> Hp]. exists ET, (up cur cur), m. split; [constructor|]. unfold up. rewrite Z.ltb_irrefl. split; [reflexivity|exact Hp].
  - apply pi_clear in P as ->. exists EN, 0, m. split; [constructor|]. split; [reflexivity|split; reflexivity].
  - apply pi_seq in P as (b1 & P1 & P2). destruct (IHideal1 _ _ _ _ m P1 RL) as (o1 & c1 & m1 & I1 & A1).
    destruct o1; cbn [agree] in A1; [|destruct A1; discriminate|destruct A1; discriminate]. destruct A1 as [_ RL1].
    destruct (IHideal2 _ _ _ _ m1 P2 RL1) as (o2 & c2 & m2 & I2 & A2). exists o2, c2, m2. split; [eapply e_seq; eassumption|exact A2].
  - apply pi_seq in P as (b1 & P1 & P2). destruct (IHideal _ _ _ _ m P1 RL) as (o1 & c1 & m1 & I1 & A1). exists o1, c1, m1.
    destruct o1; cbn [agree] in *; [destruct A1; congruence| |]; (split; [apply e_seq_ends; [exact I1|discriminate]|exact A1]).
  - apply pi_if in P as [P1 P2]. destruct (IHideal r a b0 cc m) as (o1 & c1 & m1 & I1 & A1); [destruct (c st); assumption|exact RL|]. exists o1, c1, m1. split; [apply e_if; exact I1|exact A1].
  - apply pi_while in P as [-> P]. exists EN, cc, m. split; [apply e_while_end; exact H|]. split; [reflexivity|exact RL].
  - destruct (pi_while _ _ _ _ _ P) as [-> P1]. destruct (IHideal1 _ _ _ _ m P1 RL) as (o1 & c1 & m1 & I1 & A1).
    destruct o1; cbn [agree] in A1; [|destruct A1; discriminate|destruct A1; discriminate]. destruct A1 as [_ RL1].
    destruct (IHideal2 _ _ _ _ m1 P RL1) as (o2 & c2 & m2 & I2 & A2). exists o2, c2, m2. split; [eapply e_while; eassumption|exact A2].
  - destruct (pi_while _ _ _ _ _ P) as [-> P1]. destruct (IHideal _ _ _ _ m P1 RL) as (o1 & c1 & m1 & I1 & A1). exists o1, c1, m1.
    destruct o1; cbn [agree] in *; [destruct A1; congruence| |]; (split; [apply e_while_ends; [exact H|exact I1|discriminate]|exact A1]).
  - apply pi_call in P. destruct (IHideal _ _ _ _ m P RL) as (o1 & c1 & m1 & I1 & A1). eexists _, c1, m1. split; [apply e_call; exact I1|].
    destruct o1; cbn [agree] in *; [destruct A1 as [-> RL1]; auto|destruct A1 as [-> A1]; auto|]. destruct A1 as (-> & a' & E & RL1). injection E as <-. auto.
  - apply pi_return in P as ->. exists ER, cc, m. split; [constructor|]. cbn [agree]. split; [reflexivity|]. exists a. auto.
  - apply pi_try in P as (-> & -> & P1 & P2). destruct RL as [-> ->]. destruct (IHideal _ _ _ 0 [] P1 ltac:(split; reflexivity)) as (o1 & c1 & m1 & I1 & A1).
    destruct o1; cbn [agree] in A1; [|destruct A1 as [-> _]; destruct H0; discriminate|destruct A1 as (_ & ? & ? & _); discriminate]. destruct A1 as (-> & -> & _).
    exists EN, 0, m1. split; [eapply e_try_skip; [exact I1|discriminate]|]. split; [reflexivity|split; reflexivity].
  - apply pi_try in P as (-> & -> & P1 & P2). destruct RL as [-> ->]. destruct (IHideal1 _ _ _ 0 [] P1 ltac:(split; reflexivity)) as (o1 & c1 & m1 & I1 & A1).
    destruct o1; cbn [agree] in A1; [destruct A1; discriminate| |destruct A1; discriminate]. destruct A1 as (E & Hp). injection E as ->.
    destruct (IHideal2 _ _ _ c1 m1 P2 ltac:(split; [reflexivity|exact Hp])) as (o3 & c3 & m3 & I3 & A3). exists o3, c3, m3. split; [eapply e_try_catch; [exact I1|discriminate|lia|exact I3]|].
    destruct o3; cbn [agree] in *.
    + destruct A3 as (-> & -> & _). split; [reflexivity|split; reflexivity].
    + exact A3.
    + destruct A3 as (-> & a' & E & RL'). split; [reflexivity|]. destruct r as [[|]|]; try discriminate. injection E as <-. exists Clean. split; [reflexivity|]. destruct RL' as [-> _]. split; reflexivity.
Qed.

Lemma proper_contained r a s (b : status) : proper r a s b -> contained s = true /\ (r = None -> returns s = false).
Proof.
  induction 1; cbn [contained returns]; try (split; [reflexivity|auto; fail]).
  - destruct IHproper1 as [-> Q1], IHproper2 as [-> Q2]. split; [reflexivity|]. intro E. now rewrite Q1, Q2 by exact E.
  - destruct IHproper1 as [-> Q1], IHproper2 as [-> Q2]. split; [reflexivity|]. intro E. now rewrite Q1, Q2 by exact E.
  - exact IHproper.
  - destruct IHproper as [-> _]. auto.
  - split; [reflexivity|discriminate].
  - destruct IHproper1 as [-> Q1], IHproper2 as [-> Q2]. rewrite (Q1 eq_refl). split; [reflexivity|]. intro E. rewrite E in Q2. now rewrite Q2.
Qed.

End Thms.

(** ** The computations of the other files *)

(** The state without the exception part. *)
Definition plain (w : world) : world := set_exn w 0 [].
Definition parts (w : world) : glob world := (w_code w, w_msg w, plain w).
(** The computation [m] does what the statement [s] does. *)
Definition follows {A} (m : M world A) (s : stmt world) : Prop := forall w,
  match m w with
  | Ret _ w' => exec world s (parts w) EN (parts w')
  | Exc w' => exec world s (parts w) ET (parts w')
  | Ub _ => True
  end.

Lemma up_max c e : up c e = Z.max e c.
Proof. unfold up. destruct (c <? e) eqn:E; lia. Qed.

Lemma follows_do f : (forall w c m, f (set_exn w c m) = set_exn (f w) c m) -> (forall w, w_code (f w) = w_code w /\ w_msg (f w) = w_msg w) -> follows (modw f) (Do f).
Proof. intros H1 H2 w. unfold modw, parts. destruct (H2 w) as [-> ->]. unfold plain. rewrite <- H1. constructor. Qed.
Lemma follows_throw {A} e : follows (@throw A e) (Throw e).
Proof. intro w. unfold throw, parts. cbn [w_code w_msg set_exn]. rewrite <- up_max. apply (e_throw world e (w_code w) (w_msg w) (plain w)). Qed.
Lemma follows_throw_msg {A} e msg : follows (@throw_msg A e msg) (ThrowMsg e msg).
Proof.
  intro w. unfold throw_msg, throw, parts. rewrite <- up_max. change (w_code (set_exn w (w_code w) (firstn 1023 msg))) with (w_code w).
  pose proof (e_throw_msg world e msg (w_code w) (w_msg w) (plain w)) as X. unfold plain in *. destruct w. exact X.
Qed.
Lemma follows_rethrow {A} : follows (@rethrow A) Rethrow.
Proof. intro w. unfold rethrow, throw, parts. rewrite <- up_max. apply (e_rethrow world (w_code w) (w_msg w) (plain w)). Qed.
Lemma follows_clear : follows clearExceptionCode Clear.
Proof. intro w. unfold clearExceptionCode, parts. apply (e_clear world (w_code w) (w_msg w) (plain w)). Qed.
Lemma follows_seq {A B} (m : M world A) (n : M world B) s t : follows m s -> follows n t -> follows (bind m (fun _ => n)) (Seq s t).
Proof.
  intros H1 H2 w. specialize (H1 w). unfold bind. destruct (m w) as [a w1|w1|u]; [| |exact I].
  - specialize (H2 w1). destruct (n w1); [eapply e_seq; eassumption|eapply e_seq; eassumption|exact I].
  - apply e_seq_ends; [exact H1|discriminate].
Qed.
Lemma follows_try m n s t : follows m s -> follows n t -> follows (try0 m n) (Try s t).
Proof.
  intros H1 H2 w. specialize (H1 (set_exn w noException [])). unfold try0, try_, lift. cbn [fst snd].
  assert (E : parts w = (w_code w, w_msg w, plain w)) by reflexivity. change (parts (set_exn w noException [])) with (0, @nil Z, plain w) in H1.
  destruct (m (set_exn w noException [])) as [a w1|w1|u]; [| |exact I]; cbn [fst snd]; (destruct (w_code w1 =? 0) eqn:C; [|specialize (H2 w1)]).
  - rewrite E. unfold parts in *. replace (w_code w1) with 0 in * by lia. eapply e_try_skip; [exact H1|discriminate].
  - destruct (n w1); [rewrite E; eapply e_try_catch; [exact H1|discriminate|lia|exact H2]|rewrite E; eapply e_try_catch; [exact H1|discriminate|lia|exact H2]|exact I].
  - rewrite E. unfold parts in *. replace (w_code w1) with 0 in * by lia. eapply e_try_skip; [exact H1|discriminate].
  - destruct (n w1); [rewrite E; eapply e_try_catch; [exact H1|discriminate|lia|exact H2]|rewrite E; eapply e_try_catch; [exact H1|discriminate|lia|exact H2]|exact I].
Qed.
