(** Relations between the state before and after a computation that are closed under sequencing. *)
From Coq Require Import ZArith List Bool Lia ZifyBool ZifyNat.
From Verif Require Import Base World.
Import ListNotations.
Open Scope Z_scope.

Definition sat (P : world -> world -> Prop) {A} (m : M world A) : Prop :=
  forall w, match m w with Ret _ w' => P w w' | Exc w' => P w w' | Ub _ => True end.
Definition satL (P : world -> world -> Prop) {L A} (m : M (L * world) A) : Prop :=
  forall s, match m s with Ret _ s' => P (snd s) (snd s') | Exc s' => P (snd s) (snd s') | Ub _ => True end.

(** A reflexive and transitive relation. *)
Record preorder (P : world -> world -> Prop) : Prop := {
  pre_refl : forall w, P w w;
  pre_trans : forall a b c, P a b -> P b c -> P a c }.

Lemma sat_ret P A (a : A) : preorder P -> sat P (ret a).
Proof. intros H w. apply H. Qed.
Lemma sat_ub P A u : sat P (fail_ub u : M world A).
Proof. intro w. exact I. Qed.
Lemma sat_bind P A B (m : M world A) (f : A -> M world B) :
  preorder P -> sat P m -> (forall a, sat P (f a)) -> sat P (bind m f).
Proof.
  intros HP Hm Hf w. unfold bind. specialize (Hm w). destruct (m w) as [a w1|w1|]; auto.
  specialize (Hf a w1). destruct (f a w1); auto; eapply pre_trans; eauto.
Qed.
Lemma sat_getw P : preorder P -> sat P getw.
Proof. intros H w. apply H. Qed.
Lemma sat_code P : preorder P -> sat P getExceptionCode.
Proof. intros H w. apply H. Qed.

Lemma satL_ret P L A (a : A) : preorder P -> satL P (ret a : M (L * world) A).
Proof. intros H w. apply H. Qed.
Lemma satL_bind P L A B (m : M (L * world) A) (f : A -> M (L * world) B) :
  preorder P -> satL P m -> (forall a, satL P (f a)) -> satL P (bind m f).
Proof.
  intros HP Hm Hf w. unfold bind. specialize (Hm w). destruct (m w) as [a w1|w1|]; auto.
  specialize (Hf a w1). destruct (f a w1); auto; eapply pre_trans; eauto.
Qed.
Lemma satL_lift P L A (m : M world A) : sat P m -> satL P (lift m : M (L * world) A).
Proof. intros H s. unfold lift. specialize (H (snd s)). destruct (m (snd s)); auto. Qed.
Lemma satL_setl P L (l : L) : preorder P -> satL P (setl l).
Proof. intros H w. apply H. Qed.
Lemma satL_getl P L : preorder P -> satL P (getl : M (L * world) L).
Proof. intros H w. apply H. Qed.

Lemma sat_try P L (l0 : L) body handler :
  preorder P -> (forall w w1, P (set_exn w noException []) w1 -> P w w1) ->
  satL P body -> (forall l, sat P (handler l)) -> sat P (try_ l0 body handler).
Proof.
  intros HP He Hb Hh w. unfold try_. specialize (Hb (l0, set_exn w noException [])). cbn [snd] in Hb.
  destruct (body _) as [u [l w1]|[l w1]|]; [| |exact I]; cbn [snd] in Hb;
    (destruct (w_code w1 =? 0); [auto|]; specialize (Hh l w1); destruct (handler l w1); auto; eapply pre_trans; eauto).
Qed.

Lemma sat_try0 P body handler :
  preorder P -> (forall w w1, P (set_exn w noException []) w1 -> P w w1) ->
  sat P body -> sat P handler -> sat P (try0 body handler).
Proof. intros HP He Hb Hh. apply sat_try; auto. now apply satL_lift. Qed.

(** One structural step. *)
Ltac sat_step :=
  match goal with
  | |- sat _ (ret _) => apply sat_ret
  | |- sat _ (fail_ub _) => apply sat_ub
  | |- sat _ (bind _ _) => apply sat_bind; [|intros|intros]
  | |- sat _ getw => apply sat_getw
  | |- sat _ getExceptionCode => apply sat_code
  | |- sat _ (try0 _ _) => apply sat_try0
  | |- sat _ (try_ _ _ _) => apply sat_try; [| | |intros]
  | |- satL _ (ret _) => apply satL_ret
  | |- satL _ (bind _ _) => apply satL_bind; [|intros|intros]
  | |- satL _ (lift _) => apply satL_lift
  | |- satL _ (setl _) => apply satL_setl
  | |- satL _ getl => apply satL_getl
  | |- sat _ (match ?x with _ => _ end) => destruct x
  | |- satL _ (match ?x with _ => _ end) => destruct x
  | |- sat _ (let (_, _) := ?x in _) => destruct x
  | |- sat _ _ => progress cbv zeta
  end.
