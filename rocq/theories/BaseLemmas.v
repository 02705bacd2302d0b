(** Lemmas about words, lists and little-endian encoding. *)
From Coq Require Import String Ascii ZArith List Bool Lia ZifyBool ZifyNat Permutation.
From Verif Require Import Base.
Import ListNotations.
Open Scope Z_scope.

Ltac Zify.zify_post_hook ::= Z.div_mod_to_equations.

Lemma skipn_skipn {A} a b (l : list A) : skipn a (skipn b l) = skipn (a + b) l.
Proof.
  rewrite Nat.add_comm. revert l. induction b; intro l; [reflexivity|].
  destruct l; cbn; [apply skipn_nil|]. apply IHb.
Qed.

(** ** 32-bit words *)

Lemma W_range x : 0 <= W x < 4294967296.
Proof. unfold W. lia. Qed.

Lemma W_id x : u32 x -> W x = x.
Proof. unfold W, u32. intros. rewrite Z.mod_small; lia. Qed.

Lemma W_u32 x : u32 (W x).
Proof. unfold u32. apply W_range. Qed.

Lemma W_add_l x y : W (W x + y) = W (x + y).
Proof. unfold W. rewrite Zplus_mod_idemp_l. reflexivity. Qed.

Lemma W_add_r x y : W (x + W y) = W (x + y).
Proof. unfold W. rewrite Zplus_mod_idemp_r. reflexivity. Qed.

Lemma W_sub_l x y : W (W x - y) = W (x - y).
Proof. unfold W. rewrite Zminus_mod_idemp_l. reflexivity. Qed.

Lemma W_sub_r x y : W (x - W y) = W (x - y).
Proof. unfold W. rewrite Zminus_mod_idemp_r. reflexivity. Qed.

Lemma W_W x : W (W x) = W x.
Proof. unfold W. apply Zmod_mod. Qed.

(** ** Lengths *)

Lemma zlen_nonneg {A} (l : list A) : 0 <= zlen l.
Proof. unfold zlen. lia. Qed.

Lemma zlen_app {A} (l m : list A) : zlen (l ++ m) = zlen l + zlen m.
Proof. unfold zlen. rewrite app_length. lia. Qed.

Lemma zlen_nil {A} : zlen (@nil A) = 0.
Proof. reflexivity. Qed.

Lemma zlen_cons {A} (x : A) l : zlen (x :: l) = 1 + zlen l.
Proof. unfold zlen. cbn [length]. lia. Qed.

Lemma zlen_repeat {A} (x : A) n : zlen (repeat x n) = Z.of_nat n.
Proof. unfold zlen. rewrite repeat_length. reflexivity. Qed.

Lemma zlen_map {A B} (f : A -> B) l : zlen (map f l) = zlen l.
Proof. unfold zlen. rewrite map_length. reflexivity. Qed.

(** ** Slices *)

Lemma slice_length {A} (l : list A) off n :
  0 <= off -> 0 <= n -> off + n <= zlen l -> length (slice l off n) = Z.to_nat n.
Proof. unfold slice, zlen. intros. rewrite firstn_length, skipn_length. lia. Qed.

Lemma slice_zlen {A} (l : list A) off n :
  0 <= off -> 0 <= n -> off + n <= zlen l -> zlen (slice l off n) = n.
Proof. intros. unfold zlen at 1. rewrite slice_length by assumption. lia. Qed.

Lemma splice_length {A} (l : list A) off bs :
  0 <= off -> off + zlen bs <= zlen l -> length (splice l off bs) = length l.
Proof.
  unfold splice, zlen. intros. rewrite !app_length, firstn_length, skipn_length. lia.
Qed.

Lemma splice_zlen {A} (l : list A) off bs :
  0 <= off -> off + zlen bs <= zlen l -> zlen (splice l off bs) = zlen l.
Proof. intros. unfold zlen. rewrite splice_length by assumption. reflexivity. Qed.

Lemma nth_error_splice {A} (l : list A) off bs k :
  0 <= off -> off + zlen bs <= zlen l ->
  nth_error (splice l off bs) k =
  if (off <=? Z.of_nat k) && (Z.of_nat k <? off + zlen bs)
  then nth_error bs (k - Z.to_nat off) else nth_error l k.
Proof.
  unfold splice, zlen. intros H0 H1.
  assert (Hl : length (firstn (Z.to_nat off) l) = Z.to_nat off) by (rewrite firstn_length; lia).
  destruct (Nat.ltb_spec k (Z.to_nat off)) as [Hk|Hk].
  - rewrite nth_error_app1 by lia.
    replace ((off <=? Z.of_nat k) && _)%bool with false by (symmetry; lia).
    rewrite <- (firstn_skipn (Z.to_nat off) l) at 2.
    rewrite nth_error_app1 by lia. reflexivity.
  - rewrite nth_error_app2 by lia. rewrite Hl.
    destruct (Nat.ltb_spec (k - Z.to_nat off) (length bs)) as [Hb|Hb].
    + rewrite nth_error_app1 by lia.
      replace ((off <=? Z.of_nat k) && _)%bool with true by (symmetry; lia). reflexivity.
    + rewrite nth_error_app2 by lia.
      replace ((off <=? Z.of_nat k) && _)%bool with false by (symmetry; lia).
      rewrite <- (firstn_skipn (Z.to_nat off + length bs) l) at 2.
      rewrite nth_error_app2; [|rewrite firstn_length; lia].
      f_equal. rewrite firstn_length. lia.
Qed.

Lemma nth_error_slice {A} (l : list A) off n k :
  0 <= off -> (k < Z.to_nat n)%nat ->
  nth_error (slice l off n) k = nth_error l (Z.to_nat off + k).
Proof.
  unfold slice. intros.
  rewrite <- (firstn_skipn (Z.to_nat n) (skipn (Z.to_nat off) l)) at 1.
  revert l k H0. generalize (Z.to_nat n) as m. generalize (Z.to_nat off) as o. clear.
  intros o m l k Hk.
  transitivity (nth_error (skipn o l) k).
  - rewrite firstn_skipn.
    revert m Hk. generalize (skipn o l) as l'. clear. intros l' m. revert l' k.
    induction m; intros l' k Hk; [lia|]. destruct l'; [now destruct k|]. destruct k; [reflexivity|].
    cbn. apply IHm. lia.
  - revert l. induction o; intros l; [reflexivity|]. destruct l; cbn; [now destruct k|]. apply IHo.
Qed.

Lemma nth_error_ext {A} (l m : list A) : (forall k, nth_error l k = nth_error m k) -> l = m.
Proof.
  revert m. induction l as [|x l IH]; intros [|y m] H.
  - reflexivity.
  - specialize (H O). discriminate.
  - specialize (H O). discriminate.
  - f_equal.
    + specialize (H O). cbn in H. congruence.
    + apply IH. intro k. apply (H (S k)).
Qed.

Lemma slice_splice_same {A} (l : list A) off bs :
  0 <= off -> off + zlen bs <= zlen l -> slice (splice l off bs) off (zlen bs) = bs.
Proof.
  intros. unfold slice, splice, zlen in *.
  assert (Hl : length (firstn (Z.to_nat off) l) = Z.to_nat off) by (rewrite firstn_length; lia).
  rewrite skipn_app, Hl, Nat.sub_diag, skipn_all2, app_nil_l by lia. cbn [skipn].
  rewrite Nat2Z.id, firstn_app, Nat.sub_diag, firstn_all. cbn [firstn]. apply app_nil_r.
Qed.

Lemma slice_splice_other {A} (l : list A) off bs off' n :
  0 <= off -> off + zlen bs <= zlen l -> 0 <= off' -> 0 <= n -> off' + n <= zlen l ->
  (off' + n <= off \/ off + zlen bs <= off') ->
  slice (splice l off bs) off' n = slice l off' n.
Proof.
  intros. apply nth_error_ext. intro k.
  destruct (Nat.ltb_spec k (Z.to_nat n)).
  - rewrite !nth_error_slice by lia. rewrite nth_error_splice by lia.
    replace ((off <=? _) && _)%bool with false by (symmetry; lia). reflexivity.
  - rewrite !(proj2 (nth_error_None _ _)); [reflexivity| |];
      rewrite slice_length; rewrite ?splice_zlen; lia.
Qed.

Lemma splice_nil {A} (l : list A) off : splice l off [] = l.
Proof.
  unfold splice. cbn [app length]. rewrite Nat.add_0_r. apply firstn_skipn.
Qed.

Lemma splice_app {A} (l : list A) off b1 b2 :
  0 <= off -> off + zlen b1 + zlen b2 <= zlen l ->
  splice (splice l off b1) (off + zlen b1) b2 = splice l off (b1 ++ b2).
Proof.
  intros. pose proof (zlen_nonneg b1). pose proof (zlen_nonneg b2). apply nth_error_ext. intro k.
  rewrite (nth_error_splice (splice l off b1)) by (rewrite ?splice_zlen; lia).
  rewrite (nth_error_splice l off b1) by lia.
  rewrite (nth_error_splice l off (b1 ++ b2)) by (rewrite ?zlen_app; lia).
  rewrite zlen_app. unfold zlen in *.
  destruct ((off + Z.of_nat (length b1) <=? Z.of_nat k) &&
            (Z.of_nat k <? off + Z.of_nat (length b1) + Z.of_nat (length b2)))%bool eqn:E1.
  - replace ((off <=? Z.of_nat k) && _)%bool with true by (symmetry; lia).
    rewrite nth_error_app2 by lia. f_equal. lia.
  - destruct ((off <=? Z.of_nat k) && (Z.of_nat k <? off + Z.of_nat (length b1)))%bool eqn:E2.
    + replace ((off <=? Z.of_nat k) && _)%bool with true by (symmetry; lia).
      rewrite nth_error_app1 by lia. reflexivity.
    + replace ((off <=? Z.of_nat k) && _)%bool with false by (symmetry; lia). reflexivity.
Qed.

Lemma slice_app_split {A} (l : list A) off n m :
  0 <= off -> 0 <= n -> 0 <= m -> slice l off (n + m) = slice l off n ++ slice l (off + n) m.
Proof.
  intros. unfold slice. rewrite Z2Nat.inj_add, (Z2Nat.inj_add off n) by lia.
  rewrite Nat.add_comm with (n := Z.to_nat off) (m := Z.to_nat n).
  generalize (Z.to_nat n) (Z.to_nat m) (Z.to_nat off). clear. intros n m o.
  rewrite <- skipn_skipn. generalize (skipn o l). clear. intro l. revert l.
  induction n; intros [|x l]; cbn; rewrite ?firstn_nil; try reflexivity.
  f_equal. apply IHn.
Qed.

Lemma slice_0 {A} (l : list A) off : slice l off 0 = [].
Proof. reflexivity. Qed.

Lemma slice_all {A} (l : list A) : slice l 0 (zlen l) = l.
Proof. unfold slice, zlen. rewrite Nat2Z.id. cbn [Z.to_nat skipn]. apply firstn_all. Qed.

Lemma slice_1 {A} (l : list A) off x :
  0 <= off -> nth_error l (Z.to_nat off) = Some x -> slice l off 1 = [x].
Proof.
  unfold slice. intros _. generalize (Z.to_nat off). change (Z.to_nat 1) with 1%nat. intro n. revert l.
  induction n; intros [|y l] H; cbn in H |- *; try discriminate.
  - congruence.
  - apply IHn in H. exact H.
Qed.

Lemma slice_app_l {A} (l m : list A) off n :
  0 <= off -> 0 <= n -> off + n <= zlen l -> slice (l ++ m) off n = slice l off n.
Proof.
  intros. unfold slice, zlen in *. rewrite skipn_app, firstn_app.
  rewrite skipn_length.
  replace (Z.to_nat n - _)%nat with O by lia. cbn [firstn]. apply app_nil_r.
Qed.

Lemma slice_app_r {A} (l m : list A) off n :
  zlen l <= off -> slice (l ++ m) off n = slice m (off - zlen l) n.
Proof.
  intros. unfold slice, zlen in *. rewrite skipn_app, skipn_all2 by lia. cbn [app].
  do 2 f_equal. lia.
Qed.

(** ** Little-endian *)

Lemma le_length n v : length (le n v) = n.
Proof. revert v. induction n; intro v; cbn; congruence. Qed.

Lemma le_zlen n v : zlen (le n v) = Z.of_nat n.
Proof. unfold zlen. rewrite le_length. reflexivity. Qed.

Lemma le_bytes n v : Forall byte (le n v).
Proof. revert v. induction n; intro v; cbn; constructor; [unfold byte; lia|apply IHn]. Qed.

Lemma le_nth n v i : 0 <= i -> (Z.to_nat i < n)%nat -> nth_error (le n v) (Z.to_nat i) = Some (v / 2 ^ (8 * i) mod 256).
Proof.
  intro Hi. replace i with (Z.of_nat (Z.to_nat i)) at 3 by lia. generalize (Z.to_nat i). clear i Hi. intro i.
  revert v i. induction n as [|n IH]; intros v i Hi; [lia|]. destruct i as [|i]; cbn [le nth_error].
  - change (8 * Z.of_nat 0) with 0. rewrite Z.pow_0_r, Z.div_1_r. reflexivity.
  - rewrite IH by lia. rewrite Z.div_div by (try apply Z.pow_pos_nonneg; lia).
    do 3 f_equal. replace (8 * Z.of_nat (S i)) with (8 + 8 * Z.of_nat i) by lia. rewrite Z.pow_add_r by lia. reflexivity.
Qed.

Lemma of_le_le n v : of_le (le n v) = v mod (256 ^ Z.of_nat n).
Proof.
  revert v. induction n; intro v.
  - cbn. rewrite Z.mod_1_r. reflexivity.
  - cbn [le of_le]. rewrite IHn.
    rewrite Nat2Z.inj_succ, Z.pow_succ_r by lia.
    assert (0 < 256 ^ Z.of_nat n) by (apply Z.pow_pos_nonneg; lia).
    rewrite Z.rem_mul_r by lia. reflexivity.
Qed.

Lemma le_of_le bs : Forall byte bs -> le (length bs) (of_le bs) = bs.
Proof.
  induction 1 as [|b t Hb Ht IH]; [reflexivity|].
  cbn [length le of_le]. unfold byte in Hb. f_equal.
  - lia.
  - replace ((b + 256 * of_le t) / 256) with (of_le t) by lia. exact IH.
Qed.

Lemma of_le_range bs : Forall byte bs -> 0 <= of_le bs < 256 ^ zlen bs.
Proof.
  induction 1 as [|b t Hb Ht IH]; [cbn; lia|].
  cbn [of_le]. rewrite zlen_cons, Z.pow_add_r by (pose proof (zlen_nonneg t); lia).
  unfold byte in Hb. change (256 ^ 1) with 256. lia.
Qed.

Lemma of_le_inj a b : length a = length b -> Forall byte a -> Forall byte b -> of_le a = of_le b -> a = b.
Proof.
  intros Hl Ha Hb H. rewrite <- (le_of_le a Ha), <- (le_of_le b Hb), H, Hl. reflexivity.
Qed.

Lemma of_le_app a b : of_le (a ++ b) = of_le a + 256 ^ zlen a * of_le b.
Proof.
  induction a as [|x a IH]; [cbn -[Z.mul]; lia|].
  cbn [app of_le]. rewrite IH, zlen_cons, Z.pow_add_r by (pose proof (zlen_nonneg a); lia).
  change (256 ^ 1) with 256. lia.
Qed.

Lemma W_of_le4 v : of_le (le 4 v) = W v.
Proof. rewrite of_le_le. reflexivity. Qed.

(** ** Update of one list element *)

Lemma upd_nth_length {A} i f (l : list A) : length (upd_nth i f l) = length l.
Proof. revert i. induction l; intros [|i]; cbn; auto. Qed.

Lemma nth_error_upd_nth {A} i f (l : list A) k :
  nth_error (upd_nth i f l) k = if Nat.eqb i k then option_map f (nth_error l k) else nth_error l k.
Proof.
  revert i k. induction l as [|x l IH]; intros i k.
  - cbn. destruct i, k; cbn; try reflexivity. destruct (Nat.eqb _ _); reflexivity.
  - destruct i, k; cbn; try reflexivity. apply IH.
Qed.

Lemma nth_error_upd_same {A} i f (l : list A) x :
  nth_error l i = Some x -> nth_error (upd_nth i f l) i = Some (f x).
Proof. intro H. rewrite nth_error_upd_nth, Nat.eqb_refl, H. reflexivity. Qed.

Lemma upd_nth_upd_nth {A} i f g (l : list A) :
  upd_nth i f (upd_nth i g l) = upd_nth i (fun x => f (g x)) l.
Proof. revert i. induction l; intros [|i]; cbn; f_equal; auto. Qed.

Lemma upd_nth_id {A} i f (l : list A) x : nth_error l i = Some x -> f x = x -> upd_nth i f l = l.
Proof.
  revert i. induction l; intros [|i] H E; cbn in *; try discriminate.
  - injection H as ->. congruence.
  - f_equal. eauto.
Qed.

Lemma upd_nth_ext {A} i f g (l : list A) x : nth_error l i = Some x -> f x = g x -> upd_nth i f l = upd_nth i g l.
Proof.
  revert i. induction l; intros [|i] H E; cbn in *; try discriminate.
  - injection H as ->. congruence.
  - f_equal. eauto.
Qed.

Lemma upd_nth_app_l {A} i f (l m : list A) : (i < length l)%nat -> upd_nth i f (l ++ m) = upd_nth i f l ++ m.
Proof. revert i. induction l; intros [|i] H; cbn in *; try lia; f_equal. apply IHl. lia. Qed.

Lemma upd_nth_app_r {A} f (l : list A) x m : upd_nth (length l) f (l ++ x :: m) = l ++ f x :: m.
Proof. induction l; cbn; congruence. Qed.

Lemma map_upd_nth {A B} (g : A -> B) i f (l : list A) :
  (forall x, g (f x) = g x) -> map g (upd_nth i f l) = map g l.
Proof. intro H. revert i. induction l; intros [|i]; cbn; f_equal; auto. Qed.

Lemma Forall_upd_nth {A} (P : A -> Prop) i f (l : list A) :
  Forall P l -> (forall x, nth_error l i = Some x -> P x -> P (f x)) -> Forall P (upd_nth i f l).
Proof.
  intro H. revert i. induction H; intros [|i] E; cbn; constructor; auto.
Qed.

(** ** Byte equality *)

Lemma bytes_eqb_eq a b : bytes_eqb a b = true <-> a = b.
Proof.
  revert b. induction a as [|x a IH]; intros [|y b]; cbn; try (split; [discriminate|congruence]).
  - tauto.
  - rewrite andb_true_iff, Z.eqb_eq, IH. split; [intros [-> ->]; reflexivity|intro H; split; congruence].
Qed.

Lemma bytes_eqb_refl a : bytes_eqb a a = true.
Proof. apply bytes_eqb_eq. reflexivity. Qed.

Lemma bytes_eqb_neq a b : bytes_eqb a b = false <-> a <> b.
Proof. rewrite <- bytes_eqb_eq. destruct (bytes_eqb a b); split; congruence. Qed.

Lemma Forall_slice {A} (P : A -> Prop) l off n : Forall P l -> Forall P (slice l off n).
Proof.
  intro H. unfold slice. apply Forall_forall. intros x Hx. rewrite Forall_forall in H. apply H.
  rewrite <- (firstn_skipn (Z.to_nat off) l). apply in_or_app. right.
  rewrite <- (firstn_skipn (Z.to_nat n) (skipn (Z.to_nat off) l)). apply in_or_app. left. exact Hx.
Qed.

Lemma Forall_splice {A} (P : A -> Prop) l off bs : Forall P l -> Forall P bs -> Forall P (splice l off bs).
Proof.
  intros H Hb. unfold splice. rewrite <- (firstn_skipn (Z.to_nat off) l) in H.
  apply Forall_app in H as [H1 H2]. apply Forall_app. split; [exact H1|].
  apply Forall_app. split; [exact Hb|].
  rewrite Nat.add_comm, <- skipn_skipn.
  rewrite <- (firstn_skipn (length bs) (skipn (Z.to_nat off) l)) in H2.
  now apply Forall_app in H2.
Qed.

Lemma nth_error_firstn {A} (l : list A) n k : (k < n)%nat -> nth_error (firstn n l) k = nth_error l k.
Proof.
  revert l k. induction n; intros l k H; [lia|]. destruct l; [now destruct k|]. destruct k; [reflexivity|].
  cbn. apply IHn. lia.
Qed.

Lemma nth_error_skipn {A} (l : list A) n k : nth_error (skipn n l) k = nth_error l (n + k).
Proof.
  revert l. induction n; intros l; [reflexivity|]. destruct l; cbn; [now destruct k|]. apply IHn.
Qed.

