(** Lemmas about numbers in text. *)
From Coq Require Import ZArith List Bool Lia ZifyBool ZifyNat.
From Verif Require Import Base BaseLemmas.
Import ListNotations.
Open Scope Z_scope.

Definition digit_sum (b : Z) (ds : list Z) (acc : Z) : Z := fold_left (fun a d => a * b + d) ds acc.

Lemma digits_ok fuel b v : 2 <= b -> 0 <= v -> Forall (fun d => 0 <= d < b) (digits fuel b v).
Proof.
  intro Hb. revert v. induction fuel as [|k IH]; intros v Hv; cbn [digits].
  - constructor; [|constructor]. apply Z.mod_pos_bound. lia.
  - destruct (v <? b) eqn:E; [constructor; [lia|constructor]|].
    apply Forall_app. split; [apply IH; apply Z.div_pos; lia|]. constructor; [|constructor]. apply Z.mod_pos_bound. lia.
Qed.

Lemma digits_value fuel b v : 2 <= b -> 0 <= v < b ^ (Z.of_nat fuel + 1) -> digit_sum b (digits fuel b v) 0 = v.
Proof.
  intro Hb. revert v. induction fuel as [|k IH]; intros v Hv; cbn [digits].
  - change (b ^ (Z.of_nat 0 + 1)) with (b ^ 1) in Hv. rewrite Z.pow_1_r in Hv. cbn. apply Z.mod_small. lia.
  - destruct (v <? b) eqn:E; [reflexivity|]. unfold digit_sum in *. rewrite fold_left_app. cbn [fold_left]. rewrite IH.
    + pose proof (Z.div_mod v b). lia.
    + split; [apply Z.div_pos; lia|]. apply Z.div_lt_upper_bound; [lia|].
      rewrite <- Z.pow_succ_r by lia. replace (Z.succ (Z.of_nat k + 1)) with (Z.of_nat (S k) + 1) by lia. lia.
Qed.

Lemma digits_nonempty fuel b v : digits fuel b v <> [].
Proof.
  destruct fuel; cbn [digits]; [discriminate|]. destruct (_ <? _); [discriminate|]. intro H. apply app_eq_nil in H as [_ H]. discriminate.
Qed.

Lemma digits_pad_ok n b v : 2 <= b -> Forall (fun d => 0 <= d < b) (digits_pad n b v).
Proof.
  intro Hb. revert v. induction n as [|n IH]; intros v; cbn [digits_pad]; [constructor|].
  apply Forall_app. split; [apply IH|]. constructor; [|constructor]. apply Z.mod_pos_bound. lia.
Qed.

Lemma digits_pad_value n b v : 2 <= b -> 0 <= v < b ^ (Z.of_nat n) -> digit_sum b (digits_pad n b v) 0 = v.
Proof.
  intro Hb. revert v. induction n as [|k IH]; intros v Hv; cbn [digits_pad].
  - change (b ^ Z.of_nat 0) with 1 in Hv. cbn. lia.
  - unfold digit_sum in *. rewrite fold_left_app. cbn [fold_left]. rewrite IH.
    + pose proof (Z.div_mod v b). lia.
    + split; [apply Z.div_pos; lia|]. apply Z.div_lt_upper_bound; [lia|].
      rewrite <- Z.pow_succ_r by lia. replace (Z.succ (Z.of_nat k)) with (Z.of_nat (S k)) by lia. lia.
Qed.

Lemma digits_pad_length n b v : length (digits_pad n b v) = n.
Proof. revert v. induction n as [|n IH]; intro v; cbn [digits_pad]; [reflexivity|]. rewrite app_length, IH. cbn. lia. Qed.

(** Reading digits back. *)
Lemma acc_digits_run b f ds rest acc :
  (forall d, 0 <= d < b -> digit_val (f d) = Some d) -> Forall (fun d => 0 <= d < b) ds ->
  acc_digits b acc (map f ds ++ rest) = acc_digits b (digit_sum b ds acc) rest.
Proof.
  intros Hf H. revert acc. induction H as [|d ds Hd H IH]; intro acc; [reflexivity|].
  cbn [map app acc_digits digit_sum fold_left]. rewrite Hf by exact Hd. replace (d <? b) with true by lia. apply IH.
Qed.

Lemma hexU_val d : 0 <= d < 16 -> digit_val (hexU d) = Some d.
Proof.
  intro H. assert (C : d = 0 \/ d = 1 \/ d = 2 \/ d = 3 \/ d = 4 \/ d = 5 \/ d = 6 \/ d = 7 \/ d = 8 \/ d = 9 \/
    d = 10 \/ d = 11 \/ d = 12 \/ d = 13 \/ d = 14 \/ d = 15) by lia.
  repeat (destruct C as [->|C]; [reflexivity|]). subst. reflexivity.
Qed.

Lemma dec_val d : 0 <= d < 10 -> digit_val (48 + d) = Some d.
Proof. intro H. unfold digit_val. replace ((48 <=? 48 + d) && (48 + d <=? 57)) with true by lia. f_equal. lia. Qed.

Definition stops (b : Z) (l : list Z) : Prop :=
  match l with
  | [] => True
  | c :: _ => match digit_val c with Some d => (d <? b) = false | None => True end
  end.

Lemma acc_digits_stop b acc l : stops b l -> acc_digits b acc l = (acc, l).
Proof. destruct l as [|c l]; [reflexivity|]. cbn. destruct (digit_val c); [intros ->|]; reflexivity. Qed.

Lemma fmtX_read v rest : u32 v -> stops 16 rest -> acc_digits 16 0 (fmtX v ++ rest) = (v, rest).
Proof.
  intros Hv Hs. unfold fmtX. rewrite acc_digits_run.
  - rewrite digits_value; [now apply acc_digits_stop|lia|]. change (16 ^ (Z.of_nat 8 + 1)) with 68719476736. unfold u32 in Hv. lia.
  - apply hexU_val.
  - apply digits_ok; unfold u32 in Hv; lia.
Qed.

Lemma fmt08X_read v rest : u32 v -> stops 16 rest -> acc_digits 16 0 (fmt08X v ++ rest) = (v, rest).
Proof.
  intros Hv Hs. unfold fmt08X. rewrite acc_digits_run.
  - rewrite digits_pad_value; [now apply acc_digits_stop|lia|]. change (16 ^ (Z.of_nat 8)) with 4294967296. unfold u32 in Hv. lia.
  - apply hexU_val.
  - apply digits_pad_ok; lia.
Qed.

Lemma fmtX_inj a b x y :
  u32 a -> u32 b -> stops 16 x -> stops 16 y -> fmtX a ++ x = fmtX b ++ y -> a = b /\ x = y.
Proof.
  intros Ha Hb Hx Hy E. pose proof (fmtX_read a x Ha Hx) as H1. pose proof (fmtX_read b y Hb Hy) as H2.
  rewrite E, H2 in H1. injection H1 as -> ->. auto.
Qed.
