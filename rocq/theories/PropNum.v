(** Numbers on the command line (C58). *)
From Coq Require Import String ZArith List Bool Lia ZifyBool ZifyNat.
From Verif Require Import Base World MemSim CmdLine BaseLemmas MemSpec DumpSpec LogSpec CmdSpec AliasSpec NumSpec LogFmt CmdThms CmdSafe CmdMain CmdFull PropMem PropCmd MemEx.
Import ListNotations.
Open Scope Z_scope.

(** ** Reading digits *)

Lemma hex_first c d : hex_value c = Some d -> 0 <= d < 16 /\ (d < 10 -> c = 48 + d).
Proof. unfold hex_value. intro H. destruct ((48 <=? c) && (c <=? 57)) eqn:A; [injection H as H; lia|].
  destruct ((97 <=? c) && (c <=? 102)) eqn:B; [injection H as H; lia|]. destruct ((65 <=? c) && (c <=? 70)) eqn:C; [injection H as H; lia|]. discriminate.
Qed.

Lemma acc_snoc base : 1 < base <= 16 -> forall ds n, value_of base ds n -> forall acc, exists m,
  acc_digits base acc ds = (acc * m + n, []) /\ 0 <= n /\
  forall c d, is_digit base c d -> acc_digits base acc (ds ++ [c]) = ((acc * m + n) * base + d, []).
Proof.
  intros HB. assert (ONE : forall acc c d, is_digit base c d -> acc_digits base acc [c] = (acc * base + d, [])).
  { intros acc c d [H1 H2]. apply digit_hex in H1 as (H1 & _ & _). cbn [acc_digits]. rewrite H1. destruct (d <? base) eqn:Q; [reflexivity|lia]. }
  assert (APP : forall l acc v, acc_digits base acc l = (v, []) -> forall l', acc_digits base acc (l ++ l') = acc_digits base v l').
  { induction l as [|c l IH]; intros acc v H l'; cbn [acc_digits app] in *; [now injection H as <-|].
    destruct (digit_val c) as [d|]; [|discriminate]. destruct (d <? base); [|discriminate]. now apply IH. }
  induction 1 as [|ds n c d HV IH HD]; intro acc.
  - exists 1. split; [cbn; f_equal; lia|]. split; [lia|]. intros c d H. cbn [app]. rewrite (ONE _ _ _ H). f_equal; lia.
  - destruct (IH acc) as (m & E & P & S). exists (m * base). assert (E' : acc_digits base acc (ds ++ [c]) = (acc * (m * base) + (base * n + d), [])).
    { rewrite (S c d HD). f_equal. lia. }
    split; [exact E'|]. split; [destruct HD as [HD _]; apply hex_first in HD; nia|].
    intros c' d' H. rewrite (APP _ _ _ E'), (ONE _ _ _ H). reflexivity.
Qed.
Lemma acc_value base ds n : 1 < base <= 16 -> value_of base ds n -> acc_digits base 0 ds = (n, []) /\ 0 <= n.
Proof. intros HB H. destruct (acc_snoc base HB ds n H 0) as (m & E & P & _). split; [rewrite E; f_equal; lia|exact P]. Qed.
Lemma value_digit base ds n c : value_of base ds n -> In c ds -> exists d, is_digit base c d.
Proof.
  induction 1 as [|ds n c' d HV IH HD]; [intros []|]. intro H. apply in_app_or in H as [H|[->|[]]]; eauto.
Qed.

Lemma body_numeral t n : numeral t n -> strtoul_body t = Some (n, []) /\ 0 <= n /\ exists c l, t = c :: l /\ 48 <= c <= 57.
Proof.
  intro H. destruct H as [c ds n H0 H|ds n H|x ds n Hx Hn H].
  - destruct (acc_value 10 _ _ ltac:(lia) H) as [E P]. destruct (value_digit _ _ _ c H (or_introl eq_refl)) as (d & H1 & H2).
    apply hex_first in H1 as [H1 H3]. specialize (H3 H2). split; [|split; [exact P|exists c, ds; split; [reflexivity|lia]]].
    unfold strtoul_body. rewrite E. assert (G : (48 <=? c) && (c <=? 57) = true) by lia. rewrite G.
    destruct (Z.eq_dec c 48) as [|N]; [lia|]. clear - N. destruct c as [|p|p]; try reflexivity.
    repeat (destruct p as [p|p|]; try reflexivity). destruct (N eq_refl).
  - assert (Z0 : acc_digits 8 0 (48 :: ds) = acc_digits 8 0 ds) by reflexivity.
    destruct (acc_value 8 _ _ ltac:(lia) H) as [E P]. split; [|split; [exact P|exists 48, ds; split; [reflexivity|lia]]].
    unfold strtoul_body. destruct ds as [|x ds]; [cbn in *; now rewrite E|].
    destruct (value_digit _ _ _ x H (or_introl eq_refl)) as (d & H1 & H2). apply hex_first in H1 as [H1 H3]. specialize (H3 ltac:(lia)).
    destruct ds as [|y ds]; [rewrite Z0, E; reflexivity|]. replace ((x =? 120) || (x =? 88)) with false by lia. cbn [andb]. now rewrite Z0, E.
  - destruct (acc_value 16 _ _ ltac:(lia) H) as [E P]. split; [|split; [exact P|exists 48, (x :: ds); split; [reflexivity|lia]]].
    destruct ds as [|d ds]; [destruct (Hn eq_refl)|]. destruct (value_digit _ _ _ d H (or_introl eq_refl)) as (v & H1 & H2).
    apply digit_hex in H1 as (_ & _ & H1). unfold strtoul_body. rewrite H1. replace ((x =? 120) || (x =? 88)) with true by lia. cbn [andb]. now rewrite E.
Qed.

Lemma strtou32_any t n : numeral t n -> strtou32 t = if n <? 18446744073709551616 then W n else 4294967295.
Proof.
  intro H. destruct (body_numeral t n H) as (E & P & c & l & -> & HC). unfold strtou32, strtoul0.
  assert (SW : skip_ws (c :: l) = c :: l) by (cbn [skip_ws]; unfold isspace; replace ((c =? 32) || ((9 <=? c) && (c <=? 13))) with false by lia; reflexivity).
  rewrite SW. assert (SG : (match c :: l with 45 :: t => (true, t) | 43 :: t => (false, t) | _ => (false, c :: l) end) = (false, c :: l)).
  { assert (C : c = 48 \/ c = 49 \/ c = 50 \/ c = 51 \/ c = 52 \/ c = 53 \/ c = 54 \/ c = 55 \/ c = 56 \/ c = 57) by lia.
    repeat (destruct C as [->|C]; [reflexivity|]). now subst. }
  rewrite SG, E. unfold strtoul_finish, ULONG_MAX. destruct (18446744073709551615 <? n) eqn:Q.
  - replace (n <? 18446744073709551616) with false by lia. reflexivity.
  - replace (n <? 18446744073709551616) with true by lia. reflexivity.
Qed.
Lemma strtou32_numeral t n : numeral t n -> u32 n -> strtou32 t = n.
Proof. intros H U. rewrite (strtou32_any t n H). unfold u32 in U. replace (n <? 18446744073709551616) with true by lia. now apply W_id. Qed.
Lemma strtou32_same t t' : same_number t t' -> strtou32 t = strtou32 t'.
Proof. intros (n & U & H & H'). now rewrite (strtou32_numeral t n H U), (strtou32_numeral t' n H' U). Qed.

Lemma same_settings os os' : Forall2 same_option os os' -> settings os = settings os'.
Proof.
  unfold settings. generalize no_settings. intros c H. revert c. induction H as [|o o' os os' H HF IH]; intro c; [reflexivity|]. cbn [fold_left].
  replace (set_opt c o') with (set_opt c o); [apply IH|]. destruct H; cbn [set_opt]; try reflexivity. now rewrite (strtou32_same _ _ H).
Qed.
Lemma same_aliases os os' : Forall2 same_option os os' -> make_aliases os = make_aliases os'.
Proof.
  induction 1 as [|o o' os os' H HF IH]; [reflexivity|]. destruct H; cbn [make_aliases]; try exact IH.
  rewrite IH. unfold createAliasOption. now rewrite (strtou32_same _ _ H), (strtou32_same _ _ H0), (strtou32_same _ _ H1).
Qed.

(** ** C58 *)

(** C58.  Start-up depends only on the numbers, not on how they are written. *)
Theorem C58_same_number_partial args args' os os' w : spells args os -> spells args' os' -> Forall2 same_option os os' ->
  api (CrashDebugCommandLine_Init args) w = api (CrashDebugCommandLine_Init args') w.
Proof. intros H1 H2 H. unfold api. now rewrite (init_spelled _ _ _ H1), (init_spelled _ _ _ H2), (same_settings _ _ H), (same_aliases _ _ H). Qed.

(** C58.  A raw image is found at the number given as its address. *)
Theorem C58_image_partial args os f t n data w c w' i b :
  heap_sane w -> spells args os -> complete os -> uses_bin os f t -> numeral t n -> u32 n ->
  file_is w f data -> Forall byte data -> n + zlen data <= 4294967296 -> zlen data < 4294967296 ->
  api (CrashDebugCommandLine_Init args) w = Done c w' -> nth_error data i = Some b ->
  exists w'', api (readN 1 (n + Z.of_nat i)) w' = Done b w''.
Proof.
  intros HS SP CO UB NM U FI FB L1 L2 HI HN. assert (LI : (i < length data)%nat) by (apply nth_error_Some; congruence).
  assert (R : readable w' [(n, data)]).
  { apply (image_stays args os [(n, data)] w c w' HS SP CO).
    - right. exists f, t, data. rewrite (strtou32_numeral t n NM U). split; [exact UB|]. split; [exact FI|]. split; [exact FB|]. split; [unfold zlen in *; lia|reflexivity].
    - split; [constructor; [exact L1|constructor]|]. split; [repeat constructor|intros r x []].
    - exact HI. }
  destruct (R n data (Z.of_nat i) 1 (or_introl eq_refl) ltac:(now left) ltac:(lia) ltac:(unfold zlen; lia)) as (w'' & E). exists w''. rewrite E. f_equal.
  rewrite Nat2Z.id. apply nth_error_split in HN as (l1 & l2 & -> & <-). rewrite skipn_app, skipn_all, Nat.sub_diag. change (b + 256 * 0 = b). lia.
Qed.

(** C58.  The aliases have the numbers given (C55 says what they then do). *)
Theorem C58_aliases_partial b s r nb ns nr : numeral b nb -> u32 nb -> numeral s ns -> u32 ns -> numeral r nr -> u32 nr ->
  aliases [Alias b s r] = [(nb, ns, nr)].
Proof. intros. cbn. now rewrite (strtou32_numeral b nb), (strtou32_numeral s ns), (strtou32_numeral r nr). Qed.

(** ** What any text is taken for *)

Lemma acc_app base : forall l acc v, acc_digits base acc l = (v, []) -> forall l', acc_digits base acc (l ++ l') = acc_digits base v l'.
Proof.
  induction l as [|c l IH]; intros acc v H l'; cbn [acc_digits app] in *; [now injection H as <-|].
  destruct (digit_val c) as [d|]; [|discriminate]. destruct (d <? base); [|discriminate]. now apply IH.
Qed.
Definition no_digit (base : Z) (l : list Z) : Prop := match l with [] => True | c :: _ => forall d, ~ is_digit base c d end.
Lemma acc_stop base acc l : base <= 16 -> no_digit base l -> acc_digits base acc l = (acc, l).
Proof.
  intros B H. destruct l as [|c l]; [reflexivity|]. cbn [acc_digits]. destruct (digit_val c) as [d|] eqn:E; [|reflexivity].
  destruct (d <? base) eqn:Q; [|reflexivity]. exfalso. apply (H d). split; [|lia].
  destruct (hex_value c) as [x|] eqn:X; [apply digit_hex in X as (X & _ & _); congruence|].
  apply digit_nohex in X as (_ & X). specialize (X d E). lia.
Qed.
Lemma is_digit_dec base c : {d | is_digit base c d} + {forall d, ~ is_digit base c d}.
Proof.
  unfold is_digit. destruct (hex_value c) as [x|] eqn:E; [|right; intros d [H _]; discriminate].
  destruct (Z_lt_dec x base) as [L|L]; [left; exists x; auto|right; intros d [H H']; injection H as ->; lia].
Qed.
Lemma digits_split base l : exists ds rest, l = ds ++ rest /\ Forall (fun c => exists d, is_digit base c d) ds /\ no_digit base rest.
Proof.
  induction l as [|c l (ds & rest & -> & F & N)]; [exists [], []; repeat split; constructor|].
  destruct (is_digit_dec base c) as [[d D]|D].
  - exists (c :: ds), rest. split; [reflexivity|]. split; [constructor; eauto|exact N].
  - exists [], (c :: ds ++ rest). split; [reflexivity|]. split; [constructor|exact D].
Qed.
Lemma value_exists base ds : Forall (fun c => exists d, is_digit base c d) ds -> exists n, value_of base ds n.
Proof.
  induction ds as [|c ds IH] using rev_ind; intro F; [exists 0; constructor|]. apply Forall_app in F as [F1 F2]. inversion F2 as [|x y (d & D) _]; subst.
  destruct (IH F1) as (n & V). exists (base * n + d). now constructor.
Qed.
Lemma value_split base ds n more m : value_of base ds n -> value_of base (ds ++ more) m -> forall c r, more = c :: r -> exists d, is_digit base c d.
Proof. intros _ H c r ->. apply (value_digit _ _ _ c H). apply in_or_app. right. now left. Qed.

(** The digits read are those of the longest numeral. *)
Definition longest (num rest : list Z) : Prop := forall more m rest', rest = more ++ rest' -> numeral (num ++ more) m -> more = [].

Lemma not_48 c ds more n : c <> 48 -> numeral ((c :: ds) ++ more) n -> value_of 10 (c :: ds ++ more) n.
Proof. intros N H. inversion H; subst; [assumption|destruct (N eq_refl)|destruct (N eq_refl)]. Qed.

Lemma body_some num n rest : numeral num n -> longest num rest -> strtoul_body (num ++ rest) = Some (n, rest).
Proof.
  intros NM LG. destruct NM as [c ds n H0 H|ds n H|x ds n Hx Hn H].
  - assert (ND : no_digit 10 rest).
    { destruct rest as [|c' r]; [exact I|]. intros d D. assert (X : [c'] = []); [|discriminate X]. apply (LG [c'] (10 * n + d) r eq_refl).
      change ((c :: ds) ++ [c']) with (c :: (ds ++ [c'])). apply n_decimal; [exact H0|]. change (c :: ds ++ [c']) with ((c :: ds) ++ [c']). now constructor. }
    destruct (acc_value 10 _ _ ltac:(lia) H) as [E _]. destruct (value_digit _ _ _ c H (or_introl eq_refl)) as (d & H1 & H2).
    apply hex_first in H1 as [H1 H3]. specialize (H3 H2). assert (EE : acc_digits 10 0 ((c :: ds) ++ rest) = (n, rest)).
    { rewrite (acc_app _ _ _ _ E). apply acc_stop; [lia|exact ND]. }
    unfold strtoul_body. rewrite EE. assert (G : (48 <=? c) && (c <=? 57) = true) by lia. cbn [app]. rewrite G.
    clear - H0. destruct c as [|p|p]; try reflexivity. repeat (destruct p as [p|p|]; try reflexivity). destruct (H0 eq_refl).
  - assert (ND : no_digit 8 rest).
    { destruct rest as [|c' r]; [exact I|]. intros d D. assert (X : [c'] = []); [|discriminate X]. apply (LG [c'] (8 * n + d) r eq_refl).
      change ((48 :: ds) ++ [c']) with (48 :: (ds ++ [c'])). apply n_octal. now constructor. }
    assert (EE : acc_digits 8 0 ((48 :: ds) ++ rest) = (n, rest)).
    { destruct (acc_value 8 _ _ ltac:(lia) H) as [E _]. change (acc_digits 8 0 (ds ++ rest) = (n, rest)). rewrite (acc_app _ _ _ _ E). apply acc_stop; [lia|exact ND]. }
    unfold strtoul_body. rewrite EE. cbn [app]. destruct (ds ++ rest) as [|x [|y t]] eqn:L; try reflexivity.
    destruct (((x =? 120) || (x =? 88)) && isHexDigit y) eqn:Q; [|reflexivity]. exfalso. apply andb_true_iff in Q as [Q1 Q2].
    assert (HX : x = 120 \/ x = 88) by lia. destruct ds as [|c0 ds].
    + cbn [app] in L. subst rest. assert (X : [x; y] = []); [|discriminate X].
      destruct (hex_value y) as [v|] eqn:V; [|apply digit_nohex in V as [V _]; congruence].
      apply (LG [x; y] v t eq_refl). apply n_hex; [exact HX|discriminate|]. change [y] with ([] ++ [y]). replace v with (16 * 0 + v) by lia.
      constructor; [constructor|]. split; [exact V|apply digit_hex in V as (_ & V & _); exact V].
    + injection L as -> L. destruct (value_digit _ _ _ x H (or_introl eq_refl)) as (d & H1 & H2). apply hex_first in H1 as [H1 H3]. specialize (H3 ltac:(lia)). lia.
  - assert (ND : no_digit 16 rest).
    { destruct rest as [|c' r]; [exact I|]. intros d D. assert (X : [c'] = []); [|discriminate X]. apply (LG [c'] (16 * n + d) r eq_refl).
      change ((48 :: x :: ds) ++ [c']) with (48 :: x :: (ds ++ [c'])). apply n_hex; [exact Hx|destruct ds; discriminate|]. now constructor. }
    destruct (acc_value 16 _ _ ltac:(lia) H) as [E _]. assert (EE : acc_digits 16 0 (ds ++ rest) = (n, rest)).
    { rewrite (acc_app _ _ _ _ E). apply acc_stop; [lia|exact ND]. }
    destruct ds as [|d ds]; [destruct (Hn eq_refl)|]. destruct (value_digit _ _ _ d H (or_introl eq_refl)) as (v & H1 & H2).
    apply digit_hex in H1 as (_ & _ & H1). unfold strtoul_body. cbn [app] in *. rewrite H1. replace ((x =? 120) || (x =? 88)) with true by lia. cbn [andb]. now rewrite EE.
Qed.

Lemma numeral_first num n : numeral num n -> exists c l, num = c :: l /\ 48 <= c <= 57 /\ 0 <= n.
Proof. intro H. destruct (body_numeral num n H) as (_ & P & c & l & -> & Q). exists c, l. auto. Qed.

Lemma numeral_all ds base more r m n : value_of base ds n -> no_digit base (more ++ r) -> value_of base (ds ++ more) m -> more = [].
Proof.
  intros _ ND V. destruct more as [|c more]; [reflexivity|]. exfalso. destruct (value_digit _ _ _ c V) as (d & D); [apply in_or_app; right; now left|]. exact (ND d D).
Qed.

Lemma numeral_prefix l : (exists num n rest, l = num ++ rest /\ numeral num n /\ longest num rest) \/ strtoul_body l = None.
Proof.
  destruct l as [|c l]; [now right|]. destruct (Z.eq_dec c 48) as [->|N].
  - left. assert (OCT : (forall x y t, l = x :: y :: t -> (x = 120 \/ x = 88) -> isHexDigit y = false) ->
      exists num n rest, 48 :: l = num ++ rest /\ numeral num n /\ longest num rest).
    { intro NX. destruct (digits_split 8 l) as (ds & rest & -> & F & ND). destruct (value_exists 8 ds F) as (n & V).
      exists (48 :: ds), n, rest. split; [reflexivity|]. split; [now constructor|]. intros more m rest' -> NM.
      inversion NM as [? ? ? X|? ? V'|x ds0 ? HX HN V' X]; subst; [lia|now apply (numeral_all ds 8 more rest' m n)|].
      destruct ds as [|c0 ds].
      - cbn [app] in *. subst more. destruct ds0 as [|y ds0]; [congruence|]. destruct (value_digit _ _ _ y V' (or_introl eq_refl)) as (d & D & _).
        apply digit_hex in D as (_ & _ & D). specialize (NX x y (ds0 ++ rest') eq_refl HX). congruence.
      - injection X as -> _. inversion F as [|? ? (d & D1 & D2) _]; subst. apply hex_first in D1 as [D1 D3]. specialize (D3 ltac:(lia)). lia. }
    destruct l as [|x [|y t]]; [apply OCT; intros; discriminate|apply OCT; intros; discriminate|].
    destruct (((x =? 120) || (x =? 88)) && isHexDigit y) eqn:Q.
    + clear OCT. apply andb_true_iff in Q as [Q1 Q2]. destruct (digits_split 16 (y :: t)) as (ds & rest & E & F & ND). destruct (value_exists 16 ds F) as (n & V).
      assert (HX : x = 120 \/ x = 88) by lia. assert (NN : ds <> []).
      { intros ->. cbn [app] in E. subst rest. destruct (hex_value y) as [v|] eqn:VV; [|apply digit_nohex in VV as [VV _]; congruence].
        apply (ND v). split; [exact VV|apply digit_hex in VV as (_ & VV & _); exact VV]. }
      exists (48 :: x :: ds), n, rest. split; [cbn [app]; now rewrite <- E|]. split; [now apply n_hex|]. intros more m rest' -> NM.
      inversion NM as [? ? ? X|? ? V'|x0 ds0 ? HX' HN V' X]; subst; [lia| |now apply (numeral_all ds 16 more rest' m n)].
      destruct (value_digit _ _ _ x V' (or_introl eq_refl)) as (d & D1 & D2). apply hex_first in D1 as [D1 D3]. specialize (D3 ltac:(lia)). lia.
    + apply OCT. intros x0 y0 t0 E HX. injection E as -> -> ->. destruct (isHexDigit y0); [|reflexivity]. lia.
  - destruct ((48 <=? c) && (c <=? 57)) eqn:Q.
    + left. destruct (digits_split 10 (c :: l)) as (ds & rest & E & F & ND). destruct (value_exists 10 ds F) as (n & V).
      assert (D : is_digit 10 c (c - 48)) by (split; [unfold hex_value; now rewrite Q|lia]).
      destruct ds as [|c0 ds]; [cbn [app] in E; subst rest; destruct (ND _ D)|]. injection E as <- E.
      exists (c :: ds), n, rest. split; [now rewrite E|]. split; [now apply n_decimal|]. intros more m rest' -> NM.
      apply (numeral_all (c :: ds) 10 more rest' m n V ND). exact (not_48 _ _ _ _ N NM).
    + right. unfold strtoul_body. rewrite Q. clear - N. destruct c as [|p|p]; try reflexivity. repeat (destruct p as [p|p|]; try reflexivity). destruct (N eq_refl).
Qed.

Lemma gap_skip gap l : Forall (fun c => c = 32 \/ 9 <= c <= 13) gap -> skip_ws (gap ++ l) = skip_ws l.
Proof. induction 1 as [|c gap H _ IH]; [reflexivity|]. cbn [app skip_ws]. unfold isspace. replace ((c =? 32) || ((9 <=? c) && (c <=? 13))) with true by lia. exact IH. Qed.
Lemma gap_split l : exists gap, l = gap ++ skip_ws l /\ Forall (fun c => c = 32 \/ 9 <= c <= 13) gap.
Proof.
  induction l as [|c l (gap & E & F)]; [exists []; split; [reflexivity|constructor]|]. cbn [skip_ws]. destruct (isspace c) eqn:Q.
  - exists (c :: gap). split; [cbn [app]; now rewrite <- E|]. constructor; [unfold isspace in Q; lia|exact F].
  - exists []. split; [reflexivity|constructor].
Qed.
Definition sign_split (l : list Z) : bool * list Z := match l with 45 :: t => (true, t) | 43 :: t => (false, t) | _ => (false, l) end.
Lemma sign_first neg sign c l : sign_text neg sign -> 48 <= c <= 57 -> sign_split (skip_ws (sign ++ c :: l)) = (neg, c :: l).
Proof.
  intros S C. assert (SW : skip_ws (c :: l) = c :: l) by (cbn [skip_ws]; unfold isspace; replace ((c =? 32) || ((9 <=? c) && (c <=? 13))) with false by lia; reflexivity).
  destruct neg; cbn in S; [subst sign; reflexivity|]. destruct S as [->| ->]; [|reflexivity]. cbn [app]. rewrite SW.
  assert (D : c = 48 \/ c = 49 \/ c = 50 \/ c = 51 \/ c = 52 \/ c = 53 \/ c = 54 \/ c = 55 \/ c = 56 \/ c = 57) by lia.
  repeat (destruct D as [->|D]; [reflexivity|]). now subst.
Qed.
Lemma sign_back l neg l' : sign_split l = (neg, l') -> exists sign, l = sign ++ l' /\ sign_text neg sign.
Proof.
  unfold sign_split. intro H. assert (D : (exists t, l = 45 :: t) \/ (exists t, l = 43 :: t) \/ (neg, l') = (false, l)).
  { destruct l as [|c t]; [right; right; now rewrite <- H|]. destruct (Z.eq_dec c 45) as [->|A]; [left; eauto|]. destruct (Z.eq_dec c 43) as [->|B]; [right; left; eauto|].
    right; right. rewrite <- H. clear - A B. destruct c as [|p|p]; try reflexivity. repeat (destruct p as [p|p|]; try reflexivity); [destruct (B eq_refl)|destruct (A eq_refl)]. }
  destruct D as [(t & ->)|[(t & ->)|D]].
  - injection H as <- <-. exists [45]. split; reflexivity.
  - injection H as <- <-. exists [43]. split; [reflexivity|now right].
  - injection D as -> ->. exists []. split; [reflexivity|now left].
Qed.

Lemma strtoul_split t : strtoul0 t = match strtoul_body (snd (sign_split (skip_ws t))) with
  Some vr => strtoul_finish (fst (sign_split (skip_ws t))) vr | None => (0, t) end.
Proof. unfold strtoul0, sign_split. now destruct (match skip_ws t with 45 :: t => (true, t) | 43 :: t => (false, t) | _ => (false, skip_ws t) end). Qed.
Lemma starts_body t num rest neg n : starts_with_numeral t num rest neg n ->
  strtoul_body (snd (sign_split (skip_ws t))) = Some (n, rest) /\ fst (sign_split (skip_ws t)) = neg /\ 0 <= n.
Proof.
  intros (gap & sign & -> & G & S & NM & LG). destruct (numeral_first _ _ NM) as (c & l & E & C & P).
  rewrite (gap_skip gap _ G). assert (SS := sign_first neg sign c (l ++ rest) S C).
  change (c :: l ++ rest) with ((c :: l) ++ rest) in SS. rewrite <- E in SS. rewrite SS. cbn [fst snd]. now rewrite (body_some num n rest NM LG).
Qed.
Lemma starts_dec t : (exists num rest neg n, starts_with_numeral t num rest neg n) \/ strtoul_body (snd (sign_split (skip_ws t))) = None.
Proof.
  destruct (gap_split t) as (gap & E & G). destruct (sign_split (skip_ws t)) as [neg l2] eqn:S. apply sign_back in S as (sign & ES & ST). cbn [snd].
  destruct (numeral_prefix l2) as [(num & n & rest & -> & NM & LG)|H]; [left|now right].
  exists num, rest, neg, n, gap, sign. rewrite <- ES. repeat split; assumption.
Qed.
Lemma finish_32 neg n rest : 0 <= n -> W (fst (strtoul_finish neg (n, rest))) = if n <? 2 ^ 64 then (if neg then - n else n) mod 2 ^ 32 else 2 ^ 32 - 1.
Proof.
  intro P. unfold strtoul_finish, ULONG_MAX, W. change (2 ^ 64) with 18446744073709551616. change (2 ^ 32) with 4294967296.
  destruct (18446744073709551615 <? n) eqn:Q.
  - replace (n <? 18446744073709551616) with false by lia. reflexivity.
  - replace (n <? 18446744073709551616) with true by lia. destruct neg; cbn [fst]; [|reflexivity].
    change (18446744073709551615 + 1) with (4294967296 * 4294967296). rewrite Z.rem_mul_r by lia. rewrite Z.mul_comm, Z_mod_plus_full. apply Z.mod_mod. lia.
Qed.
Lemma taken_read t n : taken_for t n <-> strtou32 t = n.
Proof.
  assert (F : forall m, taken_for t m -> strtou32 t = m).
  { intros m H. unfold strtou32. rewrite strtoul_split. destruct H as [num rest neg k H L|num rest neg k H L|H].
    - destruct (starts_body _ _ _ _ _ H) as (-> & -> & P). rewrite finish_32 by exact P. destruct (k <? 2 ^ 64) eqn:Q; [reflexivity|lia].
    - destruct (starts_body _ _ _ _ _ H) as (-> & -> & P). rewrite finish_32 by exact P. destruct (k <? 2 ^ 64) eqn:Q; [lia|reflexivity].
    - destruct (starts_dec t) as [(num & rest & neg & k & S)|E]; [destruct (H _ _ _ _ S)|]. now rewrite E. }
  split; [apply F|]. intros <-. destruct (starts_dec t) as [(num & rest & neg & k & S)|E].
  - destruct (Z_lt_dec k (2 ^ 64)) as [L|L].
    + pose proof (tf_number t num rest neg k S L) as T. now rewrite (F _ T).
    + pose proof (tf_huge t num rest neg k S ltac:(lia)) as T. now rewrite (F _ T).
  - assert (T : taken_for t 0); [|now rewrite (F _ T)]. apply tf_none. intros num rest neg k S. destruct (starts_body _ _ _ _ _ S) as (X & _). congruence.
Qed.

(** C58.  Every text is taken for exactly one number, ... *)
Theorem C58_taken_for t : exists n, u32 n /\ forall m, taken_for t m <-> m = n.
Proof. exists (strtou32 t). split; [apply W_range|]. intro m. rewrite taken_read. split; congruence. Qed.

(** ... which is the number it is a numeral for, if it is one for a 32-bit number, ... *)
Theorem C58_numeral_taken t n : numeral t n -> u32 n -> taken_for t n.
Proof. intros H U. apply taken_read. now apply strtou32_numeral. Qed.

(** ... and that is where a raw image is found, whatever the text, ... *)
Theorem C58_image_taken args os f t n data w c w' i b :
  heap_sane w -> spells args os -> complete os -> uses_bin os f t -> taken_for t n ->
  file_is w f data -> Forall byte data -> n + zlen data <= 4294967296 -> zlen data < 4294967296 ->
  api (CrashDebugCommandLine_Init args) w = Done c w' -> nth_error data i = Some b ->
  exists w'', api (readN 1 (n + Z.of_nat i)) w' = Done b w''.
Proof.
  intros HS SP CO UB NM FI FB L1 L2 HI HN. assert (LI : (i < length data)%nat) by (apply nth_error_Some; congruence). apply taken_read in NM. 
  assert (R : readable w' [(n, data)]).
  { apply (image_stays args os [(n, data)] w c w' HS SP CO).
    - right. exists f, t, data. rewrite NM. split; [exact UB|]. split; [exact FI|]. split; [exact FB|]. split; [unfold zlen in *; lia|reflexivity].
    - split; [constructor; [exact L1|constructor]|]. split; [repeat constructor|intros r x []].
    - exact HI. }
  destruct (R n data (Z.of_nat i) 1 (or_introl eq_refl) ltac:(now left) ltac:(lia) ltac:(unfold zlen; lia)) as (w'' & E). exists w''. rewrite E. f_equal.
  rewrite Nat2Z.id. apply nth_error_split in HN as (l1 & l2 & -> & <-). rewrite skipn_app, skipn_all, Nat.sub_diag. change (b + 256 * 0 = b). lia.
Qed.

(** ... and what the aliases are made of. *)
Theorem C58_aliases_taken b s r nb ns nr : taken_for b nb -> taken_for s ns -> taken_for r nr -> aliases [Alias b s r] = [(nb, ns, nr)].
Proof. intros H1 H2 H3. apply taken_read in H1, H2, H3. cbn. now rewrite H1, H2, H3. Qed.

Example C58_taken_examples : taken_for (s2b " -1") 4294967295 /\ taken_for (s2b "+010z") 8 /\ taken_for (s2b "0xg") 0 /\ taken_for (s2b "flash") 0 /\
  taken_for (s2b "18446744073709551616") 4294967295 /\ taken_for (s2b "089") 0.
Proof. repeat split; apply taken_read; vm_compute; reflexivity. Qed.

Ltac value_tac := repeat first [apply (v_nil _) | match goal with |- value_of ?b ?l ?n => 
  let l' := eval vm_compute in (removelast l) in let c := eval vm_compute in (last l 0) in
  let d := eval vm_compute in (n mod b) in let m := eval vm_compute in (n / b) in
  change l with (l' ++ [c]); change n with (b * m + d); apply v_snoc; [|split; [reflexivity|reflexivity]] end].

(** C58.  Every 32-bit number has a numeral: the one with eight hexadecimal digits. *)
Theorem C58_every_number n : u32 n -> numeral (s2b "0x" ++ fmt08X n) n.
Proof.
  intro U. change (s2b "0x" ++ fmt08X n) with (48 :: 120 :: fmt08X n). apply n_hex; [now left|unfold fmt08X; cbn; discriminate|].
  assert (DG : forall d, 0 <= d < 16 -> is_digit 16 (hexU d) d).
  { intros d H. split; [|lia]. assert (C : d = 0 \/ d = 1 \/ d = 2 \/ d = 3 \/ d = 4 \/ d = 5 \/ d = 6 \/ d = 7 \/ d = 8 \/ d = 9 \/ d = 10 \/ d = 11 \/ d = 12 \/ d = 13 \/ d = 14 \/ d = 15) by lia.
    repeat (destruct C as [->|C]; [reflexivity|]). now subst. }
  assert (G : forall k m, 0 <= m < 16 ^ Z.of_nat k -> value_of 16 (map hexU (digits_pad k 16 m)) m).
  { induction k as [|k IH]; intros m H.
    - cbn in *. replace m with 0 by lia. constructor.
    - cbn [digits_pad]. rewrite map_app. cbn [map]. replace m with (16 * (m / 16) + m mod 16) at 3 by lia.
      apply v_snoc; [apply IH|apply DG; lia]. rewrite Nat2Z.inj_succ, Z.pow_succ_r in H by lia. lia. }
  apply G. exact U.
Qed.

Example C58_numerals : numeral (s2b "134217728") 134217728 /\ numeral (s2b "0x08000000") 134217728 /\ numeral (s2b "0X8000000") 134217728 /\
  numeral (s2b "01000000000") 134217728 /\ numeral (s2b "0") 0 /\ numeral (s2b "0xAbCd") 43981.
Proof.
  split; [apply n_decimal; [discriminate|]; value_tac|]. split; [apply n_hex; [now left|discriminate|]; value_tac|].
  split; [apply n_hex; [now right|discriminate|]; value_tac|]. split; [apply n_octal; value_tac|].
  split; [apply n_octal; value_tac|]. apply n_hex; [now left|discriminate|]. value_tac.
Qed.

(** The hypotheses are met: the image of PropCmd.v at 0x08000000, written in three ways. *)
Definition opts_at (t : string) : list opt := [Bin (s2b "a.bin") (s2b t); DumpFile (s2b "c.dmp")].
Definition args_at (t : string) : list (list Z) := argv ["--bin"; "a.bin"; t; "--dump"; "c.dmp"]%string.
Lemma at_spells t : spells (args_at t) (opts_at t).
Proof. unfold args_at, opts_at, argv. cbn [map]. apply sp_bin; [named_tac|]. apply sp_dump; [named_tac|]. constructor. Qed.
Lemma at_complete t : complete (opts_at t).
Proof. split; [exists (Bin (s2b "a.bin") (s2b t))|exists (DumpFile (s2b "c.dmp"))]; (split; [cbn; auto|reflexivity]). Qed.
Lemma at_uses t : uses_bin (opts_at t) (s2b "a.bin") (s2b t).
Proof. split; [intros o [<-|[<-|[]]]; reflexivity|]. exists [], [DumpFile (s2b "c.dmp")]. repeat split; reflexivity. Qed.

Example C58_example :
  Forall2 same_option (opts_at "0x08000000") (opts_at "01000000000") /\ Forall2 same_option (opts_at "134217728") (opts_at "0X8000000") /\
  exists c w', api (CrashDebugCommandLine_Init (args_at "134217728")) (w_dir files_ex) = Done c w' /\
    outcome_of (api (readN 1 134217732) w') = Value 9.
Proof.
  destruct C58_numerals as (N1 & N2 & N3 & N4 & _ & _).
  split; [constructor; [apply so_bin; exists 134217728; repeat split; [discriminate|exact N2|exact N4]|repeat constructor]|].
  split; [constructor; [apply so_bin; exists 134217728; repeat split; [discriminate|exact N1|exact N3]|repeat constructor]|].
  eexists _, _. split; [vm_compute; reflexivity|]. vm_compute. reflexivity.
Qed.

(** C58 fails in general: what is not a number is taken for one (here 0) ... *)
Theorem C58_not_a_number_refuted : exists args os f t w c w', heap_sane w /\ no_io_faults w /\ spells args os /\ complete os /\
  uses_bin os f t /\ (forall n, ~ numeral t n) /\ api (CrashDebugCommandLine_Init args) w = Done c w' /\ outcome_of (api (readN 1 4) w') = Value 9.
Proof.
  exists (args_at "flash"), (opts_at "flash"), (s2b "a.bin"), (s2b "flash"), (w_dir files_ex). eexists _, _.
  split; [apply start_sane|]. split; [intro; reflexivity|]. split; [apply at_spells|]. split; [apply at_complete|]. split; [apply at_uses|].
  split; [|split; [vm_compute; reflexivity|vm_compute; reflexivity]]. intros n H. destruct (body_numeral _ _ H) as (_ & _ & c & l & E & HC). injection E as <- _. lia.
Qed.

(** ... and a number of more than 32 bits loses its upper bits. *)
Theorem C58_too_large_refuted : exists args os f t n w c w', heap_sane w /\ no_io_faults w /\ spells args os /\ complete os /\
  uses_bin os f t /\ numeral t n /\ 4294967296 <= n /\ api (CrashDebugCommandLine_Init args) w = Done c w' /\ outcome_of (api (readN 1 134217732) w') = Value 9.
Proof.
  exists (args_at "0x108000000"), (opts_at "0x108000000"), (s2b "a.bin"), (s2b "0x108000000"), 4429185024, (w_dir files_ex). eexists _, _.
  split; [apply start_sane|]. split; [intro; reflexivity|]. split; [apply at_spells|]. split; [apply at_complete|]. split; [apply at_uses|].
  split; [apply n_hex; [now left|discriminate|]; value_tac|]. split; [lia|]. split; [vm_compute; reflexivity|]. vm_compute. reflexivity.
Qed.

Print Assumptions C58_same_number_partial.
Print Assumptions C58_image_partial.
Print Assumptions C58_aliases_partial.
Print Assumptions C58_taken_for.
Print Assumptions C58_numeral_taken.
Print Assumptions C58_image_taken.
Print Assumptions C58_aliases_taken.
Print Assumptions C58_every_number.
Print Assumptions C58_not_a_number_refuted.
Print Assumptions C58_too_large_refuted.
