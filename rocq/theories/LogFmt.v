(** How the log parser reads the text formats of LogSpec.v. *)
From Coq Require Import String ZArith List Bool Lia ZifyBool ZifyNat.
From Verif Require Import Base World Context MemSim GdbLog BaseLemmas MemSpec DumpSpec LogSpec.
Import ListNotations.
Open Scope Z_scope.

(** ** C strings *)

Definition nonul (l : list Z) : Prop := Forall (fun c => c <> 0) l.

Lemma cstr_app p t : nonul p -> cstr (p ++ t) = p ++ cstr t.
Proof. induction 1 as [|c p H HF IH]; [reflexivity|]. cbn [app cstr]. destruct (c =? 0) eqn:E; [lia|]. now rewrite IH. Qed.
Lemma cstr_nonul p : nonul p -> cstr p = p.
Proof. intro H. rewrite <- (app_nil_r p) at 1. rewrite cstr_app by exact H. apply app_nil_r. Qed.
Lemma cstr_split l : exists t, l = cstr l ++ t /\ nonul (cstr l) /\ (t = [] \/ exists t', t = 0 :: t').
Proof.
  induction l as [|c l (t & E & N & H)]; [exists []; split; [reflexivity|split; [constructor|now left]]|]. cbn [cstr].
  destruct (Z.eqb_spec c 0) as [->|Hc].
  - exists (0 :: l). split; [reflexivity|]. split; [constructor|right; eauto].
  - exists t. cbn [app]. split; [now rewrite <- E|]. split; [now constructor|exact H].
Qed.

(** ** Numbers *)

Lemma digit_hex c x : hex_value c = Some x -> digit_val c = Some x /\ x < 16 /\ isHexDigit c = true.
Proof.
  unfold hex_value, digit_val, isHexDigit. destruct ((48 <=? c) && (c <=? 57)) eqn:A.
  - intro H. injection H as H. split; [f_equal; lia|]. split; [lia|reflexivity].
  - destruct ((97 <=? c) && (c <=? 102)) eqn:B.
    + intro H. injection H as H. replace ((97 <=? c) && (c <=? 122)) with true by lia. split; [f_equal; lia|]. split; [lia|reflexivity].
    + destruct ((65 <=? c) && (c <=? 70)) eqn:C; [|intro H; discriminate H]. intro H. injection H as H.
      replace ((97 <=? c) && (c <=? 122)) with false by lia. replace ((65 <=? c) && (c <=? 90)) with true by lia.
      split; [f_equal; lia|]. split; [lia|reflexivity].
Qed.
Lemma digit_nohex c : hex_value c = None -> isHexDigit c = false /\ forall d, digit_val c = Some d -> 16 <= d.
Proof.
  unfold hex_value, digit_val, isHexDigit. destruct ((48 <=? c) && (c <=? 57)) eqn:A; [intro H; discriminate H|].
  destruct ((97 <=? c) && (c <=? 102)) eqn:B; [intro H; discriminate H|]. destruct ((65 <=? c) && (c <=? 70)) eqn:C; [intro H; discriminate H|].
  intros _. split; [reflexivity|]. intro d. destruct ((97 <=? c) && (c <=? 122)) eqn:D; [intro H; injection H as H; lia|].
  destruct ((65 <=? c) && (c <=? 90)) eqn:E; [intro H; injection H as H; lia|]. intro H. discriminate H.
Qed.
Lemma hex_digit_dec c : isHexDigit c = true <-> hex_digit c.
Proof.
  unfold hex_digit. destruct (hex_value c) as [x|] eqn:E.
  - apply digit_hex in E as (_ & _ & ->). split; congruence.
  - apply digit_nohex in E as (-> & _). split; congruence.
Qed.

Lemma acc_hex ds : forall acc v t, hex_num acc ds = Some v -> digits_end t -> acc_digits 16 acc (ds ++ t) = (v, t).
Proof.
  induction ds as [|c ds IH]; intros acc v t H Ht; cbn [hex_num] in H.
  - injection H as <-. cbn [app]. destruct t as [|c t]; [reflexivity|]. cbn [acc_digits digits_end] in *.
    unfold hex_digit in Ht. destruct (hex_value c) eqn:E; [destruct Ht; discriminate|]. apply digit_nohex in E as (_ & E).
    destruct (digit_val c) as [d|]; [|reflexivity]. specialize (E d eq_refl). destruct (d <? 16) eqn:Q; [lia|reflexivity].
  - destruct (hex_value c) as [x|] eqn:E; [|discriminate]. apply digit_hex in E as (E & L & _). cbn [app acc_digits]. rewrite E.
    destruct (x <? 16) eqn:Q; [|lia]. replace (acc * 16 + x) with (16 * acc + x) by lia. now apply IH.
Qed.

Lemma strtoul_hex ds v t : hex_shows ds v -> digits_end t -> strtoul0 (s2b "0x" ++ ds ++ t) = (v, t).
Proof.
  intros (H1 & H2 & H3) Ht. destruct ds as [|d ds]; [destruct (H1 eq_refl)|].
  assert (Hd : isHexDigit d = true) by (cbn [hex_num] in H2; destruct (hex_value d) eqn:E; [now apply digit_hex in E|discriminate]).
  unfold strtoul0. change (skip_ws (s2b "0x" ++ (d :: ds) ++ t)) with (48 :: 120 :: d :: ds ++ t).
  cbv iota. unfold strtoul_body. rewrite Hd. cbn [Z.eqb Pos.eqb orb andb].
  change (d :: ds ++ t) with ((d :: ds) ++ t). rewrite (acc_hex _ _ v t H2 Ht). unfold strtoul_finish, ULONG_MAX. unfold u32 in H3.
  destruct (_ <? v) eqn:Q; [lia|reflexivity].
Qed.

Lemma strtou32_hex ds v t : hex_shows ds v -> digits_end t -> strtou32 (s2b "0x" ++ ds ++ t) = v.
Proof. intros H Ht. unfold strtou32. rewrite (strtoul_hex ds v t H Ht). apply W_id, H. Qed.

Lemma blank_nodigit c : blank c -> ~ hex_digit c.
Proof. unfold blank. intro H. rewrite <- hex_digit_dec. unfold isHexDigit. lia. Qed.
Lemma blank_space c : blank c -> isspace c = true.
Proof. unfold blank, isspace. lia. Qed.
Lemma noblank_space c : ~ blank c -> isspace c = false.
Proof. unfold blank, isspace. lia. Qed.
Lemma blank_nonul c : blank c -> c <> 0.
Proof. unfold blank. lia. Qed.
Lemma hex_nonul c : hex_digit c -> c <> 0 /\ ~ blank c /\ c <> 60.
Proof. rewrite <- hex_digit_dec. unfold isHexDigit, blank. lia. Qed.

Lemma hex_num_digits ds : forall acc v, hex_num acc ds = Some v -> Forall hex_digit ds.
Proof.
  induction ds as [|c ds IH]; intros acc v H; [constructor|]. cbn [hex_num] in H. destruct (hex_value c) eqn:E; [|discriminate].
  constructor; [unfold hex_digit; congruence|eauto].
Qed.
Lemma hex_shows_digits ds v : hex_shows ds v -> Forall hex_digit ds.
Proof. intros (_ & H & _). eauto using hex_num_digits. Qed.
Lemma digits_nonul ds : Forall hex_digit ds -> nonul ds.
Proof. apply Forall_impl. intros c H. now apply hex_nonul. Qed.

Lemma digits_end_cstr t : digits_end t -> digits_end (cstr t).
Proof. destruct t as [|c t]; [auto|]. cbn. destruct (c =? 0); cbn; auto. Qed.

(** ** Register lines *)

Definition offset (t : target) : Z := match t with TInt i => OFF_R (Z.of_nat i) | TFloat i => OFF_FPR (Z.of_nat i) end.
Definition all_targets : list target := map TInt (seq 0 19) ++ map TFloat (seq 0 33).

Lemma registers_table : registers = map (fun t => (field t, offset t)) all_targets.
Proof. vm_compute. reflexivity. Qed.

Lemma all_targets_ok t : In t all_targets <-> is_target t.
Proof.
  unfold all_targets. rewrite in_app_iff, !in_map_iff. setoid_rewrite in_seq. destruct t as [i|i]; cbn [is_target].
  - split; [intros [(x & E & H)|(x & E & H)]; [injection E as <-; lia|discriminate]|left; exists i; split; [reflexivity|lia]].
  - split; [intros [(x & E & H)|(x & E & H)]; [discriminate|injection E as <-; lia]|right; exists i; split; [reflexivity|lia]].
Qed.

Lemma fields_ok : forallb (fun t => Nat.eqb (length (field t)) 15 && forallb (fun c => negb (c =? 0)) (field t) &&
  match field t with c :: _ => negb (c =? 48) | [] => false end) all_targets = true.
Proof. vm_compute. reflexivity. Qed.
Lemma field_ok t : is_target t -> length (field t) = 15%nat /\ nonul (field t) /\ exists c r, field t = c :: r /\ c <> 48.
Proof.
  intro H. apply all_targets_ok in H. pose proof (proj1 (forallb_forall _ _) fields_ok t H) as E. cbv beta in E.
  apply andb_prop in E as [E E3]. apply andb_prop in E as [E1 E2]. apply Nat.eqb_eq in E1. split; [exact E1|]. split.
  - unfold nonul. rewrite Forall_forall. rewrite forallb_forall in E2. intros c Hc. specialize (E2 c Hc). lia.
  - destruct (field t) as [|c r]; [discriminate|]. exists c, r. split; [reflexivity|lia].
Qed.

Lemma offsets_inj t t' : is_target t -> is_target t' -> offset t = offset t' -> t = t'.
Proof. unfold offset, OFF_R, OFF_FPR. destruct t, t'; cbn [is_target]; intros; f_equal; lia. Qed.
Lemma offset_range t : is_target t -> 4 <= offset t /\ offset t + 4 <= 216 /\ (offset t + 4 <= 80 \/ 84 <= offset t).
Proof. unfold offset, OFF_R, OFF_FPR. destruct t; cbn [is_target]; lia. Qed.
Lemma offset_float t : is_target t -> (isFloatingPointRegister (offset t) = true <-> exists i, t = TFloat i /\ (i < 32)%nat).
Proof.
  unfold isFloatingPointRegister, offset, OFF_R, OFF_FPR. destruct t as [i|i]; cbn [is_target]; intro H.
  - split; [lia|intros (j & E & _); discriminate].
  - split; [intro E; exists i; split; [reflexivity|lia]|intros (j & E & L); injection E as ->; lia].
Qed.

Lemma all_distinct : NoDup (map field all_targets).
Proof.
  assert (D : forall l, (fix go l := match l with [] => true | x :: t => negb (existsb (bytes_eqb x) t) && go t end) l = true -> NoDup l).
  { induction l as [|x l IH]; intro H; [constructor|]. apply andb_prop in H as [H1 H2]. constructor; [|auto].
    intro Hin. apply negb_true_iff in H1. assert (existsb (bytes_eqb x) l = true); [|congruence].
    apply existsb_exists. exists x. split; [exact Hin|apply bytes_eqb_refl]. }
  apply D. vm_compute. reflexivity.
Qed.
Lemma field_inj t t' : is_target t -> is_target t' -> field t = field t' -> t = t'.
Proof.
  intros H H' E. apply all_targets_ok in H, H'. destruct (In_nth_error _ _ H) as (i & Hi). destruct (In_nth_error _ _ H') as (j & Hj).
  assert (i = j); [|congruence]. eapply (proj1 (NoDup_nth_error (map field all_targets)) all_distinct).
  - rewrite map_length. apply nth_error_Some. congruence.
  - rewrite !nth_error_map, Hi, Hj. cbn. congruence.
Qed.

Lemma mentions_unique l t t' : is_target t -> is_target t' -> mentions l t -> mentions l t' -> t = t'.
Proof.
  intros H H' (r & ->) (r' & E). destruct (field_ok t H) as (L & _). destruct (field_ok t' H') as (L' & _).
  apply (f_equal (firstn 15)) in E. rewrite !firstn_app, L, L' in E. cbn [Nat.sub] in E. rewrite !firstn_O, !app_nil_r in E.
  rewrite !firstn_all2 in E by lia. now apply field_inj.
Qed.

Lemma mentions_cstr l t : is_target t -> mentions (cstr l) t <-> mentions l t.
Proof.
  intro H. destruct (field_ok t H) as (_ & N & _). split.
  - intros (r & E). destruct (cstr_split l) as (u & El & _). exists (r ++ u). rewrite app_assoc, <- E. exact El.
  - intros (r & ->). exists (cstr r). now rewrite cstr_app.
Qed.

Lemma lookup_some l off : isRegisterLine l = Some off -> exists t, is_target t /\ offset t = off /\ mentions l t.
Proof.
  unfold isRegisterLine. rewrite registers_table.
  assert (G : forall ts, (forall t, In t ts -> is_target t) -> lookupRegister (map (fun t => (field t, offset t)) ts) l = Some off ->
    exists t, is_target t /\ offset t = off /\ mentions l t).
  { induction ts as [|t ts IH]; intros Hts H; [discriminate|]. cbn [map lookupRegister] in H. destruct (bytes_eqb _ _) eqn:E.
    - injection H as H. apply bytes_eqb_eq in E. exists t. split; [apply Hts; now left|]. split; [exact H|].
      exists (skipn 15 l). rewrite E. symmetry. apply firstn_skipn.
    - apply IH; auto. intros; apply Hts; now right. }
  apply G. intros t Ht. now apply all_targets_ok.
Qed.

Lemma lookup_mentions l t : is_target t -> mentions l t -> isRegisterLine l = Some (offset t).
Proof.
  intros H M. unfold isRegisterLine. rewrite registers_table.
  assert (G : forall ts, (forall t, In t ts -> is_target t) -> In t ts -> lookupRegister (map (fun t => (field t, offset t)) ts) l = Some (offset t)).
  { induction ts as [|t' ts IH]; intros Hts Hin; [destruct Hin|]. cbn [map lookupRegister]. destruct (bytes_eqb _ _) eqn:E.
    - apply bytes_eqb_eq in E. f_equal. f_equal. eapply mentions_unique; [apply Hts; now left|exact H| |exact M].
      exists (skipn 15 l). rewrite E. symmetry. apply firstn_skipn.
    - destruct Hin as [->|Hin].
      + exfalso. apply bytes_eqb_neq in E. apply E. destruct M as (r & ->). destruct (field_ok t H) as (L & _).
        rewrite firstn_app, L, Nat.sub_diag, firstn_O, app_nil_r, firstn_all2 by lia. reflexivity.
      + apply IH; auto. intros; apply Hts; now right. }
  apply G; [intros t' Ht'; now apply all_targets_ok|now apply all_targets_ok].
Qed.

(** ** Memory lines *)

Lemma is8_eq l : is8DigitHexValue l =
  match l with a :: b :: t => (a =? 48) && (b =? 120) && (Nat.leb 8 (length t) && forallb isHexDigit (firstn 8 t)) | _ => false end.
Proof.
  unfold is8DigitHexValue. destruct l as [|a l]; [reflexivity|]. destruct (Z.eqb_spec a 48) as [->|Ha].
  - destruct l as [|b l]; [reflexivity|]. destruct (Z.eqb_spec b 120) as [->|Hb]; [reflexivity|].
    destruct b as [|p|p]; try reflexivity. do 7 (destruct p as [p|p|]; try reflexivity; try congruence).
  - cbn [andb]. destruct l as [|b l].
    + destruct a as [|p|p]; try reflexivity. do 6 (destruct p as [p|p|]; try reflexivity; try congruence).
    + destruct a as [|p|p]; try reflexivity. do 6 (destruct p as [p|p|]; try reflexivity; try congruence).
Qed.

Lemma like_memory_line l : isMemoryLine (cstr l) = true <-> like_memory l.
Proof.
  unfold isMemoryLine. rewrite is8_eq. split.
  - intro H. apply andb_prop in H as [H1 H2]. destruct (cstr_split l) as (u & El & N & _).
    destruct (cstr l) as [|a [|b t]] eqn:E; [discriminate|discriminate|].
    apply andb_prop in H2 as [H2 H3]. apply andb_prop in H2 as [Ha Hb]. assert (a = 48) by lia. assert (b = 120) by lia. subst a b.
    apply andb_prop in H3 as [H3 H4]. apply Nat.leb_le in H3. cbn [length] in H1. apply Nat.ltb_lt in H1.
    destruct (skipn 8 t) as [|c1 [|c2 r]] eqn:Es; [apply (f_equal (@length Z)) in Es; rewrite skipn_length in Es; cbn in Es; lia| |].
    { apply (f_equal (@length Z)) in Es; rewrite skipn_length in Es; cbn in Es; lia. }
    assert (Et : t = firstn 8 t ++ c1 :: c2 :: r) by (rewrite <- Es; symmetry; apply firstn_skipn).
    assert (Nt : nonul t) by (inversion N as [|? ? _ N1]; inversion N1; assumption).
    rewrite Et in Nt. unfold nonul in Nt. apply Forall_app in Nt as [_ Nt]. inversion Nt as [|? ? Nc1 Nt1]; subst. inversion Nt1 as [|? ? Nc2 _]; subst.
    exists (firstn 8 t), c1, c2, (r ++ u). split; [|split; [rewrite firstn_length; lia|split; [|auto]]].
    + change (s2b "0x") with [48; 120]. cbn [app]. rewrite Et at 1. rewrite <- app_assoc. reflexivity.
    + rewrite Forall_forall. rewrite forallb_forall in H4. intros c Hc. apply hex_digit_dec. auto.
  - intros (d8 & c1 & c2 & rest & -> & L & Hd & N1 & N2). change (s2b "0x") with [48; 120].
    replace ([48; 120] ++ d8 ++ c1 :: c2 :: rest) with (([48; 120] ++ d8 ++ [c1; c2]) ++ rest) by (rewrite <- !app_assoc; reflexivity).
    assert (N : nonul ([48; 120] ++ d8 ++ [c1; c2])).
    { unfold nonul. rewrite !Forall_app. split; [repeat constructor; lia|]. split; [now apply digits_nonul|repeat constructor; assumption]. }
    rewrite cstr_app by exact N. rewrite <- !app_assoc. cbn [app]. set (r := cstr rest).
    apply andb_true_intro. split; [apply Nat.ltb_lt; cbn [length]; rewrite app_length; cbn [length]; lia|].
    apply andb_true_intro. split; [reflexivity|]. apply andb_true_intro. split; [apply Nat.leb_le; rewrite app_length; lia|].
    rewrite firstn_app, L, Nat.sub_diag, firstn_O, app_nil_r, firstn_all2 by lia.
    rewrite forallb_forall. rewrite Forall_forall in Hd. intros c Hc. apply hex_digit_dec. auto.
Qed.

Lemma skip_ws_gap gap t : Forall blank gap -> skip_ws (gap ++ t) = skip_ws t.
Proof. induction 1 as [|c gap H HG IH]; [reflexivity|]. cbn [app skip_ws]. now rewrite (blank_space c H). Qed.
Lemma skip_ws_stop c t : ~ blank c -> skip_ws (c :: t) = c :: t.
Proof. intro H. cbn. now rewrite (noblank_space c H). Qed.

Lemma skip_symbol_nested sym t : forall level, nested level sym ->
  skipSymbol_loop (sym ++ 62 :: t) (Z.of_nat (S level)) = skipSymbol_loop t 0.
Proof.
  induction sym as [|c sym IH]; intros level H; cbn [nested] in H.
  - subst. reflexivity.
  - cbn [app skipSymbol_loop]. destruct (Z.eqb_spec c 60) as [->|N1].
    + replace (Z.of_nat (S level) + 1) with (Z.of_nat (S (S level))) by lia. now apply IH.
    + destruct (Z.eqb_spec c 62) as [->|N2].
      * destruct level as [|k]; [destruct H|]. replace (Z.of_nat (S (S k)) - 1) with (Z.of_nat (S k)) by lia. now apply IH.
      * replace (isspace c && (Z.of_nat (S level) =? 0)) with false by (destruct (isspace c); lia). now apply IH.
Qed.

(** What follows the first separator character is skipped up to the first word. *)
Lemma skip_separator s gap t :
  separator s -> Forall blank gap -> gap <> [] ->
  exists c u, s = c :: u /\ skipWhitespaceAndSymbol (u ++ gap ++ s2b "0x" ++ t) = s2b "0x" ++ t.
Proof.
  intros Hs Hg Hn. unfold skipWhitespaceAndSymbol, skipWhitespace. destruct Hs as [->|(sym & -> & Hsym)].
  - exists 58, []. split; [reflexivity|]. cbn [app]. rewrite skip_ws_gap by exact Hg. reflexivity.
  - exists 32, (60 :: sym ++ s2b ">:"). split; [reflexivity|]. cbn [app]. change (s2b ">:") with [62; 58].
    rewrite skip_ws_stop by (unfold blank; lia). cbn [skipSymbol skipSymbol_loop Z.eqb Pos.eqb].
    rewrite <- app_assoc. cbn [app]. change (0 + 1) with (Z.of_nat 1). rewrite skip_symbol_nested by exact Hsym.
    destruct gap as [|g gap]; [destruct (Hn eq_refl)|]. inversion Hg as [|? ? G1 G2]; subst. cbn [app skipSymbol_loop Z.eqb Pos.eqb isspace andb orb].
    cbn [Z.leb Z.compare Pos.compare Pos.compare_cont andb].
    destruct (g =? 60) eqn:Q1; [unfold blank in G1; lia|]. destruct (g =? 62) eqn:Q2; [unfold blank in G1; lia|].
    rewrite (blank_space g G1). cbn [andb]. cbn [skip_ws]. rewrite (blank_space g G1). rewrite skip_ws_gap by exact G2. reflexivity.
Qed.

Lemma skip_gap gap t : Forall blank gap -> skipWhitespaceAndSymbol (gap ++ s2b "0x" ++ t) = s2b "0x" ++ t.
Proof. intro H. unfold skipWhitespaceAndSymbol, skipWhitespace. rewrite skip_ws_gap by exact H. reflexivity. Qed.

Lemma word_list_end ws t tail : word_list ws t -> Forall blank tail -> digits_end (t ++ tail).
Proof.
  intros H Ht. destruct H as [|v ws gap ds t Hg Hn _ _].
  - destruct Ht as [|c tail H _]; [exact I|]. now apply blank_nodigit.
  - destruct Hg as [|c gap H _]; [destruct (Hn eq_refl)|]. now apply blank_nodigit.
Qed.

(** What is left on the line after the words: nothing, or a phantom word. *)
Definition extra (k : nat) (tail : list Z) : list Z := match k, tail with S _, _ :: _ => [0] | _, _ => [] end.

Lemma parse_tail k tail : Forall blank tail -> parseValues k tail = extra k tail.
Proof.
  intro H. destruct k as [|k]; [reflexivity|]. destruct tail as [|c tail]; [reflexivity|]. cbn [parseValues extra].
  unfold skipWhitespaceAndSymbol, skipWhitespace. rewrite <- (app_nil_r (c :: tail)). rewrite skip_ws_gap by exact H. cbn. destruct k; reflexivity.
Qed.

Lemma parse_step k l : l <> [] ->
  parseValues (S k) l = (let (v, rest) := strtoul0 (skipWhitespaceAndSymbol l) in W v :: parseValues k rest).
Proof. destruct l; [congruence|reflexivity]. Qed.

Lemma parse_words ws t tail : word_list ws t -> Forall blank tail -> forall k, (length ws <= k)%nat ->
  parseValues k (t ++ tail) = ws ++ extra (k - length ws) tail.
Proof.
  intros H Ht. induction H as [|v ws gap ds t Hg Hn Hv HW IH]; intros k Hk.
  - cbn [app length]. rewrite Nat.sub_0_r. now apply parse_tail.
  - cbn [length] in Hk. destruct k as [|k]; [lia|]. cbn [parseValues].
    replace ((gap ++ s2b "0x" ++ ds ++ t) ++ tail) with (gap ++ s2b "0x" ++ ds ++ t ++ tail) by (rewrite <- !app_assoc; reflexivity).
    destruct (gap ++ s2b "0x" ++ ds ++ t ++ tail) as [|x y] eqn:E; [apply app_eq_nil in E as [_ E]; discriminate|]. rewrite <- E.
    rewrite skip_gap by exact Hg. rewrite (strtoul_hex ds v (t ++ tail)) by (auto; eapply word_list_end; eauto).
    rewrite W_id by apply Hv. rewrite IH by lia. reflexivity.
Qed.

Lemma memory_line_parse a ws tail l :
  memory_line a ws tail l -> parseLine (cstr l) = PMemory a (ws ++ extra (4 - length ws) tail).
Proof.
  intros (d8 & sep & t & El & L8 & Ha & Hs & HW & Ht & Hn & H4 & N). rewrite cstr_nonul by exact N. unfold parseLine.
  destruct HW as [|v ws gap ds t Hg Hgn Hv HW]; [destruct (Hn eq_refl)|].
  destruct (skip_separator sep gap (ds ++ t ++ tail) Hs Hg Hgn) as (c & u & -> & Esk).
  assert (El' : l = s2b "0x" ++ d8 ++ c :: u ++ gap ++ s2b "0x" ++ ds ++ t ++ tail).
  { rewrite El. rewrite <- !app_assoc. reflexivity. }
  assert (NC : c <> 0 /\ ~ hex_digit c).
  { destruct Hs as [E|(sym & E & _)]; injection E as -> _; rewrite <- hex_digit_dec; cbn; split; congruence. }
  assert (ML : isMemoryLine l = true).
  { rewrite <- (cstr_nonul l N). apply like_memory_line. exists d8, c.
    destruct (u ++ gap ++ s2b "0x" ++ ds ++ t ++ tail) as [|c2 rest] eqn:E2.
    { apply app_eq_nil in E2 as [_ E2]. apply app_eq_nil in E2 as [_ E2]. discriminate. }
    exists c2, rest. split; [exact El'|]. split; [exact L8|]. split; [eapply hex_shows_digits; eauto|]. split; [apply NC|].
    rewrite El' in N. unfold nonul in N. apply Forall_app in N as [_ N]. apply Forall_app in N as [_ N]. inversion N as [|? ? _ N1]. inversion N1. assumption. }
  rewrite ML. unfold parseMemoryLine. rewrite El'. f_equal.
  - apply strtou32_hex; [exact Ha|]. cbn. apply NC.
  - replace (skipn 11 (s2b "0x" ++ d8 ++ c :: u ++ gap ++ s2b "0x" ++ ds ++ t ++ tail)) with (u ++ gap ++ s2b "0x" ++ ds ++ t ++ tail).
    2:{ replace (s2b "0x" ++ d8 ++ c :: u ++ gap ++ s2b "0x" ++ ds ++ t ++ tail) with ((s2b "0x" ++ d8 ++ [c]) ++ u ++ gap ++ s2b "0x" ++ ds ++ t ++ tail) by (rewrite <- !app_assoc; reflexivity).
        rewrite skipn_app, skipn_all2 by (rewrite !app_length; cbn; lia). rewrite !app_length, L8. reflexivity. }
    rewrite parse_step.
    2:{ intro E. apply app_eq_nil in E as [_ E]. apply app_eq_nil in E as [_ E]. discriminate. }
    rewrite Esk. rewrite (strtoul_hex ds v (t ++ tail)) by (auto; eapply word_list_end; eauto).
    rewrite W_id by apply Hv. cbn [length] in *. rewrite (parse_words ws t tail HW Ht 3) by lia.
    replace (4 - S (length ws))%nat with (3 - length ws)%nat by lia. reflexivity.
Qed.

(** ** Register values *)

Lemma mentions_not_memory l t : is_target t -> mentions l t -> isMemoryLine (cstr l) = false.
Proof.
  intros H (r & ->). destruct (field_ok t H) as (L & N & c & r0 & E & Hc). destruct (isMemoryLine _) eqn:M; [|reflexivity].
  exfalso. apply like_memory_line in M as (d8 & c1 & c2 & rest & X & _). rewrite E in X. cbn in X. injection X as X _. congruence.
Qed.

Lemma mentions_parse l t : is_target t -> mentions l t -> parseLine (cstr l) = parseRegisterLine (cstr l) (offset t).
Proof.
  intros H M. unfold parseLine. rewrite (mentions_not_memory l t H M). rewrite (lookup_mentions (cstr l) t H) by now apply mentions_cstr. reflexivity.
Qed.

Lemma shows_mentions l t v : shows l t v -> mentions l t.
Proof.
  unfold shows, mentions. destruct t as [i|i].
  - intros (ds & tail & -> & _). eauto.
  - destruct (Nat.ltb i 32); [intros (dec & gap & ds & tail & -> & _)|intros (ds & tail & -> & _)]; eauto.
Qed.

Lemma shows_int l t v : is_target t -> (exists ds tail, l = field t ++ s2b "0x" ++ ds ++ tail /\ hex_shows ds v /\ digits_end tail) ->
  isFloatingPointRegister (offset t) = false -> parseLine (cstr l) = PRegister (offset t) v.
Proof.
  intros H (ds & tail & -> & Hv & He) Hf. rewrite (mentions_parse _ t H) by (eexists; reflexivity). unfold parseRegisterLine. rewrite Hf.
  destruct (field_ok t H) as (L & N & _). f_equal.
  replace (field t ++ s2b "0x" ++ ds ++ tail) with ((field t ++ s2b "0x" ++ ds) ++ tail) by (rewrite <- !app_assoc; reflexivity).
  rewrite cstr_app.
  2:{ unfold nonul. rewrite !Forall_app. split; [exact N|]. split; [apply Forall_forall; intros x Hx; cbn in Hx; lia|]. eapply digits_nonul, hex_shows_digits; eauto. }
  rewrite <- !app_assoc, skipn_app, L, Nat.sub_diag, skipn_all2 by lia. cbn [app skipn].
  apply (strtou32_hex ds v); [exact Hv|now apply digits_end_cstr].
Qed.

Lemma find_ws dec gap t : Forall (fun c => c <> 0 /\ ~ blank c) dec -> Forall blank gap -> gap <> [] -> findWhitespace (dec ++ gap ++ t) = gap ++ t.
Proof.
  intros Hd Hg Hn. induction Hd as [|c dec [_ H] HD IH].
  - cbn [app]. destruct Hg as [|g gap G _]; [destruct (Hn eq_refl)|]. cbn. now rewrite (blank_space g G).
  - cbn [app findWhitespace]. now rewrite (noblank_space c H).
Qed.

Lemma shows_parse l t v : is_target t -> shows l t v -> parseLine (cstr l) = PRegister (offset t) v.
Proof.
  intros H HS. pose proof (shows_mentions l t v HS) as M. unfold shows in HS. destruct t as [i|i].
  - apply shows_int; auto. unfold isFloatingPointRegister, offset, OFF_R, OFF_FPR. cbn [is_target] in H. lia.
  - destruct (Nat.ltb_spec i 32) as [Hi|Hi].
    + rewrite (mentions_parse _ _ H M). unfold parseRegisterLine. rewrite (proj2 (offset_float _ H)) by eauto. f_equal.
      destruct HS as (dec & gap & ds & tail & -> & Hd & Hg & Hgn & Hv & He). destruct (field_ok _ H) as (L & N & _).
      replace (field (TFloat i) ++ dec ++ gap ++ s2b "(raw 0x" ++ ds ++ tail) with ((field (TFloat i) ++ dec ++ gap ++ s2b "(raw 0x" ++ ds) ++ tail) by (rewrite <- !app_assoc; reflexivity).
      rewrite cstr_app.
      2:{ unfold nonul. rewrite !Forall_app. split; [exact N|]. split; [eapply Forall_impl; [|exact Hd]; cbn; tauto|].
          split; [eapply Forall_impl; [|exact Hg]; apply blank_nonul|]. split; [apply Forall_forall; intros x Hx; cbn in Hx; lia|]. eapply digits_nonul, hex_shows_digits; eauto. }
      unfold parseFloatRegisterLine. rewrite <- !app_assoc, skipn_app, L, Nat.sub_diag, skipn_all2 by lia. cbn [skipn].
      change ([] ++ dec ++ gap ++ s2b "(raw 0x" ++ ds ++ cstr tail) with (dec ++ gap ++ s2b "(raw 0x" ++ ds ++ cstr tail).
      rewrite find_ws by assumption. unfold skipWhitespace. rewrite skip_ws_gap by exact Hg.
      change (skip_ws (s2b "(raw 0x" ++ ds ++ cstr tail)) with (s2b "(raw " ++ s2b "0x" ++ ds ++ cstr tail).
      change (firstn 5 (s2b "(raw " ++ s2b "0x" ++ ds ++ cstr tail)) with (s2b "(raw "). rewrite bytes_eqb_refl.
      change (skipn 5 (s2b "(raw " ++ s2b "0x" ++ ds ++ cstr tail)) with (s2b "0x" ++ ds ++ cstr tail).
      apply strtou32_hex; [exact Hv|now apply digits_end_cstr].
    + apply shows_int; auto. unfold isFloatingPointRegister, offset, OFF_FPR. cbn [is_target] in H. lia.
Qed.
