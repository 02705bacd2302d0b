(** The dump reader when file operations may fail: it behaves as if the file ended where the first
    failing read is. *)
From Coq Require Import String ZArith List Bool Lia ZifyBool ZifyNat.
From Verif Require Import Base World Context MemSim Dump BaseLemmas MemSpec MemLemmas MemInv MemOps MemHist2 MemThms DumpSpec DumpRef DumpLemmas DumpConv DumpThms DumpSafe.
Import ListNotations.
Open Scope Z_scope.
Open Scope m_scope.

Lemma significant_app' a b : significant (a ++ b) = significant a ++ significant b.
Proof. unfold significant. apply filter_app. Qed.
Lemma units_nil k : units k [] = [].
Proof. destruct k; reflexivity. Qed.

Section Track.
Variable k : kind.
Variable h : nat.
Variable F : list (nat * file).
Variable N : nat.
Variable E : env.
Local Notation at_text := (at_text h F N).
Local Notation fine := (fine E).
Local Notation failed := (failed E).

(** An operation failed between [f] and [f1]. *)
Definition faulted (f f1 : files) : Prop := exists n, (fs_calls f <= n < fs_calls f1)%nat /\ e_io E n <> IoOk.
Definition later (f f1 : files) : Prop := (fs_calls f <= fs_calls f1)%nat.
Lemma faulted_l f f1 f2 : faulted f f1 -> later f1 f2 -> faulted f f2.
Proof. unfold later. intros (n & H & H1) L. exists n. split; [lia|exact H1]. Qed.
Lemma faulted_r f f1 f2 : later f f1 -> faulted f1 f2 -> faulted f f2.
Proof. unfold later. intros L (n & H & H1). exists n. split; [lia|exact H1]. Qed.

(** [m], started where [rest] is to be read, does what [r] does on the units of a part [c] of it;
    either whatever follows ([c] was read completely), or the file seemed to end after [c]. *)
Definition tracks {A} (ended : A -> Prop) (m : M world A) (r : stream -> M world (A * stream)) : Prop :=
  forall rest w f, fine w -> at_text rest f ->
  match m (set_files w f) with
  | Ret a v => exists c rest1 w1 f1, rest = c ++ rest1 /\ v = set_files w1 f1 /\ fine w1 /\ at_text rest1 f1 /\ later f f1 /\
      ((exists us, (forall t, units k (c ++ t) = us ++ units k t) /\ forall t, r (us ++ t) w = Ret (a, t) w1) \/
       (ended a /\ (rest1 = [] \/ faulted f f1) /\ exists t, r (units k c) w = Ret (a, t) w1))
  | Exc v => exists c rest1 w1 f1, rest = c ++ rest1 /\ v = set_files w1 f1 /\ failed w1 /\ at_text rest1 f1 /\ later f f1 /\
      ((exists us, (forall t, units k (c ++ t) = us ++ units k t) /\ forall t, r (us ++ t) w = Exc w1) \/
       ((rest1 = [] \/ faulted f f1) /\ r (units k c) w = Exc w1))
  | Ub _ => True
  end.
(** [m] does not read, and [q] is what it does. *)
Definition calm {A} (Q : A -> Prop) (m : M world A) (q : stream -> M world (A * stream)) : Prop :=
  forall w f, fine w ->
  match m (set_files w f) with
  | Ret a v => exists w1, v = set_files w1 f /\ fine w1 /\ Q a /\ forall us, q us w = Ret (a, us) w1
  | Exc v => exists w1, v = set_files w1 f /\ failed w1 /\ forall us, q us w = Exc w1
  | Ub _ => True
  end.

Lemma calm_tracks A (Q : A -> Prop) m q : calm (fun _ => True) m q -> tracks Q m q.
Proof.
  intros H rest w f Hw Hf. specialize (H w f Hw). destruct (m (set_files w f)) as [a v|v|]; [| |exact I].
  - destruct H as (w1 & -> & Hw1 & _ & H). exists [], rest, w1, f. split; [reflexivity|]. split; [reflexivity|]. split; [exact Hw1|]. split; [exact Hf|].
    split; [unfold later; lia|]. left. exists []. split; [reflexivity|]. intro t. apply H.
  - destruct H as (w1 & -> & Hw1 & H). exists [], rest, w1, f. repeat (split; [first [reflexivity | assumption]|]). split; [unfold later; lia|]. left. exists []. split; [reflexivity|]. intro t. apply H.
Qed.
Lemma calm_ret A (Q : A -> Prop) a : Q a -> calm Q (ret a) (fun us => ret (a, us)).
Proof. intros HQ w f Hw. exists w. auto. Qed.
Lemma calm_throw A (Q : A -> Prop) e : 0 < e -> calm Q (throw e : M world A) (fun _ => throw e).
Proof. intros He w f Hw. exists (set_exn w (Z.max e (w_code w)) (w_msg w)). split; [reflexivity|]. split; [exact (DumpRef.fail_throw E w e (w_msg w) Hw He)|reflexivity]. Qed.
Lemma calm_throw_msg A (Q : A -> Prop) e s : 0 < e -> calm Q (throw_msg e s : M world A) (fun _ => throw_msg e s).
Proof.
  intros He w f Hw. unfold throw_msg. change (set_exn (set_files w f) (w_code (set_files w f)) (firstn 1023 s)) with (set_files (set_exn w (w_code w) (firstn 1023 s)) f).
  apply (calm_throw A Q e He). destruct Hw as (H1 & H2 & H3). repeat split; auto.
Qed.
Lemma tracks_ret A (Q : A -> Prop) a : tracks Q (ret a) (fun us => ret (a, us)).
Proof. now apply calm_tracks, calm_ret. Qed.
Lemma tracks_throw A (Q : A -> Prop) e : 0 < e -> tracks Q (throw e : M world A) (fun _ => throw e).
Proof. intro. now apply calm_tracks, calm_throw. Qed.
Lemma tracks_throw_msg A (Q : A -> Prop) e s : 0 < e -> tracks Q (throw_msg e s : M world A) (fun _ => throw_msg e s).
Proof. intro. now apply calm_tracks, calm_throw_msg. Qed.

Lemma tracks_bind A B (P : A -> Prop) (Q : B -> Prop) (m : M world A) r (g : A -> M world B) q :
  tracks P m r -> (forall a, tracks Q (g a) (fun us => q (a, us))) -> (forall a, P a -> calm Q (g a) (fun us => q (a, us))) ->
  tracks Q (bind m g) (fun us => bind (r us) q).
Proof.
  intros H1 H2 H3 rest w f Hw Hf. unfold bind at 1. specialize (H1 rest w f Hw Hf). destruct (m (set_files w f)) as [a v|v|]; [| |exact I].
  - destruct H1 as (c & rest1 & w1 & f1 & -> & -> & Hw1 & Hf1 & L1 & [(us & U & R)|(HP & HX & t & R)]).
    + specialize (H2 a rest1 w1 f1 Hw1 Hf1). destruct (g a (set_files w1 f1)) as [b v|v|]; [| |exact I].
      * destruct H2 as (c2 & rest2 & w2 & f2 & -> & -> & Hw2 & Hf2 & L2 & D). exists (c ++ c2), rest2, w2, f2. split; [apply app_assoc|]. split; [reflexivity|]. split; [exact Hw2|]. split; [exact Hf2|].
        split; [unfold later in *; lia|]. destruct D as [(us2 & U2 & R2)|(HQ & HX & t & R2)].
        -- left. exists (us ++ us2). split; [intro t; now rewrite <- app_assoc, U, U2, app_assoc|]. intro t. unfold bind. rewrite <- app_assoc, R. apply R2.
        -- right. split; [exact HQ|]. split; [destruct HX as [HX|HX]; [now left|right; eapply faulted_r; eassumption]|]. exists t. unfold bind. rewrite U, R. exact R2.
      * destruct H2 as (c2 & rest2 & w2 & f2 & -> & -> & Hw2 & Hf2 & L2 & D). exists (c ++ c2), rest2, w2, f2. split; [apply app_assoc|]. split; [reflexivity|]. split; [exact Hw2|]. split; [exact Hf2|].
        split; [unfold later in *; lia|]. destruct D as [(us2 & U2 & R2)|(HX & R2)].
        -- left. exists (us ++ us2). split; [intro t; now rewrite <- app_assoc, U, U2, app_assoc|]. intro t. unfold bind. rewrite <- app_assoc, R. apply R2.
        -- right. split; [destruct HX as [HX|HX]; [now left|right; eapply faulted_r; eassumption]|]. unfold bind. rewrite U, R. exact R2.
    + specialize (H3 a HP w1 f1 Hw1). destruct (g a (set_files w1 f1)) as [b v|v|]; [| |exact I].
      * destruct H3 as (w2 & -> & Hw2 & HQ & R2). exists c, rest1, w2, f1. repeat (split; [first [reflexivity | assumption]|]). right. split; [exact HQ|]. split; [exact HX|]. exists t. unfold bind. rewrite R. apply R2.
      * destruct H3 as (w2 & -> & Hw2 & R2). exists c, rest1, w2, f1. repeat (split; [first [reflexivity | assumption]|]). right. split; [exact HX|]. unfold bind. rewrite R. apply R2.
  - destruct H1 as (c & rest1 & w1 & f1 & -> & -> & Hw1 & Hf1 & L1 & D). exists c, rest1, w1, f1. repeat (split; [first [reflexivity | assumption]|]). destruct D as [(us & U & R)|(HX & R)].
    + left. exists us. split; [exact U|]. intro t. unfold bind. now rewrite R.
    + right. split; [exact HX|]. unfold bind. now rewrite R.
Qed.
Lemma tracks_indep A B (Q : B -> Prop) (m : M world A) (g : A -> M world B) q :
  indep m -> (forall w, fine w -> match m w with Ret _ w' => fine w' | Exc w' => failed w' | Ub _ => True end) ->
  (forall a, tracks Q (g a) (q a)) -> tracks Q (bind m g) (fun us => bind m (fun a => q a us)).
Proof.
  intros HI HF Hg rest w f Hw Hf. unfold bind at 1. rewrite HI. specialize (HF w Hw). destruct (m w) as [a w1|w1|] eqn:EM; cbn [omap]; [| |exact I].
  - specialize (Hg a rest w1 f HF Hf). destruct (g a (set_files w1 f)) as [b v|v|]; [| |exact I].
    + destruct Hg as (c & rest1 & w2 & f1 & -> & -> & Hw2 & Hf2 & L & D). exists c, rest1, w2, f1. repeat (split; [first [reflexivity | assumption]|]). unfold bind. rewrite EM. exact D.
    + destruct Hg as (c & rest1 & w2 & f1 & -> & -> & Hw2 & Hf2 & L & D). exists c, rest1, w2, f1. repeat (split; [first [reflexivity | assumption]|]). unfold bind. now rewrite EM.
  - exists [], rest, w1, f. repeat (split; [first [reflexivity | assumption]|]). split; [unfold later; lia|]. left. exists []. split; [reflexivity|]. intro t. unfold bind. now rewrite EM.
Qed.

(** Reading characters. *)
Lemma fread_any n rest w f : fine w -> at_text rest f ->
  exists bs rest1 f1, fread h n (set_files w f) = Ret bs (set_files w f1) /\ rest = bs ++ rest1 /\ at_text rest1 f1 /\ (length bs <= n)%nat /\ later f f1 /\
    ((length bs < n)%nat -> rest1 = [] \/ faulted f f1).
Proof.
  intros (HwE & _) (data & pos & Ho & L & <-). unfold fread, bind, next_io, get_file, put_file, ret. cbn [w_files w_env set_files fs_open fs_calls fs_next fs_opened].
  rewrite Ho. cbn [lookup_file]. rewrite Nat.eqb_refl. rewrite HwE. cbn [update_file w_files set_files fs_open f_data f_pos fs_calls fs_next fs_opened]. rewrite Nat.eqb_refl.
  set (n' := match e_io E (fs_calls f) with IoOk => n | IoFail => 0%nat | IoShort m => Nat.min m n end).
  assert (n' <= n)%nat as Hn by (unfold n'; destruct (e_io E (fs_calls f)); lia).
  eexists _, (skipn n' (skipn pos data)), _. split; [reflexivity|]. split; [symmetry; apply firstn_skipn|]. split; [|split; [rewrite firstn_length; lia|split; [unfold later; cbn [fs_calls]; lia|]]].
  - exists data, (pos + length (firstn n' (skipn pos data)))%nat. cbn [fs_open]. split; [reflexivity|].
    split; [exact L|]. rewrite firstn_length, !skipn_length, BaseLemmas.skipn_skipn. destruct (Nat.le_ge_cases n' (length data - pos)); [f_equal; lia|]. rewrite !skipn_all2 by lia. reflexivity.
  - intro Short. destruct (e_io E (fs_calls f)) eqn:EI.
    + left. apply skipn_all2. rewrite firstn_length in Short. unfold n' in *. lia.
    + right. exists (fs_calls f). cbn [fs_calls]. split; [lia|congruence].
    + right. exists (fs_calls f). cbn [fs_calls]. split; [lia|congruence].
Qed.

Lemma skip_any : forall fuel rest w f, fine w -> at_text rest f ->
  match skipNewLines fuel h (set_files w f) with
  | Ret o v => exists c rest1 f1, v = set_files w f1 /\ rest = c ++ rest1 /\ at_text rest1 f1 /\ later f f1 /\
      match o with Some ch => significant c = [ch] | None => significant c = [] /\ (rest1 = [] \/ faulted f f1) end
  | Exc _ => False
  | Ub _ => True
  end.
Proof.
  induction fuel as [|fuel IH]; intros rest w f Hw Hf; [exact I|]. cbn [skipNewLines]. unfold bind.
  destruct (fread_any 1 rest w f Hw Hf) as (bs & rest1 & f1 & -> & -> & H1 & Ln & L & Hs). destruct bs as [|ch [|x bs]]; [| |cbn in Ln; lia].
  - cbn [ret]. exists [], rest1, f1. repeat (split; [first [reflexivity | assumption]|]). apply Hs. cbn. lia.
  - destruct ((ch =? 13) || (ch =? 10)) eqn:C.
    + specialize (IH rest1 w f1 Hw H1). destruct (skipNewLines fuel h (set_files w f1)) as [o v|v|]; [|exact IH|exact I].
      destruct IH as (c & rest2 & f2 & -> & -> & H2 & L2 & D). exists (ch :: c), rest2, f2. split; [reflexivity|]. split; [reflexivity|]. split; [exact H2|]. split; [unfold later in *; lia|].
      unfold significant in *. cbn [filter]. rewrite C. cbn [negb]. destruct o; [exact D|]. destruct D as (D & [X|X]); (split; [exact D|]); [now left|right; eapply faulted_r; eassumption].
    + cbn [ret]. exists [ch], rest1, f1. repeat (split; [first [reflexivity | assumption]|]). unfold significant. cbn [filter]. rewrite C. reflexivity.
Qed.
Lemma char_any rest w f : fine w -> at_text rest f ->
  match readNextCharacterSkippingNewLines h (set_files w f) with
  | Ret o v => exists c rest1 f1, v = set_files w f1 /\ rest = c ++ rest1 /\ at_text rest1 f1 /\ later f f1 /\
      match o with Some ch => significant c = [ch] | None => significant c = [] /\ (rest1 = [] \/ faulted f f1) end
  | Exc _ => False
  | Ub _ => True
  end.
Proof.
  intros Hw Hf. unfold readNextCharacterSkippingNewLines, bind. destruct (get_text h F N rest w f Hf) as (fl & -> & L). now apply skip_any.
Qed.

Lemma hexref_nil d n acc tot us w : room d tot -> fine w -> zlen acc <= tot -> us = [] -> hexref d n acc us w = Ret (acc, []) w.
Proof.
  intros Hr Hw Ha ->. unfold hexref. rewrite firstn_nil, skipn_nil. cbn [scan]. unfold bind. pose proof (zlen_nonneg acc). rewrite (store_nil E d _ tot) by (auto; lia). now rewrite app_nil_r.
Qed.
Lemma hexref_step d n acc tot b us w c : room d tot -> fine w -> zlen acc + Z.of_nat (S n) <= tot -> store_dest d (zlen acc) [b] w = Ret tt (set_ctx w c) ->
  hexref d (S n) acc (Some b :: us) w = hexref d n (acc ++ [b]) us (set_ctx w c).
Proof.
  intros Hr Hw Hn Ec. unfold hexref. cbn [firstn skipn scan]. pose proof (scan_length (firstn n us)) as SL. rewrite firstn_length in SL.
  destruct (scan (firstn n us)) as [bs ok]. cbn [fst] in SL. pose proof (zlen_nonneg acc). unfold bind. rewrite (store_cons E d _ _ _ tot) by (auto; unfold zlen in *; lia). unfold bind. rewrite Ec.
  rewrite zlen_app, zlen_cons, zlen_nil. replace (zlen acc + (1 + 0)) with (zlen acc + 1) by lia. destruct (store_dest d (zlen acc + 1) bs (set_ctx w c)); [|reflexivity|reflexivity].
  now rewrite <- app_assoc.
Qed.

Lemma hex_tracks (Hk : k = Hex) d : forall n acc tot, room d tot -> zlen acc + Z.of_nat n <= tot ->
  tracks (fun bs => (length bs < length acc + n)%nat) (hexRead_loop h d n acc) (hexref d n acc).
Proof.
  induction n as [|n IH]; intros acc tot Hr Hn rest w f Hw Hf; pose proof (zlen_nonneg acc) as Za.
  - cbn [hexRead_loop ret]. exists [], rest, w, f. repeat (split; [first [reflexivity | assumption]|]). split; [unfold later; lia|]. left. exists []. split; [reflexivity|]. intro t.
    unfold hexref. cbn [firstn skipn scan app]. unfold bind. rewrite (store_nil E d _ tot) by (auto; lia). now rewrite app_nil_r.
  - cbn [hexRead_loop]. unfold bind at 1. pose proof (char_any rest w f Hw Hf) as C1. destruct (readNextCharacterSkippingNewLines h (set_files w f)) as [[hi|] v|v|]; [| |destruct C1|exact I].
    2:{ destruct C1 as (c & rest1 & f1 & -> & -> & H1 & L1 & S1 & X1). cbn [ret]. exists c, rest1, w, f1. repeat (split; [first [reflexivity | assumption]|]). right. split; [lia|]. split; [exact X1|].
        exists []. apply (hexref_nil d _ acc tot); [exact Hr|exact Hw|lia|]. rewrite Hk. cbn [units]. now rewrite S1. }
    destruct C1 as (c & rest1 & f1 & -> & -> & H1 & L1 & S1). unfold bind at 1. pose proof (char_any rest1 w f1 Hw H1) as C2.
    destruct (readNextCharacterSkippingNewLines h (set_files w f1)) as [[lo|] v|v|]; [| |destruct C2|exact I].
    2:{ destruct C2 as (c2 & rest2 & f2 & -> & -> & H2 & L2 & S2 & X2). cbn [ret]. exists (c ++ c2), rest2, w, f2. split; [apply app_assoc|]. split; [reflexivity|]. split; [exact Hw|]. split; [exact H2|]. split; [unfold later in *; lia|].
        right. split; [lia|]. split; [destruct X2 as [X2|X2]; [now left|right; eapply faulted_r; eassumption]|].
        exists []. apply (hexref_nil d _ acc tot); [exact Hr|exact Hw|lia|]. rewrite Hk. cbn [units]. now rewrite significant_app', S1, S2. }
    destruct C2 as (c2 & rest2 & f2 & -> & -> & H2 & L2 & S2). rewrite !nibble_hex.
    assert (PS : forall t, pairs (significant ((c ++ c2) ++ t)) = match hex_value hi, hex_value lo with Some x, Some y => Some (16 * x + y) | _, _ => None end :: pairs (significant t)).
    { intro t. rewrite !significant_app', S1, S2. cbn [app pairs]. destruct (hex_value hi), (hex_value lo); reflexivity. }
    assert (BAD : match hex_value hi, hex_value lo with Some x, Some y => False | _, _ => True end ->
              exists c3 rest3 w1 f3, c ++ c2 ++ rest2 = c3 ++ rest3 /\ set_exn (set_files w f2) (Z.max fileFormatException (w_code (set_files w f2))) (w_msg (set_files w f2)) = set_files w1 f3 /\ failed w1 /\ at_text rest3 f3 /\ later f f3 /\
                ((exists us, (forall t, units k (c3 ++ t) = us ++ units k t) /\ forall t, hexref d (S n) acc (us ++ t) w = Exc w1) \/ ((rest3 = [] \/ faulted f f3) /\ hexref d (S n) acc (units k c3) w = Exc w1))).
    { intro Bad. exists (c ++ c2), rest2, (set_exn w (Z.max fileFormatException (w_code w)) (w_msg w)), f2. split; [apply app_assoc|]. split; [reflexivity|]. split; [now apply DumpRef.fail_throw|]. split; [exact H2|]. split; [unfold later in *; lia|]. left. exists [None]. rewrite Hk. cbn [units].
      split; [intro t; rewrite PS; destruct (hex_value hi), (hex_value lo); try contradiction; reflexivity|]. intro t. cbn [app]. unfold hexref. cbn [firstn scan]. unfold bind.
      rewrite (store_nil E d _ tot) by (auto; lia). reflexivity. }
    destruct (hex_value hi) as [x|]; [|exact (BAD I)]. destruct (hex_value lo) as [y|]; [|exact (BAD I)]. clear BAD. set (b := 16 * x + y) in *.
    destruct (store_ok E d (zlen acc) [b] tot w Hr Hw) as (cx & Ec & Hc); [lia|rewrite zlen_cons, zlen_nil; lia|].
    unfold bind. rewrite indep_store, Ec. cbn [omap].
    assert (Hn' : zlen (acc ++ [b]) + Z.of_nat n <= tot) by (rewrite zlen_app, zlen_cons, zlen_nil; lia).
    specialize (IH (acc ++ [b]) tot Hr Hn' rest2 (set_ctx w cx) f2 Hc H2). destruct (hexRead_loop h d n (acc ++ [b]) _) as [bs v|v|]; [| |exact I].
    + destruct IH as (c3 & rest3 & w3 & f3 & -> & -> & Hw3 & H3 & L3 & D). exists ((c ++ c2) ++ c3), rest3, w3, f3. split; [now rewrite <- !app_assoc|]. split; [reflexivity|]. split; [exact Hw3|]. split; [exact H3|]. split; [unfold later in *; lia|].
      destruct D as [(us & U & R)|(D & X & t & R)].
      * left. exists (Some b :: us). rewrite Hk in *. cbn [units] in *. split; [intro t; rewrite <- app_assoc, PS, U; reflexivity|]. intro t. cbn [app]. rewrite (hexref_step d n acc tot _ _ _ cx Hr Hw ltac:(lia) Ec). apply R.
      * right. rewrite app_length in D. cbn [length] in D. split; [lia|]. split; [destruct X as [X|X]; [now left|right; eapply faulted_r; [|exact X]; unfold later in *; lia]|]. exists t. rewrite Hk in *. cbn [units] in *. rewrite PS, (hexref_step d n acc tot _ _ _ cx Hr Hw ltac:(lia) Ec). exact R.
    + destruct IH as (c3 & rest3 & w3 & f3 & -> & -> & Hw3 & H3 & L3 & D). exists ((c ++ c2) ++ c3), rest3, w3, f3. split; [now rewrite <- !app_assoc|]. split; [reflexivity|]. split; [exact Hw3|]. split; [exact H3|]. split; [unfold later in *; lia|].
      destruct D as [(us & U & R)|(X & R)].
      * left. exists (Some b :: us). rewrite Hk in *. cbn [units] in *. split; [intro t; rewrite <- app_assoc, PS, U; reflexivity|]. intro t. cbn [app]. rewrite (hexref_step d n acc tot _ _ _ cx Hr Hw ltac:(lia) Ec). apply R.
      * right. split; [destruct X as [X|X]; [now left|right; eapply faulted_r; [|exact X]; unfold later in *; lia]|]. rewrite Hk in *. cbn [units] in *. rewrite PS, (hexref_step d n acc tot _ _ _ cx Hr Hw ltac:(lia) Ec). exact R.
Qed.

Lemma read_tracks d n : room d (Z.of_nat n) -> tracks (fun bs => (length bs < n)%nat) (doRead k h d n) (ref_read d n).
Proof.
  intro Hr. assert (HB : k = Binary \/ k = Hex) by (destruct k; auto). destruct HB as [Hk|Hk].
  - intros rest w f Hw Hf. rewrite Hk. cbn [doRead]. unfold binaryRead, bind at 1. destruct (fread_any n rest w f Hw Hf) as (bs & rest1 & f1 & -> & -> & H1 & Ln & L & Hs).
    destruct (store_ok E d 0 bs (Z.of_nat n) w Hr Hw) as (c & Ec & Hc); [lia|unfold zlen; lia|]. unfold bind. rewrite indep_store, Ec. cbn [omap ret].
    exists bs, rest1, (set_ctx w c), f1. repeat (split; [first [reflexivity | assumption]|]). destruct (Nat.lt_ge_cases (length bs) n) as [Short|Full].
    + right. split; [exact Short|]. split; [auto|]. exists []. cbn [units]. rewrite read_short by exact Short. unfold bind. now rewrite Ec.
    + left. exists (map Some bs). cbn [units]. split; [intro t; apply map_app|]. intro t. assert (n = length bs) as -> by lia. rewrite read_run. unfold bind. now rewrite Ec.
  - pose proof (hex_tracks Hk d n [] (Z.of_nat n) Hr ltac:(rewrite zlen_nil; lia)) as T. rewrite Hk. exact T.
Qed.

(** The reader functions. *)
Lemma signature_tracks : tracks (fun _ => False) (validateDumpSignature k h) ref_signature.
Proof.
  unfold validateDumpSignature, ref_signature. apply tracks_bind with (P := fun bs => (length bs < 4)%nat); [now apply read_tracks| |].
  - intro sig. cbv beta iota. destruct (negb _); [apply tracks_throw_msg; reflexivity|]. destruct (bytes_eqb _ _); [apply tracks_ret|].
    destruct (bytes_eqb _ _); [apply tracks_ret|apply tracks_throw_msg; reflexivity].
  - intros sig L. cbv beta iota. destruct (Nat.eqb_spec (length sig) 4); [lia|]. apply calm_throw_msg. reflexivity.
Qed.
Lemma flags_tracks : tracks (fun _ => False) (readFlags k h) ref_flags.
Proof.
  unfold readFlags, ref_flags. apply tracks_bind with (P := fun bs => (length bs < 4)%nat); [apply read_tracks; cbn; unfold OFF_FLAGS; lia| |].
  - intro bs. cbn [fst snd]. destruct (negb _); [apply tracks_throw_msg; reflexivity|apply tracks_ret].
  - intros bs L. cbn [fst snd]. destruct (Nat.eqb_spec (length bs) 4); [lia|]. apply calm_throw_msg. reflexivity.
Qed.
Lemma integer_tracks v2 : tracks (fun _ => False) (readIntegerRegisters k h v2) (ref_integer v2).
Proof.
  unfold readIntegerRegisters, ref_integer. cbv zeta. eapply tracks_indep.
  - destruct v2; [|apply indep_ret]. apply indep_bind; [apply indep_ctx_put|]. intro. apply indep_ctx_put.
  - intros w Hw. destruct v2; [|exact Hw]. unfold bind. pose proof (fine_ctx_put E (OFF_R MSP) (le 4 DEFAULT_SP_VALUE) w Hw) as H.
    destruct (ctx_put _ _ w) as [u w1|w1|]; [|exact H|exact I]. apply fine_ctx_put. exact H.
  - intros _. apply tracks_bind with (P := fun bs => (length bs < if v2 then 68 else 76)%nat); [apply read_tracks; destruct v2; cbn; unfold OFF_R; lia| |].
    + intro bs. cbn [fst snd]. destruct (negb _); [apply tracks_throw_msg; reflexivity|].
      apply tracks_bind with (P := fun bs => (length bs < 4)%nat); [apply read_tracks; cbn; unfold OFF_PSR; lia| |].
      * intro bs2. cbn [fst snd]. destruct (negb _); [apply tracks_throw_msg; reflexivity|apply tracks_ret].
      * intros bs2 L. cbn [fst snd]. destruct (Nat.eqb_spec (length bs2) 4); [lia|]. apply calm_throw_msg. reflexivity.
    + intros bs L. cbn [fst snd]. destruct (Nat.eqb_spec (length bs) (if v2 then 68 else 76)); [lia|]. apply calm_throw_msg. reflexivity.
Qed.
Lemma fp_tracks : tracks (fun _ => False) (readFloatingPointRegisters k h) ref_fp.
Proof.
  unfold readFloatingPointRegisters, ref_fp. eapply tracks_indep.
  - intros w f. unfold ctx_word. cbn [w_ctx set_files]. destruct (_ && _); reflexivity.
  - intros w Hw. unfold ctx_word. destruct (_ && _); [exact Hw|exact I].
  - intro fl. destruct (_ =? _); [apply tracks_ret|]. apply tracks_bind with (P := fun bs => (length bs < 132)%nat); [apply read_tracks; cbn; unfold OFF_FPR; lia| |].
    + intro bs. cbn [fst snd]. destruct (negb _); [apply tracks_throw_msg; reflexivity|apply tracks_ret].
    + intros bs L. cbn [fst snd]. destruct (Nat.eqb_spec (length bs) 132); [lia|]. apply calm_throw_msg. reflexivity.
Qed.

Lemma ref_bytes_none us a count w : count <= 0 -> ref_bytes us a count w = Ret (tt, us) w.
Proof. intro H. destruct us as [|[b|] us]; cbn [ref_bytes]; replace (count <=? 0) with true by lia; reflexivity. Qed.

Lemma bytes_tracks : forall fuel a count, tracks (fun _ => False) (loadRegionBytes fuel k h a count) (fun us => ref_bytes us a count).
Proof.
  induction fuel as [|fuel IH]; intros a count rest w f Hw Hf; [exact I|]. cbn [loadRegionBytes]. destruct (count <=? 0) eqn:C.
  - cbn [ret]. exists [], rest, w, f. repeat (split; [first [reflexivity | assumption]|]). split; [unfold later; lia|]. left. exists []. split; [reflexivity|]. intro t. apply ref_bytes_none. lia.
  - unfold bind at 1. pose proof (read_tracks Local 1 I rest w f Hw Hf) as T. destruct (doRead k h Local 1 (set_files w f)) as [bs v|v|]; [| |exact I].
    + destruct T as (c & rest1 & w1 & f1 & -> & -> & Hw1 & H1 & L1 & D).
      assert (D' : w1 = w /\ ((exists b, bs = [b] /\ forall t, units k (c ++ t) = Some b :: units k t) \/ (bs = [] /\ units k c = [] /\ (rest1 = [] \/ faulted f f1)))).
      { destruct D as [(us & U & R)|(D & X & t & R)].
        - pose proof (read_inv _ _ _ _ _ _ _ (R [None])) as (E1 & Q1 & L & S1). cbn in S1. injection S1 as <-. split; [reflexivity|]. left. destruct Q1 as [Q1|]; [|discriminate].
          destruct bs as [|b [|]]; try discriminate. exists b. split; [reflexivity|]. apply app_inj_tail in E1 as (E1 & _). cbn in E1. rewrite E1 in U. exact U.
        - destruct bs; [|cbn in D; lia]. pose proof (read_inv _ _ _ _ _ _ _ R) as (E1 & Q1 & _ & S1). cbn in S1. injection S1 as <-. split; [reflexivity|]. right. split; [reflexivity|].
          destruct Q1 as [Q1| ->]; [discriminate|]. split; [exact E1|exact X]. }
      destruct D' as (-> & [(b & -> & U)|(-> & U & X)]).
      * unfold bind. rewrite indep_write8. pose proof (fine_write8 E a b w Hw) as HF. destruct (write8 a b w) as [u w2|w2|] eqn:EW; cbn [omap]; [| |exact I].
        -- specialize (IH (W (a + 1)) (count - 1) rest1 w2 f1 HF H1). destruct (loadRegionBytes fuel k h _ _ _) as [u' v|v|]; [| |exact I].
           ++ destruct IH as (c2 & rest2 & w3 & f2 & -> & -> & Hw3 & H2 & L2 & [(us & U2 & R)|([] & _)]).
              exists (c ++ c2), rest2, w3, f2. split; [apply app_assoc|]. split; [reflexivity|]. split; [exact Hw3|]. split; [exact H2|]. split; [unfold later in *; lia|].
              left. exists (Some b :: us). split; [intro t; rewrite <- app_assoc, U, U2; reflexivity|]. intro t. cbn [app ref_bytes]. rewrite C. unfold bind. rewrite EW. apply R.
           ++ destruct IH as (c2 & rest2 & w3 & f2 & -> & -> & Hw3 & H2 & L2 & D2). exists (c ++ c2), rest2, w3, f2. split; [apply app_assoc|]. split; [reflexivity|]. split; [exact Hw3|]. split; [exact H2|]. split; [unfold later in *; lia|].
              destruct D2 as [(us & U2 & R)|(X & R)].
              ** left. exists (Some b :: us). split; [intro t; rewrite <- app_assoc, U, U2; reflexivity|]. intro t. cbn [app ref_bytes]. rewrite C. unfold bind. rewrite EW. apply R.
              ** right. split; [destruct X as [X|X]; [now left|right; eapply faulted_r; eassumption]|]. rewrite U. cbn [ref_bytes]. rewrite C. unfold bind. now rewrite EW.
        -- exists c, rest1, w2, f1. repeat (split; [first [reflexivity | assumption]|]). left. exists [Some b]. split; [exact U|]. intro t. cbn [app ref_bytes]. rewrite C. unfold bind. now rewrite EW.
      * cbn [throw]. exists c, rest1, (set_exn w (Z.max fileFormatException (w_code w)) (w_msg w)), f1. repeat (split; [first [reflexivity | assumption | now apply DumpRef.fail_throw]|]).
        right. split; [exact X|]. rewrite U. cbn [ref_bytes]. rewrite C. reflexivity.
    + destruct T as (c & rest1 & w1 & f1 & -> & -> & Hw1 & H1 & L1 & D). exists c, rest1, w1, f1. repeat (split; [first [reflexivity | assumption]|]).
      assert (K : forall us, ref_read Local 1 us w = Exc w1 -> ref_bytes us a count w = Exc w1).
      { intros us R. unfold ref_read in R. destruct us as [|[b|] us]; cbn [firstn scan] in R; cbn in R; try discriminate. injection R as <-. cbn [ref_bytes]. rewrite C. reflexivity. }
      destruct D as [(us & U & R)|(X & R)]; [left; exists us; split; [exact U|]; intro t; apply K, R|right; split; [exact X|]; apply K, R].
Qed.

Lemma region_tracks : tracks (fun eof => eof = true) (readNextMemoryRegion k h) ref_region.
Proof.
  unfold readNextMemoryRegion, ref_region. apply tracks_bind with (P := fun bs => (length bs < 8)%nat); [now apply read_tracks| |].
  2:{ intros bs L. cbv beta iota. destruct (_ && _); [apply calm_throw_msg; reflexivity|]. destruct (Nat.eqb _ _); [now apply calm_ret|]. destruct (Nat.eqb_spec (length bs) 8); [lia|]. cbn [negb]. apply calm_throw_msg. reflexivity. }
  intro bs. cbv beta iota. destruct (_ && _); [apply tracks_throw_msg; reflexivity|]. destruct (Nat.eqb _ _); [apply tracks_ret|]. destruct (negb _); [apply tracks_throw_msg; reflexivity|].
  cbv zeta. set (start := of_le (firstn 4 bs)). set (end_ := of_le (skipn 4 bs)).
  assert (HB : tracks (fun _ => False) (createAndLoadMemoryRegion k h start end_) (fun us1 => MemorySim_CreateRegion start (W (end_ - start)) ;;; ref_bytes us1 start (W (end_ - start)))).
  { unfold createAndLoadMemoryRegion. cbv zeta. apply (tracks_indep _ _ _ _ _ (fun (_ : unit) us1 => ref_bytes us1 start (W (end_ - start)))); [apply indep_create|apply fine_create|]. intros _ rest w f Hw Hf.
    unfold bind. destruct (get_text h F N rest w f Hf) as (fl & -> & L). now apply bytes_tracks. }
  intros rest w f Hw Hf. assert (Hw0 : fine (set_exn w noException [])) by (destruct Hw as (H1 & H2 & H3); exact (conj H1 (conj H2 (Z.le_refl 0)))).
  specialize (HB rest (set_exn w noException []) f Hw0 Hf).
  unfold bind at 1. unfold try0, try_ at 1. unfold lift at 1. cbn [snd fst]. rewrite set_files_exn.
  assert (OUT : forall us1, (us2 <- try_ us1 (q <- lift (MemorySim_CreateRegion start (W (end_ - start)) ;;; ref_bytes us1 start (W (end_ - start)));; setl (snd q))
       (fun _ => c <- getExceptionCode;; throw_msg c (s2b "The dump file failed to load RAM memory region at 0x" ++ fmt08X start ++ s2b " - 0x" ++ fmt08X end_ ++ s2b "."));; ret (false, us2)) w =
     match (MemorySim_CreateRegion start (W (end_ - start)) ;;; ref_bytes us1 start (W (end_ - start))) (set_exn w noException []) with
     | Ret (u, us2) w1 => if w_code w1 =? 0 then Ret (false, us2) w1 else
         Exc (set_exn w1 (Z.max (w_code w1) (w_code w1)) (firstn 1023 (s2b "The dump file failed to load RAM memory region at 0x" ++ fmt08X start ++ s2b " - 0x" ++ fmt08X end_ ++ s2b ".")))
     | Exc w1 => if w_code w1 =? 0 then Ret (false, us1) w1 else
         Exc (set_exn w1 (Z.max (w_code w1) (w_code w1)) (firstn 1023 (s2b "The dump file failed to load RAM memory region at 0x" ++ fmt08X start ++ s2b " - 0x" ++ fmt08X end_ ++ s2b ".")))
     | Ub u => Ub u
     end).
  { intro us1. unfold bind at 1. unfold try_, bind at 1, lift at 1. cbn [snd fst]. destruct ((_ ;;; _) (set_exn w noException [])) as [[u us2] w1|w1|]; [| |reflexivity]; cbn [setl fst snd]; destruct (w_code w1 =? 0); reflexivity. }
  assert (HL : forall w1 f1, (c <- getExceptionCode;; throw_msg c (s2b "The dump file failed to load RAM memory region at 0x" ++ fmt08X start ++ s2b " - 0x" ++ fmt08X end_ ++ s2b ".")) (set_files w1 f1) = Exc (set_files (set_exn w1 (Z.max (w_code w1) (w_code w1)) (firstn 1023 (s2b "The dump file failed to load RAM memory region at 0x" ++ fmt08X start ++ s2b " - 0x" ++ fmt08X end_ ++ s2b "."))) f1) :> outcome world unit) by reflexivity.
  destruct (createAndLoadMemoryRegion k h start end_ _) as [[] v|v|]; [| |exact I].
  - destruct HB as (c & rest1 & w1 & f1 & -> & -> & Hw1 & H1 & L & [(us & U & R)|([] & _)]). cbn [snd fst w_code set_files]. destruct (w_code w1 =? 0) eqn:Q.
    + cbn [ret]. exists c, rest1, w1, f1. repeat (split; [first [reflexivity | assumption]|]). left. exists us. split; [exact U|]. intro t. rewrite OUT, R, Q. reflexivity.
    + rewrite HL.
      exists c, rest1, (set_exn w1 (Z.max (w_code w1) (w_code w1)) (firstn 1023 (s2b "The dump file failed to load RAM memory region at 0x" ++ fmt08X start ++ s2b " - 0x" ++ fmt08X end_ ++ s2b "."))), f1. split; [reflexivity|]. split; [reflexivity|]. split; [|split; [exact H1|split; [exact L|]]].
      2:{ left. exists us. split; [exact U|]. intro t. rewrite OUT, R, Q. reflexivity. }
      apply (DumpRef.fail_intro E w1); [exact Hw1|]. destruct Hw1 as (_ & _ & X). lia.
  - destruct HB as (c & rest1 & w1 & f1 & -> & -> & (Hw1 & C1) & H1 & L & D). cbn [snd fst w_code set_files]. destruct (w_code w1 =? 0) eqn:Q; [lia|].
    rewrite HL.
    exists c, rest1, (set_exn w1 (Z.max (w_code w1) (w_code w1)) (firstn 1023 (s2b "The dump file failed to load RAM memory region at 0x" ++ fmt08X start ++ s2b " - 0x" ++ fmt08X end_ ++ s2b "."))), f1. split; [reflexivity|]. split; [reflexivity|]. split; [|split; [exact H1|split; [exact L|]]].
    2:{ destruct D as [(us & U & R)|(X & R)]; [left; exists us; split; [exact U|]; intro t|right; split; [exact X|]]; rewrite OUT, R, Q; reflexivity. }
    apply (DumpRef.fail_intro E w1); [exact Hw1|]. lia.
Qed.

Lemma regions_tracks : forall fuel, tracks (fun _ => True) (regionLoop fuel k h) ref_all.
Proof.
  induction fuel as [|fuel IH]; intros rest w f Hw Hf; [exact I|]. cbn [regionLoop]. unfold bind at 1. pose proof (region_tracks rest w f Hw Hf) as T.
  destruct (readNextMemoryRegion k h (set_files w f)) as [[|] v|v|]; [| | |exact I].
  - destruct T as (c & rest1 & w1 & f1 & -> & -> & Hw1 & H1 & L & D). cbn [ret]. exists c, rest1, w1, f1. repeat (split; [first [reflexivity | assumption]|]).
    destruct D as [(us & U & R)|(_ & X & t & R)].
    + left. exists us. split; [exact U|]. intro t. unfold ref_all. cbn [ref_regions]. unfold bind. rewrite R. reflexivity.
    + right. split; [exact I|]. split; [exact X|]. exists t. unfold ref_all. cbn [ref_regions]. unfold bind. rewrite R. reflexivity.
  - destruct T as (c & rest1 & w1 & f1 & -> & -> & Hw1 & H1 & L & [(us & U & R)|(? & _)]); [|discriminate]. specialize (IH rest1 w1 f1 Hw1 H1).
    destruct (regionLoop fuel k h (set_files w1 f1)) as [[] v|v|]; [| |exact I].
    + destruct IH as (c2 & rest2 & w2 & f2 & -> & -> & Hw2 & H2 & L2 & D). exists (c ++ c2), rest2, w2, f2. split; [apply app_assoc|]. split; [reflexivity|]. split; [exact Hw2|]. split; [exact H2|]. split; [unfold later in *; lia|].
      destruct D as [(us2 & U2 & R2)|(_ & X & t & R2)].
      * left. exists (us ++ us2). split; [intro t; now rewrite <- app_assoc, U, U2, app_assoc|]. intro t. rewrite <- app_assoc, (all_step _ _ _ _ (R _)). apply R2.
      * right. split; [exact I|]. split; [destruct X as [X|X]; [now left|right; eapply faulted_r; eassumption]|]. exists t. rewrite U, (all_step _ _ _ _ (R _)). exact R2.
    + destruct IH as (c2 & rest2 & w2 & f2 & -> & -> & Hw2 & H2 & L2 & D). exists (c ++ c2), rest2, w2, f2. split; [apply app_assoc|]. split; [reflexivity|]. split; [exact Hw2|]. split; [exact H2|]. split; [unfold later in *; lia|].
      destruct D as [(us2 & U2 & R2)|(X & R2)].
      * left. exists (us ++ us2). split; [intro t; now rewrite <- app_assoc, U, U2, app_assoc|]. intro t. rewrite <- app_assoc, (all_step _ _ _ _ (R _)). apply R2.
      * right. split; [destruct X as [X|X]; [now left|right; eapply faulted_r; eassumption]|]. rewrite U, (all_step _ _ _ _ (R _)). exact R2.
  - destruct T as (c & rest1 & w1 & f1 & -> & -> & Hw1 & H1 & L & D). exists c, rest1, w1, f1. repeat (split; [first [reflexivity | assumption]|]).
    destruct D as [(us & U & R)|(X & R)]; [left; exists us; split; [exact U|]; intro t|right; split; [exact X|]]; now apply all_exc.
Qed.

Lemma dump_tracks : tracks (fun _ => True) (readDump k h) ref_dump.
Proof.
  unfold readDump, ref_dump. apply tracks_bind with (P := fun _ => False); [apply signature_tracks| |contradiction]. intro v2. cbn [fst snd].
  apply (tracks_bind _ _ (fun _ => False) _ _ ref_flags _ (fun q => r <- ref_integer v2 (snd q);; s <- ref_fp (snd r);; ref_regions (S (length (snd s))) (snd s))); [apply flags_tracks| |contradiction]. intros []. cbn [fst snd].
  apply (tracks_bind _ _ (fun _ => False) _ _ (ref_integer v2) _ (fun r => s <- ref_fp (snd r);; ref_regions (S (length (snd s))) (snd s))); [apply integer_tracks| |contradiction]. intros []. cbn [fst snd].
  apply (tracks_bind _ _ (fun _ => False) _ _ ref_fp _ (fun s => ref_regions (S (length (snd s))) (snd s))); [apply fp_tracks| |contradiction]. intros []. cbn [fst snd].
  unfold readMemoryRegions. intros rest w f Hw Hf. unfold bind. destruct (get_text h F N rest w f Hf) as (fl & -> & L). now apply regions_tracks.
Qed.
End Track.

(** ** The outer function *)

Lemma region_ends us w us' w' : ref_region us w = Ret (true, us') w' -> us' = [].
Proof.
  unfold ref_region, bind at 1. destruct (ref_read Local 8 us w) as [[bs us1] w1|w1|] eqn:R; try discriminate. apply read_inv in R as (_ & L & _).
  destruct (_ && _); [discriminate|]. destruct (Nat.eqb_spec (length bs) 0) as [Z|_]; [destruct L as [L| ->]; [lia|]; intro H; injection H as <- _; reflexivity|].
  destruct (negb _); [discriminate|]. cbv zeta. unfold bind at 1. match goal with |- context[try_ ?a ?b ?c w1] => destruct (try_ a b c w1) as [us2 w2|w2|] end; discriminate.
Qed.
Lemma regions_end : forall n us w u t w', ref_regions n us w = Ret (u, t) w' -> t = [].
Proof.
  induction n as [|n IH]; intros us w u t w'; [discriminate|]. cbn [ref_regions]. unfold bind. destruct (ref_region us w) as [[[|] us1] w1|w1|] eqn:R; try discriminate; cbn [fst snd].
  - intro H. injection H as _ <- _. now apply region_ends in R.
  - apply IH.
Qed.
Lemma dump_ends us w u t w' : ref_dump us w = Ret (u, t) w' -> t = [].
Proof.
  unfold ref_dump, bind. destruct (ref_signature us w) as [p w1|w1|]; try discriminate. destruct (ref_flags (snd p) w1) as [q w2|w2|]; try discriminate.
  destruct (ref_integer (fst p) (snd q) w2) as [r w3|w3|]; try discriminate. destruct (ref_fp (snd r) w3) as [x w4|w4|]; try discriminate. apply regions_end.
Qed.

Lemma read_faulty k name data R w :
  Inv R w -> file_is w name data -> Forall byte data -> ctx_sane w -> ~ cannot_open w name ->
  exists cut rest w' f', data = cut ++ rest /\ fs_open f' = fs_open (w_files w) /\
    ((w_code w' = 0 /\ (exists t, ref_dump (units k cut) (set_exn w noException []) = Ret (tt, t) w') /\ api (CrashCatcherDump_Read k name) w = Done tt (set_files w' f') /\
      (rest = [] \/ fault_between w (set_files w' f'))) \/
     (ref_dump (units k cut) (set_exn w noException []) = Exc w' /\ api (CrashCatcherDump_Read k name) w = Raised (w_code w') (set_files w' f') /\
      (rest = [] \/ fault_between w (set_files w' f')))).
Proof.
  intros HI HF HB HC HN. pose proof (read_safe k name w R HI HC ltac:(intros d Hd; unfold file_is in *; congruence)) as SF. set (w0 := set_exn w noException []).
  set (h := fs_next (w_files w)). set (G := fs_open (w_files w)).
  set (f0 := mkFiles ((h, mkFile data 0) :: G) (S h) (S (fs_calls (w_files w))) (name :: fs_opened (w_files w))).
  assert (EO : openDump name w0 = Ret h (set_files w0 f0)).
  { unfold openDump, fopen, bind, next_io. cbn [w_files w_env set_files w0 set_exn fs_calls fs_open fs_next fs_opened]. rewrite HF. unfold cannot_open in HN.
    destruct (e_io (w_env w) (fs_calls (w_files w))); [reflexivity|tauto|reflexivity]. }
  assert (H1 : fine (w_env w) w0) by (split; [reflexivity|]; split; [exact HC|]; exact (Z.le_refl 0)).
  assert (H2 : at_text h G (length data) data f0) by (exists data, 0%nat; split; [reflexivity|auto]).
  pose proof (dump_tracks k h G (length data) (w_env w) data w0 f0 H1 H2) as T.
  assert (CL : forall w1 f1 t, at_text h G (length data) t f1 -> exists f2, fclose h (set_files w1 f1) = Ret tt (set_files w1 f2) /\ fs_open f2 = G /\ fs_calls f2 = fs_calls f1).
  { intros w1 f1 t (dd & pos & Ho & _). unfold fclose, bind, get_file. cbn [w_files set_files]. rewrite Ho. cbn [lookup_file].
    rewrite Nat.eqb_refl. cbn [w_files set_files]. rewrite Ho. cbn [remove_file]. rewrite Nat.eqb_refl. eexists. split; [reflexivity|]. split; reflexivity. }
  revert SF. unfold api, CrashCatcherDump_Read, try_. fold w0. unfold bind, lift, setl, getl. cbn [fst snd]. change (openDump name w0) with (openDump name (set_exn w0 noException [])) in EO. rewrite EO. cbn [fst snd].
  change (set_exn w0 noException []) with w0 in *.
  destruct (readDump k h (set_files w0 f0)) as [[] v|v|]; [| |intros []].
  - destruct T as (c & rest1 & w1 & f1 & E1 & -> & Hw1 & A1 & L1 & D). destruct (CL w1 f1 rest1 A1) as (f2 & EC & O2 & C2). unfold destructObject. cbn [fst snd]. rewrite EC. cbn [fst snd w_code set_files].
    assert (X : exists cut rest, data = cut ++ rest /\ (exists t, ref_dump (units k cut) w0 = Ret (tt, t) w1) /\ (rest = [] \/ faulted (w_env w) f0 f1)).
    { destruct D as [(us & U & Rr)|(_ & X & t & Rr)].
      - exfalso. specialize (Rr [None]). apply dump_ends in Rr. discriminate.
      - exists c, rest1. split; [exact E1|]. split; [eauto|exact X]. }
    destruct X as (cut & rest & -> & (t & Er) & X).
    assert (w_code w1 = 0) as C0.
    { apply Forall_app in HB as (HB & _). pose proof (dump_cases R (units k cut) w0 (units_bytes k cut HB) (Inv_exn _ _ _ _ HI) HC eq_refl) as Q. rewrite Er in Q. apply Q. }
    rewrite C0. cbn [Z.eqb].
    intros _. exists cut, rest, w1, f2. split; [reflexivity|]. split; [exact O2|]. left. split; [exact C0|]. split; [eauto|]. split; [reflexivity|].
      destruct X as [X|(n & X1 & X2)]; [now left|right]. exists n. cbn [w_files set_files]. split; [|exact X2]. unfold f0 in X1. cbn [fs_calls] in X1. lia.
  - destruct T as (c & rest1 & w1 & f1 & E1 & -> & (Hw1 & C1) & A1 & L1 & D). destruct (CL w1 f1 rest1 A1) as (f2 & EC & O2 & C2). cbn [fst snd w_code set_files]. destruct (w_code w1 =? 0) eqn:Q; [lia|].
    unfold destructObject. rewrite EC. unfold rethrow, throw. cbn [w_code set_files w_msg]. rewrite Z.max_id. intros _.
    assert (X : exists cut rest, data = cut ++ rest /\ ref_dump (units k cut) w0 = Exc w1 /\ (rest = [] \/ faulted (w_env w) f0 f1)).
    { destruct D as [(us & U & Rr)|(X & Rr)]; [|eauto]. exists data, []. split; [now rewrite app_nil_r|]. split; [|now left]. rewrite E1, U. apply Rr. }
    destruct X as (cut & rest & Ed & Er & X). exists cut, rest, w1, f2. split; [exact Ed|]. split; [exact O2|]. right. split; [exact Er|]. split; [cbn [w_code set_exn]; destruct w1; reflexivity|].
    destruct X as [X|(n & X1 & X2)]; [now left|right]. exists n. cbn [w_files set_files]. split; [|exact X2]. unfold f0 in X1. cbn [fs_calls] in X1. lia.
Qed.

(** ** What is loaded from a whole dump *)

Lemma pairs_prefix : forall n a b, (length a <= n)%nat -> exists more, pairs (a ++ b) = pairs a ++ more.
Proof.
  induction n as [|n IH]; intros a b L.
  { destruct a; cbn [length] in L; [|lia]. exists (pairs b). reflexivity. }
  destruct a as [|x [|y a]]; [exists (pairs b); reflexivity|eexists; reflexivity|].
  cbn [length] in L. destruct (IH a b) as (more & E); [lia|]. exists more. cbn [app pairs]. now rewrite E.
Qed.
Lemma units_prefix k a b : exists more, units k (a ++ b) = units k a ++ more.
Proof.
  destruct k; cbn [units]; [exists (map Some b); apply map_app|]. rewrite significant_app'. apply (pairs_prefix (length (significant a))). apply le_n.
Qed.

Lemma app_same {A} (a b x y : list A) : length a = length b -> a ++ x = b ++ y -> a = b /\ x = y.
Proof.
  revert b. induction a as [|c a IH]; intros [|e b] L H; try discriminate; [auto|]. injection L as L. injection H as <- H. destruct (IH b L H) as (-> & ->). auto.
Qed.
Lemma le4_same a b : u32 a -> u32 b -> le 4 a = le 4 b -> a = b.
Proof. intros A B H. apply (f_equal of_le) in H. rewrite !W_of_le4 in H. now rewrite !W_id in H. Qed.
Lemma words_same : forall a b, Forall u32 a -> Forall u32 b -> length a = length b -> words a = words b -> a = b.
Proof.
  induction a as [|x a IH]; intros [|y b] A B L H; try discriminate; [reflexivity|]. inversion_clear A. inversion_clear B. unfold words in H. cbn [flat_map] in H.
  apply app_same in H as (E1 & E2); [|now rewrite !le_length]. f_equal; [now apply le4_same|]. apply IH; auto.
Qed.
Lemma regions_prefix : forall ms ms0 rest, Forall valid_region ms -> Forall valid_region ms0 ->
  flat_map enc_region ms0 = flat_map enc_region ms ++ rest -> exists more, ms0 = ms ++ more.
Proof.
  induction ms as [|[a bs] ms IH]; intros ms0 rest V V0 H; [exists ms0; reflexivity|]. inversion_clear V as [|? ? (A1 & A2 & A3) V']. cbn [fst snd] in *.
  destruct ms0 as [|[a0 bs0] ms0].
  { apply (f_equal (@length Z)) in H. cbn [flat_map] in H. unfold enc_region at 1 in H. rewrite !app_length, !le_length in H. cbn [length] in H. lia. }
  inversion_clear V0 as [|? ? (B1 & B2 & B3) V0']. cbn [fst snd] in *. cbn [flat_map] in H. unfold enc_region at 1 3 in H. cbn [fst snd] in H. rewrite <- !app_assoc in H.
  apply app_same in H as (E1 & H); [|now rewrite !le_length]. apply le4_same in E1; [|assumption|assumption]. subst a0.
  apply app_same in H as (E2 & H); [|now rewrite !le_length]. apply (f_equal of_le) in E2. rewrite !W_of_le4 in E2.
  assert (L : zlen bs0 = zlen bs) by (unfold W, u32 in *; lia).
  apply app_same in H as (-> & H); [|unfold zlen in L; lia]. destruct (IH ms0 rest V' V0' H) as (more & ->). exists more. reflexivity.
Qed.
Lemma encode_prefix d0 d rest : valid d0 -> valid d -> encode d0 = encode d ++ rest -> exists more, d_mem d0 = d_mem d ++ more /\ d = with_mem d0 (d_mem d).
Proof.
  intros (A1 & (A2 & A3) & A4 & (A5 & A6) & A7) (B1 & (B2 & B3) & B4 & (B5 & B6) & B7) H. destruct d0 as [v0 f0 r0 p0 x0 m0], d as [v f r p x m]. unfold has_fp, with_mem in *. cbn [d_v2 d_flags d_regs d_psr d_fp d_mem] in *.
  unfold encode, enc_head in H. cbn [d_v2 d_flags d_regs d_psr d_fp d_mem] in H. rewrite <- !app_assoc in H. apply app_inv_head in H.
  apply app_same in H as (E & H); [|destruct v0, v; reflexivity]. assert (v0 = v) by (destruct v0, v; [reflexivity|discriminate|discriminate|reflexivity]). subst v0.
  apply app_same in H as (E1 & H); [|now rewrite !le_length]. apply le4_same in E1; [|assumption|assumption]. subst f0.
  apply app_same in H as (E2 & H); [|rewrite !words_length; congruence]. apply words_same in E2; [|assumption|assumption|congruence]. subst r0.
  apply app_same in H as (E3 & H); [|now rewrite !le_length]. apply le4_same in E3; [|assumption|assumption]. subst p0.
  apply app_same in H as (E4 & H); [|rewrite !words_length; congruence]. apply words_same in E4; [|assumption|assumption|congruence]. subst x0.
  destruct (regions_prefix m m0 rest B7 A7 H) as (more & ->). exists more. auto.
Qed.

Lemma read_done k name data w w' : reachable w -> file_is w name data -> Forall byte data -> ctx_sane w -> api (CrashCatcherDump_Read k name) w = Done tt w' ->
  exists cut rest d, data = cut ++ rest /\ valid d /\ units k cut = map Some (encode d) /\ (fit (regions w) (d_mem d) -> loaded w w' d) /\ (rest = [] \/ fault_between w w').
Proof.
  intros HR HF HB HC HD. destruct (reachable_inv _ HR) as (R & HI).
  assert (HN : ~ cannot_open w name) by (intro X; destruct (read_missing k _ _ X) as (w1 & E & _); congruence).
  destruct (read_faulty k name data R w HI HF HB HC HN) as (cut & rest & w1 & f' & -> & HO & [(C0 & (t & ER) & EA & HX)|(_ & EA & _)]); [|congruence].
  rewrite HD in EA. injection EA as ->. apply Forall_app in HB as (HB & _).
  pose proof (dump_cases R (units k cut) (set_exn w noException []) (units_bytes k cut HB) (Inv_exn _ _ _ _ HI) HC eq_refl) as Q. rewrite ER in Q. destruct Q as ((d & HV & HU) & _).
  exists cut, rest, d. split; [reflexivity|]. split; [exact HV|]. split; [exact HU|]. split; [|exact HX]. intro Hfit.
  rewrite HU in ER. unfold encode in ER. rewrite map_app in ER. rewrite (head_run d _ (set_exn w noException []) HV HC) in ER.
  destruct (regions_run R [] (d_mem d) (set_ctx (set_exn w noException []) (context d (w_ctx w)))) as [(w2 & E & I' & G & C)|(w2 & E & _)];
    [apply Inv_ctx; now apply Inv_exn|apply HV|exact Hfit|reflexivity| |]; rewrite app_nil_r in E; cbn [w_ctx set_exn] in ER; rewrite E in ER; [|discriminate].
  change (ref_all [] w2) with (@Ret world (unit * stream) (tt, []) w2) in ER. injection ER as _ <-.
  pose proof G as (G1 & (G2 & G3 & G4 & G5 & G6 & G7 & G8) & G9 & G10). cbn [w_ctx set_ctx set_exn] in *.
  split; [exact G1|]. cbn [w_ctx w_files w_mem w_err w_faults w_gdb w_con w_env set_files set_exn]. repeat split; auto.
Qed.

Lemma read_whole k name data d w w' : reachable w -> file_is w name data -> Forall byte data -> ctx_sane w -> valid d -> units k data = map Some (encode d) -> fit (regions w) (d_mem d) ->
  api (CrashCatcherDump_Read k name) w = Done tt w' ->
  exists ms lost, d_mem d = ms ++ lost /\ loaded w w' (with_mem d ms) /\ (lost = [] \/ fault_between w w').
Proof.
  intros HR HF HB HC HV HU Hfit HD. destruct (read_done k name data w w' HR HF HB HC HD) as (cut & rest & d1 & -> & V1 & U1 & HL & HX).
  destruct (units_prefix k cut rest) as (more & EU). rewrite HU, U1 in EU.
  assert (P : exists tail, encode d = encode d1 ++ tail /\ more = map Some tail).
  { clear - EU. revert EU. generalize (encode d) (encode d1). intros a b. revert a. induction b as [|x b IH]; intros a E; [exists a; auto|]. destruct a as [|y a]; [discriminate|]. cbn [map app] in E. injection E as -> E.
    destruct (IH a E) as (tail & -> & ->). exists tail. auto. }
  destruct P as (tail & EP & Em). destruct (encode_prefix d d1 tail HV V1 EP) as (lost & EM & ED). exists (d_mem d1), lost. split; [exact EM|]. rewrite <- ED. split; [apply HL; rewrite EM in Hfit; eapply fit_prefix; eauto|].
  destruct HX as [->|HX]; [left|now right]. rewrite app_nil_r in HU. rewrite U1 in HU. apply map_some_inj in HU. rewrite ED in HU at 1. unfold encode, enc_head, with_mem in HU. cbn [d_v2 d_flags d_regs d_psr d_fp d_mem] in HU. unfold has_fp in HU. cbn [d_flags] in HU.
  apply app_inv_head in HU. rewrite EM, flat_map_app in HU. rewrite <- (app_nil_r (flat_map enc_region (d_mem d1))) in HU at 1. apply app_inv_head in HU. destruct lost as [|x lost]; [reflexivity|]. discriminate HU.
Qed.
