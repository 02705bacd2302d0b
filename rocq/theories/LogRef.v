(** The GDB log parser, with the file replaced by the list of its lines. *)
From Coq Require Import String ZArith List Bool Lia ZifyBool ZifyNat.
From Verif Require Import Base World Context MemSim GdbLog BaseLemmas MemSpec Sat MemLemmas DumpSpec DumpRef LogSpec LogFmt.
Import ListNotations.
Open Scope Z_scope.
Open Scope m_scope.

(** ** Lines *)

Lemma piece_take l rest : piece l rest -> take_line 1023 (l ++ rest) = l /\ l <> [].
Proof.
  assert (G : forall n l rest, ~ In 10 l -> (length l <= n)%nat -> take_line n (l ++ 10 :: rest) = l ++ (if Nat.ltb (length l) n then [10] else [])).
  { induction n as [|n IH]; intros [|c l0] r0 H L; cbn in *; try reflexivity; try lia.
    destruct (Z.eqb_spec c 10) as [->|]; [exfalso; apply H; now left|]. rewrite IH; [|intro X; apply H; now right|lia].
    cbn. reflexivity. }
  assert (G2 : forall n l rest, ~ In 10 l -> length l = n -> take_line n (l ++ rest) = l).
  { induction n as [|n IH]; intros [|c l0] r0 H L; cbn in L; try lia; [reflexivity|]. cbn.
    destruct (Z.eqb_spec c 10) as [->|]; [exfalso; apply H; now left|]. f_equal. apply IH; [intro X; apply H; now right|lia]. }
  assert (G3 : forall n l, ~ In 10 l -> (length l <= n)%nat -> take_line n l = l).
  { induction n as [|n IH]; intros [|c l0] H L; cbn in L; try lia; try reflexivity. cbn.
    destruct (Z.eqb_spec c 10) as [->|]; [exfalso; apply H; now left|]. f_equal. apply IH; [intro X; apply H; now right|lia]. }
  intros [(body & -> & H & L)|[(H & L)|(H & Hn & L & ->)]].
  - rewrite app_length in L. cbn in L. rewrite <- app_assoc. cbn [app]. rewrite G by (auto; lia).
    destruct (Nat.ltb_spec (length body) 1023); [|lia]. split; [reflexivity|]. intro X. apply app_eq_nil in X as [_ X]. discriminate.
  - split; [apply G2; auto|]. intros ->. discriminate.
  - rewrite app_nil_r. auto.
Qed.

Lemma take_piece rest : rest <> [] -> exists l r, rest = l ++ r /\ piece l r.
Proof.
  intro H0. assert (G : forall n rest, (exists body r, rest = body ++ 10 :: r /\ ~ In 10 body /\ (length body < n)%nat) \/
    (exists l r, rest = l ++ r /\ ~ In 10 l /\ length l = n) \/ (~ In 10 rest /\ (length rest < n)%nat)).
  { induction n as [|n IH]; intro l.
    - right. left. exists [], l. cbn. auto.
    - destruct l as [|c l].
      + right. right. cbn. split; [tauto|lia].
      + destruct (Z.eq_dec c 10) as [->|Hc].
        * left. exists [], l. cbn. split; [reflexivity|]. split; [tauto|lia].
        * assert (X : forall m, ~ In 10 m -> ~ In 10 (c :: m)) by (intros m Hm [Y|Y]; auto).
          destruct (IH l) as [(body & r & -> & H & L)|[(l1 & r & -> & H & L)|(H & L)]].
          -- left. exists (c :: body), r. cbn [app length]. split; [reflexivity|]. split; [now apply X|lia].
          -- right. left. exists (c :: l1), r. cbn [app length]. split; [reflexivity|]. split; [now apply X|lia].
          -- right. right. split; [now apply X|cbn; lia]. }
  destruct (G 1023%nat rest) as [(body & r & -> & H & L)|[(l1 & r & -> & H & L)|(H & L)]].
  - exists (body ++ [10]), r. split; [now rewrite <- app_assoc|]. left. exists body. split; [reflexivity|]. split; [exact H|]. rewrite app_length. cbn. lia.
  - exists l1, r. split; [reflexivity|]. right. left. auto.
  - exists rest, []. split; [now rewrite app_nil_r|]. right. right. repeat split; auto. lia.
Qed.

(** Every text has lines, and only one list of them. *)
Lemma lines_exist data : exists ls, lines data ls.
Proof.
  assert (G : forall n d, (length d <= n)%nat -> exists ls, lines d ls).
  { induction n as [|n IH]; intros d L.
    - destruct d; [|cbn in L; lia]. exists []. constructor.
    - destruct d as [|c d]; [exists []; constructor|]. destruct (take_piece (c :: d)) as (l & r & E & P); [discriminate|].
      destruct (piece_take _ _ P) as (_ & Hn). destruct (IH r) as (ls & H).
      + rewrite E, app_length in L. destruct l; [congruence|]. cbn in L. lia.
      + exists (l :: ls). rewrite E. now constructor. }
  eauto.
Qed.

Lemma lines_next data ls : lines data ls -> (data = [] /\ ls = []) \/
  exists l rest ls', data = l ++ rest /\ ls = l :: ls' /\ lines rest ls' /\ take_line 1023 data = l /\ l <> [].
Proof.
  intros [|l rest ls' P H]; [now left|]. right. destruct (piece_take _ _ P). eauto 10.
Qed.

Lemma lines_unique data ls : lines data ls -> forall ls', lines data ls' -> ls = ls'.
Proof.
  induction 1 as [|l rest ls P H IH]; intros ls' H'.
  - destruct (lines_next _ _ H') as [[_ ->]|(l & r & t & E & _ & _ & _ & Hn)]; [reflexivity|]. symmetry in E. apply app_eq_nil in E as [-> _]. congruence.
  - destruct (piece_take _ _ P) as (T & Hn). destruct (lines_next _ _ H') as [[E _]|(l1 & r & t & E & -> & H1 & T1 & _)].
    + apply app_eq_nil in E as [-> _]. congruence.
    + rewrite T in T1. subst l1. apply app_inv_head in E. subst r. f_equal. auto.
Qed.

Lemma lines_length data ls : lines data ls -> (length ls <= length data)%nat.
Proof.
  induction 1 as [|l rest ls P H IH]; [cbn; lia|]. destruct (piece_take _ _ P) as (_ & Hn). rewrite app_length. destruct l; [congruence|]. cbn. lia.
Qed.

(** ** The reference program *)

Definition o0 : pobj := mkPO 4294967295 0 4294967295.

Fixpoint feed (hd : pobj -> parse_result -> M world pobj) (o : pobj) (ls : list (list Z)) : M world pobj :=
  match ls with
  | [] => ret o
  | l :: t => o' <- hd o (parseLine (cstr l));; feed hd o' t
  end.

Definition finish (o : pobj) : M world unit := if negb (po_size o =? 0) then MemorySim_CreateRegion (po_start o) (po_size o) else ret tt.
Definition pass hd ls : M world unit := o <- feed hd o0 ls;; finish o.

Definition no_rewind : list Z := s2b "Failed to rewind GDB log for second pass.".
Definition ref_log (p1 : list (list Z)) (rw : bool) (p2 : list (list Z)) : M world unit :=
  initPSPandMSP ;;; pass firstPassHandler p1 ;;; (if rw then ret tt else throw_msg fileException no_rewind) ;;; pass secondPassHandler p2.

(** ** Independence of the file layer *)

Definition env_same (w w' : world) : Prop := w_env w' = w_env w.
Lemma env_pre : preorder env_same.
Proof. split; unfold env_same; congruence. Qed.

Lemma indep_writeN n a v : indep (writeN n a v).
Proof.
  unfold writeN. apply indep_bind.
  - intros w f. rewrite !getDataPointer_eq. cbv zeta. cbn [w_mem set_files].
    destruct (find_from _ _ _ _) as [[j a']|]; [|reflexivity]. destruct (nth_error _ _); [|reflexivity].
    repeat (match goal with |- context[if ?x then _ else _] => destruct x | |- context[let (_, _) := ?x in _] => destruct x end; try reflexivity).
  - intros p w f. unfold store_ptr, bind, get_region. cbn [w_mem set_files]. destruct (nth_error _ _); [|reflexivity].
    destruct (_ && _); reflexivity.
Qed.

Lemma env_writeN n a v : sat env_same (writeN n a v).
Proof.
  unfold writeN. apply sat_bind; [apply env_pre| |intro p].
  - intro w. rewrite getDataPointer_eq. cbv zeta.
    destruct (find_from _ _ _ _) as [[j a']|]; [|reflexivity]. destruct (nth_error _ _); [|exact I].
    repeat (match goal with |- context[if ?x then _ else _] => destruct x | |- context[let (_, _) := ?x in _] => destruct x end; try reflexivity; try exact I).
  - intro w. unfold store_ptr, bind, get_region. destruct (nth_error _ _); [|exact I]. destruct (_ && _); [reflexivity|exact I].
Qed.
Lemma env_create b s : sat env_same (MemorySim_CreateRegion b s).
Proof.
  intro w. rewrite CreateRegion_eq. cbv zeta. destruct (alloc_ok w 0 SIZEOF_REGION); cbn [negb]; [|reflexivity]. destruct (alloc_ok w 1 s); reflexivity.
Qed.
Lemma env_ctx_put o b : sat env_same (ctx_put o b).
Proof. intro w. unfold ctx_put. destruct (_ && _); [reflexivity|exact I]. Qed.
Lemma indep_ctx_word o : indep (ctx_word o).
Proof. intros w f. unfold ctx_word. cbn [w_ctx set_files]. destruct (_ && _); reflexivity. Qed.
Lemma env_ctx_word o : sat env_same (ctx_word o).
Proof. intro w. unfold ctx_word. destruct (_ && _); [reflexivity|exact I]. Qed.

Definition tame {A} (m : M world A) : Prop := indep m /\ sat env_same m.
Lemma tame_ret A (a : A) : tame (ret a).
Proof. split; [apply indep_ret|apply sat_ret, env_pre]. Qed.
Lemma tame_bind A B (m : M world A) (g : A -> M world B) : tame m -> (forall a, tame (g a)) -> tame (bind m g).
Proof. intros [H1 H2] H. split; [apply indep_bind; [exact H1|apply H]|apply sat_bind; [apply env_pre|exact H2|apply H]]. Qed.
Lemma tame_create b s : tame (MemorySim_CreateRegion b s).
Proof. split; [apply indep_create|apply env_create]. Qed.
Lemma tame_put o b : tame (ctx_put o b).
Proof. split; [apply indep_ctx_put|apply env_ctx_put]. Qed.
Lemma tame_word o : tame (ctx_word o).
Proof. split; [apply indep_ctx_word|apply env_ctx_word]. Qed.
Lemma tame_values vs : forall a, tame (writeValues a vs).
Proof.
  induction vs as [|v vs IH]; intro a; cbn [writeValues]; [apply tame_ret|]. apply tame_bind; [|auto]. split; [apply indep_writeN|apply env_writeN].
Qed.
Lemma tame_throw A e m : tame (throw_msg e m : M world A).
Proof. split; [intros w f; reflexivity|intro w; reflexivity]. Qed.

Definition tame_handler (hd : pobj -> parse_result -> M world pobj) : Prop := forall o p, tame (hd o p).

Lemma tame_first : tame_handler firstPassHandler.
Proof.
  intros o [a vs|off v|]; cbn [firstPassHandler]; [| |apply tame_ret].
  - unfold firstPassMemoryHandler. cbv zeta. apply tame_bind; [|intro; apply tame_ret].
    destruct (negb _); [|apply tame_ret]. apply tame_bind; [|intro; apply tame_ret]. destruct (negb _); [apply tame_create|apply tame_ret].
  - apply tame_bind; [|intro; apply tame_ret]. unfold firstPassRegisterHandler. apply tame_bind; [|intro; apply tame_put].
    destruct (isFloatingPointRegister off); [|apply tame_ret]. apply tame_bind; [apply tame_word|intro; apply tame_put].
Qed.
Lemma tame_second : tame_handler secondPassHandler.
Proof.
  intros o [a vs|off v|]; cbn [secondPassHandler]; try apply tame_ret. apply tame_bind; [apply tame_values|intro; apply tame_ret].
Qed.
Lemma tame_finish o : tame (finish o).
Proof. unfold finish. destruct (negb _); [apply tame_create|apply tame_ret]. Qed.
Lemma tame_init : tame initPSPandMSP.
Proof. apply tame_bind; [|intro]; apply tame_put. Qed.

(** ** Reading the lines *)

Section Follow.
Variable h : nat.
Variable F : list (nat * file).
Variable data : list Z.

Definition at_log (rest : list Z) (f : files) : Prop := exists pos, fs_open f = (h, mkFile data pos) :: F /\ skipn pos data = rest.
Definition at_any (f : files) : Prop := exists pos, fs_open f = (h, mkFile data pos) :: F.

Lemma at_log_any rest f : at_log rest f -> at_any f.
Proof. intros (pos & H & _). exists pos. exact H. Qed.

(** The next [n] I/O calls do not fail. *)
Definition calm (w : world) (f : files) (n : nat) : Prop := forall i, (fs_calls f <= i < fs_calls f + n)%nat -> e_io (w_env w) i = IoOk.
(** The I/O calls do not fail from now on. *)
Definition quiet_io (w : world) : Prop := forall n, e_io (w_env w) n = IoOk.

Lemma fgets_log rest w f : at_log rest f ->
  (exists f', fgets h 1024 (set_files w f) = Ret None (set_files w f') /\ at_any f' /\ (e_io (w_env w) (fs_calls f) = IoOk -> rest = []) /\ fs_calls f' = S (fs_calls f)) \/
  (rest <> [] /\ exists f', fgets h 1024 (set_files w f) = Ret (Some (take_line 1023 rest)) (set_files w f') /\
     at_log (skipn (length (take_line 1023 rest)) rest) f' /\ fs_calls f' = S (fs_calls f)).
Proof.
  intros (pos & Ho & Hr). unfold fgets, bind, next_io, get_file, put_file, ret. cbn [w_files w_env set_files fs_open fs_calls fs_next fs_opened].
  rewrite Ho. cbn [lookup_file]. rewrite Nat.eqb_refl. cbn [f_data f_pos]. rewrite Hr. change (1024 - 1)%nat with 1023%nat.
  destruct (e_io (w_env w) (fs_calls f)) eqn:E.
  2:{ left. eexists. split; [reflexivity|]. split; [exists pos; reflexivity|]. split; [discriminate|reflexivity]. }
  all: destruct rest as [|c t];
    [left; cbn [take_line]; eexists; split; [reflexivity|]; split; [exists pos; reflexivity|]; split; [auto|reflexivity]
    |right; split; [discriminate|]; destruct (take_line 1023 (c :: t)) as [|x y] eqn:ET;
      [exfalso; change 1023%nat with (S 1022) in ET; cbn [take_line] in ET; destruct (c =? 10); discriminate
      |cbn [update_file w_files set_files fs_open f_data f_pos fs_calls fs_next fs_opened]; rewrite ?Nat.eqb_refl;
       eexists; split; [reflexivity|]; split; [exists (pos + length (x :: y))%nat; split; [reflexivity|];
       rewrite <- Hr, BaseLemmas.skipn_skipn; f_equal; lia|reflexivity]]].
Qed.

Lemma skipn_app_exact {A} (l m : list A) : skipn (length l) (l ++ m) = m.
Proof. rewrite skipn_app, skipn_all, Nat.sub_diag. reflexivity. Qed.

Lemma loop_follows hd (HT : tame_handler hd) : forall fuel rest ls o w f,
  (length rest < fuel)%nat -> lines rest ls -> at_log rest f ->
  exists p q, ls = p ++ q /\ (calm w f (S (length ls)) -> q = []) /\
  match feed hd o p w with
  | Ret o' w' => exists f', lineLoop fuel h hd o (set_files w f) = Ret o' (set_files w' f') /\ at_any f' /\ (q = [] -> fs_calls f' = (fs_calls f + S (length ls))%nat)
  | Exc w' => exists f', lineLoop fuel h hd o (set_files w f) = Exc (set_files w' f') /\ at_any f'
  | Ub u => lineLoop fuel h hd o (set_files w f) = Ub u
  end.
Proof.
  induction fuel as [|fuel IH]; intros rest ls o w f L HL Hf; [lia|]. cbn [lineLoop]. unfold bind.
  destruct (fgets_log rest w f Hf) as [(f1 & -> & H1 & Q & K)|(Hn & f1 & -> & H1 & K)].
  - exists [], ls. split; [reflexivity|]. cbn [feed]. split.
    + intro X. assert (X' : e_io (w_env w) (fs_calls f) = IoOk) by (apply X; lia). specialize (Q X'). subst rest. inversion HL as [|l r ls' P _ E]; [reflexivity|]. apply app_eq_nil in E as [-> _]. destruct (piece_take _ _ P) as (_ & Y). congruence.
    + unfold ret. exists f1. split; [reflexivity|]. split; [exact H1|]. intros ->. cbn [length]. lia.
  - destruct (lines_next _ _ HL) as [[-> _]|(l & r & ls' & E & -> & HL' & T & Hl)]; [congruence|]. rewrite T in *. subst rest. rewrite skipn_app_exact in H1.
    destruct (HT o (parseLine (cstr l))) as [HI HE]. rewrite HI. specialize (HE w). destruct (hd o (parseLine (cstr l)) w) as [o1 w1|w1|u] eqn:EH; cbn [omap].
    + destruct (IH r ls' o1 w1 f1) as (p & q & E2 & Q & M); [rewrite app_length in L; destruct l; [congruence|]; cbn in L; lia|exact HL'|exact H1|].
      exists (l :: p), q. split; [cbn; now rewrite E2|]. split; [intro X; apply Q; intros n Hn'; rewrite HE; apply X; cbn [length]; lia|]. cbn [feed]. unfold bind. rewrite EH.
      destruct (feed hd o1 p w1) as [o2 w2|w2|u]; [|exact M|exact M]. destruct M as (f2 & E3 & H3 & C3). exists f2. split; [exact E3|]. split; [exact H3|]. intro Eq. rewrite (C3 Eq). cbn [length]. lia.
    + exists (l :: ls'), []. rewrite app_nil_r. split; [reflexivity|]. split; [reflexivity|]. cbn [feed]. unfold bind. rewrite EH. exists f1. split; [reflexivity|]. eapply at_log_any; eauto.
    + exists (l :: ls'), []. rewrite app_nil_r. split; [reflexivity|]. split; [reflexivity|]. cbn [feed]. unfold bind. rewrite EH. reflexivity.
Qed.

Lemma parse_follows hd (HT : tame_handler hd) ls w f : lines data ls -> at_log data f ->
  exists p q, ls = p ++ q /\ (calm w f (S (length ls)) -> q = []) /\
  match pass hd p w with
  | Ret _ w' => exists f', parseLines h hd (set_files w f) = Ret tt (set_files w' f') /\ at_any f' /\ (q = [] -> fs_calls f' = (fs_calls f + S (length ls))%nat)
  | Exc w' => exists f', parseLines h hd (set_files w f) = Exc (set_files w' f') /\ at_any f'
  | Ub u => parseLines h hd (set_files w f) = Ub u
  end.
Proof.
  intros HL Hf. destruct (loop_follows hd HT (S (length data)) data ls o0 w f (Nat.lt_succ_diag_r _) HL Hf) as (p & q & E & Q & M).
  exists p, q. split; [exact E|]. split; [exact Q|]. unfold pass, parseLines, bind. destruct Hf as (pos & Ho & _).
  unfold get_file. cbn [w_files set_files]. rewrite Ho. cbn [lookup_file]. rewrite Nat.eqb_refl. cbn [f_data]. fold o0.
  destruct (feed hd o0 p w) as [o w1|w1|u].
  - destruct M as (f1 & -> & H1 & C1). fold (finish o). destruct (tame_finish o) as [HI _]. rewrite HI. destruct (finish o w1) as [[] w2|w2|u]; cbn [omap]; eauto.
  - destruct M as (f1 & -> & H1). eauto.
  - now rewrite M.
Qed.

Definition can (w : world) (n : nat) : bool := match e_io (w_env w) n with IoFail => false | _ => true end.
Lemma rewind_follows w f : at_any f -> exists rw, rw = can w (fs_calls f) /\
  match (if rw : bool then ret tt else throw_msg fileException no_rewind) w with
  | Ret _ w' => exists f', rewindLogFile h (set_files w f) = Ret tt (set_files w' f') /\ at_log data f'
  | Exc w' => exists f', rewindLogFile h (set_files w f) = Exc (set_files w' f') /\ at_any f'
  | Ub u => False
  end.
Proof.
  intros (pos & Ho). unfold rewindLogFile, fseek_start, bind, next_io, get_file, put_file, ret. cbn [w_files w_env set_files fs_open fs_calls fs_next fs_opened].
  rewrite Ho. cbn [lookup_file]. rewrite Nat.eqb_refl. cbn [f_data f_pos update_file].
  unfold can. destruct (e_io (w_env w) (fs_calls f)) eqn:E.
  - exists true. split; [reflexivity|]. cbn [w_files set_files fs_open fs_calls fs_next fs_opened update_file]. rewrite ?Ho. cbn [update_file]. rewrite ?Nat.eqb_refl. eexists. split; [reflexivity|]. exists 0%nat. split; reflexivity.
  - exists false. split; [reflexivity|]. eexists. split; [reflexivity|]. exists pos. reflexivity.
  - exists true. split; [reflexivity|]. cbn [w_files set_files fs_open fs_calls fs_next fs_opened update_file]. rewrite ?Ho. cbn [update_file]. rewrite ?Nat.eqb_refl. eexists. split; [reflexivity|]. exists 0%nat. split; reflexivity.
Qed.

(** The three steps after opening. *)
Lemma body_follows ls w f : lines data ls -> at_log data f ->
  exists p1 q1 rw p2 q2, ls = p1 ++ q1 /\ ls = p2 ++ q2 /\ (quiet_io w -> q1 = [] /\ rw = true /\ q2 = []) /\
  (calm w f (S (length ls)) -> q1 = [] /\ rw = can w (fs_calls f + S (length ls))) /\
  let m := (initPSPandMSP ;;; parseLines h firstPassHandler ;;; rewindLogFile h ;;; parseLines h secondPassHandler)%m in
  match ref_log p1 rw p2 w with
  | Ret _ w' => exists f', m (set_files w f) = Ret tt (set_files w' f') /\ at_any f'
  | Exc w' => exists f', m (set_files w f) = Exc (set_files w' f') /\ at_any f'
  | Ub u => m (set_files w f) = Ub u
  end.
Proof.
  intros HL Hf. cbv zeta. unfold ref_log. destruct tame_init as [HI HE]. specialize (HE w). unfold bind at 1. unfold bind at 3. unfold bind at 5. unfold bind at 7.
  assert (CQ : quiet_io w -> forall n, can w n = true) by (intros Q n; unfold can; now rewrite Q).
  rewrite HI. destruct (initPSPandMSP w) as [u0 w0|w0|u]; cbn [omap].
  2:{ exists ls, [], (can w (fs_calls f + S (length ls))), ls, []. rewrite app_nil_r. split; [reflexivity|]. split; [reflexivity|]. split; [auto|]. split; [auto|].
      exists f. split; [reflexivity|]. eapply at_log_any; eauto. }
  2:{ exists ls, [], (can w (fs_calls f + S (length ls))), ls, []. rewrite app_nil_r. split; [reflexivity|]. split; [reflexivity|]. split; [auto|]. auto. }
  destruct (parse_follows firstPassHandler tame_first ls w0 f HL Hf) as (p1 & q1 & E1 & Q1 & M1). exists p1, q1.
  assert (Q1' : calm w f (S (length ls)) -> q1 = []) by (intro Q; apply Q1; intros n Hn; rewrite HE; now apply Q). clear Q1.
  assert (Q1 : quiet_io w -> q1 = []) by (intro Q; apply Q1'; intros n _; apply Q).
  unfold bind at 1. unfold bind at 2. unfold bind at 3. unfold bind at 4.
  assert (HE1 : sat env_same (pass firstPassHandler p1)).
  { apply sat_bind; [apply env_pre| |intro o; apply tame_finish]. generalize o0. clear -p1. induction p1 as [|l p IH]; intro o; cbn [feed]; [apply sat_ret, env_pre|].
    apply sat_bind; [apply env_pre|apply tame_first|intro; apply IH]. }
  specialize (HE1 w0). destruct (pass firstPassHandler p1 w0) as [u1 w1|w1|u].
  2:{ exists (can w (fs_calls f + S (length ls))), ls, []. rewrite app_nil_r. split; [exact E1|]. split; [reflexivity|]. split; [auto|]. split; [auto|].
      destruct M1 as (f1 & -> & H1). eauto. }
  2:{ exists (can w (fs_calls f + S (length ls))), ls, []. rewrite app_nil_r. split; [exact E1|]. split; [reflexivity|]. split; [auto|]. split; [auto|]. now rewrite M1. }
  destruct M1 as (f1 & -> & H1 & C1). destruct (rewind_follows w1 f1 H1) as (rw & Q2 & M2). exists rw.
  unfold bind.
  assert (QW : quiet_io w -> quiet_io w1).
  { intros Q n. rewrite HE1, HE. apply Q. }
  assert (EC : forall n, can w1 n = can w n) by (intro n; unfold can; now rewrite HE1, HE).
  assert (CR : calm w f (S (length ls)) -> q1 = [] /\ rw = can w (fs_calls f + S (length ls))).
  { intro Q. specialize (Q1' Q). split; [exact Q1'|]. rewrite Q2, EC, (C1 Q1'). reflexivity. }
  assert (QR : quiet_io w -> rw = true) by (intro Q; rewrite Q2, EC; now apply CQ).
  assert (HE2 : sat env_same (if rw then ret tt else throw_msg fileException no_rewind)) by (destruct rw; [apply sat_ret, env_pre|apply tame_throw]).
  specialize (HE2 w1). destruct ((if rw then ret tt else throw_msg fileException no_rewind) w1) as [u2 w2|w2|u]; [| |destruct M2].
  2:{ exists ls, []. rewrite app_nil_r. split; [exact E1|]. split; [reflexivity|]. split; [auto|]. split; [exact CR|].
      destruct M2 as (f2 & -> & H2). eauto. }
  destruct M2 as (f2 & -> & H2). destruct (parse_follows secondPassHandler tame_second ls w2 f2 HL H2) as (p2 & q2 & E2 & Q3 & M3). exists p2, q2.
  split; [exact E1|]. split; [exact E2|]. split; [|split; [exact CR|]].
  - intro Q. split; [auto|]. split; [auto|]. apply Q3. intros n _. rewrite HE2. apply QW, Q.
  - destruct (pass secondPassHandler p2 w2) as [u3 w3|w3|u]; [|exact M3|exact M3]. destruct M3 as (f3 & E3 & H3 & _). eauto.
Qed.
End Follow.

(** ** The outer function *)

Lemma log_ref name data ls w :
  file_is w name data -> e_io (w_env w) (fs_calls (w_files w)) <> IoFail -> lines data ls ->
  exists p1 q1 rw p2 q2, ls = p1 ++ q1 /\ ls = p2 ++ q2 /\ (no_io_faults w -> q1 = [] /\ rw = true /\ q2 = []) /\
  ((forall i, (fs_calls (w_files w) < i <= fs_calls (w_files w) + S (length ls))%nat -> e_io (w_env w) i = IoOk) ->
   q1 = [] /\ rw = can w (S (fs_calls (w_files w)) + S (length ls))) /\
  match ref_log p1 rw p2 (set_exn w noException []) with
  | Ret _ w' => w_code w' = 0 ->
      exists f', api (GdbLogParse name) w = Done tt (set_files w' f') /\ fs_open f' = fs_open (w_files w)
  | Exc w' => w_code w' <> 0 -> exists f', api (GdbLogParse name) w = Raised (w_code w') (set_files w' f') /\ fs_open f' = fs_open (w_files w)
  | Ub u => api (GdbLogParse name) w = Crashed u
  end.
Proof.
  intros HF HN HL. set (w0 := set_exn w noException []).
  set (h := fs_next (w_files w)). set (F := fs_open (w_files w)).
  set (f0 := mkFiles ((h, mkFile data 0) :: F) (S h) (S (fs_calls (w_files w))) (name :: fs_opened (w_files w))).
  assert (EO : openLog name w0 = Ret h (set_files w0 f0)).
  { unfold openLog, fopen, bind, next_io. cbn [w_files w_env set_files w0 set_exn fs_calls fs_open fs_next fs_opened]. rewrite HF.
    destruct (e_io _ _); [reflexivity|congruence|reflexivity]. }
  assert (H2 : at_log h F data data f0) by (exists 0%nat; split; reflexivity).
  destruct (body_follows h F data ls w0 f0 HL H2) as (p1 & q1 & rw & p2 & q2 & E1 & E2 & Q & QC & HM). exists p1, q1, rw, p2, q2.
  split; [exact E1|]. split; [exact E2|]. split; [exact Q|]. split; [intro X; apply QC; intros i Hi; apply X; cbn [fs_calls f0] in Hi; lia|]. cbv zeta in HM.
  assert (CL : forall w1 f1, at_any h F data f1 -> exists f2, fclose h (set_files w1 f1) = Ret tt (set_files w1 f2) /\ fs_open f2 = F).
  { intros w1 f1 (pos & Ho). unfold fclose, bind, get_file. cbn [w_files set_files]. rewrite Ho. cbn [lookup_file].
    rewrite Nat.eqb_refl. cbn [w_files set_files]. rewrite Ho. cbn [remove_file]. rewrite Nat.eqb_refl. eexists. split; [reflexivity|]. reflexivity. }
  assert (AS : (initPSPandMSP ;;; parseLines h firstPassHandler ;;; rewindLogFile h ;;; parseLines h secondPassHandler ;;; fclose h)%m (set_files w0 f0) =
    match (initPSPandMSP ;;; parseLines h firstPassHandler ;;; rewindLogFile h ;;; parseLines h secondPassHandler)%m (set_files w0 f0) with
    | Ret _ x => fclose h x | Exc x => Exc x | Ub u => Ub u end).
  { unfold bind. destruct (initPSPandMSP (set_files w0 f0)) as [? x1| |]; [|reflexivity|reflexivity].
    destruct (parseLines h firstPassHandler x1) as [? x2| |]; [|reflexivity|reflexivity].
    destruct (rewindLogFile h x2) as [? x3| |]; reflexivity. }
  assert (EA : api (GdbLogParse name) w =
    match (initPSPandMSP ;;; parseLines h firstPassHandler ;;; rewindLogFile h ;;; parseLines h secondPassHandler ;;; fclose h)%m (set_files w0 f0) with
    | Ret _ x => if w_code x =? 0 then Done tt x else match (bind (fclose h) (fun _ => rethrow) : M world unit) x with Ret _ y => Done tt y | Exc y => Raised (w_code y) y | Ub u => Crashed u end
    | Exc x => if w_code x =? 0 then Done tt x else match (bind (fclose h) (fun _ => rethrow) : M world unit) x with Ret _ y => Done tt y | Exc y => Raised (w_code y) y | Ub u => Crashed u end
    | Ub u => Crashed u
    end).
  { unfold api, GdbLogParse, try_. fold w0.
    unfold bind at 1. unfold bind at 1. unfold lift at 1. cbn [fst snd]. change (set_exn w0 noException []) with w0. rewrite EO.
    unfold bind at 1. unfold setl at 1. cbn [fst snd]. unfold lift. cbn [fst snd].
    destruct ((initPSPandMSP ;;; parseLines h firstPassHandler ;;; rewindLogFile h ;;; parseLines h secondPassHandler ;;; fclose h)%m (set_files w0 f0)) as [u1 x|x|u]; [| |reflexivity].
    all: destruct (w_code x =? 0); [reflexivity|]; unfold bind, rethrow, throw; destruct (fclose h x); reflexivity. }
  rewrite EA, AS. clear EA AS. destruct (ref_log p1 rw p2 w0) as [[] w'|w'|u].
  - intro C. destruct HM as (f1 & -> & H1). destruct (CL w' f1 H1) as (f2 & -> & Ho). cbn [w_code set_files]. rewrite C. cbn [Z.eqb]. eauto.
  - intro C. destruct HM as (f1 & -> & H1). cbn [w_code set_files]. destruct (w_code w' =? 0) eqn:Q0; [lia|]. unfold bind.
    destruct (CL w' f1 H1) as (f2 & -> & Ho). unfold rethrow, throw. cbn [w_code set_files set_exn w_msg]. rewrite Z.max_id. exists f2. split; [|exact Ho]. destruct w'; reflexivity.
  - rewrite HM. reflexivity.
Qed.

Lemma log_missing name w :
  e_fs (w_env w) name = None \/ e_io (w_env w) (fs_calls (w_files w)) = IoFail ->
  exists w', api (GdbLogParse name) w = Raised fileException w' /\ w_mem w' = w_mem w /\ w_heap w' = w_heap w /\ w_ctx w' = w_ctx w /\
    fs_open (w_files w') = fs_open (w_files w) /\ w_err w' = w_err w /\ w_faults w' = w_faults w /\ w_gdb w' = w_gdb w /\ w_con w' = w_con w /\ w_env w' = w_env w.
Proof.
  intro H. unfold api, GdbLogParse, try_, bind, lift, setl. cbn [fst snd]. set (w0 := set_exn w noException []).
  change (set_exn w0 noException []) with w0.
  assert (EO : exists f0 m, openLog name w0 = Exc (set_exn (set_files w0 f0) fileException m) /\ fs_open f0 = fs_open (w_files w)).
  { unfold openLog, fopen, bind, next_io, w0. cbn [w_files w_env set_files set_exn fs_calls fs_open fs_next fs_opened].
    destruct H as [H|H]; rewrite H; [destruct (e_io _ _)|]; (eexists _, _; split; reflexivity). }
  destruct EO as (f0 & m & EO & Ho). rewrite EO. cbn [fst snd w_code set_exn]. change (fileException =? 0) with false. cbv iota. unfold ret, rethrow, throw.
  cbn [w_code set_exn]. eexists. split; [reflexivity|]. cbn. repeat split. exact Ho.
Qed.
