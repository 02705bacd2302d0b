(** A relation between two runs, kept by every function of the program: the same computations on data that
    are the same except for the names of heap blocks and file handles. *)
From Coq Require Import ZArith List Bool Lia ZifyBool ZifyNat.
From Verif Require Import Base World Context MemSim Dump GdbLog Elf CmdLine Platform Comm MainProg MemSpec PlatSpec ReproSpec.
Import ListNotations.
Open Scope Z_scope.

Definition orel {A B} (R : A -> B -> Prop) (x : option A) (y : option B) : Prop :=
  match x, y with Some a, Some b => R a b | None, None => True | _, _ => False end.

Definition rel {S1 S2 A B} (P : S1 -> S2 -> Prop) (R : A -> B -> Prop) (m1 : M S1 A) (m2 : M S2 B) : Prop :=
  forall x y, P x y ->
  match m1 x, m2 y with
  | Ret a x', Ret b y' => R a b /\ P x' y'
  | Exc x', Exc y' => P x' y'
  | Ub u, Ub v => u = v
  | _, _ => False
  end.

Lemma rel_ret {S1 S2 A B} (P : S1 -> S2 -> Prop) (R : A -> B -> Prop) a b : R a b -> rel P R (ret a) (ret b).
Proof. intros H x y HP. split; assumption. Qed.
Lemma rel_ub {S1 S2 A B} (P : S1 -> S2 -> Prop) (R : A -> B -> Prop) u : rel P R (fail_ub u) (fail_ub u).
Proof. intros x y HP. reflexivity. Qed.
Lemma rel_bind {S1 S2 A B C D} (P : S1 -> S2 -> Prop) (R : A -> B -> Prop) (Q : C -> D -> Prop) m1 m2 f1 f2 :
  rel P R m1 m2 -> (forall a b, R a b -> rel P Q (f1 a) (f2 b)) -> rel P Q (bind m1 f1) (bind m2 f2).
Proof.
  intros H1 H2 x y HP. specialize (H1 x y HP). unfold bind.
  destruct (m1 x) as [a x'|x'|u]; destruct (m2 y) as [b y'|y'|v]; try contradiction; auto.
  destruct H1 as [H1 H3]. exact (H2 a b H1 x' y' H3).
Qed.
Lemma rel_weaken {S1 S2 A B} (P : S1 -> S2 -> Prop) (R Q : A -> B -> Prop) m1 m2 :
  (forall a b, R a b -> Q a b) -> rel P R m1 m2 -> rel P Q m1 m2.
Proof.
  intros H H1 x y HP. specialize (H1 x y HP). destruct (m1 x) as [a x'|x'|u]; destruct (m2 y) as [b y'|y'|v]; try contradiction; auto.
  destruct H1; split; auto.
Qed.

Lemma rel_getw {A B} (P : world -> world -> Prop) (R : A -> B -> Prop) f g :
  (forall w w', P w w' -> rel P R (f w) (g w')) -> rel P R (bind getw f) (bind getw g).
Proof. intros H x y HP. exact (H x y HP x y HP). Qed.

(** With different relations before, after a return, and after an exception. *)
Definition hrel {S1 S2 A B} (P Q E : S1 -> S2 -> Prop) (R : A -> B -> Prop) (m1 : M S1 A) (m2 : M S2 B) : Prop :=
  forall x y, P x y ->
  match m1 x, m2 y with
  | Ret a x', Ret b y' => R a b /\ Q x' y'
  | Exc x', Exc y' => E x' y'
  | Ub u, Ub v => u = v
  | _, _ => False
  end.
Lemma hrel_bind {S1 S2 A B C D} (P Q Q' E : S1 -> S2 -> Prop) (R : A -> B -> Prop) (R' : C -> D -> Prop) m1 m2 f1 f2 :
  hrel P Q E R m1 m2 -> (forall a b, R a b -> hrel Q Q' E R' (f1 a) (f2 b)) -> hrel P Q' E R' (bind m1 f1) (bind m2 f2).
Proof.
  intros H1 H2 x y HP. specialize (H1 x y HP). unfold bind.
  destruct (m1 x) as [a x'|x'|u]; destruct (m2 y) as [b y'|y'|v]; try contradiction; auto.
  destruct H1 as [H1 H3]. exact (H2 a b H1 x' y' H3).
Qed.
Lemma hrel_of {S1 S2 A B} (P E : S1 -> S2 -> Prop) (R : A -> B -> Prop) m1 m2 : (forall x y, P x y -> E x y) -> rel P R m1 m2 -> hrel P P E R m1 m2.
Proof. intros HE H x y HP. specialize (H x y HP). destruct (m1 x); destruct (m2 y); auto. Qed.
Lemma hrel_exc {S1 S2 A B} (P E : S1 -> S2 -> Prop) (R : A -> B -> Prop) m1 m2 :
  (forall x x' y', m1 x = Exc x' -> P x' y' -> E x' y') -> rel P R m1 m2 -> hrel P P E R m1 m2.
Proof. intros HE H x y HP. specialize (H x y HP). specialize (HE x). destruct (m1 x); destruct (m2 y); eauto. Qed.

Section Repro.
Variables u1 u2 : world.
Variable args : list (list Z).
Hypothesis sane1 : heap_sane u1.
Hypothesis sane2 : heap_sane u2.
Hypothesis inputs : same_inputs args u1 u2.

(** ** The relation *)

Definition blk (a b : nat) : Prop := exists k, a = (h_next (w_heap u1) + k)%nat /\ b = (h_next (w_heap u2) + k)%nat.
Definition hdl (a b : nat) : Prop := exists k, a = (fs_next (w_files u1) + k)%nat /\ b = (fs_next (w_files u2) + k)%nat.

Definition brel {A} (x y : nat * A) : Prop := blk (fst x) (fst y) /\ snd x = snd y.

Record region_rel (r r' : region) : Prop := {
  rr_base : r_base r' = r_base r; rr_size : r_size r' = r_size r; rr_redir : r_redir r' = r_redir r; rr_raddr : r_raddr r' = r_raddr r;
  rr_data : r_data r' = r_data r; rr_wps : r_wps r' = r_wps r; rr_wpalloc : r_wpalloc r' = r_wpalloc r; rr_ro : r_ro r' = r_ro r;
  rr_rc : orel brel (r_rc r) (r_rc r');
  rr_bself : blk (r_bself r) (r_bself r'); rr_bdata : blk (r_bdata r) (r_bdata r'); rr_bwp : orel blk (r_bwp r) (r_bwp r') }.

Record mem_rel (m m' : mem) : Prop := {
  mr_regions : Forall2 region_rel (m_regions m) (m_regions m'); mr_xml : orel brel (m_xml m) (m_xml m'); mr_hits : m_hits m' = m_hits m }.

Record heap_rel (h h' : heap) : Prop := {
  hr_live : exists l l', h_live h = l ++ h_live (w_heap u1) /\ h_live h' = l' ++ h_live (w_heap u2) /\ Forall2 blk l l';
  hr_next : blk (h_next h) (h_next h');
  hr_calls : exists k, h_calls h = (h_calls (w_heap u1) + k)%nat /\ h_calls h' = (h_calls (w_heap u2) + k)%nat }.

Definition frel (x y : nat * file) : Prop := hdl (fst x) (fst y) /\ snd y = snd x.
Record files_rel (f f' : files) : Prop := {
  fr_open : Forall2 frel (fs_open f) (fs_open f');
  fr_next : hdl (fs_next f) (fs_next f');
  fr_calls : exists k, fs_calls f = (fs_calls (w_files u1) + k)%nat /\ fs_calls f' = (fs_calls (w_files u2) + k)%nat }.

Record con_rel (c c' : con) : Prop := {
  cr_polls : exists k, c_polls c = (c_polls (w_con u1) + k)%nat /\ c_polls c' = (c_polls (w_con u2) + k)%nat;
  cr_reads : exists k, c_reads c = (c_reads (w_con u1) + k)%nat /\ c_reads c' = (c_reads (w_con u2) + k)%nat;
  cr_writes : exists k, c_writes c = (c_writes (w_con u1) + k)%nat /\ c_writes c' = (c_writes (w_con u2) + k)%nat;
  cr_out : exists d, c_out c = c_out (w_con u1) ++ d /\ c_out c' = c_out (w_con u2) ++ d }.

(** [b]: the memory is in use; [s]: the session has been initialised. *)
Record sim (b s : bool) (w w' : world) : Prop := {
  s_mem : b = true -> mem_rel (w_mem w) (w_mem w');
  s_heap : heap_rel (w_heap w) (w_heap w');
  s_files : files_rel (w_files w) (w_files w');
  s_code : w_code w' = w_code w;
  s_msg : w_msg w' = w_msg w;
  s_ctx : w_ctx w' = w_ctx w;
  s_err : exists d, w_err w = d ++ w_err u1 /\ w_err w' = d ++ w_err u2;
  s_faults : s = true -> w_faults w' = w_faults w;
  s_gdb : exists d, w_gdb w = d ++ w_gdb u1 /\ w_gdb w' = d ++ w_gdb u2;
  s_con : con_rel (w_con w) (w_con w');
  s_connected : s = true -> c_connected (w_con w') = c_connected (w_con w);
  s_env1 : w_env w = w_env u1;
  s_env2 : w_env w' = w_env u2 }.

(** With local variables. *)
Definition simL {L} (RL : L -> L -> Prop) (b s : bool) (x y : L * world) : Prop := RL (fst x) (fst y) /\ sim b s (snd x) (snd y).

Section Level.
Variables b s : bool.
Notation sim_ := (sim b s).

Lemma rel_lift L A (RL : L -> L -> Prop) (R : A -> A -> Prop) m1 m2 :
  rel sim_ R m1 m2 -> rel (simL RL b s) R (lift m1) (lift m2).
Proof.
  intros H [l w] [l' w'] [HL HS]. cbn [fst snd] in *. specialize (H w w' HS). unfold lift. cbn [fst snd].
  destruct (m1 w); destruct (m2 w'); try contradiction; auto; [destruct H; split; [assumption|]|]; split; assumption.
Qed.
Lemma rel_setl L (RL : L -> L -> Prop) l l' : RL l l' -> rel (simL RL b s) eq (setl l) (setl l').
Proof. intros H [k w] [k' w'] [HL HS]. split; [reflexivity|]. split; assumption. Qed.
Lemma rel_getl L (RL : L -> L -> Prop) : rel (simL RL b s) RL getl getl.
Proof. intros [k w] [k' w'] [HL HS]. split; [assumption|]. split; assumption. Qed.

Lemma sim_exn w w' c m : sim_ w w' -> sim_ (set_exn w c m) (set_exn w' c m).
Proof. intros []. constructor; auto. Qed.

Lemma rel_try L (RL : L -> L -> Prop) l l' b1 b2 h1 h2 :
  RL l l' -> rel (simL RL b s) eq b1 b2 -> (forall x y, RL x y -> rel sim_ RL (h1 x) (h2 y)) ->
  rel sim_ RL (try_ l b1 h1) (try_ l' b2 h2).
Proof.
  intros HL HB HH w w' HS. unfold try_. specialize (HB (l, set_exn w noException []) (l', set_exn w' noException [])).
  assert (P : simL RL b s (l, set_exn w noException []) (l', set_exn w' noException [])) by (split; [exact HL|now apply sim_exn]).
  specialize (HB P). destruct (b1 _) as [a [k v]|[k v]|u]; destruct (b2 _) as [a' [k' v']|[k' v']|u']; try contradiction; auto;
    [destruct HB as [_ [H1 H2]]|destruct HB as [H1 H2]]; cbn [fst snd] in *; rewrite (s_code _ _ _ _ H2); destruct (w_code v =? 0);
    try (split; assumption); exact (HH _ _ H1 _ _ H2).
Qed.
Lemma rel_try0 b1 b2 h1 h2 : rel sim_ eq b1 b2 -> rel sim_ eq h1 h2 -> rel sim_ eq (try0 b1 h1) (try0 b2 h2).
Proof. intros H1 H2. apply rel_try; [reflexivity|now apply rel_lift|intros; exact H2]. Qed.

Lemma rel_throw A (R : A -> A -> Prop) e : rel sim_ R (throw e) (throw e).
Proof. intros w w' H. cbn. rewrite (s_code _ _ _ _ H), (s_msg _ _ _ _ H). now apply sim_exn. Qed.
Lemma rel_throw_msg A (R : A -> A -> Prop) e m : rel sim_ R (throw_msg e m) (throw_msg e m).
Proof. intros w w' H. unfold throw_msg. apply rel_throw. rewrite (s_code _ _ _ _ H). now apply sim_exn. Qed.
Lemma rel_rethrow A (R : A -> A -> Prop) : rel sim_ R rethrow rethrow.
Proof. intros w w' H. unfold rethrow. rewrite (s_code _ _ _ _ H). now apply rel_throw. Qed.
Lemma rel_code : rel sim_ eq getExceptionCode getExceptionCode.
Proof. intros w w' H. split; [symmetry; apply H|exact H]. Qed.
Lemma rel_clear : rel sim_ eq clearExceptionCode clearExceptionCode.
Proof. intros w w' H. split; [reflexivity|]. cbn. rewrite (s_msg _ _ _ _ H). now apply sim_exn. Qed.

(** ** Heap *)

Lemma blk_eqb x y x' y' : blk x y -> blk x' y' -> Nat.eqb x x' = Nat.eqb y y'.
Proof. intros (k & -> & ->) (j & -> & ->). destruct (Nat.eqb_spec (h_next (w_heap u1) + k) (h_next (w_heap u1) + j)); symmetry; [apply Nat.eqb_eq|apply Nat.eqb_neq]; lia. Qed.

Lemma live_eq x y l l' : blk x y -> Forall2 blk l l' ->
  existsb (Nat.eqb x) (l ++ h_live (w_heap u1)) = existsb (Nat.eqb x) l /\
  existsb (Nat.eqb y) (l' ++ h_live (w_heap u2)) = existsb (Nat.eqb x) l.
Proof.
  intros (k & Ex & Ey) F. split.
  - rewrite existsb_app. assert (E : existsb (Nat.eqb x) (h_live (w_heap u1)) = false); [|now rewrite E, orb_false_r].
    apply not_true_is_false. rewrite existsb_exists. intros (z & Hz & E). apply Nat.eqb_eq in E. subst z.
    destruct sane1 as [_ S]. rewrite Forall_forall in S. specialize (S _ Hz). lia.
  - rewrite existsb_app. assert (E : existsb (Nat.eqb y) (h_live (w_heap u2)) = false).
    { apply not_true_is_false. rewrite existsb_exists. intros (z & Hz & E). apply Nat.eqb_eq in E. subst z.
      destruct sane2 as [_ S]. rewrite Forall_forall in S. specialize (S _ Hz). lia. }
    rewrite E, orb_false_r. clear E. induction F as [|a a' l l' H F IH]; [reflexivity|]. cbn. rewrite IH. f_equal.
    symmetry. apply blk_eqb; [|exact H]. exists k. auto.
Qed.

Lemma remove_eq x y l l' : blk x y -> Forall2 blk l l' -> existsb (Nat.eqb x) l = true ->
  exists r r', remove1 x (l ++ h_live (w_heap u1)) = r ++ h_live (w_heap u1) /\ remove1 y (l' ++ h_live (w_heap u2)) = r' ++ h_live (w_heap u2) /\ Forall2 blk r r'.
Proof.
  intros HB F. induction F as [|a a' l l' H F IH]; cbn; [discriminate|]. rewrite <- (blk_eqb _ _ _ _ HB H).
  destruct (Nat.eqb x a); cbn.
  - intros _. exists l, l'. auto.
  - intro E. destruct (IH E) as (r & r' & E1 & E2 & F'). exists (a :: r), (a' :: r'). rewrite E1, E2. auto.
Qed.

Lemma sim_heap w w' h h' : sim_ w w' -> heap_rel h h' -> sim_ (set_heap w h) (set_heap w' h').
Proof. intros [] H. constructor; auto. Qed.
Lemma sim_files w w' f f' : sim_ w w' -> files_rel f f' -> sim_ (set_files w f) (set_files w' f').
Proof. intros [] H. constructor; auto. Qed.
Lemma sim_mem w w' m m' : sim_ w w' -> mem_rel m m' -> sim_ (set_mem w m) (set_mem w' m').
Proof. intros [] H. constructor; auto. Qed.

Lemma rel_malloc n : rel sim_ (orel blk) (malloc n) (malloc n).
Proof.
  intros w w' H. unfold malloc. cbv zeta. rewrite (s_env1 _ _ _ _ H), (s_env2 _ _ _ _ H).
  destruct (s_heap _ _ _ _ H) as [(l & l' & L1 & L2 & F) (k & N1 & N2) (j & C1 & C2)].
  rewrite C1, C2. destruct inputs as (_ & IM & _). rewrite (IM j n).
  destruct (e_malloc _ _ _).
  - split; [exists k; auto|]. apply sim_heap; [exact H|]. constructor; cbn.
    + exists (h_next (w_heap w) :: l), (h_next (w_heap w') :: l'). rewrite L1, L2. repeat split. constructor; [exists k; auto|exact F].
    + exists (S k). lia.
    + exists (S j). lia.
  - split; [exact I|]. apply sim_heap; [exact H|]. constructor; cbn; [eauto|exists k; auto|exists (S j); lia].
Qed.

Lemma rel_free x y : blk x y -> rel sim_ eq (free x) (free y).
Proof.
  intros HB w w' H. unfold free. cbv zeta. unfold is_live.
  destruct (s_heap _ _ _ _ H) as [(l & l' & L1 & L2 & F) HN HC]. rewrite L1, L2.
  destruct (live_eq x y l l' HB F) as [-> ->]. destruct (existsb (Nat.eqb x) l) eqn:E; [|reflexivity].
  split; [reflexivity|]. destruct (remove_eq x y l l' HB F E) as (r & r' & -> & -> & F'). apply sim_heap; [exact H|].
  constructor; cbn; [exists r, r'; auto|exact HN|exact HC].
Qed.
Lemma rel_free_opt x y : orel blk x y -> rel sim_ eq (free_opt x) (free_opt y).
Proof. destruct x, y; cbn; try contradiction; intro H; [now apply rel_free|now apply rel_ret]. Qed.
Lemma rel_realloc x y n : orel blk x y -> rel sim_ (orel blk) (realloc x n) (realloc y n).
Proof.
  intro H. unfold realloc. eapply rel_bind; [apply rel_malloc|]. intros [p|] [p'|] HP; try contradiction; [|now apply rel_ret].
  eapply rel_bind; [now apply rel_free_opt|]. intros _ _ _. now apply rel_ret.
Qed.

(** ** Files *)

Lemma hdl_eqb x y x' y' : hdl x y -> hdl x' y' -> Nat.eqb x x' = Nat.eqb y y'.
Proof. intros (k & -> & ->) (j & -> & ->). destruct (Nat.eqb_spec (fs_next (w_files u1) + k) (fs_next (w_files u1) + j)); symmetry; [apply Nat.eqb_eq|apply Nat.eqb_neq]; lia. Qed.

Lemma rel_next_io : rel sim_ eq next_io next_io.
Proof.
  intros w w' H. unfold next_io. cbv zeta. rewrite (s_env1 _ _ _ _ H), (s_env2 _ _ _ _ H).
  destruct (s_files _ _ _ _ H) as [FO FN (j & C1 & C2)]. destruct inputs as (_ & _ & II & _).
  split; [rewrite C1, C2; apply II|]. apply sim_files; [exact H|]. constructor; cbn; [exact FO|exact FN|exists (S j); lia].
Qed.
Lemma rel_fopen f : In f args -> rel sim_ (orel hdl) (fopen f) (fopen f).
Proof.
  intro HI. unfold fopen. eapply rel_bind; [apply rel_next_io|]. intros fl ? <- w w' H. cbv zeta.
  rewrite (s_env1 _ _ _ _ H), (s_env2 _ _ _ _ H). destruct inputs as (IF & _). rewrite <- (IF f HI).
  destruct (s_files _ _ _ _ H) as [FO FN FC].
  assert (N : sim_ (set_files w (mkFiles (fs_open (w_files w)) (fs_next (w_files w)) (fs_calls (w_files w)) (f :: fs_opened (w_files w))))
                   (set_files w' (mkFiles (fs_open (w_files w')) (fs_next (w_files w')) (fs_calls (w_files w')) (f :: fs_opened (w_files w')))))
    by (apply sim_files; [exact H|]; constructor; cbn; assumption).
  destruct fl; destruct (e_fs (w_env u1) f); try (split; [exact I|exact N]);
    (split; [exact FN|]; apply sim_files; [exact H|]; constructor; cbn; [constructor; [split; [exact FN|reflexivity]|exact FO]| |exact FC];
     destruct FN as (k & ? & ?); exists (S k); lia).
Qed.
Lemma rel_get_file h h' : hdl h h' -> rel sim_ eq (get_file h) (get_file h').
Proof.
  intros HH w w' H. unfold get_file. destruct (s_files _ _ _ _ H) as [FO _ _].
  assert (E : lookup_file h' (fs_open (w_files w')) = lookup_file h (fs_open (w_files w))).
  { induction FO as [|[a f] [a' f'] l l' [F1 F2] FO IH]; [reflexivity|]. cbn in *. subst f'. rewrite <- (hdl_eqb _ _ _ _ HH F1). now rewrite IH. }
  rewrite E. destruct (lookup_file h _); [split; [reflexivity|exact H]|reflexivity].
Qed.
Lemma rel_put_file h h' f : hdl h h' -> rel sim_ eq (put_file h f) (put_file h' f).
Proof.
  intros HH w w' H. unfold put_file. cbv zeta. split; [reflexivity|]. apply sim_files; [exact H|]. destruct (s_files _ _ _ _ H) as [FO FN FC].
  constructor; cbn; [|exact FN|exact FC].
  induction FO as [|[a g] [a' g'] l l' [F1 F2] FO IH]; [constructor|]. cbn in *. subst g'. rewrite <- (hdl_eqb _ _ _ _ HH F1).
  destruct (Nat.eqb h a); constructor; auto; split; auto.
Qed.
Lemma rel_fclose h h' : hdl h h' -> rel sim_ eq (fclose h) (fclose h').
Proof.
  intro HH. unfold fclose. eapply rel_bind; [now apply rel_get_file|]. intros _ _ _ w w' H. cbv zeta. split; [reflexivity|].
  apply sim_files; [exact H|]. destruct (s_files _ _ _ _ H) as [FO FN FC]. constructor; cbn; [|exact FN|exact FC].
  induction FO as [|[a g] [a' g'] l l' [F1 F2] FO IH]; [constructor|]. cbn in *. subst g'. rewrite <- (hdl_eqb _ _ _ _ HH F1).
  destruct (Nat.eqb h a); [exact FO|constructor; auto; split; auto].
Qed.

Ltac rpi :=
  let a := fresh "a" in let b := fresh "b" in let H := fresh "H" in
  intros a b H;
  first [ subst b
        | destruct a; destruct b; cbn [orel] in H; try contradiction
        | idtac ].
Ltac rt :=
  cbv zeta;
  lazymatch goal with
  | |- rel _ _ (bind _ _) (bind _ _) =>
      first [ eapply rel_bind; [solve [eauto 3 with rp]|rpi; rt]
            | eapply (rel_bind _ eq); [rt|intros ? ? <-; rt]
            | eapply rel_bind; [eauto 3 with rp|] ]
  | |- rel _ _ (ret _) (ret _) => apply rel_ret; try solve [reflexivity|assumption|exact I|eauto 3 with rp]
  | |- rel _ _ (lift _) (lift _) => apply rel_lift; rt
  | |- rel _ _ (setl _) (setl _) => apply rel_setl; try solve [reflexivity|assumption|exact I|eauto 3 with rp]
  | |- rel _ _ (fail_ub _) (fail_ub _) => apply rel_ub
  | |- rel _ _ (if ?x then _ else _) _ => destruct x; rt
  | |- rel _ _ (match ?x with _ => _ end) _ => destruct x; rt
  | |- _ => try solve [eauto 3 with rp]
  end.
Local Hint Resolve rel_throw rel_throw_msg rel_rethrow rel_code rel_clear rel_malloc rel_free rel_free_opt rel_realloc rel_next_io rel_fopen
  rel_get_file rel_put_file rel_fclose rel_ub : rp.
Local Hint Extern 1 (orel _ _ _) => (cbn [orel]) : rp.

Lemma rel_fread h h' n : hdl h h' -> rel sim_ eq (fread h n) (fread h' n).
Proof. intro H. unfold fread. rt. Qed.
Lemma rel_fseek_end h h' : hdl h h' -> rel sim_ eq (fseek_end h) (fseek_end h').
Proof. intro H. unfold fseek_end. rt. Qed.
Lemma rel_fseek_start h h' : hdl h h' -> rel sim_ eq (fseek_start h) (fseek_start h').
Proof. intro H. unfold fseek_start. rt. Qed.
Lemma rel_ftell h h' : hdl h h' -> rel sim_ eq (ftell h) (ftell h').
Proof. intro H. unfold ftell. rt. Qed.
Lemma rel_fgets h h' n : hdl h h' -> rel sim_ eq (fgets h n) (fgets h' n).
Proof. intro H. unfold fgets. rt. Qed.
Local Hint Resolve rel_fread rel_fseek_end rel_fseek_start rel_ftell rel_fgets : rp.

(** ** Registers and output *)

Lemma sim_ctx w w' c : sim_ w w' -> sim_ (set_ctx w c) (set_ctx w' c).
Proof. intros []. constructor; auto. Qed.
Lemma rel_ctx_put o bs : rel sim_ eq (ctx_put o bs) (ctx_put o bs).
Proof. intros w w' H. unfold ctx_put. rewrite (s_ctx _ _ _ _ H). destruct (_ && _); [|reflexivity]. split; [reflexivity|now apply sim_ctx]. Qed.
Lemma rel_ctx_word o : rel sim_ eq (ctx_word o) (ctx_word o).
Proof. intros w w' H. unfold ctx_word. rewrite (s_ctx _ _ _ _ H). destruct (_ && _); [|reflexivity]. split; [reflexivity|exact H]. Qed.
Lemma rel_ctx_bytes o n : rel sim_ eq (ctx_bytes o n) (ctx_bytes o n).
Proof. intros w w' H. unfold ctx_bytes. rewrite (s_ctx _ _ _ _ H). destruct (_ && _); [|reflexivity]. split; [reflexivity|exact H]. Qed.
Lemma rel_eprintf t : rel sim_ eq (eprintf t) (eprintf t).
Proof. intros w w' H. split; [reflexivity|]. destruct H. constructor; cbn; auto. destruct s_err0 as (d & -> & ->). now exists (t :: d). Qed.
Lemma rel_say t : rel sim_ eq (say t) (say t).
Proof. intros w w' H. split; [reflexivity|]. destruct H. constructor; cbn; auto. destruct s_gdb0 as (d & -> & ->). now exists (GStr (10 :: s2b t) :: d). Qed.
Lemma rel_sayHex v : rel sim_ eq (sayHex v) (sayHex v).
Proof. intros w w' H. split; [reflexivity|]. destruct H. constructor; cbn; auto. destruct s_gdb0 as (d & -> & ->). now exists (GHex v :: d). Qed.
Lemma rel_sayIf v i t : rel sim_ eq (sayIf v i t) (sayIf v i t).
Proof. unfold sayIf. destruct (Z.testbit v i); [apply rel_say|now apply rel_ret]. Qed.
Lemma rel_display : rel sim_ eq displayExceptionMessage displayExceptionMessage.
Proof. intros w w' H. unfold displayExceptionMessage, getw, bind. rewrite (s_msg _ _ _ _ H). now apply rel_eprintf. Qed.
Local Hint Resolve rel_ctx_put rel_ctx_word rel_ctx_bytes rel_eprintf rel_say rel_sayHex rel_sayIf rel_display : rp.

(** ** Reading dumps, up to the regions *)

Lemma rel_newlines n h h' : hdl h h' -> rel sim_ eq (skipNewLines n h) (skipNewLines n h').
Proof. intro H. induction n as [|n IH]; cbn [skipNewLines]; rt. Qed.
Local Hint Resolve rel_newlines : rp.
Lemma rel_char h h' : hdl h h' -> rel sim_ eq (readNextCharacterSkippingNewLines h) (readNextCharacterSkippingNewLines h').
Proof. intro H. unfold readNextCharacterSkippingNewLines. rt. Qed.
Lemma rel_store d i bs : rel sim_ eq (store_dest d i bs) (store_dest d i bs).
Proof. destruct d; cbn [store_dest]; rt. Qed.
Local Hint Resolve rel_char rel_store : rp.
Lemma rel_binaryRead h h' d n : hdl h h' -> rel sim_ eq (binaryRead h d n) (binaryRead h' d n).
Proof. intro H. unfold binaryRead. rt. Qed.
Lemma rel_hexRead_loop h h' d n : hdl h h' -> forall acc, rel sim_ eq (hexRead_loop h d n acc) (hexRead_loop h' d n acc).
Proof. intro H. induction n as [|n IH]; intro acc; cbn [hexRead_loop]; rt. Qed.
Lemma rel_doRead k h h' d n : hdl h h' -> rel sim_ eq (doRead k h d n) (doRead k h' d n).
Proof. intro H. destruct k; cbn [doRead]; [now apply rel_binaryRead|now apply rel_hexRead_loop]. Qed.
Lemma rel_openDump f : In f args -> rel sim_ hdl (openDump f) (openDump f).
Proof. intro H. unfold openDump. rt. Qed.
Lemma rel_openLog f : In f args -> rel sim_ hdl (openLog f) (openLog f).
Proof. intro H. unfold openLog. rt. Qed.
Local Hint Resolve rel_doRead rel_openDump rel_openLog : rp.
Lemma rel_signature k h h' : hdl h h' -> rel sim_ eq (validateDumpSignature k h) (validateDumpSignature k h').
Proof. intro H. unfold validateDumpSignature. rt. Qed.
Lemma rel_flags k h h' : hdl h h' -> rel sim_ eq (readFlags k h) (readFlags k h').
Proof. intro H. unfold readFlags. rt. Qed.
Lemma rel_integers k h h' v : hdl h h' -> rel sim_ eq (readIntegerRegisters k h v) (readIntegerRegisters k h' v).
Proof. intro H. unfold readIntegerRegisters. rt. Qed.
Lemma rel_floats k h h' : hdl h h' -> rel sim_ eq (readFloatingPointRegisters k h) (readFloatingPointRegisters k h').
Proof. intro H. unfold readFloatingPointRegisters. rt. Qed.
Local Hint Resolve rel_signature rel_flags rel_integers rel_floats : rp.

End Level.

Ltac rpi :=
  let a := fresh "a" in let b := fresh "b" in let H := fresh "H" in
  intros a b H;
  first [ subst b
        | destruct a; destruct b; cbn [orel] in H; try contradiction
        | idtac ].
Ltac rt :=
  cbv zeta;
  lazymatch goal with
  | |- rel _ _ (bind _ _) (bind _ _) =>
      first [ eapply rel_bind; [solve [eauto 3 with rp]|rpi; rt]
            | eapply (rel_bind _ eq); [rt|intros ? ? <-; rt]
            | eapply rel_bind; [eauto 3 with rp|] ]
  | |- rel _ _ (ret _) (ret _) => apply rel_ret; try solve [reflexivity|assumption|exact I|eauto 3 with rp]
  | |- rel _ _ (lift _) (lift _) => apply rel_lift; rt
  | |- rel _ _ (setl _) (setl _) => apply rel_setl; try solve [reflexivity|assumption|exact I|eauto 3 with rp]
  | |- rel _ _ (fail_ub _) (fail_ub _) => apply rel_ub
  | |- rel _ _ (if ?x then _ else _) _ => destruct x; rt
  | |- rel _ _ (match ?x with _ => _ end) _ => destruct x; rt
  | |- _ => try solve [eauto 3 with rp]
  end.
Local Hint Resolve rel_throw rel_throw_msg rel_rethrow rel_code rel_clear rel_malloc rel_free rel_free_opt rel_realloc rel_next_io rel_fopen
  rel_get_file rel_put_file rel_fclose rel_ub : rp.
Local Hint Extern 1 (orel _ _ _) => (cbn [orel]) : rp.
Local Hint Resolve rel_fread rel_fseek_end rel_fseek_start rel_ftell rel_fgets : rp.
Local Hint Resolve rel_ctx_put rel_ctx_word rel_ctx_bytes rel_eprintf rel_say rel_sayHex rel_sayIf rel_display : rp.
Local Hint Resolve rel_newlines rel_char rel_store rel_doRead rel_openDump rel_openLog rel_signature rel_flags rel_integers rel_floats : rp.

(** ** The simulated memory *)

Section Memory.
Variable s : bool.
Notation sim_ := (sim true s).

Ltac same H := rewrite ?(rr_base _ _ H), ?(rr_size _ _ H), ?(rr_redir _ _ H), ?(rr_raddr _ _ H), ?(rr_data _ _ H), ?(rr_wps _ _ H), ?(rr_wpalloc _ _ H), ?(rr_ro _ _ H).

Lemma mem_of w w' : sim_ w w' -> mem_rel (w_mem w) (w_mem w').
Proof. intro H. now apply H. Qed.
Lemma region_len l l' : Forall2 region_rel l l' -> zlen l' = zlen l.
Proof. unfold zlen. induction 1 as [|r r' l l' H F IH]; [reflexivity|]. cbn [length]. lia. Qed.

Lemma rel_zmalloc n : rel sim_ blk (throwingZeroedMalloc n) (throwingZeroedMalloc n).
Proof. unfold throwingZeroedMalloc. rt. Qed.
Local Hint Resolve rel_zmalloc : rp.

Lemma rel_freeRegion r r' : region_rel r r' -> rel sim_ eq (freeRegion r) (freeRegion r').
Proof.
  intro H. unfold freeRegion. pose proof (rr_rc _ _ H). pose proof (rr_bself _ _ H). pose proof (rr_bdata _ _ H). pose proof (rr_bwp _ _ H).
  eapply rel_bind.
  { apply rel_free_opt. destruct (r_rc r) as [[]|], (r_rc r') as [[]|]; cbn in *; auto. exact (proj1 H0). }
  intros _ _ _. rt.
Qed.
Definition new_rel (x y : option (nat * option nat)) : Prop := orel (fun p q => blk (fst p) (fst q) /\ orel blk (snd p) (snd q)) x y.
Lemma rel_freeNew x y : new_rel x y -> rel sim_ eq (freeNewRegion x) (freeNewRegion y).
Proof.
  unfold new_rel, freeNewRegion. destruct x as [[x d]|], y as [[y d']|]; cbn; try contradiction; [|intros _; now apply rel_ret].
  intros [H1 H2]. rt.
Qed.
Lemma rel_add r r' : region_rel r r' -> rel sim_ eq (addRegionToTail r) (addRegionToTail r').
Proof.
  intros H w w' HS. split; [reflexivity|]. apply sim_mem; [exact HS|]. destruct (mem_of _ _ HS) as [F X T].
  constructor; cbn; auto. apply Forall2_app; [exact F|]. constructor; [exact H|constructor].
Qed.
Lemma find_eq l l' a n : Forall2 region_rel l l' -> forall i, find_from i l' a n = find_from i l a n.
Proof. induction 1 as [|r r' l l' H F IH]; intro i; [reflexivity|]. cbn [find_from]. unfold hit. same H. now rewrite IH. Qed.
Lemma rel_find a n : rel sim_ eq (findMatchingRegion a n) (findMatchingRegion a n).
Proof.
  intros w w' H. unfold findMatchingRegion. rewrite (find_eq _ _ a n (mr_regions _ _ (mem_of _ _ H))).
  destruct (find_from 0 _ a n); [split; [reflexivity|exact H]|now apply (rel_throw true s _ eq)].
Qed.
Lemma nth_rel l l' : Forall2 region_rel l l' -> forall i, orel region_rel (nth_error l i) (nth_error l' i).
Proof. induction 1 as [|r r' l l' H F IH]; intros [|i]; cbn; auto. Qed.
Lemma rel_get i : rel sim_ region_rel (get_region i) (get_region i).
Proof.
  intros w w' H. unfold get_region. pose proof (nth_rel _ _ (mr_regions _ _ (mem_of _ _ H)) i) as N.
  destruct (nth_error _ i), (nth_error _ i); cbn in N; try contradiction; [split; assumption|reflexivity].
Qed.
Lemma upd_rel f f' : (forall r r', region_rel r r' -> region_rel (f r) (f' r')) -> forall l l', Forall2 region_rel l l' ->
  forall i, Forall2 region_rel (upd_nth i f l) (upd_nth i f' l').
Proof. intros HF l l'. induction 1 as [|r r' l l' H F IH]; intros [|i]; cbn; constructor; auto. Qed.
Lemma rel_upd i f f' : (forall r r', region_rel r r' -> region_rel (f r) (f' r')) -> rel sim_ eq (upd_region i f) (upd_region i f').
Proof.
  intros HF w w' H. split; [reflexivity|]. apply sim_mem; [exact H|]. destruct (mem_of _ _ H) as [F X T]. constructor; cbn; auto. now apply upd_rel.
Qed.
Local Hint Resolve rel_freeRegion rel_freeNew rel_add rel_find rel_get : rp.

Lemma rel_create base size : rel sim_ eq (MemorySim_CreateRegion base size) (MemorySim_CreateRegion base size).
Proof.
  unfold MemorySim_CreateRegion. eapply (rel_bind _ new_rel); [|intros; now apply rel_ret]. apply rel_try; [exact I| |].
  - eapply rel_bind; [apply rel_lift, rel_zmalloc|]. intros x y HX. eapply rel_bind; [apply rel_setl; cbn; auto|]. intros _ _ _.
    eapply rel_bind; [apply rel_lift, rel_zmalloc|]. intros d d' HD. eapply rel_bind; [apply rel_setl; cbn; auto|]. intros _ _ _.
    apply rel_lift, rel_add. constructor; cbn; auto.
  - intros x y H. eapply rel_bind; [now apply rel_freeNew|]. intros _ _ _. apply rel_rethrow.
Qed.
Lemma rel_alias a r n : rel sim_ eq (MemorySim_CreateAlias a r n) (MemorySim_CreateAlias a r n).
Proof.
  unfold MemorySim_CreateAlias. eapply (rel_bind _ new_rel); [|intros; now apply rel_ret]. apply rel_try; [exact I| |].
  - eapply rel_bind; [apply rel_lift, rel_zmalloc|]. intros x y HX. eapply rel_bind; [apply rel_setl; cbn; auto|]. intros _ _ _.
    eapply rel_bind; [apply rel_lift, rel_find|]. intros p ? <-. eapply rel_bind; [apply rel_lift, rel_get|]. intros t t' HT. cbv zeta. same HT.
    eapply rel_bind; [apply rel_lift, rel_zmalloc|]. intros d d' HD. eapply rel_bind; [apply rel_setl; cbn; auto|]. intros _ _ _.
    apply rel_lift, rel_add. constructor; cbn; auto.
  - intros x y H. eapply rel_bind; [now apply rel_freeNew|]. intros _ _ _. apply rel_rethrow.
Qed.
Lemma rel_readonly base : rel sim_ eq (MemorySim_MakeRegionReadOnly base) (MemorySim_MakeRegionReadOnly base).
Proof.
  unfold MemorySim_MakeRegionReadOnly, allocateReadCountArrayForReadOnlyRegion. eapply rel_bind; [apply rel_find|]. intros p ? <-.
  eapply rel_bind; [apply rel_get|]. intros _ _ _. eapply rel_bind.
  { apply rel_upd. intros r r' []. constructor; cbn; auto. }
  intros _ _ _. eapply rel_bind; [apply rel_get|]. intros r r' HR. cbv zeta. same HR. eapply rel_bind; [apply rel_zmalloc|]. intros x y HX.
  apply rel_upd. intros q q' []. constructor; cbn; auto. now split.
Qed.
Lemma rel_check r r' a n t : region_rel r r' -> rel sim_ eq (checkForBreakWatchPoint r a n t) (checkForBreakWatchPoint r' a n t).
Proof.
  intros HR w w' H. unfold checkForBreakWatchPoint. cbv zeta. same HR. destruct (mem_of _ _ H) as [F X T]. rewrite T.
  destruct (scan_wps _ _ _ _ _ _) as [h brk].
  assert (N : sim_ (set_mem w (mkMem (m_regions (w_mem w)) (m_xml (w_mem w)) h)) (set_mem w' (mkMem (m_regions (w_mem w')) (m_xml (w_mem w')) h)))
    by (apply sim_mem; [exact H|constructor; auto]).
  destruct brk; [now apply (rel_throw true s _ eq)|split; [reflexivity|exact N]].
Qed.
Lemma rel_inc i k : rel sim_ eq (incReadCount i k) (incReadCount i k).
Proof.
  unfold incReadCount. eapply rel_bind; [apply rel_get|]. intros r r' HR. pose proof (rr_rc _ _ HR) as RC.
  destruct (r_rc r) as [[x c]|], (r_rc r') as [[x' c']|]; cbn in RC; try contradiction; [|now apply rel_ret]. destruct RC as [RB RC]. cbn in RB, RC. subst c'.
  destruct (_ && _); [|apply rel_ub]. apply rel_upd. intros q q' []. constructor; cbn; auto. now split.
Qed.
Local Hint Resolve rel_create rel_alias rel_readonly rel_check rel_inc : rp.
Lemma rel_pointer a n t c : rel sim_ eq (getDataPointer a n t c) (getDataPointer a n t c).
Proof.
  unfold getDataPointer. eapply rel_bind; [apply rel_find|]. intros p ? <-. cbv zeta. eapply rel_bind; [apply rel_get|]. intros r r' HR. same HR.
  eapply (rel_bind _ eq); [rt|]. intros _ _ _. eapply (rel_bind _ eq); [rt|]. intros _ _ _. eapply (rel_bind _ eq); [destruct c; [now apply rel_check|rt]|]. intros _ _ _. rt.
Qed.
Lemma rel_load_ptr p n : rel sim_ eq (load_ptr p n) (load_ptr p n).
Proof. unfold load_ptr. eapply rel_bind; [apply rel_get|]. intros r r' HR. same HR. rt. Qed.
Lemma rel_store_ptr p bs : rel sim_ eq (store_ptr p bs) (store_ptr p bs).
Proof.
  unfold store_ptr. eapply rel_bind; [apply rel_get|]. intros r r' HR. same HR. destruct (_ && _); [|apply rel_ub].
  apply rel_upd. intros q q' HQ. destruct HQ. constructor; cbn; auto. now rewrite rr_data0.
Qed.
Local Hint Resolve rel_pointer rel_load_ptr rel_store_ptr : rp.
Lemma rel_readN n a : rel sim_ eq (readN n a) (readN n a).
Proof. unfold readN. rt. Qed.
Lemma rel_writeN n a v : rel sim_ eq (writeN n a v) (writeN n a v).
Proof. unfold writeN. rt. Qed.
Lemma rel_load8 a v : rel sim_ eq (load8 a v) (load8 a v).
Proof. unfold load8. rt. Qed.
Lemma rel_load32 a v : rel sim_ eq (load32 a v) (load32 a v).
Proof. unfold load32. rt. Qed.
Local Hint Resolve rel_readN rel_writeN rel_load8 rel_load32 : rp.
Lemma rel_load_bytes n : forall src a, rel sim_ eq (load_bytes n src a) (load_bytes n src a).
Proof. induction n as [|n IH]; intros src a; cbn [load_bytes]; rt. Qed.
Lemma rel_load_words k : forall n src a, (n <= k)%nat -> rel sim_ eq (load_words n src a) (load_words n src a).
Proof.
  induction k as [|k IH]; intros n src a Hn.
  - destruct n; [|lia]. apply rel_load_bytes.
  - do 5 (destruct n as [|n]; [apply rel_load_bytes|]).
    destruct src as [|x0 src]; [exact (rel_ub sim_ eq UbBlob)|]. destruct src as [|x1 src]; [exact (rel_ub sim_ eq UbBlob)|].
    destruct src as [|x2 src]; [exact (rel_ub sim_ eq UbBlob)|]. destruct src as [|x3 src]; [exact (rel_ub sim_ eq UbBlob)|].
    change (load_words (S (S (S (S (S n))))) (x0 :: x1 :: x2 :: x3 :: src) a) with (bind (load32 a [x0; x1; x2; x3]) (fun _ => load_words (S n) src (W (a + 4)))).
    eapply rel_bind; [apply rel_load32|]. intros _ _ _. apply IH. lia.
Qed.
Lemma rel_load_image a src n : rel sim_ eq (MemorySim_LoadFromFlashImage a src n) (MemorySim_LoadFromFlashImage a src n).
Proof. unfold MemorySim_LoadFromFlashImage. now apply (rel_load_words (Z.to_nat n)). Qed.
Local Hint Resolve rel_load_image : rp.

Lemma append_eq l l' : Forall2 region_rel l l' -> forall acc room, appendMemoryMapRegions l' acc room = appendMemoryMapRegions l acc room.
Proof. induction 1 as [|r r' l l' H F IH]; intros acc room; [reflexivity|]. cbn [appendMemoryMapRegions]. cbv zeta. unfold xml_region. same H. now rewrite IH. Qed.
Lemma rel_xml : rel sim_ eq MemorySim_GetMemoryMapXML MemorySim_GetMemoryMapXML.
Proof.
  unfold MemorySim_GetMemoryMapXML. apply rel_getw. intros w w' H. cbv zeta. destruct (mem_of _ _ H) as [F X T]. rewrite (region_len _ _ F).
  eapply rel_bind.
  { apply rel_realloc. destruct (m_xml (w_mem w)) as [[]|], (m_xml (w_mem w')) as [[]|]; cbn in *; auto. exact (proj1 X). }
  intros [x|] [y|] HX; cbn [orel] in HX; try contradiction; [|apply rel_throw].
  match goal with |- context [build_xml (m_regions (w_mem w)) ?n] =>
    assert (E : build_xml (m_regions (w_mem w')) n = build_xml (m_regions (w_mem w)) n) by (unfold build_xml; now rewrite (append_eq _ _ F)); rewrite E end.
  clear E. destruct (build_xml _ _); [|apply rel_ub]. eapply (rel_bind _ eq); [|intros; now apply rel_ret].
  intros v v' HV. split; [reflexivity|]. apply sim_mem; [exact HV|]. destruct (mem_of _ _ HV) as [F' X' T']. constructor; cbn; auto. now split.
Qed.
Lemma rel_freeRegions l l' : Forall2 region_rel l l' -> rel sim_ eq (freeRegions l) (freeRegions l').
Proof. induction 1 as [|r r' l l' H F IH]; cbn [freeRegions]; [now apply rel_ret|]. eapply rel_bind; [now apply rel_freeRegion|]. intros _ _ _. exact IH. Qed.
Lemma rel_uninit : rel sim_ eq MemorySim_Uninit MemorySim_Uninit.
Proof.
  unfold MemorySim_Uninit. apply rel_getw. intros w w' H. destruct (mem_of _ _ H) as [F X T].
  eapply rel_bind; [now apply rel_freeRegions|]. intros _ _ _. eapply rel_bind.
  { apply rel_free_opt. destruct (m_xml (w_mem w)) as [[]|], (m_xml (w_mem w')) as [[]|]; cbn in *; auto. exact (proj1 X). }
  intros _ _ _ v v' HV. split; [reflexivity|]. apply sim_mem; [exact HV|]. destruct (mem_of _ _ HV). constructor; cbn; auto.
Qed.
Local Hint Resolve rel_xml rel_uninit : rp.

(** ** Dumps *)

Lemma rel_regionBytes k h h' : hdl h h' -> forall n a c, rel sim_ eq (loadRegionBytes n k h a c) (loadRegionBytes n k h' a c).
Proof. intro H. induction n as [|n IH]; intros a c; cbn [loadRegionBytes]; unfold write8; rt. Qed.
Local Hint Resolve rel_regionBytes : rp.
Lemma rel_createLoad k h h' a e : hdl h h' -> rel sim_ eq (createAndLoadMemoryRegion k h a e) (createAndLoadMemoryRegion k h' a e).
Proof. intro H. unfold createAndLoadMemoryRegion. rt. Qed.
Lemma rel_nextRegion k h h' : hdl h h' -> rel sim_ eq (readNextMemoryRegion k h) (readNextMemoryRegion k h').
Proof.
  intro H. unfold readNextMemoryRegion. eapply rel_bind; [now apply rel_doRead|]. intros bs ? <-. cbv zeta.
  destruct (_ && _); [apply rel_throw_msg|]. destruct (Nat.eqb _ 0); [now apply rel_ret|]. destruct (negb _); [apply rel_throw_msg|].
  eapply (rel_bind _ eq); [|intros; now apply rel_ret]. apply rel_try0; [now apply rel_createLoad|]. rt.
Qed.
Local Hint Resolve rel_nextRegion : rp.
Lemma rel_regionLoop k h h' n : hdl h h' -> rel sim_ eq (regionLoop n k h) (regionLoop n k h').
Proof. intro H. induction n as [|n IH]; cbn [regionLoop]; rt. Qed.
Local Hint Resolve rel_regionLoop : rp.
Lemma rel_readDump k h h' : hdl h h' -> rel sim_ eq (readDump k h) (readDump k h').
Proof. intro H. unfold readDump, readMemoryRegions. rt. Qed.
Lemma rel_destruct x y : orel hdl x y -> rel sim_ eq (destructObject x) (destructObject y).
Proof. destruct x, y; cbn; try contradiction; intro H; rt. Qed.
Lemma rel_dump k f : In f args -> rel sim_ eq (CrashCatcherDump_Read k f) (CrashCatcherDump_Read k f).
Proof.
  intro HI. unfold CrashCatcherDump_Read. eapply (rel_bind _ (orel hdl)); [|intros; now apply rel_ret]. apply rel_try; [exact I| |].
  - eapply rel_bind; [apply rel_lift, rel_openDump, HI|]. intros h h' H. eapply rel_bind; [apply rel_setl; exact H|]. intros _ _ _.
    eapply rel_bind; [apply rel_lift, rel_readDump, H|]. intros _ _ _. eapply rel_bind; [apply rel_getl|]. intros p q HP.
    eapply rel_bind; [apply rel_lift, rel_destruct, HP|]. intros _ _ _. apply rel_setl. exact I.
  - intros p q HP. eapply rel_bind; [apply rel_destruct, HP|]. intros _ _ _. apply rel_rethrow.
Qed.

(** ** Logs *)

Lemma rel_writeValues vs : forall a, rel sim_ eq (writeValues a vs) (writeValues a vs).
Proof. induction vs as [|v vs IH]; intro a; cbn [writeValues]; unfold write32; rt. Qed.
Local Hint Resolve rel_writeValues : rp.
Lemma rel_firstMem o a vs : rel sim_ eq (firstPassMemoryHandler o a vs) (firstPassMemoryHandler o a vs).
Proof. unfold firstPassMemoryHandler. rt. Qed.
Lemma rel_firstReg o v : rel sim_ eq (firstPassRegisterHandler o v) (firstPassRegisterHandler o v).
Proof. unfold firstPassRegisterHandler. rt. Qed.
Local Hint Resolve rel_firstMem rel_firstReg : rp.
Lemma rel_first o p : rel sim_ eq (firstPassHandler o p) (firstPassHandler o p).
Proof. unfold firstPassHandler. rt. Qed.
Lemma rel_second o p : rel sim_ eq (secondPassHandler o p) (secondPassHandler o p).
Proof. unfold secondPassHandler. rt. Qed.
Lemma rel_lineLoop hd n h h' : hdl h h' -> (forall o p, rel sim_ eq (hd o p) (hd o p)) -> forall o, rel sim_ eq (lineLoop n h hd o) (lineLoop n h' hd o).
Proof. intros H HD. induction n as [|n IH]; intro o; cbn [lineLoop]; rt. Qed.
Lemma rel_parseLines hd h h' : hdl h h' -> (forall o p, rel sim_ eq (hd o p) (hd o p)) -> rel sim_ eq (parseLines h hd) (parseLines h' hd).
Proof.
  intros H HD. unfold parseLines. eapply rel_bind; [now apply rel_get_file|]. intros f ? <-. eapply rel_bind; [now apply rel_lineLoop|]. intros o ? <-. rt.
Qed.
Lemma rel_rewind h h' : hdl h h' -> rel sim_ eq (rewindLogFile h) (rewindLogFile h').
Proof. intro H. unfold rewindLogFile. rt. Qed.
Lemma rel_log f : In f args -> rel sim_ eq (GdbLogParse f) (GdbLogParse f).
Proof.
  intro HI. unfold GdbLogParse. eapply (rel_bind _ (orel hdl)); [|intros; now apply rel_ret]. apply rel_try; [exact I| |].
  - eapply rel_bind; [apply rel_lift, rel_openLog, HI|]. intros h h' H. eapply rel_bind; [apply rel_setl; exact H|]. intros _ _ _. apply rel_lift.
    unfold initPSPandMSP. eapply (rel_bind _ eq); [rt|]. intros _ _ _. eapply rel_bind; [apply rel_parseLines; [exact H|apply rel_first]|]. intros _ _ _.
    eapply rel_bind; [now apply rel_rewind|]. intros _ _ _. eapply rel_bind; [apply rel_parseLines; [exact H|apply rel_second]|]. intros _ _ _. now apply rel_fclose.
  - intros p q HP. eapply (rel_bind _ eq); [destruct p, q; cbn in HP; try contradiction; rt|]. intros _ _ _. apply rel_rethrow.
Qed.

(** ** Images *)

Lemma rel_blob bs o n : rel sim_ eq (blob_get bs o n) (blob_get bs o n).
Proof. unfold blob_get. rt. Qed.
Lemma rel_fetch bs o n : rel sim_ eq (fetchSizedByteArray bs o n) (fetchSizedByteArray bs o n).
Proof. unfold fetchSizedByteArray. rt. Qed.
Local Hint Resolve rel_blob rel_fetch : rp.
Lemma rel_try_msg m1 m2 t : rel sim_ eq m1 m2 -> rel sim_ eq (try_msg m1 t) (try_msg m2 t).
Proof.
  intro H. unfold try_msg. apply rel_try; [reflexivity| |].
  - eapply rel_bind; [apply rel_lift, H|]. intros x ? <-. now apply rel_setl.
  - intros. eapply rel_bind; [apply rel_code|]. intros c ? <-. apply rel_throw_msg.
Qed.
Local Hint Resolve rel_try_msg : rp.
Lemma rel_header bs h : rel sim_ eq (validateElfHeaderContents bs h) (validateElfHeaderContents bs h).
Proof. unfold validateElfHeaderContents. rt. Qed.
Lemma rel_entry bs p : rel sim_ eq (loadIfFlashLoadableEntry bs p) (loadIfFlashLoadableEntry bs p).
Proof. unfold loadIfFlashLoadableEntry. rt. Qed.
Local Hint Resolve rel_header rel_entry : rp.
Lemma rel_entries bs e n : forall i o c, rel sim_ eq (loadFlashLoadableEntries n bs e i o c) (loadFlashLoadableEntries n bs e i o c).
Proof. induction n as [|n IH]; intros i o c; cbn [loadFlashLoadableEntries]; rt. Qed.
Local Hint Resolve rel_entries : rp.
Lemma rel_elf bs : rel sim_ eq (ElfLoad_FromMemory bs) (ElfLoad_FromMemory bs).
Proof. unfold ElfLoad_FromMemory, initLoadObject. rt. Qed.
Lemma rel_bin a bs : rel sim_ eq (loadBinFile a bs) (loadBinFile a bs).
Proof. unfold loadBinFile. apply rel_try0; rt. Qed.
Local Hint Resolve rel_elf rel_bin : rp.
Lemma rel_fileSize h h' : hdl h h' -> rel sim_ eq (GetFileSize h) (GetFileSize h').
Proof. intro H. unfold GetFileSize. rt. Qed.
Definition lfd_rel (l l' : lfd) : Prop := orel hdl (l_file l) (l_file l') /\ orel blk (l_buf l) (l_buf l') /\ l_size l = l_size l' /\ l_data l = l_data l'.
Lemma rel_fileData f : In f args -> rel sim_ brel (loadFileData f) (loadFileData f).
Proof.
  intro HI. unfold loadFileData. eapply (rel_bind _ lfd_rel).
  - apply rel_try; [repeat split| |].
    + eapply rel_bind; [apply rel_lift, rel_fopen, HI|]. intros [h|] [h'|] H; cbn in H; try contradiction; [|apply rel_lift, rel_throw_msg].
      eapply rel_bind; [apply rel_setl; now repeat split|]. intros _ _ _. eapply rel_bind; [apply rel_lift, rel_try_msg, rel_fileSize, H|]. intros n ? <-.
      eapply rel_bind; [apply rel_lift, rel_malloc|]. intros [x|] [y|] HX; cbn in HX; try contradiction; [|apply rel_lift, rel_throw_msg].
      eapply rel_bind; [apply rel_setl; now repeat split|]. intros _ _ _. eapply rel_bind; [apply rel_lift, rel_fread, H|]. intros bs ? <-.
      destruct (negb _); [apply rel_lift, rel_throw_msg|]. eapply rel_bind; [apply rel_setl; now repeat split|]. intros _ _ _. apply rel_lift, rel_fclose, H.
    + intros l l' (H1 & H2 & H3 & H4). eapply rel_bind; [now apply rel_free_opt|]. intros _ _ _.
      eapply (rel_bind _ eq); [destruct (l_file l), (l_file l'); cbn in H1; try contradiction; rt|]. intros _ _ _. apply rel_rethrow.
  - intros l l' (H1 & H2 & H3 & H4). destruct (l_buf l), (l_buf l'); cbn in H2; try contradiction; [|apply rel_ub]. apply rel_ret. now split.
Qed.
Definition named (c : cl) : Prop := forall f, cl_elf c = Some f \/ cl_bin c = Some f \/ cl_dump c = Some f -> In f args.
Lemma rel_image c : named c -> rel sim_ eq (loadImageFile c) (loadImageFile c).
Proof.
  intro HN. unfold loadImageFile. eapply (rel_bind _ (orel blk)); [|intros; now apply rel_ret]. apply rel_try; [exact I| |].
  - eapply (rel_bind _ eq).
    { destruct (cl_elf c) as [f|] eqn:E1; [|destruct (cl_bin c) as [f|] eqn:E2; [|apply rel_ub]].
      - eapply rel_bind; [apply rel_lift, rel_fileData, HN; auto|]. intros [x d] [y d'] [HB HD]. cbn in HB, HD. subst d'. cbn [fst snd].
        eapply rel_bind; [apply rel_setl; exact HB|]. intros _ _ _. apply rel_lift, rel_elf.
      - eapply rel_bind; [apply rel_lift, rel_fileData, HN; auto|]. intros [x d] [y d'] [HB HD]. cbn in HB, HD. subst d'. cbn [fst snd].
        eapply rel_bind; [apply rel_setl; exact HB|]. intros _ _ _. apply rel_lift, rel_bin. }
    intros _ _ _. eapply rel_bind; [apply rel_getl|]. intros x y H. now apply rel_lift, rel_free_opt.
  - intros x y H. eapply rel_bind; [now apply rel_free_opt|]. intros _ _ _. apply rel_rethrow.
Qed.
Lemma rel_type f : In f args -> rel sim_ eq (getFileType f) (getFileType f).
Proof. intro HI. unfold getFileType. rt. Qed.
Lemma rel_dumpFile c : named c -> rel sim_ eq (loadDumpFile c) (loadDumpFile c).
Proof.
  intro HN. unfold loadDumpFile. destruct (cl_dump c) as [f|] eqn:E; [|apply rel_ub]. assert (HI : In f args) by auto.
  eapply rel_bind; [now apply rel_type|]. intros t ? <-. destruct t; [now apply rel_log| |]; now apply rel_dump.
Qed.
Lemma rel_aliasOption x y z : rel sim_ eq (createAliasOption x y z) (createAliasOption x y z).
Proof. unfold createAliasOption. cbv zeta. apply rel_try0; rt. Qed.
Local Hint Resolve rel_aliasOption : rp.

End Memory.

Local Hint Resolve rel_throw rel_throw_msg rel_rethrow rel_code rel_clear rel_malloc rel_free rel_free_opt rel_realloc rel_next_io rel_fopen
  rel_get_file rel_put_file rel_fclose rel_ub : rp.
Local Hint Extern 1 (orel _ _ _) => (cbn [orel]) : rp.
Local Hint Resolve rel_fread rel_fseek_end rel_fseek_start rel_ftell rel_fgets : rp.
Local Hint Resolve rel_ctx_put rel_ctx_word rel_ctx_bytes rel_eprintf rel_say rel_sayHex rel_sayIf rel_display : rp.
Local Hint Resolve rel_newlines rel_char rel_store rel_doRead rel_openDump rel_openLog rel_signature rel_flags rel_integers rel_floats : rp.

Local Hint Resolve rel_zmalloc rel_freeRegion rel_freeNew rel_add rel_find rel_get rel_create rel_alias rel_readonly rel_check rel_inc rel_pointer rel_load_ptr rel_store_ptr
  rel_readN rel_writeN rel_load8 rel_load32 rel_load_image rel_xml rel_uninit rel_aliasOption : rp.

(** ** The command line *)

Lemma rel_parse p b s : (p = SECOND_PASS -> b = true) -> forall n l c, (length l <= n)%nat -> incl l args -> named c ->
  rel (sim b s) (fun x y => x = y /\ named x) (parseArguments p l c) (parseArguments p l c).
Proof.
  intro HP. induction n as [|n IH]; intros l c Hn HI HN.
  { destruct l; [|cbn in Hn; lia]. cbn. apply rel_ret. now split. }
  destruct l as [|a t]; [cbn; apply rel_ret; now split|]. cbn [length] in Hn. cbn [parseArguments].
  assert (IT : incl t args) by (intros x Hx; apply HI; now right).
  destruct (negb _); [apply rel_throw_msg|]. destruct (strcaseeq a _).
  { destruct t as [|f [|v t]]; try apply rel_throw_msg. apply IH; [cbn [length] in Hn; lia|intros x Hx; apply IT; now do 2 right|].
    destruct p; [|exact HN]. intros g [G|[G|G]]; cbn in G; [apply HN; auto|injection G as <-; apply IT; now left|apply HN; auto]. }
  destruct (strcaseeq a _).
  { destruct t as [|f t]; try apply rel_throw_msg. apply IH; [cbn [length] in Hn; lia|intros x Hx; apply IT; now right|].
    destruct p; [|exact HN]. intros g [G|[G|G]]; cbn in G; [injection G as <-; apply IT; now left|apply HN; auto|apply HN; auto]. }
  destruct (strcaseeq a _).
  { destruct t as [|f t]; try apply rel_throw_msg. apply IH; [cbn [length] in Hn; lia|intros x Hx; apply IT; now right|].
    destruct p; [|exact HN]. intros g [G|[G|G]]; cbn in G; [apply HN; auto|apply HN; auto|injection G as <-; apply IT; now left]. }
  destruct (strcaseeq a _); [|apply rel_throw_msg].
  destruct t as [|f [|v [|r t]]]; try apply rel_throw_msg. eapply (rel_bind _ eq).
  { destruct p; [now apply rel_ret|]. rewrite (HP eq_refl). apply rel_aliasOption. }
  intros _ _ _. apply IH; [cbn [length] in Hn; lia|intros x Hx; apply IT; now do 3 right|exact HN].
Qed.
Lemma rel_required c b s : rel (sim b s) eq (throwIfRequiredArgumentNotSpecified c) (throwIfRequiredArgumentNotSpecified c).
Proof. unfold throwIfRequiredArgumentNotSpecified. rt. Qed.

Lemma sim_weaken b s w w' b' s' : (b' = true -> b = true) -> (s' = true -> s = true) -> sim b s w w' -> sim b' s' w w'.
Proof. intros HB HS []. constructor; auto. Qed.

Definition RL (b : bool) (l l' : cl * bool) : Prop := l = l' /\ snd l = b.
Definition RE (s : bool) (x y : (cl * bool) * world) : Prop := exists b, simL (RL b) b s x y /\ (b = false -> w_code (snd x) <> 0).

Lemma parse_code n : forall l c w w', (length l <= n)%nat -> parseArguments FIRST_PASS l c w = Exc w' -> w_code w' <> 0.
Proof.
  assert (T : forall e m (w w' : world) A, 0 < e -> throw_msg (A := A) e m w = Exc w' -> w_code w' <> 0)
    by (intros e m w w' A He H; injection H as <-; cbn [set_exn w_code]; lia).
  induction n as [|n IH]; intros l c w w' Hn; (destruct l as [|a t]; [discriminate|]); cbn [length] in Hn; [lia|]. cbn [parseArguments].
  destruct (negb _); [now apply T|]. destruct (strcaseeq a _).
  { destruct t as [|f [|v t]]; try now apply T. apply IH. cbn [length] in Hn; lia. }
  destruct (strcaseeq a _). { destruct t as [|f t]; try now apply T. apply IH. cbn [length] in Hn; lia. }
  destruct (strcaseeq a _). { destruct t as [|f t]; try now apply T. apply IH. cbn [length] in Hn; lia. }
  destruct (strcaseeq a _); [|now apply T]. destruct t as [|f [|v [|r t]]]; try now apply T. unfold bind, ret. apply IH. cbn [length] in Hn; lia.
Qed.
Lemma required_code c w w' : throwIfRequiredArgumentNotSpecified c w = Exc w' -> w_code w' <> 0.
Proof.
  unfold throwIfRequiredArgumentNotSpecified. destruct (cl_bin c), (cl_elf c), (cl_dump c); try discriminate; intro H; injection H as <-; cbn [set_exn w_code];
    assert (0 < invalidArgumentException) by reflexivity; lia.
Qed.
Lemma lift_exc L A (m : M world A) (x x' : L * world) : lift m x = Exc x' -> m (snd x) = Exc (snd x').
Proof. unfold lift. destruct (m (snd x)); try discriminate. intro H. now injection H as <-. Qed.

Definition init_body : M ((cl * bool) * world) unit :=
  bind (lift (parseArguments FIRST_PASS args (mkCL None None None 0))) (fun c =>
  bind (setl (c, false)) (fun _ => bind (lift (throwIfRequiredArgumentNotSpecified c)) (fun _ =>
  bind (lift MemorySim_Init) (fun _ => bind (setl (c, true)) (fun _ => bind (lift (loadImageFile c)) (fun _ =>
  bind (lift (loadDumpFile c)) (fun _ => bind (lift (parseArguments SECOND_PASS args c)) (fun _ => ret tt)))))))).

Lemma rel_init_body s : hrel (simL (RL false) false s) (simL (RL true) true s) (RE s) eq init_body init_body.
Proof.
  assert (E1 : forall x y, simL (RL true) true s x y -> RE s x y) by (intros; exists true; split; [assumption|discriminate]).
  unfold init_body. eapply hrel_bind.
  { apply hrel_exc; [intros x x' y' H HS; exists false; split; [exact HS|intros _; exact (parse_code (length args) _ _ _ _ (le_n _) (lift_exc _ _ _ _ _ H))]|].
    eapply rel_lift, (rel_parse FIRST_PASS false s) with (n := length args); [discriminate|lia|apply incl_refl|].
    intros f [G|[G|G]]; discriminate G. }
  intros c ? [<- HN]. eapply hrel_bind; [apply hrel_exc; [discriminate|]; apply rel_setl; now split|]. intros _ _ _.
  eapply hrel_bind; [apply hrel_exc; [intros x x' y' H HS; exists false; split; [exact HS|intros _; exact (required_code _ _ _ (lift_exc _ _ _ _ _ H))]|apply rel_lift, rel_required]|]. intros _ _ _.
  eapply (hrel_bind _ (simL (RL false) true s) _ _ eq).
  { intros [l w] [l' w'] [HL HS]. split; [reflexivity|]. split; [exact HL|]. cbn [snd] in *. destruct HS. constructor; auto.
    intros _. constructor; cbn; auto. }
  intros _ _ _. eapply (hrel_bind _ (simL (RL true) true s) _ _ eq).
  { intros [l w] [l' w'] [HL HS]. split; [reflexivity|]. split; [now split|exact HS]. }
  intros _ _ _. eapply hrel_bind; [apply hrel_of; [exact E1|]; apply rel_lift, rel_image, HN|]. intros _ _ _.
  eapply hrel_bind; [apply hrel_of; [exact E1|]; apply rel_lift, rel_dumpFile, HN|]. intros _ _ _.
  eapply hrel_bind.
  { apply hrel_of; [exact E1|]. eapply rel_lift, (rel_parse SECOND_PASS true s) with (n := length args); [reflexivity|lia|apply incl_refl|exact HN]. }
  intros _ _ _. apply hrel_of; [exact E1|now apply rel_ret].
Qed.

Definition init_handler (l : cl * bool) : M world (cl * bool) :=
  bind displayExceptionMessage (fun _ => bind displayCopyrightNotice (fun _ => bind displayUsage (fun _ =>
  bind (if snd l then MemorySim_Uninit else ret tt) (fun _ => rethrow)))).
Lemma rel_init_handler b s l l' : RL b l l' -> hrel (sim b s) (sim b s) (sim b s) (fun _ _ => False) (init_handler l) (init_handler l').
Proof.
  intros [<- Hb]. unfold init_handler. assert (E : forall x y, sim b s x y -> sim b s x y) by auto.
  eapply hrel_bind; [apply hrel_of; [exact E|apply rel_display]|]. intros _ _ _.
  eapply hrel_bind; [apply hrel_of; [exact E|apply rel_eprintf]|]. intros _ _ _.
  eapply hrel_bind; [apply hrel_of; [exact E|apply rel_eprintf]|]. intros _ _ _.
  eapply (hrel_bind _ (sim b s) _ _ eq).
  { apply hrel_of; [exact E|]. destruct (snd l); [subst b; apply rel_uninit|now apply rel_ret]. }
  intros _ _ _. apply hrel_of; [exact E|apply rel_rethrow].
Qed.

(** Before the registers are cleared they may differ. *)
Definition presim (s : bool) (w w' : world) : Prop := sim false s (set_ctx w []) (set_ctx w' []).
Lemma presim_start s w w' z : presim s w w' -> sim false s (set_exn (set_ctx w z) noException []) (set_exn (set_ctx w' z) noException []).
Proof. intros []. cbn in *. constructor; auto. Qed.

Lemma rel_init s : hrel (presim s) (sim true s) (sim false s) (fun x y => x = y /\ snd x = true) (CrashDebugCommandLine_Init args) (CrashDebugCommandLine_Init args).
Proof.
  intros w w' HP.
  set (x := ((mkCL None None None 0, false), set_exn (set_ctx w (repeat 0 216)) noException [])).
  set (y := ((mkCL None None None 0, false), set_exn (set_ctx w' (repeat 0 216)) noException [])).
  assert (B : simL (RL false) false s x y) by (split; [now split|now apply presim_start]).
  apply rel_init_body in B.
  change (CrashDebugCommandLine_Init args w) with
    (match init_body x with Ret _ (l, w1) => if w_code w1 =? 0 then Ret l w1 else init_handler l w1 | Exc (l, w1) => if w_code w1 =? 0 then Ret l w1 else init_handler l w1 | Ub u => Ub u end).
  change (CrashDebugCommandLine_Init args w') with
    (match init_body y with Ret _ (l, w1) => if w_code w1 =? 0 then Ret l w1 else init_handler l w1 | Exc (l, w1) => if w_code w1 =? 0 then Ret l w1 else init_handler l w1 | Ub u => Ub u end).
  destruct (init_body x) as [u [l v]|[l v]|u]; destruct (init_body y) as [u' [l' v']|[l' v']|u']; try contradiction; auto.
  - destruct B as [_ [[E Hl] HS]]. cbn [fst snd] in *. subst l'. rewrite (s_code _ _ _ _ HS). destruct (w_code v =? 0); [exact (conj (conj eq_refl Hl) HS)|].
    pose proof (rel_init_handler true s l l (conj eq_refl Hl) v v' HS) as H.
    destruct (init_handler l v); destruct (init_handler l v'); try contradiction; auto; [now destruct H|].
    now apply (sim_weaken true s).
  - destruct B as [b [[[E Hl] HS] NZ]]. cbn [fst snd] in *. subst l'. rewrite (s_code _ _ _ _ HS). destruct (w_code v =? 0) eqn:Z0.
    { destruct b; [exact (conj (conj eq_refl Hl) HS)|]. exfalso. apply NZ; [reflexivity|lia]. }
    pose proof (rel_init_handler b s l l (conj eq_refl Hl) v v' HS) as H.
    destruct (init_handler l v); destruct (init_handler l v'); try contradiction; auto; [now destruct H|].
    now apply (sim_weaken b s).
Qed.

(** ** The session *)

Lemma con_rel_con b s w w' c c' : sim b s w w' -> con_rel c c' -> (s = true -> c_connected c' = c_connected c) -> sim b s (set_con w c) (set_con w' c').
Proof. intros [] HC HN. constructor; auto. Qed.
Lemma sim_faults b s w w' n : sim b s w w' -> sim b s (set_faults w n) (set_faults w' n).
Proof. intros []. constructor; auto. Qed.

Lemma rel_icomm b s : hrel (sim b s) (fun w w' => sim b s w w' /\ c_connected (w_con w') = c_connected (w_con w)) (sim b s) eq StandardIComm_Init StandardIComm_Init.
Proof. intros w w' H. split; [reflexivity|]. split; [|reflexivity]. apply con_rel_con; [exact H| |reflexivity]. destruct (s_con _ _ _ _ H). constructor; auto. Qed.
Lemma rel_platform_init b s : hrel (fun w w' => sim b s w w' /\ c_connected (w_con w') = c_connected (w_con w)) (sim b true) (sim b s) eq mriPlatform_Init mriPlatform_Init.
Proof. intros w w' [[] HC]. split; [reflexivity|]. constructor; auto. Qed.

Section Session.
Notation sim_ := (sim true true).

Lemma rel_poll : rel sim_ eq Console_HasStdInDataToRead Console_HasStdInDataToRead.
Proof.
  intros w w' H. unfold Console_HasStdInDataToRead. cbv zeta. destruct inputs as (_ & _ & _ & I & _). pose proof (s_con _ _ _ _ H) as HC. pose proof HC as [P R W O].
  destruct P as (k & P1 & P2).
  assert (N : sim_ (set_con w (mkCon (S (c_polls (w_con w))) (c_reads (w_con w)) (c_writes (w_con w)) (c_connected (w_con w)) (c_out (w_con w))))
                   (set_con w' (mkCon (S (c_polls (w_con w'))) (c_reads (w_con w')) (c_writes (w_con w')) (c_connected (w_con w')) (c_out (w_con w'))))).
  { apply con_rel_con; [exact H| |exact (s_connected _ _ _ _ H)]. constructor; cbn; auto. exists (S k). lia. }
  rewrite (s_env1 _ _ _ _ H), (s_env2 _ _ _ _ H), P1, P2, <- I in *.
  destruct (e_poll _ _); [now apply (rel_throw true true _ eq)|split; auto..].
Qed.
Lemma rel_stdin : rel sim_ eq Console_ReadStdIn Console_ReadStdIn.
Proof.
  intros w w' H. unfold Console_ReadStdIn. cbv zeta. destruct inputs as (_ & _ & _ & _ & I & _). pose proof (s_con _ _ _ _ H) as HC. pose proof HC as [P R W O].
  destruct R as (k & P1 & P2).
  assert (N : sim_ (set_con w (mkCon (c_polls (w_con w)) (S (c_reads (w_con w))) (c_writes (w_con w)) (c_connected (w_con w)) (c_out (w_con w))))
                   (set_con w' (mkCon (c_polls (w_con w')) (S (c_reads (w_con w'))) (c_writes (w_con w')) (c_connected (w_con w')) (c_out (w_con w'))))).
  { apply con_rel_con; [exact H| |exact (s_connected _ _ _ _ H)]. constructor; cbn; auto. exists (S k). lia. }
  rewrite (s_env1 _ _ _ _ H), (s_env2 _ _ _ _ H), P1, P2, <- I in *.
  destruct (e_read _ _); [now apply (rel_throw true true _ eq)|split; auto..].
Qed.
Lemma rel_stdout ch : rel sim_ eq (Console_WriteStdOut ch) (Console_WriteStdOut ch).
Proof.
  intros w w' H. unfold Console_WriteStdOut. cbv zeta. destruct inputs as (_ & _ & _ & _ & _ & I). pose proof (s_con _ _ _ _ H) as HC. pose proof HC as [P R W O].
  destruct W as (k & P1 & P2).
  assert (N : forall d, sim_ (set_con w (mkCon (c_polls (w_con w)) (c_reads (w_con w)) (S (c_writes (w_con w))) (c_connected (w_con w)) (c_out (w_con w) ++ d)))
                   (set_con w' (mkCon (c_polls (w_con w')) (c_reads (w_con w')) (S (c_writes (w_con w'))) (c_connected (w_con w')) (c_out (w_con w') ++ d)))).
  { intro d. apply con_rel_con; [exact H| |exact (s_connected _ _ _ _ H)]. constructor; cbn; auto; [exists (S k); lia|].
    destruct O as (e & O1 & O2). exists (e ++ d). now rewrite O1, O2, !app_assoc. }
  pose proof (N []) as N0. rewrite !app_nil_r in N0. specialize (N [ch mod 256]).
  rewrite (s_env1 _ _ _ _ H), (s_env2 _ _ _ _ H), P1, P2, <- I in *.
  destruct (e_write _ _); [split; auto|now apply (rel_throw true true _ eq)].
Qed.
Lemma rel_connected v : rel sim_ eq (set_connected v) (set_connected v).
Proof. intros w w' H. split; [reflexivity|]. apply con_rel_con; [exact H| |reflexivity]. destruct (s_con _ _ _ _ H). constructor; auto. Qed.
Local Hint Resolve rel_poll rel_stdin rel_stdout rel_connected : rp.
Lemma rel_hasData : rel sim_ eq hasReceiveData hasReceiveData.
Proof.
  unfold hasReceiveData. apply rel_try; [reflexivity| |].
  - eapply rel_bind; [apply rel_lift, rel_poll|]. intros x ? <-. now apply rel_setl.
  - intros. rt.
Qed.
Lemma rel_receive : rel sim_ eq receiveChar receiveChar.
Proof. unfold receiveChar. rt. Qed.
Lemma rel_isConnected : rel sim_ eq isGdbConnected isGdbConnected.
Proof.
  unfold isGdbConnected. apply rel_getw. intros w w' H. rewrite (s_connected _ _ _ _ H eq_refl). destruct (c_connected _); [now apply rel_ret|apply rel_hasData].
Qed.
Local Hint Resolve rel_hasData rel_receive rel_isConnected : rp.

Lemma rel_countFault : rel sim_ eq countFault countFault.
Proof. intros w w' H. unfold countFault. rewrite (s_faults _ _ _ _ H eq_refl). destruct (_ <? _); [|reflexivity]. split; [reflexivity|now apply sim_faults]. Qed.
Lemma rel_memRead n a : rel sim_ eq (Platform_MemRead n a) (Platform_MemRead n a).
Proof.
  unfold Platform_MemRead. apply rel_try; [reflexivity| |].
  - eapply rel_bind; [apply rel_lift, rel_readN|]. intros x ? <-. now apply rel_setl.
  - intros x ? <-. eapply rel_bind; [apply rel_countFault|]. intros _ _ _. now apply rel_ret.
Qed.
Lemma rel_memWrite n a v : rel sim_ eq (Platform_MemWrite n a v) (Platform_MemWrite n a v).
Proof. unfold Platform_MemWrite. apply rel_try0; [apply rel_writeN|apply rel_countFault]. Qed.
Lemma rel_faults : rel sim_ eq Platform_WasMemoryFaultEncountered Platform_WasMemoryFaultEncountered.
Proof. intros w w' H. split; [symmetry; exact (s_faults _ _ _ _ H eq_refl)|now apply sim_faults]. Qed.
Lemma rel_try_read m : rel sim_ eq m m -> rel sim_ eq (try_read m) (try_read m).
Proof.
  intro H. unfold try_read. apply rel_try; [reflexivity| |].
  - eapply rel_bind; [apply rel_lift, H|]. intros x ? <-. now apply rel_setl.
  - intros. now apply rel_ret.
Qed.
Lemma rel_faultAddress a : rel sim_ eq (displayFaultAddress a) (displayFaultAddress a).
Proof. unfold displayFaultAddress, read32. apply rel_try0; rt. Qed.
Local Hint Resolve rel_try_read rel_faultAddress : rp.
Lemma rel_memFault : rel sim_ eq displayMemFaultCauseToGdbConsole displayMemFaultCauseToGdbConsole.
Proof. unfold displayMemFaultCauseToGdbConsole, read32. eapply rel_bind; [apply rel_try_read; rt|]. intros x ? <-. rt. Qed.
Lemma rel_busFault : rel sim_ eq displayBusFaultCauseToGdbConsole displayBusFaultCauseToGdbConsole.
Proof. unfold displayBusFaultCauseToGdbConsole, read32. eapply rel_bind; [apply rel_try_read; rt|]. intros x ? <-. rt. Qed.
Lemma rel_usageFault : rel sim_ eq displayUsageFaultCauseToGdbConsole displayUsageFaultCauseToGdbConsole.
Proof. unfold displayUsageFaultCauseToGdbConsole, read32. eapply rel_bind; [apply rel_try_read; rt|]. intros x ? <-. rt. Qed.
Local Hint Resolve rel_memFault rel_busFault rel_usageFault : rp.
Lemma rel_hardFault : rel sim_ eq displayHardFaultCauseToGdbConsole displayHardFaultCauseToGdbConsole.
Proof. unfold displayHardFaultCauseToGdbConsole, read32. eapply rel_bind; [rt|]. intros _ _ _. eapply rel_bind; [apply rel_try_read; rt|]. intros x ? <-. rt. Qed.
Local Hint Resolve rel_hardFault : rp.
Lemma rel_number : rel sim_ eq getCurrentlyExecutingExceptionNumber getCurrentlyExecutingExceptionNumber.
Proof. unfold getCurrentlyExecutingExceptionNumber. rt. Qed.
Local Hint Resolve rel_number : rp.
Lemma rel_report : rel sim_ eq Platform_DisplayFaultCauseToGdbConsole Platform_DisplayFaultCauseToGdbConsole.
Proof. unfold Platform_DisplayFaultCauseToGdbConsole. rt. Qed.
Lemma rel_cause : rel sim_ eq Platform_DetermineCauseOfException Platform_DetermineCauseOfException.
Proof. unfold Platform_DetermineCauseOfException. rt. Qed.
Lemma rel_fpu : rel sim_ eq hasFPURegisters hasFPURegisters.
Proof. unfold hasFPURegisters. rt. Qed.
Local Hint Resolve rel_fpu : rp.
Lemma rel_readHex n : forall off buf, rel sim_ eq (readBytesFromBufferAsHex n off buf) (readBytesFromBufferAsHex n off buf).
Proof. induction n as [|n IH]; intros off buf; cbn [readBytesFromBufferAsHex]; rt. Qed.
Local Hint Resolve rel_readHex : rp.
Lemma rel_num A (f : A -> Z) m : rel sim_ eq m m -> rel sim_ eq (num f m) (num f m).
Proof. intro H. unfold num. eapply rel_bind; [exact H|]. intros x ? <-. now apply rel_ret. Qed.
Lemma rel_nothing m : rel sim_ eq m m -> rel sim_ eq (nothing m) (nothing m).
Proof. intro H. unfold nothing. eapply rel_bind; [exact H|]. intros. now apply rel_ret. Qed.

Lemma rel_pcall p : rel sim_ eq (pcall_run p) (pcall_run p).
Proof.
  destruct p; cbn [pcall_run].
  - destruct c; cbn [control_run]; try apply rel_num; try apply rel_nothing; now apply rel_ret.
  - apply rel_num, rel_memRead.
  - apply rel_nothing, rel_memWrite.
  - apply rel_num, rel_faults.
  - apply rel_num, rel_cause.
  - apply rel_nothing, rel_report.
  - unfold Platform_CopyContextToBuffer. rt.
  - unfold Platform_CopyContextFromBuffer. rt.
  - unfold Platform_WriteTResponseRegistersToBuffer. rt.
  - apply rel_xml.
  - apply rel_num. unfold Platform_GetDeviceMemoryMapXmlSize. rt.
  - unfold Platform_GetTargetXml. rt.
  - apply rel_num. unfold Platform_GetTargetXmlSize. rt.
  - apply rel_num, rel_hasData.
  - apply rel_num, rel_receive.
  - apply rel_nothing, rel_stdout.
  - apply rel_num. unfold Platform_CommIsWaitingForGdbToConnect. rt.
Qed.
Lemma rel_monitor m : rel sim_ eq (monitor_run m) (monitor_run m).
Proof.
  induction m as [|c|p k IK h IH]; cbn [monitor_run]; [now apply rel_ret|apply rel_throw|].
  intros w w' H. unfold api. pose proof (rel_pcall p _ _ (sim_exn true true w w' noException [] H)) as P.
  destruct (pcall_run p _) as [v x|x|u]; destruct (pcall_run p _) as [v' x'|x'|u']; try contradiction; auto.
  - destruct P as [<- P]. exact (IK v x x' P).
  - rewrite (s_code _ _ _ _ P). exact (IH (w_code x) x x' P).
Qed.
End Session.

Lemma rel_main_handler b s : rel (sim b s) eq main_handler main_handler.
Proof. unfold main_handler. rt. Qed.

Definition ML (b : bool) (l l' : bool * Z) : Prop := l = l' /\ fst l = b.
Definition main_body (run : M world unit) : M ((bool * Z) * world) unit :=
  bind (lift (CrashDebugCommandLine_Init args)) (fun c => bind (setl (snd c, 0)) (fun _ =>
  lift (bind StandardIComm_Init (fun _ => bind mriPlatform_Init (fun _ => run))))).

Lemma main_body_eq run l w : main_body run (l, w) =
  match CrashDebugCommandLine_Init args w with
  | Ret c v => match bind StandardIComm_Init (fun _ => bind mriPlatform_Init (fun _ => run)) v with
               | Ret a x => Ret a ((snd c, 0), x) | Exc x => Exc ((snd c, 0), x) | Ub u => Ub u end
  | Exc v => Exc (l, v)
  | Ub u => Ub u
  end.
Proof. unfold main_body. unfold bind at 1, lift at 1. cbn [fst snd]. destruct (CrashDebugCommandLine_Init args w); reflexivity. Qed.
Lemma main_eq run w : main run args w =
  match try_ (false, 0) (main_body run) (fun l => bind main_handler (fun _ => ret (fst l, -1))) w with
  | Ret l x => bind (CrashDebugCommandLine_Uninit (fst l)) (fun _ => ret (snd l)) x
  | Exc x => Exc x
  | Ub u => Ub u
  end.
Proof. reflexivity. Qed.

Lemma rel_main run : rel (sim true true) eq run run ->
  hrel (presim false) (fun w w' => exists b, sim b false w w') (fun w w' => exists b, sim b false w w') eq (main run args) (main run args).
Proof.
  intros HR. set (PE := fun (x y : (bool * Z) * world) => exists b, simL (ML b) b false x y).
  assert (B : forall w w', presim false w w' -> match main_body run ((false, 0), set_exn w noException []), main_body run ((false, 0), set_exn w' noException []) with
     | Ret _ x, Ret _ y => PE x y | Exc x, Exc y => PE x y | Ub u, Ub v => u = v | _, _ => False end).
  { intros w w' HP. assert (HP' : presim false (set_exn w noException []) (set_exn w' noException [])) by (destruct HP; constructor; auto).
    rewrite !main_body_eq. pose proof (rel_init false _ _ HP') as HI.
    destruct (CrashDebugCommandLine_Init args _) as [c v|v|u]; destruct (CrashDebugCommandLine_Init args _) as [c' v'|v'|u']; try contradiction; auto.
    - destruct HI as [[<- Hc] HS].
      assert (RR : hrel (sim true false) (sim true true) (sim true false) eq
        (bind StandardIComm_Init (fun _ => bind mriPlatform_Init (fun _ => run))) (bind StandardIComm_Init (fun _ => bind mriPlatform_Init (fun _ => run)))).
      { eapply hrel_bind; [apply rel_icomm|]. intros _ _ _. eapply hrel_bind; [apply rel_platform_init|]. intros _ _ _.
        apply hrel_of; [intros; now apply (sim_weaken true true)|exact HR]. }
      specialize (RR _ _ HS).
      destruct (bind StandardIComm_Init _ v) as [? x|x|?]; destruct (bind StandardIComm_Init _ v') as [? x'|x'|?]; try contradiction; auto.
      + unfold PE. exists true. split; [split; [reflexivity|exact Hc]|]. cbn [snd]. destruct RR as [_ RR]. now apply (sim_weaken true true).
      + unfold PE. exists true. split; [split; [reflexivity|exact Hc]|exact RR].
    - unfold PE. exists false. split; [now split|exact HI]. }
  intros w w' HP. specialize (B w w' HP). rewrite !main_eq.
  assert (T : match try_ (false, 0) (main_body run) (fun l => bind main_handler (fun _ => ret (fst l, -1))) w, try_ (false, 0) (main_body run) (fun l => bind main_handler (fun _ => ret (fst l, -1))) w' with
     | Ret l x, Ret l' y => exists b, ML b l l' /\ sim b false x y | Exc x, Exc y => exists b, sim b false x y | Ub u, Ub v => u = v | _, _ => False end).
  { assert (HH : forall b l l' x y, ML b l l' -> sim b false x y ->
      match (if w_code x =? 0 then Ret l x else bind main_handler (fun _ => ret (fst l, -1)) x), (if w_code y =? 0 then Ret l' y else bind main_handler (fun _ => ret (fst l', -1)) y) with
     | Ret l x, Ret l' y => exists b, ML b l l' /\ sim b false x y | Exc x, Exc y => exists b, sim b false x y | Ub u, Ub v => u = v | _, _ => False end).
    { intros b l l' x y [<- HB] HS. rewrite (s_code _ _ _ _ HS). destruct (w_code x =? 0); [exists b; exact (conj (conj eq_refl HB) HS)|].
      unfold bind. pose proof (rel_main_handler b false _ _ HS) as H. destruct (main_handler x); destruct (main_handler y); try contradiction; eauto.
      destruct H as [_ H]. exists b. exact (conj (conj eq_refl HB) H). }
    unfold try_. destruct (main_body run (_, set_exn w _ _)) as [? [l x]|[l x]|?]; destruct (main_body run _) as [? [l' y]|[l' y]|?]; try contradiction; auto;
      destruct B as (b & HL & HS); exact (HH b _ _ _ _ HL HS). }
  destruct (try_ (false, 0) (main_body run) _ w) as [l x|x|u]; destruct (try_ (false, 0) (main_body run) _ w') as [l' x'|x'|u']; try contradiction; auto.
  destruct T as (b & [<- Hb] & HS).
  assert (F : rel (sim b false) eq (bind (CrashDebugCommandLine_Uninit (fst l)) (fun _ => ret (snd l))) (bind (CrashDebugCommandLine_Uninit (fst l)) (fun _ => ret (snd l)))).
  { eapply (rel_bind _ eq); [|intros; now apply rel_ret]. unfold CrashDebugCommandLine_Uninit. destruct (fst l); [subst b; apply rel_uninit|now apply rel_ret]. }
  specialize (F x x' HS). destruct (bind (CrashDebugCommandLine_Uninit (fst l)) _ x); destruct (bind (CrashDebugCommandLine_Uninit (fst l)) _ x'); try contradiction; auto; [|now exists b]. destruct F as [F1 F2]. split; [exact F1|now exists b].
Qed.

(** ** The start *)

Lemma presim_refl s : fs_open (w_files u1) = [] -> fs_open (w_files u2) = [] -> (s = true -> w_faults u2 = w_faults u1 /\ c_connected (w_con u2) = c_connected (w_con u1)) ->
  presim s (set_exn u1 noException []) (set_exn u2 noException []).
Proof.
  intros O1 O2 HS. constructor; cbn; try easy.
  - constructor; [exists [], []; now repeat split; constructor|exists 0%nat; lia|exists 0%nat; lia].
  - constructor; [rewrite O1, O2; constructor|exists 0%nat; lia|exists 0%nat; lia].
  - now exists [].
  - intro E. now apply HS.
  - now exists [].
  - constructor; [exists 0%nat; lia..|]. exists []. now rewrite !app_nil_r.
  - intro E. now apply HS.
Qed.
Lemma sim_output b s w w' : sim b s w w' -> same_output u1 w u2 w'.
Proof. intros []. repeat split; auto. destruct s_con0. auto. Qed.

End Repro.
