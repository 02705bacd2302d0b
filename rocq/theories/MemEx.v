(** Concrete simulator states for the examples beside the theorems, and checkers that decide the
    hypotheses of a theorem on such a state. *)
From Coq Require Import ZArith List Bool Lia ZifyBool ZifyNat.
From Verif Require Import Base World MemSim BaseLemmas MemSpec MemInv MemHist2 MemThms.
Import ListNotations.
Open Scope Z_scope.

(** ** Deciding hypotheses *)

Fixpoint first_from (i : nat) (rs : list region) (a n : Z) : option (nat * region) :=
  match rs with
  | [] => None
  | r :: t => if (r_base r <=? a) && (a + n <=? r_base r + r_size r) then Some (i, r) else first_from (S i) t a n
  end.

Lemma first_from_spec rs a n i r : forall s,
  first_cover rs a n i r <-> first_from s rs a n = Some ((s + i)%nat, r).
Proof.
  revert i. induction rs as [|x rs IH]; intros i s; cbn [first_from].
  - split; [intros (H & _); destruct i; discriminate|discriminate].
  - destruct ((r_base x <=? a) && (a + n <=? r_base x + r_size x)) eqn:E.
    + split.
      * intros (H1 & H2 & H3). destruct i as [|i].
        -- injection H1 as ->. now rewrite Nat.add_0_r.
        -- exfalso. apply (H3 O x); [lia|reflexivity|]. unfold covers. lia.
      * intro H. injection H as H ->. assert (i = O) by lia. subst i. split; [reflexivity|]. split; [unfold covers; lia|]. intros. lia.
    + split.
      * intros (H1 & H2 & H3). destruct i as [|i].
        -- injection H1 as ->. unfold covers in H2. lia.
        -- replace (s + S i)%nat with (S s + i)%nat by lia. apply IH. split; [exact H1|]. split; [exact H2|].
           intros i' r' Hi. apply (H3 (S i') r'). lia.
      * intro H. destruct i as [|i].
        -- exfalso. assert (G : forall l k m, first_from k l a n = Some (m, r) -> (k <= m)%nat).
           { induction l as [|y l IHl]; intros k m Hk; cbn in Hk; [discriminate|].
             destruct (_ && _) in Hk; [injection Hk as -> _; lia|]. apply IHl in Hk. lia. }
           apply G in H. lia.
        -- replace (s + S i)%nat with (S s + i)%nat in H by lia. apply IH in H as (H1 & H2 & H3).
           split; [exact H1|]. split; [exact H2|]. intros [|i'] r' Hi Hr; [injection Hr as <-; unfold covers; lia|].
           apply (H3 i' r'); [lia|exact Hr].
Qed.

Definition find_serve (rs : list region) (a n : Z) : option (nat * Z) :=
  match first_from 0 rs a n with
  | None => None
  | Some (i, r) => match r_redir r with
                   | None => Some (i, a - r_base r)
                   | Some t => match nth_error rs t with
                               | Some rt => Some (t, (a - r_base r) + W (r_raddr r - r_base rt))
                               | None => None
                               end
                   end
  end.

Lemma find_serve_spec rs a n j k : serves rs a n j k <-> find_serve rs a n = Some (j, k).
Proof.
  unfold serves, find_serve. split.
  - intros (i & r & F & H). apply (proj1 (first_from_spec rs a n i r 0)) in F. cbn [Nat.add] in F. rewrite F.
    destruct (r_redir r) as [t|]; [destruct H as (-> & rt & -> & ->); reflexivity|destruct H as [-> ->]; reflexivity].
  - destruct (first_from 0 rs a n) as [[i r]|] eqn:F; [|discriminate]. apply (proj2 (first_from_spec rs a n i r 0)) in F.
    destruct (r_redir r) as [t|] eqn:E.
    + destruct (nth_error rs t) as [rt|] eqn:Et; [|discriminate]. intro H. injection H as <- <-. exists i, r.
      split; [exact F|]. rewrite E. eauto.
    + intro H. injection H as <- <-. exists i, r. split; [exact F|]. rewrite E. auto.
Qed.

Definition direct_aliasb (rs : list region) (o : op) : bool :=
  match o with
  | OAlias _ redirect _ => match first_from 0 rs redirect 1 with
                           | Some (_, r) => match r_redir r with None => true | _ => false end
                           | None => true
                           end
  | _ => true
  end.

Lemma direct_aliasb_ok rs o : direct_aliasb rs o = true -> direct_alias rs o.
Proof.
  destruct o; cbn; auto. intros H i r F. apply (proj1 (first_from_spec _ _ _ _ _ 0)) in F. rewrite F in H.
  destruct (r_redir r); [discriminate|reflexivity].
Qed.

(** Enough for histories of calls that store nothing, and writes. *)
Definition quietb (a n : Z) (rs : list region) (o : op) : bool :=
  match o with
  | OWrite n' a' _ =>
      match find_serve rs a n, find_serve rs a' n' with
      | Some (j, k), Some (j', k') => negb (Nat.eqb j j') || (k + n <=? k') || (k' + n' <=? k)
      | _, _ => true
      end
  | OLoad _ _ _ | OFlash _ _ => false
  | _ => true
  end.

Lemma quietb_ok a n w o : quietb a n (regions w) o = true -> quiet a n w o.
Proof.
  unfold quiet. intros H j k k' HS Hk HT. destruct o; cbn in *; try contradiction; try discriminate.
  destruct HT as (k2 & HS2 & Hk2). apply find_serve_spec in HS, HS2. rewrite HS, HS2 in H. rewrite Nat.eqb_refl in H. cbn in H. lia.
Qed.

Fixpoint all_alongb (P : world -> op -> bool) (ops : list op) (w : world) : bool :=
  match ops with
  | [] => true
  | o :: t => P w o && match step o w with Some w' => all_alongb P t w' | None => true end
  end.

Lemma all_alongb_ok (P : world -> op -> bool) (Q : world -> op -> Prop) ops :
  (forall w o, P w o = true -> Q w o) -> forall w, all_alongb P ops w = true -> all_along Q ops w.
Proof.
  intro HPQ. induction ops as [|o ops IH]; intros w H; cbn in *; [exact I|]. apply andb_prop in H as [H1 H2].
  split; [auto|]. intros w' E. rewrite E in H2. auto.
Qed.

Definition u32b (v : Z) : bool := (0 <=? v) && (v <? 4294967296).
Lemma u32b_ok v : u32b v = true -> u32 v.
Proof. unfold u32b, u32. lia. Qed.
Definition byteb (v : Z) : bool := (0 <=? v) && (v <? 256).
Definition widthb (n : Z) : bool := (n =? 1) || (n =? 2) || (n =? 4).

Definition op_argsb (o : op) : bool :=
  match o with
  | OCreate b s => u32b b && u32b s
  | OAlias b r s => u32b b && u32b r && u32b s
  | OReadOnly b => u32b b
  | OFlash src s => u32b s && forallb byteb src && (s <=? zlen src)
  | OLoad b src s => u32b b && u32b s && forallb byteb src && (s <=? zlen src)
  | OXml => true
  | ORead n a => widthb n && u32b a
  | OWrite n a v => widthb n && u32b a
  | OMapRead a n | OMapWrite a n => u32b a && u32b n
  | OCount a => u32b a
  | OSet a n t | OClear a n t => u32b a && u32b n && u32b t
  | OHits => true
  end.

Lemma bytes_ok l : forallb byteb l = true -> Forall byte l.
Proof. intro H. apply Forall_forall. intros x Hx. rewrite forallb_forall in H. apply H in Hx. unfold byteb in Hx. unfold byte. lia. Qed.

Lemma op_argsb_ok o : op_argsb o = true -> op_args o.
Proof.
  destruct o; cbn; unfold widthb, width; rewrite ?andb_true_iff; intros; intuition (auto using u32b_ok, bytes_ok); lia.
Qed.

Lemma ops_argsb_ok ops : forallb op_argsb ops = true -> Forall op_args ops.
Proof. intro H. apply Forall_forall. intros o Ho. rewrite forallb_forall in H. apply op_argsb_ok. auto. Qed.

(** ** The states *)

(** A world in which every allocation succeeds. *)
Definition env0 : env :=
  mkEnv (fun _ _ => true) (fun _ => None) (fun _ => IoOk) (fun _ => PollNo) (fun _ => RdEof) (fun _ => true).
(** A world in which only allocation [k] fails. *)
Definition env_fail (k : nat) : env :=
  mkEnv (fun i _ => negb (Nat.eqb i k)) (fun _ => None) (fun _ => IoOk) (fun _ => PollNo) (fun _ => RdEof) (fun _ => true).

Definition w_start (e : env) : world :=
  mkW (mkMem [] None 0) (mkHeap [] 0 0 []) (mkFiles [] 0 0 []) 0 [] (repeat 0 216) [] 0 [] (mkCon 0 0 0 false []) e.

Lemma start_fresh e : fresh (w_start e).
Proof. reflexivity. Qed.
Lemma start_sane e : heap_sane (w_start e).
Proof. split; constructor. Qed.

Definition after (e : env) (ops : list op) : world :=
  match run ops (w_start e) with Some w => w | None => w_start e end.

Definition goodb (e : env) (ops : list op) : bool :=
  forallb op_argsb ops && all_alongb (fun w o => direct_aliasb (regions w) o) ops (w_start e) &&
  match run ops (w_start e) with Some _ => true | None => false end.

Lemma after_reachable e ops : goodb e ops = true -> reachable (after e ops).
Proof.
  unfold goodb, after. intro H. apply andb_prop in H as [H H3]. apply andb_prop in H as [H1 H2].
  destruct (run ops (w_start e)) as [w|] eqn:E; [|discriminate].
  eapply reachable_run; [apply (reach_fresh (w_start e)); [apply start_fresh|apply start_sane]|exact (ops_argsb_ok _ H1)| |exact E].
  eapply all_alongb_ok; [|exact H2]. cbn. intros; now apply direct_aliasb_ok.
Qed.

(** RAM at 0x10000000, read-only memory at 0, an alias onto part of the RAM, adjacent RAM at
    0x10000010, a watchpoint and a breakpoint. *)
Definition ops_ex : list op :=
  [OCreate 0x10000000 16; OCreate 0 16; OLoad 0 [1;2;3;4;5;6;7;8;9;10;11;12;13;14;15;16] 16; OReadOnly 0;
   OAlias 0x20000000 0x10000004 100; OCreate 0x10000010 7; OWrite 4 0x10000000 0x11223344;
   OSet 0x10000004 4 3; OSet 4 4 WATCHPOINT_BREAKPOINT].
Definition w_ex : world := after env0 ops_ex.

Lemma w_ex_reachable : reachable w_ex.
Proof. apply after_reachable. vm_compute. reflexivity. Qed.

Lemma mapped_ex a n : (exists jk, find_serve (regions w_ex) a n = Some jk) -> exists r, In r (regions w_ex) /\ covers r a n.
Proof.
  intros ((j & k) & H). apply find_serve_spec in H as (i & r & (H1 & H2 & _) & _). exists r. split; [eapply nth_error_In; eauto|exact H2].
Qed.

Definition disjointb (r s : region) : bool :=
  (r_size r =? 0) || (r_size s =? 0) || (r_base r + r_size r <=? r_base s) || (r_base s + r_size s <=? r_base r).
Fixpoint non_overlappingb (rs : list region) : bool :=
  match rs with [] => true | r :: t => forallb (disjointb r) t && non_overlappingb t end.

Lemma disjointb_ok r s : disjointb r s = true -> disjoint r s.
Proof. unfold disjointb, disjoint. lia. Qed.

Lemma non_overlappingb_ok rs : non_overlappingb rs = true -> non_overlapping rs.
Proof.
  induction rs as [|x rs IH]; intros H i j r s Hij Hi Hj; [destruct i; discriminate|].
  cbn in H. apply andb_prop in H as [H1 H2]. rewrite forallb_forall in H1.
  destruct i as [|i], j as [|j]; cbn in *.
  - congruence.
  - injection Hi as <-. apply disjointb_ok. apply H1. eapply nth_error_In; eauto.
  - injection Hj as <-. apply nth_error_In, H1, disjointb_ok in Hi. unfold disjoint in *. tauto.
  - eapply (IH H2 i j); eauto.
Qed.

Lemma w_ex_non_overlapping : non_overlapping (regions w_ex).
Proof. apply non_overlappingb_ok. vm_compute. reflexivity. Qed.

Lemma run_first (A B C D : Prop) : C /\ A /\ B /\ D -> (A /\ B /\ C) /\ D.
Proof. tauto. Qed.

(** Compute a hypothesis, and have the kernel check it by computation. *)
Ltac vm_in H :=
  let t := type of H in let t' := eval vm_compute in t in
  let H' := fresh in assert (H' : t') by (vm_cast_no_check H); clear H; rename H' into H.
