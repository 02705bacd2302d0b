(** Well-formedness of the simulator and closed forms of accesses in well-formed states. *)
From Coq Require Import String ZArith List Bool Lia ZifyBool ZifyNat Permutation Sorted.
From Verif Require Import Base World MemSim BaseLemmas MemSpec MemLemmas.
Import ListNotations.
Open Scope Z_scope.

Definition wp_le (x y : wp) : Prop := wp_start x <= wp_start y.

(** A break/watchpoint covers part of the region's storage. *)
Definition wp_ok (r : region) (x : wp) : Prop :=
  exists k n, 0 <= k /\ 0 <= n /\ k + n <= r_size r /\ u32 (wp_type x) /\
              wp_start x = W (r_base r + k) /\ wp_end x = W (r_base r + k + n).

Record wf_region (rs : list region) (i : nat) (r : region) : Prop := {
  wr_base : u32 (r_base r);
  wr_size : u32 (r_size r);
  wr_bytes : Forall byte (r_data r);
  wr_len : r_redir r = None -> zlen (r_data r) = r_size r;
  wr_redir : forall j, r_redir r = Some j ->
     exists t, nth_error rs j = Some t /\ r_redir t = None /\ (j < i)%nat /\
               W (r_raddr r - r_base t) + r_size r <= r_size t /\ covers t (r_raddr r) 1 /\ u32 (r_raddr r);
  wr_rc : forall b c, r_rc r = Some (b, c) -> zlen c = r_size r / 2 /\ Forall u32 c;
  wr_wps : Forall (wp_ok r) (r_wps r);
  wr_sorted : StronglySorted wp_le (r_wps r);
  wr_nodup : NoDup (r_wps r);
  wr_alloc : zlen (r_wps r) <= r_wpalloc r }.

Definition wf (rs : list region) : Prop := forall i r, nth_error rs i = Some r -> wf_region rs i r.

(** ** The region search *)

Lemma hit_covers r a n : hit r a n = true <-> covers r a n.
Proof. unfold hit, covers. lia. Qed.

Lemma find_some s rs a n p :
  find_from s rs a n = Some p ->
  exists i r, first_cover rs a n i r /\
    p = match r_redir r with Some j => (j, W (a - r_base r + r_raddr r)) | None => ((s + i)%nat, a) end.
Proof.
  revert s. induction rs as [|r rs IH]; intros s H; cbn in H; [discriminate|].
  destruct (hit r a n) eqn:E.
  - exists O, r. split.
    + split; [reflexivity|]. split; [now apply hit_covers|]. intros; lia.
    + rewrite Nat.add_0_r. destruct (r_redir r); congruence.
  - apply IH in H as (i & r' & (H1 & H2 & H3) & ->). exists (S i), r'. split.
    + split; [exact H1|]. split; [exact H2|]. intros [|i'] x Hi Hx.
      * cbn in Hx. injection Hx as <-. rewrite <- hit_covers. congruence.
      * apply (H3 i'); [lia|exact Hx].
    + destruct (r_redir r'); [reflexivity|]. f_equal. lia.
Qed.

Lemma find_none s rs a n :
  find_from s rs a n = None -> forall r, In r rs -> ~ covers r a n.
Proof.
  revert s. induction rs as [|r rs IH]; intros s H x Hx; cbn in *; [tauto|].
  destruct (hit r a n) eqn:E; [destruct (r_redir r); discriminate|].
  destruct Hx as [<-|Hx]; [rewrite <- hit_covers; congruence|]. eauto.
Qed.

Lemma find_first s rs a n i r :
  first_cover rs a n i r ->
  find_from s rs a n = Some match r_redir r with
                            | Some j => (j, W (a - r_base r + r_raddr r))
                            | None => ((s + i)%nat, a)
                            end.
Proof.
  revert s i. induction rs as [|x rs IH]; intros s i (H1 & H2 & H3).
  - destruct i; discriminate.
  - destruct i; cbn in H1.
    + injection H1 as ->. cbn. apply hit_covers in H2 as ->. rewrite Nat.add_0_r.
      destruct (r_redir r); reflexivity.
    + cbn. destruct (hit x a n) eqn:E.
      * exfalso. apply (H3 O x); [lia|reflexivity|now apply hit_covers].
      * rewrite (IH (S s) i).
        -- destruct (r_redir r); [reflexivity|]. do 2 f_equal. lia.
        -- split; [exact H1|]. split; [exact H2|]. intros i' r' Hi Hr. apply (H3 (S i')); [lia|exact Hr].
Qed.

Lemma first_cover_unique rs a n i r i' r' :
  first_cover rs a n i r -> first_cover rs a n i' r' -> i = i' /\ r = r'.
Proof.
  intros (H1 & H2 & H3) (H1' & H2' & H3').
  assert (i = i').
  { destruct (Nat.lt_trichotomy i i') as [L|[E|L]]; [|exact E|].
    - exfalso. eapply H3'; eauto.
    - exfalso. eapply H3; eauto. }
  subst. split; congruence.
Qed.

Lemma cover_first rs a n r : In r rs -> covers r a n -> exists i r', first_cover rs a n i r'.
Proof.
  intros Hin Hc. destruct (find_from 0 rs a n) eqn:F.
  - apply find_some in F as (i & r' & F & _). eauto.
  - exfalso. eapply find_none; eauto.
Qed.

(** What the search finds in a well-formed list. *)
Lemma locate rs a n j a' :
  wf rs -> u32 a -> 0 <= n -> find_from 0 rs a n = Some (j, a') ->
  exists r k, nth_error rs j = Some r /\ r_redir r = None /\ serves rs a n j k /\
              roff r a' = k /\ 0 <= k /\ k + n <= r_size r /\ zlen (r_data r) = r_size r /\
              a' = W (r_base r + k) /\ u32 a'.
Proof.
  intros Hwf Ha Hn F. apply find_some in F as (i & r & F & E). pose proof F as (H1 & (H2 & H2') & H3).
  pose proof (Hwf _ _ H1) as R. destruct R.
  unfold u32 in *. destruct (r_redir r) as [t|] eqn:Er.
  - injection E as -> ->. destruct (wr_redir0 t eq_refl) as (rt & Ht & Htr & Hlt & Hs & _).
    pose proof (Hwf _ _ Ht) as T. destruct T.
    exists rt, (a - r_base r + W (r_raddr r - r_base rt)).
    pose proof (W_range (r_raddr r - r_base rt)).
    assert (HR : roff rt (W (a - r_base r + r_raddr r)) = a - r_base r + W (r_raddr r - r_base rt)).
    { unfold roff. rewrite W_sub_l. unfold u32 in *.
      replace (a - r_base r + r_raddr r - r_base rt) with (a - r_base r + (r_raddr r - r_base rt)) by lia.
      rewrite <- W_add_r. apply W_id. unfold u32. lia. }
    split; [exact Ht|]. split; [exact Htr|]. split.
    { exists i, r. split; [exact F|]. rewrite Er. split; [reflexivity|]. eauto. }
    split; [exact HR|]. split; [lia|]. split; [lia|]. split; [auto|]. split; [|apply W_range].
    replace (r_base rt + (a - r_base r + W (r_raddr r - r_base rt)))
      with ((a - r_base r + r_base rt) + W (r_raddr r - r_base rt)) by lia.
    rewrite W_add_r. f_equal. lia.
  - injection E as -> ->. cbn [Nat.add]. exists r, (a - r_base r).
    split; [exact H1|]. split; [exact Er|]. split.
    { exists i, r. split; [exact F|]. rewrite Er. auto. }
    assert (HR : roff r a = a - r_base r) by (unfold roff; apply W_id; unfold u32; lia).
    split; [exact HR|]. split; [lia|]. split; [lia|]. split; [auto|]. split; [|lia].
    replace (r_base r + (a - r_base r)) with a by lia. symmetry. apply W_id. exact Ha.
Qed.

Lemma serves_unique rs a n j k j' k' : serves rs a n j k -> serves rs a n j' k' -> j = j' /\ k = k'.
Proof.
  intros (i & r & F & H) (i' & r' & F' & H'). destruct (first_cover_unique _ _ _ _ _ _ _ F F') as [-> ->].
  destruct (r_redir r').
  - destruct H as [-> (rt & H & ->)], H' as [-> (rt' & H' & ->)]. rewrite H in H'. injection H' as ->. auto.
  - destruct H as [-> ->], H' as [-> ->]. auto.
Qed.

Lemma serves_find rs a n j k :
  wf rs -> u32 a -> 0 <= n -> serves rs a n j k ->
  exists r a', find_from 0 rs a n = Some (j, a') /\ nth_error rs j = Some r /\ r_redir r = None /\
    roff r a' = k /\ 0 <= k /\ k + n <= r_size r /\ zlen (r_data r) = r_size r /\ a' = W (r_base r + k).
Proof.
  intros Hwf Ha Hn S. pose proof S as (i & r & F & H). pose proof (find_first 0 _ _ _ _ _ F) as E.
  assert (exists j' a', find_from 0 rs a n = Some (j', a')) as (j' & a' & E').
  { rewrite E. destruct (r_redir r); eauto. }
  destruct (locate _ _ _ _ _ Hwf Ha Hn E') as (r' & k' & L1 & L2 & L3 & L4 & L5 & L6 & L7 & L8 & _).
  destruct (serves_unique _ _ _ _ _ _ _ S L3) as [<- <-]. exists r', a'. auto 10.
Qed.

(** ** Accesses in well-formed states *)

(** The regions after the read-count effect of an access. *)
Definition counted_regions (rs : list region) (j : nat) (r : region) (n k type : Z) : list region :=
  if (type =? READING) && (n =? 2) then bump rs j r (k / 2) else rs.

Lemma getDataPointer_wf a n type chk w :
  wf (regions w) -> u32 a -> 0 <= n ->
  getDataPointer a n type chk w =
  match find_from 0 (regions w) a n with
  | None => Exc (set_exn w (Z.max busErrorException (w_code w)) (w_msg w))
  | Some (j, a') =>
    match nth_error (regions w) j with
    | None => Ub UbRegion
    | Some r =>
      let off := roff r a' in
      if (type =? WRITING) && r_ro r then Exc (set_exn w (Z.max busErrorException (w_code w)) (w_msg w))
      else
        let w1 := set_regions w (counted_regions (regions w) j r n off type) in
        let (h, brk) := if chk then scan_wps (r_wps r) a' (W (a' + n)) n type (m_hits (w_mem w))
                        else (m_hits (w_mem w), false) in
        if brk then Exc (set_exn (set_hits w1 h) (Z.max hardwareBreakpointException (w_code w)) (w_msg w))
        else Ret (j, off) (set_hits w1 h)
    end
  end.
Proof.
  intros Hwf Ha Hn. rewrite getDataPointer_eq.
  destruct (find_from 0 (regions w) a n) as [[j a']|] eqn:F; [|reflexivity].
  destruct (locate _ _ _ _ _ Hwf Ha Hn F) as (r & k & L1 & L2 & L3 & L4 & L5 & L6 & L7 & L8 & _).
  rewrite L1. cbv zeta. rewrite L4.
  destruct ((type =? WRITING) && r_ro r); [reflexivity|].
  assert (Hrc : (type =? READING) && (n =? 2) && negb (rc_fits r (k / 2)) = false).
  { destruct (type =? READING) eqn:T; [|reflexivity]. destruct (n =? 2) eqn:N; [|reflexivity]. cbn [andb].
    unfold rc_fits. destruct (r_rc r) as [[b c]|] eqn:C; [|reflexivity].
    destruct (Hwf _ _ L1). destruct (wr_rc0 _ _ C) as [Hc _]. lia. }
  rewrite Hrc. unfold counted_regions.
  destruct (if chk then _ else _) as [h brk]. destruct brk; [reflexivity|].
  replace (k <=? zlen (r_data r)) with true by lia. reflexivity.
Qed.

Lemma bump_nth rs j r k i :
  nth_error rs j = Some r ->
  nth_error (bump rs j r k) i =
  if Nat.eqb j i then Some (match r_rc r with
                            | None => r
                            | Some (b, c) => with_rc r (Some (b, upd_nth (Z.to_nat k) (fun x => W (x + 1)) c))
                            end)
  else nth_error rs i.
Proof.
  intro H. unfold bump. destruct (r_rc r) as [[b c]|] eqn:C.
  - rewrite nth_error_upd_nth. destruct (Nat.eqb_spec j i) as [<-|]; [rewrite H; reflexivity|reflexivity].
  - destruct (Nat.eqb_spec j i) as [<-|]; [exact H|reflexivity].
Qed.

(** Result of a 1-, 2- or 4-byte read in a well-formed state. *)
Lemma readN_wf n a w :
  wf (regions w) -> u32 a -> width n ->
  readN n a w =
  match find_from 0 (regions w) a n with
  | None => Exc (set_exn w (Z.max busErrorException (w_code w)) (w_msg w))
  | Some (j, a') =>
    match nth_error (regions w) j with
    | None => Ub UbRegion
    | Some r =>
        let off := roff r a' in
        let w1 := set_regions w (counted_regions (regions w) j r n off READING) in
        let (h, brk) := scan_wps (r_wps r) a' (W (a' + n)) n READING (m_hits (w_mem w)) in
        if brk then Exc (set_exn (set_hits w1 h) (Z.max hardwareBreakpointException (w_code w)) (w_msg w))
        else Ret (of_le (slice (r_data r) off n)) (set_hits w1 h)
    end
  end.
Proof.
  intros Hwf Ha Hn. assert (0 <= n) by (unfold width in Hn; lia).
  unfold readN, bind. rewrite getDataPointer_wf by assumption.
  destruct (find_from 0 (regions w) a n) as [[j a']|] eqn:F; [|reflexivity].
  destruct (locate _ _ _ _ _ Hwf Ha H F) as (r & k & L1 & L2 & L3 & L4 & L5 & L6 & L7 & L8 & _).
  rewrite L1. cbv zeta. rewrite L4. change (READING =? WRITING) with false. cbn [andb].
  destruct (scan_wps _ _ _ _ _ _) as [h brk]. destruct brk; [reflexivity|].
  unfold load_ptr, bind, get_region. cbn [fst snd].
  change (regions (set_hits (set_regions w ?x) h)) with x. unfold counted_regions.
  assert (E : exists r', nth_error (if (READING =? READING) && (n =? 2) then bump (regions w) j r (k / 2) else regions w) j = Some r'
            /\ r_data r' = r_data r).
  { destruct ((READING =? READING) && (n =? 2)).
    - rewrite bump_nth, Nat.eqb_refl by exact L1. eexists. split; [reflexivity|].
      destruct (r_rc r) as [[b c]|]; reflexivity.
    - eauto. }
  destruct E as (r' & -> & E2). rewrite E2.
  replace ((0 <=? k) && (k + n <=? zlen (r_data r))) with true by lia. reflexivity.
Qed.

(** Result of a 1-, 2- or 4-byte write in a well-formed state. *)
Lemma writeN_wf n a v w :
  wf (regions w) -> u32 a -> width n ->
  writeN n a v w =
  match find_from 0 (regions w) a n with
  | None => Exc (set_exn w (Z.max busErrorException (w_code w)) (w_msg w))
  | Some (j, a') =>
    match nth_error (regions w) j with
    | None => Ub UbRegion
    | Some r =>
        let off := roff r a' in
        if r_ro r then Exc (set_exn w (Z.max busErrorException (w_code w)) (w_msg w))
        else
        let (h, brk) := scan_wps (r_wps r) a' (W (a' + n)) n WRITING (m_hits (w_mem w)) in
        if brk then Exc (set_exn (set_hits w h) (Z.max hardwareBreakpointException (w_code w)) (w_msg w))
        else Ret tt (set_hits (set_regions w
               (upd_nth j (fun r => with_data r (splice (r_data r) off (le (Z.to_nat n) v))) (regions w))) h)
    end
  end.
Proof.
  intros Hwf Ha Hn. assert (Hn' : 0 <= n) by (unfold width in Hn; lia).
  unfold writeN, bind. rewrite getDataPointer_wf by assumption.
  destruct (find_from 0 (regions w) a n) as [[j a']|] eqn:F; [|reflexivity].
  destruct (locate _ _ _ _ _ Hwf Ha Hn' F) as (r & k & L1 & L2 & L3 & L4 & L5 & L6 & L7 & L8 & _).
  rewrite L1. cbv zeta. rewrite L4. change (WRITING =? WRITING) with true. cbn [andb].
  destruct (r_ro r); [reflexivity|].
  unfold counted_regions. change (WRITING =? READING) with false. cbn [andb].
  destruct (scan_wps _ _ _ _ _ _) as [h brk]. destruct brk.
  - destr_world w. reflexivity.
  - unfold store_ptr, bind, get_region, upd_region, modw. cbn [fst snd].
    change (regions (set_hits (set_regions w ?x) h)) with x. rewrite L1.
    rewrite le_zlen. replace ((0 <=? k) && (k + Z.of_nat (Z.to_nat n) <=? zlen (r_data r))) with true by lia.
    destr_world w. reflexivity.
Qed.
