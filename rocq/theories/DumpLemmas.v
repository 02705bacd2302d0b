(** What the reference dump reader does on well-formed and on truncated dumps. *)
From Coq Require Import String ZArith List Bool Lia ZifyBool ZifyNat Permutation.
From Verif Require Import Base World Context MemSim Dump BaseLemmas MemSpec MemLemmas MemInv MemOps DumpSpec DumpRef.
Import ListNotations.
Open Scope Z_scope.
Open Scope m_scope.

(** ** Writing the bytes of a new region *)

(** [r] is the last region, plain writable memory that shares no address with the others. *)
Record fresh_ram (rs : list region) (r : region) : Prop := {
  fr_wf : wf (rs ++ [r]);
  fr_redir : r_redir r = None;
  fr_ro : r_ro r = false;
  fr_wps : r_wps r = [];
  fr_top : r_base r + r_size r <= 4294967296;
  fr_apart : forall s, In s rs -> apart (range_of s) (range_of r) }.

Lemma fresh_put rs r off bs :
  fresh_ram rs r -> 0 <= off -> off + zlen bs <= r_size r -> Forall byte bs ->
  fresh_ram rs (with_data r (splice (r_data r) off bs)).
Proof.
  intros [H1 H2 H3 H4 H5 H6] Ho Hl Hb. constructor; auto.
  replace (rs ++ [with_data r (splice (r_data r) off bs)]) with (upd_nth (length rs) (fun r => with_data r (splice (r_data r) off bs)) (rs ++ [r]))
    by (rewrite upd_nth_app_r; reflexivity).
  assert (N : nth_error (rs ++ [r]) (length rs) = Some r) by (rewrite nth_error_app2, Nat.sub_diag by lia; reflexivity).
  eapply wf_upd; eauto. intro H. apply wf_splice; auto. rewrite (wr_len _ _ _ H H2). exact Hl.
Qed.

Lemma fresh_find rs r a : fresh_ram rs r -> r_base r <= a < r_base r + r_size r -> find_from 0 (rs ++ [r]) a 1 = Some (length rs, a).
Proof.
  intros [H1 H2 H3 H4 H5 H6] Ha. rewrite find_from_app. destruct (find_from 0 rs a 1) as [p|] eqn:F.
  - exfalso. apply find_some in F as (i & s & (N & C & _) & _). apply nth_error_In in N. specialize (H6 s N).
    unfold apart, range_of, covers in *. cbn in *. lia.
  - cbn. unfold hit. replace ((r_base r <=? a) && (a + 1 <=? r_base r + r_size r)) with true by lia. now rewrite H2.
Qed.

Lemma write_fresh rs r a b w :
  fresh_ram rs r -> r_base r <= a < r_base r + r_size r -> byte b -> regions w = rs ++ [r] ->
  write8 a b w = Ret tt (set_regions w (rs ++ [with_data r (splice (r_data r) (a - r_base r) [b])])).
Proof.
  intros Hr Ha Hb Hw. pose proof Hr as [H1 H2 H3 H4 H5 H6]. unfold write8.
  assert (N : nth_error (rs ++ [r]) (length rs) = Some r) by (rewrite nth_error_app2, Nat.sub_diag by lia; reflexivity).
  pose proof (H1 _ _ N) as HR. destruct HR. unfold u32 in *.
  rewrite writeN_wf; [|rewrite Hw; exact H1|unfold u32; lia|unfold width; auto].
  rewrite Hw, fresh_find by assumption. rewrite N. cbv zeta. rewrite H3, H4. cbn [scan_wps].
  rewrite upd_nth_app_r. unfold roff. rewrite W_id by (unfold u32; lia).
  change (le (Z.to_nat 1) b) with [b mod 256]. rewrite Z.mod_small by exact Hb. destr_world w. reflexivity.
Qed.

Lemma set_regions_regions w rs : regions (set_regions w rs) = rs.
Proof. reflexivity. Qed.
Lemma set_regions_set w a b : set_regions (set_regions w a) b = set_regions w b.
Proof. reflexivity. Qed.

Lemma splice_next {A} (l : list A) off x bs :
  0 <= off -> off + 1 + zlen bs <= zlen l -> splice (splice l off [x]) (off + 1) bs = splice l off (x :: bs).
Proof. intros. change (x :: bs) with ([x] ++ bs). rewrite <- splice_app by (rewrite ?zlen_cons, ?zlen_nil; lia). reflexivity. Qed.

(** All bytes present. *)
Lemma bytes_run us : forall bs rs r a w,
  fresh_ram rs r -> r_base r <= a -> a + zlen bs <= r_base r + r_size r -> Forall byte bs -> regions w = rs ++ [r] ->
  ref_bytes (map Some bs ++ us) (W a) (zlen bs) w =
  Ret (tt, us) (set_regions w (rs ++ [with_data r (splice (r_data r) (a - r_base r) bs)])).
Proof.
  induction bs as [|b bs IH]; intros rs r a w Hr Ha Hl Hb Hw.
  - rewrite zlen_nil, splice_nil. replace (with_data r (r_data r)) with r by (destruct r; reflexivity). rewrite <- Hw, set_regions_same.
    destruct us as [|[x|] us]; reflexivity.
  - cbn [map app ref_bytes]. rewrite zlen_cons in *. pose proof (zlen_nonneg bs). destruct (1 + zlen bs <=? 0) eqn:Q; [lia|].
    inversion Hb as [|? ? B1 B2]; subst. unfold bind.
    pose proof Hr as [H1 H2 H3 H4 H5 H6].
    assert (N : nth_error (rs ++ [r]) (length rs) = Some r) by (rewrite nth_error_app2, Nat.sub_diag by lia; reflexivity).
    pose proof (H1 _ _ N) as HR. pose proof (wr_len _ _ _ HR H2) as HL. pose proof (wr_base _ _ _ HR) as HB. unfold u32 in HB.
    rewrite W_id by (unfold u32; lia). rewrite (write_fresh rs r a b w) by (auto; lia).
    replace (1 + zlen bs - 1) with (zlen bs) by lia.
    rewrite (IH rs (with_data r (splice (r_data r) (a - r_base r) [b])) (a + 1)); auto.
    + rewrite set_regions_set. cbn [with_data r_data r_base]. replace (a + 1 - r_base r) with (a - r_base r + 1) by lia.
      rewrite splice_next by lia. reflexivity.
    + apply fresh_put; auto; [lia|rewrite zlen_cons, zlen_nil; lia].
    + cbn. lia.
    + cbn. lia.
Qed.

(** The bytes end, or stop being bytes, too early. *)
Definition stops (us : stream) : Prop := match us with Some _ :: _ => False | _ => True end.

Lemma bytes_short us : stops us -> forall bs rs r a n w,
  fresh_ram rs r -> r_base r <= a -> a + n <= r_base r + r_size r -> zlen bs < n -> Forall byte bs -> regions w = rs ++ [r] ->
  ref_bytes (map Some bs ++ us) (W a) n w =
  Exc (set_exn (set_regions w (rs ++ [with_data r (splice (r_data r) (a - r_base r) bs)])) (Z.max fileFormatException (w_code w)) (w_msg w)).
Proof.
  intro Hus. induction bs as [|b bs IH]; intros rs r a n w Hr Ha Hl Hn Hb Hw.
  - rewrite zlen_nil in Hn. rewrite splice_nil. replace (with_data r (r_data r)) with r by (destruct r; reflexivity). rewrite <- Hw, set_regions_same.
    cbn [map app]. destruct us as [|[x|] us]; [|destruct Hus|]; cbn [ref_bytes]; (destruct (n <=? 0) eqn:Q; [lia|reflexivity]).
  - cbn [map app ref_bytes]. rewrite zlen_cons in *. pose proof (zlen_nonneg bs). destruct (n <=? 0) eqn:Q; [lia|].
    inversion Hb as [|? ? B1 B2]; subst. unfold bind.
    pose proof Hr as [H1 H2 H3 H4 H5 H6].
    assert (N : nth_error (rs ++ [r]) (length rs) = Some r) by (rewrite nth_error_app2, Nat.sub_diag by lia; reflexivity).
    pose proof (H1 _ _ N) as HR. pose proof (wr_len _ _ _ HR H2) as HL. pose proof (wr_base _ _ _ HR) as HB. unfold u32 in HB.
    rewrite W_id by (unfold u32; lia). rewrite (write_fresh rs r a b w) by (auto; lia).
    rewrite (IH rs (with_data r (splice (r_data r) (a - r_base r) [b])) (a + 1)); auto.
    + rewrite set_regions_set. cbn [with_data r_data r_base]. replace (a + 1 - r_base r) with (a - r_base r + 1) by lia.
      rewrite splice_next by lia. reflexivity.
    + apply fresh_put; auto; [lia|rewrite zlen_cons, zlen_nil; lia].
    + cbn. lia.
    + cbn. lia.
    + lia.
Qed.

(** ** Reading what is there *)

Lemma read_run d bs us w : ref_read d (length bs) (map Some bs ++ us) w = bind (store_dest d 0 bs) (fun _ => ret (bs, us)) w.
Proof.
  unfold ref_read.
  assert (L : length bs = length (map Some bs)) by now rewrite map_length.
  assert (E1 : firstn (length bs) (map Some bs ++ us) = map Some bs).
  { rewrite L, firstn_app, Nat.sub_diag, firstn_all, firstn_O. apply app_nil_r. }
  assert (E2 : skipn (length bs) (map Some bs ++ us) = us).
  { rewrite L, skipn_app, Nat.sub_diag, skipn_all. reflexivity. }
  rewrite E1, E2, scan_some. reflexivity.
Qed.

Lemma read_short d n bs w : (length bs < n)%nat -> ref_read d n (map Some bs) w = bind (store_dest d 0 bs) (fun _ => ret (bs, [])) w.
Proof.
  intro L. unfold ref_read. rewrite firstn_all2, skipn_all2 by (rewrite map_length; lia). rewrite scan_some. reflexivity.
Qed.

(** ** One region *)

(** [w'] is [w] with further regions of RAM. *)
Definition grew (w w' : world) (ms : list (Z * list Z)) : Prop :=
  (exists new, regions w' = regions w ++ new /\ Forall2 is_ram new ms) /\ frame w w' /\
  m_hits (w_mem w') = m_hits (w_mem w) /\ m_xml (w_mem w') = m_xml (w_mem w).

Lemma grew_refl w : grew w w [].
Proof. split; [exists []; rewrite app_nil_r; auto|]. auto using frame_refl. Qed.
Lemma grew_trans w w1 w2 m1 m2 : grew w w1 m1 -> grew w1 w2 m2 -> grew w w2 (m1 ++ m2).
Proof.
  intros ((n1 & E1 & F1) & G1 & H1 & X1) ((n2 & E2 & F2) & G2 & H2 & X2). split.
  - exists (n1 ++ n2). rewrite E2, E1, app_assoc. split; [reflexivity|]. now apply Forall2_app.
  - split; [eapply frame_trans; eauto|]. split; congruence.
Qed.

Lemma frame_exn w c m : frame w (set_exn w c m).
Proof. repeat split. Qed.
Lemma frame_regions w rs : frame w (set_regions w rs).
Proof. repeat split. Qed.

Lemma created_fresh R w w1 base size :
  Inv R w1 -> regions w1 = regions w ++ [new_region w base size] -> base + size <= 4294967296 ->
  (forall r, In r (regions w) -> apart (range_of r) (base, size)) ->
  fresh_ram (regions w) (new_region w base size).
Proof. intros [H1 _] E Ht Ha. constructor; auto. now rewrite <- E. Qed.

Lemma Inv_put_last R w rs r off bs :
  Inv R w -> regions w = rs ++ [r] -> r_redir r = None -> 0 <= off -> off + zlen bs <= r_size r -> Forall byte bs ->
  Inv R (set_regions w (rs ++ [with_data r (splice (r_data r) off bs)])).
Proof.
  intros HI Hw Hr Ho Hl Hb.
  replace (rs ++ [with_data r (splice (r_data r) off bs)]) with (upd_nth (length rs) (fun r => with_data r (splice (r_data r) off bs)) (regions w))
    by (rewrite Hw, upd_nth_app_r; reflexivity).
  assert (N : nth_error (regions w) (length rs) = Some r) by (rewrite Hw, nth_error_app2, Nat.sub_diag by lia; reflexivity).
  rewrite <- (set_hits_same (set_regions _ _)). eapply Inv_upd; eauto. intro H. apply wf_splice; auto. rewrite (wr_len _ _ _ H Hr). exact Hl.
Qed.

Lemma splice_all {A} (l bs : list A) : length l = length bs -> splice l 0 bs = bs.
Proof. intro H. unfold splice. cbn. rewrite skipn_all2 by lia. apply app_nil_r. Qed.

Definition failed_with (c : Z) (R : list nat) (w w' : world) : Prop := Inv R w' /\ frame w w' /\ w_code w' = c.

Definition region_body (start end_ : Z) (us1 : stream) : M world (bool * stream) :=
  us2 <- try_ us1
    (q <- lift (MemorySim_CreateRegion start (W (end_ - start)) ;;; ref_bytes us1 start (W (end_ - start)));;
     setl (snd q))
    (fun _ =>
       c <- getExceptionCode;;
       throw_msg c (s2b "The dump file failed to load RAM memory region at 0x" ++ fmt08X start ++
                    s2b " - 0x" ++ fmt08X end_ ++ s2b "."));;
  ret (false, us2).

Lemma region_header_run a e us w :
  ref_region (map Some (le 4 a ++ le 4 e) ++ us) w = region_body (W a) (W e) us w.
Proof.
  unfold ref_region, bind at 1.
  assert (E : ref_read Local 8 (map Some (le 4 a ++ le 4 e) ++ us) w = Ret (le 4 a ++ le 4 e, us) w).
  { change 8%nat with (length (le 4 a ++ le 4 e)). rewrite read_run. reflexivity. }
  rewrite E. rewrite <- (W_of_le4 a), <- (W_of_le4 e). reflexivity.
Qed.

Lemma region_run R x us w :
  Inv R w -> valid_region x -> fst x + zlen (snd x) <= 4294967296 ->
  (forall r, In r (regions w) -> apart (range_of r) (range_in x)) -> 
  (exists w', ref_region (map Some (enc_region x) ++ us) w = Ret (false, us) w' /\ Inv R w' /\ grew w w' [x] /\ w_code w' = 0) \/
  (exists w', ref_region (map Some (enc_region x) ++ us) w = Exc w' /\ failed_with outOfMemoryException R w w').
Proof.
  intros HI (V1 & V2 & V3) Ht Ha. destruct x as [a bs]. cbn [fst snd] in *. unfold enc_region. cbn [fst snd].
  unfold u32 in *. pose proof (zlen_nonneg bs).
  rewrite app_assoc, map_app, <- app_assoc, region_header_run. unfold region_body. rewrite W_sub_l, W_sub_r.
  replace (a + zlen bs - a) with (zlen bs) by lia. rewrite (W_id a), (W_id (zlen bs)) by (unfold u32; lia).
  unfold try_, bind, lift, setl, ret. cbn [fst snd].
  pose proof (CreateRegion_post a (zlen bs) R (set_exn w noException []) (Inv_exn _ _ _ _ HI)) as P.
  unfold post in P. destruct (MemorySim_CreateRegion a (zlen bs) (set_exn w noException [])) as [[] w1|w1|]; [| |destruct P; unfold u32; lia].
  - destruct P as (I1 & F1 & E1 & C1 & Hh & Hx); [unfold u32; lia|unfold u32; lia|].
    change (regions (set_exn w noException [])) with (regions w) in E1.
    assert (HF : fresh_ram (regions w) (new_region (set_exn w noException []) a (zlen bs))).
    { change (regions w) with (regions (set_exn w noException [])) at 1. eapply created_fresh; eauto. }
    assert (EB : ref_bytes (map Some bs ++ us) a (zlen bs) w1 =
      Ret (tt, us) (set_regions w1 (regions w ++ [with_data (new_region (set_exn w noException []) a (zlen bs))
         (splice (r_data (new_region (set_exn w noException []) a (zlen bs))) (a - a) bs)]))).
    { rewrite <- (W_id a) at 1 by (unfold u32; lia). apply bytes_run; auto; cbn; lia. }
    rewrite EB. clear EB. rewrite Z.sub_diag. cbn [fst snd set_regions set_mem w_code]. rewrite C1. cbn [Z.eqb].
    left. eexists. split; [reflexivity|].
    assert (ES : splice (r_data (new_region (set_exn w noException []) a (zlen bs))) 0 bs = bs).
    { apply splice_all. cbn [new_region r_data]. unfold zeros. rewrite repeat_length. unfold zlen. lia. }
    split; [|split; [|exact C1]].
    + apply (Inv_put_last R w1); auto; cbn; lia.
    + rewrite ES. split; [|split; [|split; [exact Hh|exact Hx]]].
      * eexists. split; [reflexivity|]. constructor; [|constructor]. repeat split.
      * eapply frame_trans; [apply (frame_exn w noException [])|]. eapply frame_trans; [exact F1|]. apply frame_regions.
  - destruct P as (I1 & F1 & E1 & C1 & _); [unfold u32; lia|unfold u32; lia|].
    cbn [fst snd]. rewrite C1. change (outOfMemoryException =? 0) with false. cbv iota. right. unfold getExceptionCode, throw_msg, throw. rewrite C1.
    eexists. split; [reflexivity|]. split; [now apply Inv_exn|]. split; [|reflexivity].
    eapply frame_trans; [apply (frame_exn w noException [])|]. eapply frame_trans; [exact F1|]. repeat split.
Qed.

Lemma region_short us R a n bs w : stops us ->
  Inv R w -> u32 a -> u32 n -> Forall byte bs -> zlen bs < n -> a + n <= 4294967296 ->
  (forall r, In r (regions w) -> apart (range_of r) (a, n)) ->
  exists w' c, ref_region (map Some (le 4 a ++ le 4 (a + n) ++ bs) ++ us) w = Exc w' /\ failed_with c R w w' /\
               (c = fileFormatException \/ c = outOfMemoryException).
Proof.
  intros Hus HI V1 V2 V3 Hs Ht Ha. unfold u32 in *.
  rewrite app_assoc, map_app, <- app_assoc, region_header_run. unfold region_body. rewrite W_sub_l, W_sub_r.
  replace (a + n - a) with n by lia. rewrite (W_id a), (W_id n) by (unfold u32; lia).
  unfold try_, bind, lift, setl, ret. cbn [fst snd].
  pose proof (CreateRegion_post a n R (set_exn w noException []) (Inv_exn _ _ _ _ HI)) as P.
  unfold post in P. destruct (MemorySim_CreateRegion a n (set_exn w noException [])) as [[] w1|w1|]; [| |destruct P; unfold u32; lia].
  - destruct P as (I1 & F1 & E1 & C1 & Hh & Hx); [unfold u32; lia|unfold u32; lia|].
    change (regions (set_exn w noException [])) with (regions w) in E1.
    assert (HF : fresh_ram (regions w) (new_region (set_exn w noException []) a n)).
    { change (regions w) with (regions (set_exn w noException [])) at 1. eapply created_fresh; eauto. }
    pose proof (bytes_short us Hus bs (regions w) (new_region (set_exn w noException []) a n) a n w1 HF) as EB.
    rewrite W_id in EB by (unfold u32; lia). rewrite EB by (auto; cbn; lia). clear EB. cbn [fst snd set_regions set_mem set_exn w_code]. rewrite C1.
    change (Z.max fileFormatException 0 =? 0) with false. cbv iota. unfold getExceptionCode, throw_msg, throw. cbn [w_code set_exn].
    eexists _, fileFormatException. split; [reflexivity|]. split; [|auto]. split; [|split; [|reflexivity]].
    + do 2 apply Inv_exn. apply Inv_exn. apply (Inv_put_last R w1); auto; cbn; lia.
    + eapply frame_trans; [apply (frame_exn w noException [])|]. eapply frame_trans; [exact F1|]. repeat split.
  - destruct P as (I1 & F1 & E1 & C1 & _); [unfold u32; lia|unfold u32; lia|].
    cbn [fst snd]. rewrite C1. change (outOfMemoryException =? 0) with false. cbv iota. unfold getExceptionCode, throw_msg, throw. rewrite C1.
    eexists _, outOfMemoryException. split; [reflexivity|]. split; [|auto]. split; [now apply Inv_exn|]. split; [|reflexivity].
    eapply frame_trans; [apply (frame_exn w noException [])|]. eapply frame_trans; [exact F1|]. repeat split.
Qed.

(** A region header that is cut off: the stack-overflow mark, or an error. *)
Lemma header_short R t w :
  Inv R w -> w_code w = 0 -> t <> [] -> (length t < 8)%nat ->
  exists w' c, ref_region (map Some t) w = Exc w' /\ failed_with c R w w' /\
    c = if Nat.eqb (length t) 4 && (of_le t =? STACK_SENTINEL) then stackOverflowException else fileFormatException.
Proof.
  intros HI Hc Ht L. unfold ref_region, bind at 1. rewrite read_short by exact L. unfold bind at 1. cbn [store_dest]. unfold ret at 1.
  cbv beta iota. unfold ret at 1. cbv beta iota.
  destruct (Nat.eqb (length t) 4 && (of_le t =? STACK_SENTINEL)).
  - unfold throw_msg, throw. eexists _, _. split; [reflexivity|]. split; [|reflexivity]. split; [now do 2 apply Inv_exn|]. split; [repeat split|].
    cbn [w_code set_exn]. rewrite Hc. reflexivity.
  - destruct (Nat.eqb_spec (length t) 0) as [Z0|_]; [destruct t; [congruence|discriminate]|].
    destruct (Nat.eqb_spec (length t) 8) as [Z0|_]; [lia|]. cbn [negb].
    unfold throw_msg, throw. eexists _, _. split; [reflexivity|]. split; [|reflexivity]. split; [now do 2 apply Inv_exn|]. split; [repeat split|].
    cbn [w_code set_exn]. rewrite Hc. reflexivity.
Qed.

(** A region header with something that is not a byte in it. *)
Lemma header_bad R t us w :
  Inv R w -> w_code w = 0 -> (length t < 8)%nat ->
  exists w', ref_region (map Some t ++ None :: us) w = Exc w' /\ failed_with fileFormatException R w w'.
Proof.
  intros HI Hc L. assert (S : snd (scan (firstn 8 (map Some t ++ None :: us))) = false).
  { revert L. generalize 8%nat. induction t as [|b t IH]; intros n L; cbn [map app length] in *.
    - destruct n; [lia|reflexivity].
    - destruct n; [lia|]. cbn [firstn scan]. specialize (IH n). destruct (scan _). cbn in *. apply IH. lia. }
  unfold ref_region, bind at 1, ref_read. destruct (scan _) as [bs ok]. cbn in S. subst ok. cbn. rewrite Hc.
  eexists. split; [reflexivity|]. split; [now apply Inv_exn|]. split; [apply frame_exn|reflexivity].
Qed.

Lemma region_end w : ref_region [] w = Ret (true, []) w.
Proof. reflexivity. Qed.

(** ** The list of regions *)

Lemma regions_fuel : forall n f f' us w, (length us < n)%nat -> (length us < f)%nat -> (length us < f')%nat -> ref_regions f us w = ref_regions f' us w.
Proof.
  induction n as [|n IH]; intros f f' us w Ln Lf Lf'; [lia|]. destruct f as [|f]; [lia|]. destruct f' as [|f']; [lia|].
  cbn [ref_regions]. unfold bind. pose proof (region_consumes us w) as C. destruct (ref_region us w) as [[[|] us1] w1|w1|]; try reflexivity.
  cbn [fst snd]. specialize (C _ _ eq_refl). apply IH; lia.
Qed.

Definition ref_all (us : stream) : M world (unit * stream) := ref_regions (S (length us)) us.

Lemma all_step us w us1 w1 : ref_region us w = Ret (false, us1) w1 -> ref_all us w = ref_all us1 w1.
Proof.
  intro H. pose proof (region_consumes _ _ _ _ H) as L. unfold ref_all at 1. cbn [ref_regions]. unfold bind. rewrite H. cbn [fst snd].
  eapply regions_fuel; [apply Nat.lt_succ_diag_r|lia|lia].
Qed.
Lemma all_exc us w w1 : ref_region us w = Exc w1 -> ref_all us w = Exc w1.
Proof. intro H. unfold ref_all. cbn [ref_regions]. unfold bind. now rewrite H. Qed.

Lemma fit_cons rs x ms : fit rs (x :: ms) ->
  fst x + zlen (snd x) <= 4294967296 /\ (forall r, In r rs -> apart (range_of r) (range_in x)) /\
  forall r, is_ram r x -> fit (rs ++ [r]) ms.
Proof.
  intros (H1 & H2 & H3). inversion H1 as [|? ? A1 A2]; subst. inversion H2 as [|? ? B1 B2]; subst. split; [exact A1|].
  split; [intros r Hr; apply H3; [exact Hr|now left]|]. intros r Hr. split; [exact A2|]. split; [exact B2|].
  intros s y Hs Hy. apply in_app_or in Hs as [Hs|[<-|[]]].
  - apply H3; [exact Hs|now right].
  - rewrite Forall_forall in B1. specialize (B1 y Hy). destruct Hr as (E1 & E2 & _). unfold range_of. rewrite E1, E2. exact B1.
Qed.

Lemma regions_run R us : forall ms w,
  Inv R w -> Forall valid_region ms -> fit (regions w) ms -> w_code w = 0 ->
  (exists w', ref_all (map Some (flat_map enc_region ms) ++ us) w = ref_all us w' /\ Inv R w' /\ grew w w' ms /\ w_code w' = 0) \/
  (exists w', ref_all (map Some (flat_map enc_region ms) ++ us) w = Exc w' /\ failed_with outOfMemoryException R w w').
Proof.
  induction ms as [|x ms IH]; intros w HI HV HF HC.
  - left. exists w. auto using grew_refl.
  - inversion HV as [|? ? V1 V2]; subst. cbn [flat_map]. rewrite map_app, <- app_assoc.
    destruct (fit_cons _ _ _ HF) as (T1 & T2 & T3).
    destruct (region_run R x (map Some (flat_map enc_region ms) ++ us) w HI V1 T1 T2) as [(w1 & E1 & I1 & G1 & C1)|(w1 & E1 & F1)].
    + rewrite (all_step _ _ _ _ E1). pose proof G1 as ((new & Hn & HR) & Gf & _). inversion HR as [|r ? l ? HR1 HR2]; subst. inversion HR2; subst.
      destruct (IH w1 I1 V2) as [(w2 & E2 & I2 & G2 & C2)|(w2 & E2 & I2 & F2 & C2)]; [rewrite Hn; now apply T3|exact C1| |].
      * left. exists w2. split; [exact E2|]. split; [exact I2|]. split; [|exact C2]. apply (grew_trans w w1 w2 [x] ms); assumption.
      * right. exists w2. split; [exact E2|]. split; [exact I2|]. split; [|exact C2]. eapply frame_trans; eauto.
    + right. exists w1. split; [now apply all_exc|exact F1].
Qed.

(** ** The header *)

Lemma words_length l : length (words l) = (4 * length l)%nat.
Proof. induction l as [|x l IH]; [reflexivity|]. unfold words in *. cbn [flat_map]. rewrite app_length, le_length, IH. cbn. lia. Qed.

Lemma splice_mid {A} (a b c b' : list A) off : off = zlen a -> length b = length b' -> splice (a ++ b ++ c) off b' = a ++ b' ++ c.
Proof.
  intros -> L. unfold splice, zlen. rewrite Nat2Z.id. rewrite firstn_app, Nat.sub_diag, firstn_all, firstn_O, app_nil_r.
  f_equal. f_equal. rewrite skipn_app, skipn_all2 by lia. cbn [app].
  match goal with |- skipn ?k _ = _ => replace k with (length b) by lia end. rewrite skipn_app, skipn_all, Nat.sub_diag. reflexivity.
Qed.

Lemma cut {A} n (l : list A) : (n <= length l)%nat -> exists a b, l = a ++ b /\ length a = n.
Proof. intro L. exists (firstn n l), (skipn n l). split; [symmetry; apply firstn_skipn|]. rewrite firstn_length. lia. Qed.

Lemma read_field off n bs us w :
  length bs = n -> 0 <= off -> off + zlen bs <= zlen (w_ctx w) ->
  ref_read (Ctx off) n (map Some bs ++ us) w = Ret (bs, us) (set_ctx w (splice (w_ctx w) off bs)).
Proof.
  intros <- Ho Hl. rewrite read_run. unfold bind, store_dest, ctx_put. rewrite Z.add_0_r.
  replace ((0 <=? off) && (off + zlen bs <=? zlen (w_ctx w))) with true by lia. reflexivity.
Qed.

Definition head_done (d : dump) (w : world) : world := set_ctx w (context d (w_ctx w)).

Lemma flags_run d us w : zlen (w_ctx w) = 216 ->
  ref_flags (map Some (le 4 (d_flags d)) ++ us) w = Ret (tt, us) (set_ctx w (splice (w_ctx w) 0 (le 4 (d_flags d)))).
Proof. intro HC. unfold ref_flags, bind. rewrite read_field; [reflexivity|reflexivity|unfold OFF_FLAGS; lia|]. cbn. lia. Qed.

Lemma odd_land x : (Z.land x 1 =? 0) = negb (Z.odd x).
Proof. change 1 with (Z.ones 1). rewrite Z.land_ones by lia. change (2 ^ 1) with 2. rewrite Zmod_odd. destruct (Z.odd x); reflexivity. Qed.

Lemma head_run d us w :
  valid d -> zlen (w_ctx w) = 216 ->
  ref_dump (map Some (enc_head d) ++ us) w = ref_all us (set_ctx w (context d (w_ctx w))).
Proof.
  intros (V1 & (V2 & L2) & V3 & (V4 & L4) & _) HC. unfold zlen in HC.
  destruct (cut 4 (w_ctx w)) as (a & c1 & E1 & La); [lia|]. rewrite E1 in HC. rewrite app_length in HC.
  destruct (cut 68 c1) as (b & c2 & E2 & Lb); [lia|]. rewrite E2, app_length in HC.
  destruct (cut 4 c2) as (m & c3 & E3 & Lm); [lia|]. rewrite E3, app_length in HC.
  destruct (cut 4 c3) as (p & c4 & E4 & Lp); [lia|]. rewrite E4, app_length in HC.
  destruct (cut 4 c4) as (q & f & E5 & Lq); [lia|]. rewrite E5, app_length in HC.
  subst c1 c2 c3 c4.
  set (fl := le 4 (d_flags d)). assert (Lfl : length fl = 4%nat) by apply le_length.
  set (ps := le 4 (d_psr d)). assert (Lps : length ps = 4%nat) by apply le_length.
  set (rg := words (d_regs d)). assert (Lrg : length rg = if d_v2 d then 68%nat else 76%nat) by (unfold rg; rewrite words_length, L2; destruct (d_v2 d); reflexivity).
  set (fp := words (d_fp d)). assert (Lfp : length fp = if has_fp d then 132%nat else 0%nat) by (unfold fp; rewrite words_length, L4; destruct (has_fp d); reflexivity).
  assert (EC : context d (w_ctx w) = fl ++ rg ++ (if d_v2 d then [173; 186; 173; 186; 173; 186; 173; 186] else []) ++ ps ++ (if has_fp d then fp else f)).
  { unfold context. fold fl rg ps fp. rewrite E1. do 4 f_equal. destruct (has_fp d); [reflexivity|].
    rewrite !app_assoc. rewrite skipn_app, skipn_all2 by (rewrite !app_length; lia).
    replace (84 - length ((((a ++ b) ++ m) ++ p) ++ q))%nat with 0%nat by (rewrite !app_length; lia). reflexivity. }
  assert (EH : map Some (enc_head d) ++ us = map Some (s2b "cC" ++ (if d_v2 d then [2; 0] else [3; 0])) ++
    map Some fl ++ map Some rg ++ map Some ps ++ map Some fp ++ us).
  { unfold enc_head. fold fl rg ps fp. rewrite !map_app, !app_assoc. reflexivity. }
  rewrite EH, EC. clear EH EC. unfold ref_dump, bind at 1.
  assert (ES : forall us1, ref_signature (map Some (s2b "cC" ++ (if d_v2 d then [2; 0] else [3; 0])) ++ us1) w = Ret (d_v2 d, us1) w)
    by (intro us1; destruct (d_v2 d); reflexivity).
  rewrite ES. cbn [fst snd]. unfold bind at 1, ref_flags, bind at 1.
  rewrite read_field; [|exact Lfl|unfold OFF_FLAGS; lia|rewrite E1; unfold OFF_FLAGS, zlen; rewrite !app_length; lia].
  cbn [fst snd]. rewrite Lfl. cbn [Nat.eqb negb]. unfold ret at 1. cbv beta iota. cbn [fst snd].
  rewrite E1. change OFF_FLAGS with 0. change (a ++ b ++ m ++ p ++ q ++ f) with ([] ++ a ++ b ++ m ++ p ++ q ++ f). rewrite splice_mid by (cbn; lia).
  cbn [app].
  set (w1 := set_ctx w (fl ++ b ++ m ++ p ++ q ++ f)).
  assert (EI : ref_integer (d_v2 d) (map Some rg ++ map Some ps ++ map Some fp ++ us) w1 =
    Ret (tt, map Some fp ++ us) (set_ctx w (fl ++ rg ++ (if d_v2 d then [173; 186; 173; 186; 173; 186; 173; 186] else []) ++ ps ++ f))).
  { unfold ref_integer. cbv zeta. destruct (d_v2 d).
    - unfold bind at 1. unfold bind at 1. unfold ctx_put at 1. unfold w1 at 1. cbn [w_ctx set_ctx].
      change (le 4 DEFAULT_SP_VALUE) with [173; 186; 173; 186]. change (OFF_R MSP) with 72. change (OFF_R PSP) with 76.
      replace ((0 <=? 72) && _) with true by (unfold zlen; rewrite !app_length; cbn [length]; lia). cbv iota beta.
      unfold w1. cbn [w_ctx set_ctx].
      replace (fl ++ b ++ m ++ p ++ q ++ f) with ((fl ++ b) ++ m ++ (p ++ q ++ f)) by now rewrite !app_assoc.
      rewrite splice_mid by (unfold zlen; rewrite ?app_length; cbn [length]; lia).
      unfold ctx_put at 1. cbn [w_ctx set_ctx].
      replace ((0 <=? 76) && _) with true by (unfold zlen; rewrite !app_length; cbn [length]; lia). cbv iota beta.
      replace ((fl ++ b) ++ [173; 186; 173; 186] ++ (p ++ q ++ f)) with (((fl ++ b) ++ [173; 186; 173; 186]) ++ p ++ (q ++ f)) by now rewrite !app_assoc.
      rewrite splice_mid by (unfold zlen; rewrite ?app_length; cbn [length]; lia).
      unfold bind at 1. rewrite read_field; [|exact Lrg|unfold OFF_R; lia|cbn [w_ctx set_ctx]; unfold OFF_R, zlen; rewrite !app_length; cbn [length]; lia].
      cbn [fst snd w_ctx set_ctx]. rewrite Lrg. cbn [Nat.eqb negb].
      replace (((fl ++ b) ++ [173; 186; 173; 186]) ++ [173; 186; 173; 186] ++ q ++ f) with (fl ++ b ++ ([173; 186; 173; 186; 173; 186; 173; 186] ++ q ++ f))
        by (rewrite <- !app_assoc; reflexivity).
      rewrite splice_mid by (unfold OFF_R, zlen; cbn [length]; lia).
      unfold bind at 1. rewrite read_field; [|exact Lps|unfold OFF_PSR; lia|cbn [w_ctx set_ctx]; unfold OFF_PSR, zlen; rewrite !app_length; cbn [length]; lia].
      cbn [fst snd w_ctx set_ctx]. rewrite Lps. cbn [Nat.eqb negb].
      replace (fl ++ rg ++ [173; 186; 173; 186; 173; 186; 173; 186] ++ q ++ f) with ((fl ++ rg ++ [173; 186; 173; 186; 173; 186; 173; 186]) ++ q ++ f)
        by (rewrite <- !app_assoc; reflexivity).
      rewrite splice_mid by (unfold OFF_PSR, zlen; rewrite ?app_length; cbn [length]; lia). rewrite <- !app_assoc. reflexivity.
    - unfold bind at 1. unfold ret at 1. cbv beta iota. unfold w1.
      unfold bind at 1. rewrite read_field; [|exact Lrg|unfold OFF_R; lia|cbn [w_ctx set_ctx]; unfold OFF_R, zlen; rewrite !app_length; cbn [length]; lia].
      cbn [fst snd w_ctx set_ctx]. rewrite Lrg. cbn [Nat.eqb negb].
      replace (fl ++ b ++ m ++ p ++ q ++ f) with (fl ++ (b ++ m ++ p) ++ (q ++ f)) by (rewrite <- !app_assoc; reflexivity).
      rewrite splice_mid by (unfold OFF_R, zlen; rewrite ?app_length; cbn [length]; lia).
      unfold bind at 1. rewrite read_field; [|exact Lps|unfold OFF_PSR; lia|cbn [w_ctx set_ctx]; unfold OFF_PSR, zlen; rewrite !app_length; cbn [length]; lia].
      cbn [fst snd w_ctx set_ctx]. rewrite Lps. cbn [Nat.eqb negb].
      replace (fl ++ rg ++ q ++ f) with ((fl ++ rg) ++ q ++ f) by (rewrite <- !app_assoc; reflexivity).
      rewrite splice_mid by (unfold OFF_PSR, zlen; rewrite ?app_length; cbn [length]; lia). rewrite <- !app_assoc. reflexivity. }
  unfold bind at 1. rewrite EI. clear EI. cbn [fst snd].
  set (sp := if d_v2 d then [173; 186; 173; 186; 173; 186; 173; 186] else []) in *.
  assert (Lsp : (length rg + length sp = 76)%nat) by (rewrite Lrg; unfold sp; destruct (d_v2 d); reflexivity).
  unfold bind at 1, ref_fp, bind at 1, ctx_word. cbn [w_ctx set_ctx].
  replace ((0 <=? OFF_FLAGS) && _) with true by (unfold OFF_FLAGS, zlen; rewrite !app_length; lia).
  replace (of_le (slice (fl ++ rg ++ sp ++ ps ++ f) OFF_FLAGS 4)) with (d_flags d).
  2:{ change (slice (fl ++ rg ++ sp ++ ps ++ f) OFF_FLAGS 4) with fl. unfold fl. rewrite W_of_le4, W_id by exact V1. reflexivity. }
  unfold CRASH_CATCHER_FLAGS_FLOATING_POINT. rewrite odd_land. fold (has_fp d).
  destruct (has_fp d); cbn [negb].
  - unfold bind at 1. rewrite read_field; [|exact Lfp|unfold OFF_FPR; lia|cbn [w_ctx set_ctx]; unfold OFF_FPR, zlen; rewrite !app_length; lia].
    cbn [fst snd w_ctx set_ctx]. rewrite Lfp. cbn [Nat.eqb negb]. unfold ret. cbn [fst snd].
    replace (fl ++ rg ++ sp ++ ps ++ f) with ((fl ++ rg ++ sp ++ ps) ++ f ++ []) by (rewrite <- !app_assoc, app_nil_r; reflexivity).
    rewrite splice_mid by (unfold OFF_FPR, zlen; rewrite ?app_length; lia). rewrite <- !app_assoc, (app_nil_r fp). reflexivity.
  - unfold ret. cbn [fst snd]. destruct fp; [|discriminate Lfp]. reflexivity.
Qed.
