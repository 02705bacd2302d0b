(** What the GDB log parser does to memory. *)
From Coq Require Import String ZArith List Bool Lia ZifyBool ZifyNat Permutation.
From Verif Require Import Base World Context MemSim GdbLog BaseLemmas MemSpec Sat MemFair MemLemmas MemInv MemOps MemHist2 MemThms DumpSpec DumpRef DumpLemmas DumpConv DumpThms DumpSafe LogSpec LogFmt LogRef LogThms.
Import ListNotations.
Open Scope Z_scope.
Open Scope m_scope.

(** ** Entries *)

Definition mem_bytes (e : Z * list Z) : Z * list Z := (fst e, words (snd e)).
Definition entry (l : list Z) : list (Z * list Z) := match parseLine (cstr l) with PMemory a vs => [(a, vs)] | _ => [] end.
Definition entries (ls : list (list Z)) : list (Z * list Z) := flat_map entry ls.
Definition bytes_of (ls : list (list Z)) : list (Z * list Z) := map mem_bytes (entries ls).

Definition e_ok (e : Z * list Z) : Prop := u32 (fst e) /\ snd e <> [].

Lemma padded_extra ws tail : (length ws <= 4)%nat -> padded ws tail = ws ++ extra (4 - length ws) tail.
Proof.
  intro H. unfold padded, extra. destruct (Nat.ltb_spec (length ws) 4) as [L|L].
  - destruct (4 - length ws)%nat eqn:E; [lia|]. destruct tail; [now rewrite app_nil_r|reflexivity].
  - replace (4 - length ws)%nat with O by lia. rewrite app_nil_r. now destruct tail.
Qed.

Lemma memory_line_address a ws tail l : memory_line a ws tail l -> u32 a /\ ws <> [] /\ (length ws <= 4)%nat.
Proof. intros (d8 & sep & t & _ & _ & (_ & _ & H) & _ & _ & _ & H1 & H2 & _). auto. Qed.

Lemma memory_entry a ws tail l : memory_line a ws tail l -> entry l = [(a, padded ws tail)].
Proof.
  intro H. unfold entry. rewrite (memory_line_parse a ws tail l H). destruct (memory_line_address _ _ _ _ H) as (_ & _ & L). now rewrite padded_extra.
Qed.

Lemma other_entry l : ~ like_memory l -> entry l = [].
Proof.
  intro H. unfold entry, parseLine. destruct (isMemoryLine (cstr l)) eqn:E; [apply like_memory_line in E; contradiction|].
  destruct (isRegisterLine (cstr l)); reflexivity.
Qed.

Lemma loads_entries ls ms : log_loads ls ms -> ms = bytes_of ls /\ Forall e_ok (entries ls).
Proof.
  induction 1 as [|l ls a ws tail ms HM HL (-> & IH)|l ls ms HN HL (-> & IH)]; [split; [reflexivity|constructor]| |].
  - unfold bytes_of, entries in *. cbn [flat_map]. rewrite (memory_entry _ _ _ _ HM). cbn [app map]. split; [reflexivity|]. constructor; [|exact IH].
    destruct (memory_line_address _ _ _ _ HM) as (H1 & H2 & H3). split; [exact H1|]. cbn. rewrite padded_extra by exact H3. destruct ws; [destruct (H2 eq_refl)|discriminate].
  - unfold bytes_of, entries in *. cbn [flat_map]. rewrite (other_entry _ HN). split; [reflexivity|exact IH].
Qed.

Lemma shows_loads ls ms : log_shows ls ms -> log_loads ls ms.
Proof.
  induction 1 as [|l ls a ws tail ms HM HP HL IH|l ls ms HN HL IH]; [constructor| |now constructor].
  assert (E : padded ws tail = ws) by (unfold padded; destruct HP as [-> | ->]; [now destruct tail|reflexivity]).
  rewrite <- E. apply ll_memory; assumption.
Qed.

Lemma words_zlen vs : zlen (words vs) = 4 * zlen vs.
Proof. unfold zlen. rewrite words_length. lia. Qed.

(** ** Joining *)

Lemma joined_head a bs t : exists x r, joined ((a, bs) :: t) = (a, bs ++ x) :: r.
Proof. cbn [joined]. destruct (joined t) as [|[b cs] r]; [exists [], []; now rewrite app_nil_r|]. destruct (_ =? _); [eauto|]. exists [], ((b, cs) :: r). now rewrite app_nil_r. Qed.

Lemma joined_same a bs b cs t : a + zlen bs = b -> joined ((a, bs) :: (b, cs) :: t) = joined ((a, bs ++ cs) :: t).
Proof.
  intros <-. cbn [joined]. destruct (joined t) as [|[d ds] r].
  - rewrite Z.eqb_refl. reflexivity.
  - rewrite zlen_app. rewrite Z.add_assoc. destruct (a + zlen bs + zlen cs =? d); rewrite Z.eqb_refl; [now rewrite app_assoc|reflexivity].
Qed.

Lemma joined_new a bs b cs t : a + zlen bs <> b -> joined ((a, bs) :: (b, cs) :: t) = (a, bs) :: joined ((b, cs) :: t).
Proof.
  intro N. destruct (joined_head b cs t) as (x & r & E). cbn [joined] in *. rewrite E. destruct (Z.eqb_spec (a + zlen bs) b); [contradiction|reflexivity].
Qed.

Lemma joined_holds ms : forall a bs, In (a, bs) ms -> exists c u v, In (c, u ++ bs ++ v) (joined ms) /\ a = c + zlen u.
Proof.
  induction ms as [|[b cs] t IH]; intros a bs H; [destruct H|]. destruct H as [E|H].
  - injection E as -> ->. destruct (joined_head a bs t) as (x & r & ->). exists a, [], x. split; [now left|]. unfold zlen. cbn. lia.
  - destruct (IH a bs H) as (c & u & v & Hin & ->). cbn [joined]. destruct (joined t) as [|[d ds] r]; [destruct Hin|].
    destruct (Z.eqb_spec (b + zlen cs) d) as [E|E].
    + destruct Hin as [Hin|Hin].
      * injection Hin as -> ->. exists b, (cs ++ u), v. rewrite zlen_app, <- app_assoc. split; [now left|lia].
      * exists c, u, v. split; [now right|reflexivity].
    + exists c, u, v. split; [now right|reflexivity].
Qed.

Lemma joined_valid ms : Forall (fun x => u32 (fst x) /\ Forall byte (snd x)) ms -> Forall (fun x => u32 (fst x) /\ Forall byte (snd x)) (joined ms).
Proof.
  induction 1 as [|[a bs] t [H1 H2] Ht IH]; [constructor|]. cbn [joined]. destruct (joined t) as [|[d ds] r]; [constructor; auto|].
  inversion IH as [|? ? [H3 H4] H5]; subst. destruct (_ =? _); [constructor; [|exact H5]|constructor; auto]. cbn in *. split; [exact H1|]. apply Forall_app. auto.
Qed.

Lemma words_bytes vs : Forall byte (words vs).
Proof. unfold words. apply Forall_forall. intros x Hx. apply in_flat_map in Hx as (v & _ & Hx). pose proof (le_bytes 4 v) as B. rewrite Forall_forall in B. auto. Qed.

Lemma bytes_valid ls : Forall e_ok (entries ls) -> Forall (fun x => u32 (fst x) /\ Forall byte (snd x)) (bytes_of ls).
Proof. unfold bytes_of. induction 1 as [|e t [H1 H2] Ht IH]; cbn [map]; constructor; auto. split; [exact H1|apply words_bytes]. Qed.

(** No line ending at 2^32 is followed by one at 0. *)
Fixpoint nw (e : Z) (ms : list (Z * list Z)) : Prop :=
  match ms with [] => True | (b, cs) :: t => (e = 4294967296 -> b <> 0) /\ nw (b + zlen cs) t end.
Definition nwo (p : option (Z * list Z)) (ms : list (Z * list Z)) : Prop :=
  match p with
  | Some x => nw (fst x + zlen (snd x)) ms
  | None => match ms with [] => True | (b, cs) :: t => nw (b + zlen cs) t end
  end.

Lemma no_wrap_nwo ms : no_wrap ms -> nwo None ms.
Proof.
  intros (_ & H). destruct ms as [|[b cs] t]; [exact I|]. cbn [nwo].
  revert b cs H. induction t as [|[d ds] t IH]; intros b cs H; [exact I|]. cbn [nw]. split.
  - intro E. exact (H [] (b, cs) (d, ds) t eq_refl E).
  - apply IH. intros before x y after E. apply (H ((b, cs) :: before) x y after). cbn. now rewrite E.
Qed.

Definition consp (p : option (Z * list Z)) (ms : list (Z * list Z)) : list (Z * list Z) := match p with Some x => x :: ms | None => ms end.
Definition small (x : Z * list Z) : Prop := zlen (snd x) < 4294967296 /\ fst x + zlen (snd x) <= 4294967296.
Definition pend (o : pobj) (p : option (Z * list Z)) : Prop :=
  match p with
  | None => o = o0
  | Some x => u32 (fst x) /\ 4 <= zlen (snd x) /\ po_start o = fst x /\ po_size o = zlen (snd x) /\ po_next o = W (fst x + zlen (snd x))
  end.

Definition zero_ram (r : region) (x : Z * list Z) : Prop := is_ram r (fst x, repeat 0 (length (snd x))).

Lemma new_zero w x : u32 (fst x) -> zero_ram (new_region w (fst x) (zlen (snd x))) x.
Proof.
  intro H. unfold zero_ram, is_ram, new_region. cbn. unfold zeros, zlen. rewrite repeat_length, Nat2Z.id. auto 10.
Qed.

Lemma post_and {A} (c : M world A) w Q1 E1 Q2 E2 : post c w Q1 E1 -> post c w Q2 E2 -> post c w (fun x w' => Q1 x w' /\ Q2 x w') (fun w' => E1 w' /\ E2 w').
Proof. unfold post. destruct (c w); auto. Qed.

Lemma zlen_words_pos e : e_ok e -> 4 <= zlen (words (snd e)).
Proof. intros [_ H]. rewrite words_zlen. destruct (snd e) as [|v t]; [destruct (H eq_refl)|]. rewrite zlen_cons. pose proof (zlen_nonneg t). lia. Qed.

Section Runs.
Variable R : list nat.

Definition sim_same (w w' : world) : Prop := m_hits (w_mem w') = m_hits (w_mem w) /\ m_xml (w_mem w') = m_xml (w_mem w).

Definition adds (w : world) (ms : list (Z * list Z)) (w' : world) : Prop :=
  (exists new, regions w' = regions w ++ new /\ Forall2 zero_ram new ms) /\ sim_same w w'.

Lemma adds_refl w : adds w [] w.
Proof. split; [exists []; rewrite app_nil_r; auto|split; reflexivity]. Qed.
Lemma adds_trans w w1 w2 m1 m2 : adds w m1 w1 -> adds w1 m2 w2 -> adds w (m1 ++ m2) w2.
Proof.
  intros ((n1 & E1 & F1) & H1 & X1) ((n2 & E2 & F2) & H2 & X2). split; [|split; congruence].
  exists (n1 ++ n2). rewrite E2, E1, app_assoc. split; [reflexivity|now apply Forall2_app].
Qed.

Lemma create_zero o x w : Inv R w -> pend o (Some x) -> zlen (snd x) < 4294967296 ->
  post (MemorySim_CreateRegion (po_start o) (po_size o)) w (fun _ w' => adds w [x] w') (fun _ => True).
Proof.
  intros HI (H1 & H2 & -> & -> & _) Hz. eapply post_weaken; [apply CreateRegion_post; [exact HI|exact H1|unfold u32; lia]| |auto]; cbv beta.
  intros _ w' (_ & _ & E & _ & Eh & Ex). split; [|split; assumption]. exists [new_region w (fst x) (zlen (snd x))]. split; [exact E|]. constructor; [now apply new_zero|constructor].
Qed.

(** One memory line of the first pass. *)
Lemma first_entry o p a vs w ms :
  Inv R w -> pend o p -> e_ok (a, vs) -> Forall small (joined (consp p ((a, words vs) :: ms))) -> nwo p ((a, words vs) :: ms) ->
  exists x, 
  (exists bs0, x = (a - zlen bs0, bs0 ++ words vs)) /\ nwo (Some x) ms /\
  post (firstPassMemoryHandler o a vs) w
    (fun o' w' => pend o' (Some x) /\ exists done, adds w done w' /\ joined (consp p ((a, words vs) :: ms)) = done ++ joined (x :: ms))
    (fun _ => True).
Proof.
  intros HI HP HE HS HN. pose proof (zlen_words_pos _ HE) as HL. pose proof HE as [Ha _]. cbn [fst snd] in *. unfold u32 in Ha.
  pose proof (words_zlen vs) as HW.
  assert (HK : forall bs0 o1 w1, 0 <= a - zlen bs0 -> zlen bs0 + zlen (words vs) < 4294967296 -> po_start o1 = a - zlen bs0 -> po_size o1 = zlen bs0 ->
    post (ret (mkPO (po_start o1) (W (po_size o1 + 4 * zlen vs)) (W (a + 4 * zlen vs)))) w1
      (fun o' w' => pend o' (Some (a - zlen bs0, bs0 ++ words vs)) /\ w' = w1) (fun _ => True)).
  { intros bs0 o1 w1 H1 H2 H3 H4. unfold post, ret, pend. cbn [fst snd po_start po_size po_next]. rewrite zlen_app. pose proof (zlen_nonneg bs0).
    split; [|reflexivity]. split; [unfold u32; lia|]. split; [lia|]. split; [exact H3|]. rewrite H4, <- HW. split; [apply W_id; unfold u32; lia|f_equal; lia]. }
  assert (HT : a + zlen (words vs) <= 4294967296 -> a <> 4294967295) by lia.
  unfold firstPassMemoryHandler. cbv zeta.
  destruct p as [[b bs]|]; cbn [consp nwo pend fst snd] in *.
  - destruct HP as (Hb & Hbl & P1 & P2 & P3). unfold u32 in Hb. cbn [nw] in HN. destruct HN as [HN1 HN2].
    destruct (joined_head b bs ((a, words vs) :: ms)) as (x & r & EJ). pose proof HS as HS0. rewrite EJ in HS. pose proof (Forall_inv HS) as [S1 S2]. pose proof (Forall_inv_tail HS) as S3. cbn [fst snd] in S1, S2.
    rewrite zlen_app in S1, S2. pose proof (zlen_nonneg x).
    destruct (Z.eqb_spec a (po_next o)) as [Ea|Ea]; cbn [negb].
    + assert (E : b + zlen bs = a).
      { rewrite P3 in Ea. destruct (Z.eq_dec (b + zlen bs) 4294967296) as [T|T]; [|rewrite W_id in Ea by (unfold u32; lia); congruence].
        exfalso. apply (HN1 T). rewrite Ea, T. reflexivity. }
      exists (b, bs ++ words vs). rewrite <- joined_same with (b := a) by exact E.
      split; [exists bs; f_equal; lia|]. split; [cbn [nwo fst snd]; rewrite zlen_app, Z.add_assoc, E; exact HN2|].
      unfold bind at 1. unfold ret at 1. pose proof (HK bs o w) as K. unfold post in K |- *. cbn [ret] in K |- *.
      replace (a - zlen bs) with b in K by lia.
      assert (SZ : zlen bs + zlen (words vs) < 4294967296).
      { rewrite joined_same in EJ by exact E. destruct (joined_head b (bs ++ words vs) ms) as (x2 & r2 & EJ2). rewrite EJ2 in EJ. injection EJ as EX _.
        apply (f_equal (@zlen Z)) in EX. rewrite !zlen_app in EX. pose proof (zlen_nonneg x2). lia. }
      destruct K as (K1 & _); [lia|lia|exact P1|exact P2|]. split; [exact K1|]. exists []. split; [apply adds_refl|reflexivity].
    + assert (E : b + zlen bs <> a).
      { intro E. apply Ea. rewrite P3, E. symmetry. apply W_id. unfold u32. lia. }
      exists (a, words vs). rewrite joined_new by exact E.
      split; [exists []; change (zlen []) with 0; f_equal; lia|]. split; [exact HN2|].
      rewrite joined_new in HS0 by exact E. clear S3. pose proof (Forall_inv_tail HS0) as S3.
      destruct (joined_head a (words vs) ms) as (x2 & r2 & EJ2). rewrite EJ2 in S3. pose proof (Forall_inv S3) as [T1 T2]. pose proof (Forall_inv_tail S3) as T3. cbn [fst snd] in T1, T2. rewrite zlen_app in T1, T2. pose proof (zlen_nonneg x2).
      apply post_bind. apply post_bind. replace (po_start o =? 4294967295) with false by lia. cbn [negb].
      eapply post_weaken; [apply (create_zero o (b, bs) w HI); [cbn; unfold u32; repeat split; auto; lia|cbn; lia]| |auto]; cbv beta.
      intros _ w1 A1. unfold post at 1. unfold ret at 1. eapply post_weaken; [apply (HK [] (mkPO a 0 (po_next o)) w1)| |auto]; cbn [po_start po_size]; change (zlen (@nil Z)) with 0; try lia.
      cbv beta. intros o2 w2 (K1 & ->). cbn [app] in K1. replace (a - 0) with a in K1 by lia. split; [exact K1|]. exists [(b, bs)]. split; [exact A1|reflexivity].
  - subst o. exists (a, words vs). split; [exists []; change (zlen []) with 0; f_equal; lia|]. split; [exact HN|].
    destruct (joined_head a (words vs) ms) as (x2 & r2 & EJ2). rewrite EJ2 in HS. pose proof (Forall_inv HS) as [T1 T2]. pose proof (Forall_inv_tail HS) as T3. cbn [fst snd] in T1, T2. rewrite zlen_app in T1, T2. pose proof (zlen_nonneg x2).
    unfold o0. cbn [po_next po_start]. replace (a =? 4294967295) with false by lia. cbn [negb].
    apply post_bind. apply post_bind. cbn [Z.eqb Pos.eqb negb]. unfold post at 1. unfold ret at 1. unfold post at 1. unfold ret at 1.
    eapply post_weaken; [apply (HK [] (mkPO a 0 4294967295) w)| |auto]; cbn [po_start po_size]; change (zlen (@nil Z)) with 0; try lia.
    cbv beta. intros o2 w2 (K1 & ->). cbn [app] in K1. replace (a - 0) with a in K1 by lia. split; [exact K1|]. exists []. split; [apply adds_refl|reflexivity].
Qed.

Lemma first_runs ls : forall o p w,
  Inv R w -> zlen (w_ctx w) = 216 -> w_code w = 0 -> pend o p -> po_ok o -> Forall e_ok (entries ls) ->
  Forall small (joined (consp p (bytes_of ls))) -> nwo p (bytes_of ls) ->
  post (feed firstPassHandler o ls) w
    (fun o' w' => exists p' done, pend o' p' /\ adds w done w' /\ joined (consp p (bytes_of ls)) = done ++ joined (consp p' [])) (fun _ => True).
Proof.
  induction ls as [|l ls IH]; intros o p w HI HC H0 HP HO HE HS HN; cbn [feed].
  - unfold post, ret. exists p, []. auto using adds_refl.
  - pose proof (first_line R o l w HI HC H0 HO) as FL. apply post_bind.
    change (entries (l :: ls)) with (entry l ++ entries ls) in HE. change (bytes_of (l :: ls)) with (map mem_bytes (entry l ++ entries ls)) in *. rewrite map_app in *.
    change (map mem_bytes (entries ls)) with (bytes_of ls) in *. apply Forall_app in HE as [HE1 HE2].
    eapply (post_weaken _ _ (fun o1 w1 => first_ok R w (ctx_line (w_ctx w) l) o1 w1 /\
       exists p1 d1, pend o1 p1 /\ adds w d1 w1 /\ joined (consp p (map mem_bytes (entry l) ++ bytes_of ls)) = d1 ++ joined (consp p1 (bytes_of ls)) /\ nwo p1 (bytes_of ls)) _ (fun _ => True)); [| |auto].
    + eapply post_weaken; [apply post_and; [exact FL|]| |]; cbv beta; [|intros o1 w1 (X & Y); split; [exact X|exact Y]|intros w1 (X & Y); exact Y].
      unfold entry in *. destruct (parseLine (cstr l)) as [a vs|off v|] eqn:E; cbn [firstPassHandler app map] in *.
      * inversion HE1 as [|? ? HE3 _]; subst. destruct (first_entry o p a vs w (bytes_of ls) HI HP HE3 HS HN) as (x & _ & HN' & HF).
        eapply post_weaken; [exact HF| |auto]; cbv beta. intros o1 w1 (P1 & d1 & A1 & J1). exists (Some x), d1. auto.
      * destruct (parsed_register _ _ _ E) as (t & Ht & Eo & _). unfold post, bind. rewrite (register_step off v w t HC Ht Eo). unfold ret.
        exists p, []. split; [exact HP|]. split; [|split; [reflexivity|exact HN]]. split; [exists []; rewrite app_nil_r; auto|split; reflexivity].
      * unfold post, ret. exists p, []. auto using adds_refl.
    + intros o1 w1 ((I1 & R1 & C1 & Z1 & O1) & p1 & d1 & P1 & A1 & J1 & N1). eapply post_weaken; [apply (IH o1 p1 w1); auto| |auto]; cbv beta.
      * rewrite C1. now apply ctx_line_len.
      * rewrite J1 in HS. apply Forall_app in HS. apply HS.
      * intros o2 w2 (p2 & d2 & P2 & A2 & J2). exists p2, (d1 ++ d2). split; [exact P2|]. split; [eapply adds_trans; eauto|]. rewrite J1, J2. apply app_assoc.
Qed.

Lemma first_pass_runs ls w : Inv R w -> zlen (w_ctx w) = 216 -> w_code w = 0 -> Forall e_ok (entries ls) ->
  Forall small (joined (bytes_of ls)) -> nwo None (bytes_of ls) ->
  post (pass firstPassHandler ls) w (fun _ w' => adds w (joined (bytes_of ls)) w') (fun _ => True).
Proof.
  intros HI HC H0 HE HS HN. unfold pass. apply post_bind.
  eapply post_weaken; [apply post_and; [apply (first_feed R ls o0 w HI HC H0 o0_ok)|apply (first_runs ls o0 None w HI HC H0 eq_refl o0_ok HE HS HN)]| |auto]; cbv beta.
  intros o1 w1 ((I1 & R1 & C1 & Z1 & O1) & p & d & P & A & J). cbn [consp] in J. unfold finish. destruct p as [x|].
  - pose proof P as (_ & P2 & _ & P4 & _). replace (po_size o1 =? 0) with false by lia. cbn [negb].
    replace (joined (consp (Some x) [])) with [x] in J by (destruct x; reflexivity).
    rewrite J in HS. apply Forall_app in HS as [_ HS]. pose proof (Forall_inv HS) as [S1 S2].
    eapply post_weaken; [apply (create_zero o1 x w1 I1 P S1)| |auto]; cbv beta. intros _ w2 A2. rewrite J. eapply adds_trans; eauto.
  - cbn in P. subst o1. cbn [po_size o0 Z.eqb negb]. unfold post, ret. rewrite J. cbn. rewrite app_nil_r. exact A.
Qed.

(** ** The second pass *)

Definition sim_only (w w' : world) : Prop := frame w w' /\ sim_same w w' /\ w_code w' = w_code w.
Lemma sim_only_refl w : sim_only w w.
Proof. split; [apply frame_refl|split; [split; reflexivity|reflexivity]]. Qed.
Lemma sim_only_trans a b c : sim_only a b -> sim_only b c -> sim_only a c.
Proof. intros (F1 & (H1 & X1) & C1) (F2 & (H2 & X2) & C2). split; [eapply frame_trans; eauto|]. split; [split; congruence|congruence]. Qed.

Lemma write_word pre r todo a bs u v x w :
  Inv R w -> regions w = pre ++ r :: todo -> is_ram r (a, bs ++ u ++ v) -> length u = 4%nat -> u32 a ->
  a + zlen (bs ++ u ++ v) <= 4294967296 -> (forall s, In s pre -> apart (range_of s) (a, zlen (bs ++ u ++ v))) ->
  exists w', write32 (a + zlen bs) x w = Ret tt w' /\ Inv R w' /\ sim_only w w' /\
    regions w' = pre ++ with_data r (bs ++ le 4 x ++ v) :: todo.
Proof.
  intros HI Hw (B1 & B2 & B3 & B4 & B5 & B6 & B7) Lu Ha Ht Hap. cbn [fst snd] in *. unfold u32 in Ha.
  assert (Zu : zlen u = 4) by (unfold zlen; lia). rewrite !zlen_app in *. pose proof (zlen_nonneg bs). pose proof (zlen_nonneg v).
  assert (N : nth_error (regions w) (length pre) = Some r) by (rewrite Hw, nth_error_app2, Nat.sub_diag by lia; reflexivity).
  assert (FC : first_cover (regions w) (a + zlen bs) 4 (length pre) r).
  { split; [exact N|]. split; [unfold covers; lia|]. intros i' r' Hi E [C1 C2]. rewrite Hw, nth_error_app1 in E by exact Hi. apply nth_error_In in E.
    specialize (Hap r' E). unfold apart, range_of in Hap. cbn [fst snd] in Hap. lia. }
  pose proof (find_first 0 _ _ _ _ _ FC) as F. rewrite B3 in F. cbn [Nat.add] in F.
  assert (Hu : u32 (a + zlen bs)) by (unfold u32; lia). assert (HWd : width 4) by (unfold width; auto).
  pose proof (writeN_keeps R 4 (a + zlen bs) x w HI Hu HWd) as K. unfold keeps, post in K. unfold write32.
  rewrite (writeN_wf 4 (a + zlen bs) x w (proj1 HI) Hu HWd) in *. rewrite F, N in *. cbv zeta in *. rewrite B5, B6 in *. cbn [scan_wps] in *.
  eexists. split; [reflexivity|]. destruct K as [K1 K2]. split; [exact K1|].
  split. { split; [exact K2|]. split; [destruct w; split; reflexivity|destruct w; reflexivity]. }
  change (regions (set_hits (set_regions w ?x) ?h)) with x.
  rewrite Hw, upd_nth_app_r. f_equal. f_equal. f_equal. unfold roff. rewrite B1, B4, W_id by (unfold u32; lia).
  apply splice_mid; [lia|]. rewrite le_length. exact Lu.
Qed.

Lemma is_ram_data r x bs : is_ram r x -> length bs = length (snd x) -> is_ram (with_data r bs) (fst x, bs).
Proof. intros (B1 & B2 & B3 & B4 & B5 & B6 & B7) L. unfold is_ram. cbn. unfold zlen in *. rewrite L. auto 10. Qed.

Lemma write_values pre todo a v (Ha : u32 a) : forall vs bs u r w,
  Inv R w -> regions w = pre ++ r :: todo -> is_ram r (a, bs ++ u ++ v) -> length u = (4 * length vs)%nat ->
  a + zlen (bs ++ u ++ v) <= 4294967296 -> (forall s, In s pre -> apart (range_of s) (a, zlen (bs ++ u ++ v))) ->
  exists w' r', writeValues (W (a + zlen bs)) vs w = Ret tt w' /\ Inv R w' /\ sim_only w w' /\
    regions w' = pre ++ r' :: todo /\ is_ram r' (a, bs ++ words vs ++ v).
Proof.
  induction vs as [|x vs IH]; intros bs u r w HI Hw Hr Lu Ht Hap; cbn [writeValues].
  - destruct u; [|discriminate Lu]. exists w, r. split; [reflexivity|]. auto using sim_only_refl.
  - destruct (cut 4 u) as (u1 & u2 & -> & L1); [cbn in Lu; lia|]. rewrite app_length in Lu. cbn [length] in Lu. rewrite <- app_assoc in Hr, Ht, Hap.
    destruct (write_word pre r todo a bs u1 (u2 ++ v) x w HI Hw Hr L1 Ha Ht Hap) as (w1 & E1 & I1 & S1 & G1).
    pose proof (zlen_nonneg bs). pose proof (zlen_nonneg (u2 ++ v)). assert (Z1 : zlen u1 = 4) by (unfold zlen; lia). rewrite !zlen_app in Ht. rewrite zlen_app in H0. unfold u32 in Ha.
    unfold bind. rewrite (W_id (a + zlen bs)) by (unfold u32; lia). rewrite E1.
    assert (ZL : zlen ((bs ++ le 4 x) ++ u2 ++ v) = zlen (bs ++ u1 ++ u2 ++ v)) by (rewrite !zlen_app, le_zlen, Z1; lia).
    destruct (IH (bs ++ le 4 x) u2 (with_data r (bs ++ le 4 x ++ u2 ++ v)) w1) as (w2 & r2 & E2 & I2 & S2 & G2 & T2).
    + exact I1.
    + exact G1.
    + rewrite <- app_assoc. apply (is_ram_data _ _ _ Hr). cbn [snd]. rewrite !app_length, le_length. lia.
    + lia.
    + rewrite ZL, !zlen_app. lia.
    + rewrite ZL. exact Hap.
    + exists w2, r2. rewrite zlen_app, le_zlen, Z.add_assoc in E2. split; [exact E2|]. split; [exact I2|]. split; [eapply sim_only_trans; eauto|]. split; [exact G2|].
      rewrite <- app_assoc in T2. unfold words. cbn [flat_map]. rewrite <- app_assoc. exact T2.
Qed.

(** The regions during the second pass: [pre], the one being filled, and those still zero. *)
Definition filling (pre : list region) (p : option (Z * list Z)) (ms : list (Z * list Z)) (rs : list region) : Prop :=
  match p with
  | None => exists todo, rs = pre ++ todo /\ Forall2 zero_ram todo (joined ms)
  | Some (a, bs) => exists r todo x rest, rs = pre ++ r :: todo /\ joined ((a, bs) :: ms) = (a, bs ++ x) :: rest /\ u32 a /\
                      is_ram r (a, bs ++ repeat 0 (length x)) /\ Forall2 zero_ram todo rest
  end.

Lemma second_entry pre p a vs ms w :
  Inv R w -> e_ok (a, vs) -> filling pre p ((a, words vs) :: ms) (regions w) -> fit pre (joined (consp p ((a, words vs) :: ms))) ->
  exists w' pre' fin q, writeValues a vs w = Ret tt w' /\ Inv R w' /\ sim_only w w' /\ pre' = pre ++ fin /\
    filling pre' (Some q) ms (regions w') /\ fit pre' (joined (q :: ms)) /\
    exists done, Forall2 is_ram fin done /\ joined (consp p ((a, words vs) :: ms)) = done ++ joined (q :: ms).
Proof.
  intros HI HE HF HT. pose proof HE as [Ha _]. cbn in Ha.
  assert (FILL : forall pre' r todo b bs x rest, regions w = pre' ++ r :: todo -> u32 b -> b + zlen bs = a ->
     joined ((b, bs ++ words vs) :: ms) = (b, bs ++ x) :: rest -> is_ram r (b, bs ++ repeat 0 (length x)) -> Forall2 zero_ram todo rest ->
     fit pre' (joined ((b, bs ++ words vs) :: ms)) ->
     exists w', writeValues a vs w = Ret tt w' /\ Inv R w' /\ sim_only w w' /\ filling pre' (Some (b, bs ++ words vs)) ms (regions w')).
  { intros pre' r todo b bs x rest Hw Hb Eb EJ Hr Ht HT'. destruct (joined_head b (bs ++ words vs) ms) as (x2 & r2 & EJ2).
    rewrite EJ2 in EJ. injection EJ as EX ->. rewrite <- app_assoc in EX. apply app_inv_head in EX. subst x.
    destruct (fit_cons _ _ _ ltac:(rewrite EJ2 in HT'; exact HT')) as (T1 & T2 & _). cbn [fst snd] in T1, T2. unfold range_in in T2. cbn [fst snd] in T2.
    rewrite <- app_assoc in T1, T2. assert (ZL : zlen (bs ++ repeat 0 (length (words vs)) ++ repeat 0 (length x2)) = zlen (bs ++ words vs ++ x2)).
    { unfold zlen. rewrite !app_length, !repeat_length. reflexivity. }
    destruct (write_values pre' todo b (repeat 0 (length x2)) Hb vs bs (repeat 0 (length (words vs))) r w) as (w' & r' & E' & I' & S' & G' & M').
    - exact HI.
    - exact Hw.
    - rewrite app_length, repeat_app in Hr. exact Hr.
    - rewrite repeat_length. apply words_length.
    - rewrite ZL. exact T1.
    - rewrite ZL. exact T2.
    - exists w'. rewrite Eb in E'. rewrite W_id in E' by exact Ha. split; [exact E'|]. split; [exact I'|]. split; [exact S'|].
      exists r', todo, x2, rest. split; [exact G'|]. split; [exact EJ2|]. split; [exact Hb|]. split; [now rewrite <- app_assoc|exact Ht]. }
  destruct p as [[b bs]|]; cbn [consp filling] in *.
  - destruct HF as (r & todo & x & rest & Hw & EJ & Hb & Hr & Ht). destruct (Z.eq_dec (b + zlen bs) a) as [E|E].
    + rewrite joined_same in * by exact E. destruct (FILL pre r todo b bs x rest) as (w' & E' & I' & S' & F'); auto.
      exists w', pre, [], (b, bs ++ words vs). split; [exact E'|]. split; [exact I'|]. split; [exact S'|]. split; [now rewrite app_nil_r|]. split; [exact F'|]. split; [exact HT|].
      exists []. split; [constructor|reflexivity].
    + rewrite joined_new in * by exact E. assert (EX : bs = bs ++ x) by congruence. assert (Er : joined ((a, words vs) :: ms) = rest) by congruence. clear EJ. assert (x = []) by (apply (f_equal (@length Z)) in EX; rewrite app_length in EX; destruct x; [reflexivity|cbn in EX; lia]). subst x.
      cbn [length repeat] in Hr. rewrite app_nil_r in Hr. destruct (fit_cons _ _ _ HT) as (_ & _ & T3). specialize (T3 r Hr).
      destruct (joined_head a (words vs) ms) as (x2 & r2 & EJ2). rewrite <- Er, EJ2 in Ht. inversion Ht as [|r3 ? todo3 ? Z3 Ht3]; subst.
      destruct (FILL (pre ++ [r]) r3 todo3 a [] (words vs ++ x2) r2) as (w' & E' & I' & S' & F'); auto.
      { rewrite Hw, <- app_assoc. reflexivity. }
      { unfold zlen. cbn. lia. }
      exists w', (pre ++ [r]), [r], (a, words vs). split; [exact E'|]. split; [exact I'|]. split; [exact S'|]. split; [reflexivity|]. split; [exact F'|]. split; [exact T3|].
      exists [(b, bs)]. split; [auto|reflexivity].
  - destruct HF as (todo & Hw & Ht). destruct (joined_head a (words vs) ms) as (x2 & r2 & EJ2). rewrite EJ2 in Ht. inversion Ht as [|r3 ? todo3 ? Z3 Ht3]; subst.
    destruct (FILL pre r3 todo3 a [] (words vs ++ x2) r2) as (w' & E' & I' & S' & F'); auto.
    { unfold zlen. cbn. lia. }
    exists w', pre, [], (a, words vs). split; [exact E'|]. split; [exact I'|]. split; [exact S'|]. split; [now rewrite app_nil_r|]. split; [exact F'|]. split; [exact HT|].
    exists []. split; [constructor|reflexivity].
Qed.

Lemma second_runs ls : forall pre p o w,
  Inv R w -> Forall e_ok (entries ls) -> filling pre p (bytes_of ls) (regions w) -> fit pre (joined (consp p (bytes_of ls))) ->
  exists w' fin, feed secondPassHandler o ls w = Ret o w' /\ Inv R w' /\ sim_only w w' /\ regions w' = pre ++ fin /\ Forall2 is_ram fin (joined (consp p (bytes_of ls))).
Proof.
  induction ls as [|l ls IH]; intros pre p o w HI HE HF HT; cbn [feed].
  - exists w. destruct p as [[a bs]|]; cbn [bytes_of entries flat_map map consp filling] in *.
    + destruct HF as (r & todo & x & rest & Hw & EJ & Hb & Hr & Ht). cbn [joined] in EJ. injection EJ as EX <-. assert (x = []) by (apply (f_equal (@length Z)) in EX; rewrite app_length in EX; destruct x; [reflexivity|cbn in EX; lia]). subst x.
      inversion Ht; subst. cbn [length repeat] in Hr. rewrite app_nil_r in Hr. exists [r]. unfold ret. split; [reflexivity|]. split; [exact HI|]. split; [apply sim_only_refl|]. split; [exact Hw|]. constructor; [exact Hr|constructor].
    + destruct HF as (todo & Hw & Ht). inversion Ht; subst. exists []. unfold ret. split; [reflexivity|]. split; [exact HI|]. split; [apply sim_only_refl|]. split; [exact Hw|]. constructor.
  - change (entries (l :: ls)) with (entry l ++ entries ls) in HE. change (bytes_of (l :: ls)) with (map mem_bytes (entry l ++ entries ls)) in *. rewrite map_app in *.
    change (map mem_bytes (entries ls)) with (bytes_of ls) in *. apply Forall_app in HE as [HE1 HE2].
    unfold bind, entry in *. destruct (parseLine (cstr l)) as [a vs|off v|] eqn:E; cbn [secondPassHandler app map] in *.
    + inversion HE1 as [|? ? HE3 _]; subst. destruct (second_entry pre p a vs (bytes_of ls) w HI HE3 HF HT) as (w1 & pre1 & fin1 & q & E1 & I1 & S1 & -> & F1 & T1 & d1 & D1 & J1).
      unfold bind. rewrite E1. unfold ret at 1. destruct (IH (pre ++ fin1) (Some q) o w1 I1 HE2 F1 T1) as (w2 & fin2 & E2 & I2 & S2 & G2 & D2).
      exists w2, (fin1 ++ fin2). split; [exact E2|]. split; [exact I2|]. split; [eapply sim_only_trans; eauto|]. split; [now rewrite app_assoc|]. 
      change (mem_bytes (a, vs)) with (a, words vs). rewrite J1. now apply Forall2_app.
    + unfold ret. apply IH; auto.
    + unfold ret. apply IH; auto.
Qed.

Lemma ref_log_memory ls w : Inv R w -> zlen (w_ctx w) = 216 -> w_code w = 0 -> Forall e_ok (entries ls) ->
  no_wrap (bytes_of ls) -> fit (regions w) (joined (bytes_of ls)) ->
  post (ref_log ls true ls) w
    (fun _ w' => (exists new, regions w' = regions w ++ new /\ Forall2 is_ram new (joined (bytes_of ls))) /\ sim_same w w')
    (fun w' => w_code w' = outOfMemoryException).
Proof.
  intros HI HC H0 HE HN HT. unfold ref_log. apply post_bind. unfold post at 1. rewrite (init_step w HC). set (w0 := set_ctx w _).
  assert (I0 : Inv R w0) by now apply Inv_ctx. assert (C0 : zlen (w_ctx w0) = 216) by now apply ctx_init_len.
  assert (HS : Forall small (joined (bytes_of ls))).
  { apply Forall_forall. intros x Hx. destruct HN as (H1 & _). destruct HT as (H2 & _). rewrite Forall_forall in H1, H2. split; [now apply H1|now apply H2]. }
  apply post_bind. eapply post_weaken; [apply post_and; [apply (first_pass R ls w0 I0 C0 H0)|apply (first_pass_runs ls w0 I0 C0 H0 HE HS)]| |]; cbv beta.
  - now apply no_wrap_nwo.
  - intros _ w1 ((I1 & R1 & C1 & Z1) & (zs & G1 & F1) & SS1). apply post_bind. unfold post at 1. unfold ret at 1.
    destruct (second_runs ls (regions w) None o0 w1 I1 HE) as (w2 & fin & E2 & I2 & (S2a & S2b & S2c) & G2 & D2).
    + exists zs. split; [exact G1|exact F1].
    + exact HT.
    + unfold pass, post, bind. rewrite E2. unfold finish, o0. cbn [po_size Z.eqb negb]. unfold ret. split; [exists fin; split; [exact G2|exact D2]|].
      destruct SS1 as [H1 X1], S2b as [H2 X2]. split; [rewrite H2, H1; reflexivity|rewrite X2, X1; reflexivity].
  - intros w1 ((_ & _ & _ & Z1) & _). exact Z1.
Qed.
End Runs.

(** ** Fairness *)

Lemma sat_fgets h n : sat fair (fgets h n).
Proof.
  intro w. unfold fgets, next_io, get_file, put_file, bind, ret. cbn [w_files set_files]. destruct (lookup_file _ _); [|exact I].
  destruct (e_io _ _); [|now apply fair_same|]; (destruct (take_line _ _); now apply fair_same).
Qed.
Lemma sat_fseek_start h : sat fair (fseek_start h).
Proof.
  intro w. unfold fseek_start, next_io, get_file, put_file, bind, ret. cbn [w_files set_files]. destruct (lookup_file _ _); [|exact I].
  destruct (e_io _ _); now apply fair_same.
Qed.
#[export] Hint Resolve sat_fgets sat_fseek_start : fair.
Lemma sat_values vs : forall a, sat fair (writeValues a vs).
Proof. induction vs; intro a0; cbn [writeValues]; unfold write32; fair_tac. Qed.
#[export] Hint Resolve sat_values : fair.
Lemma sat_first o p : sat fair (firstPassHandler o p).
Proof. destruct p; cbn [firstPassHandler]; unfold firstPassMemoryHandler, firstPassRegisterHandler; cbv zeta; fair_tac. Qed.
Lemma sat_second o p : sat fair (secondPassHandler o p).
Proof. destruct p; cbn [secondPassHandler]; fair_tac. Qed.
#[export] Hint Resolve sat_first sat_second : fair.
Lemma sat_lineLoop h hd (HH : forall o p, sat fair (hd o p)) : forall fuel o, sat fair (lineLoop fuel h hd o).
Proof. induction fuel; intro o; cbn [lineLoop]; fair_tac. Qed.
Lemma sat_parseLines h hd (HH : forall o p, sat fair (hd o p)) : sat fair (parseLines h hd).
Proof. unfold parseLines. pose proof (sat_lineLoop h hd HH). fair_tac. Qed.
Lemma sat_log name : sat fair (GdbLogParse name).
Proof.
  pose proof (fun h => sat_parseLines h _ sat_first). pose proof (fun h => sat_parseLines h _ sat_second).
  unfold GdbLogParse, openLog, initPSPandMSP, rewindLogFile. fair_tac.
Qed.

(** ** Whole loads *)

Lemma no_faults_open w : no_io_faults w -> e_io (w_env w) (fs_calls (w_files w)) <> IoFail.
Proof. intro H. rewrite H. discriminate. Qed.

(** A log that is read without file errors loads, or runs into a bus error or out of memory. *)
Lemma log_registers R name data ls w : Inv R w -> zlen (w_ctx w) = 216 -> file_is w name data -> no_io_faults w -> lines data ls ->
  match api (GdbLogParse name) w with
  | Done _ w' => Inv R w' /\ w_ctx w' = fold_left ctx_line ls (ctx_init (w_ctx w))
  | Raised c w' => c = busErrorException \/ c = outOfMemoryException
  | Crashed _ => False
  end.
Proof.
  intros HI HC HF HE HL. destruct (log_ref name data ls w HF (no_faults_open w HE) HL) as (p1 & q1 & rw & p2 & q2 & E1 & E2 & HX & _ & H).
  destruct (HX HE) as (-> & -> & ->). rewrite app_nil_r in E1, E2. subst p1 p2.
  assert (I0 : Inv R (set_exn w noException [])) by now apply Inv_exn.
  pose proof (ref_log_any R ls true ls _ I0 HC eq_refl) as P. unfold post in P. destruct (ref_log ls true ls _) as [[] w1|w1|]; [| |destruct P].
  - destruct P as (I1 & R1 & C1 & Z1). destruct (H Z1) as (f' & -> & _). split; [destruct w1; exact I1|exact C1].
  - destruct P as (I1 & R1 & C1 & Z1 & Z2). assert (Z0 : w_code w1 <> 0) by (destruct Z1 as [Z1|[Z1|Z1]]; rewrite Z1; discriminate).
    destruct (H Z0) as (f' & -> & _). specialize (Z2 eq_refl). destruct Z1 as [Z1|Z1]; [contradiction|exact Z1].
Qed.

Lemma log_memory R name data ls ms w : Inv R w -> zlen (w_ctx w) = 216 -> file_is w name data -> no_io_faults w -> lines data ls ->
  log_loads ls ms -> no_wrap ms -> fit (regions w) (joined ms) ->
  (exists w', api (GdbLogParse name) w = Done tt w' /\ memory_added w w' (joined ms)) \/
  (exists w', api (GdbLogParse name) w = Raised outOfMemoryException w' /\ 0 < refusals w w').
Proof.
  intros HI HC HF HE HL HM HN HT. destruct (loads_entries ls ms HM) as (-> & HEk).
  destruct (log_ref name data ls w HF (no_faults_open w HE) HL) as (p1 & q1 & rw & p2 & q2 & E1 & E2 & HX & _ & H).
  destruct (HX HE) as (-> & -> & ->). rewrite app_nil_r in E1, E2. subst p1 p2.
  assert (I0 : Inv R (set_exn w noException [])) by now apply Inv_exn.
  pose proof (ref_log_any R ls true ls _ I0 HC eq_refl) as P. pose proof (ref_log_memory R ls _ I0 HC eq_refl HEk HN HT) as Q.
  unfold post in P, Q. destruct (ref_log ls true ls _) as [[] w1|w1|]; [| |destruct P].
  - left. destruct P as (_ & R1 & _ & Z1). destruct (H Z1) as (f' & E & Ho). destruct Q as (Q1 & Q2 & Q3). destruct R1 as (A1 & A2 & A3 & A4 & A5). eexists. split; [exact E|].
    split; [exact Q1|]. split; [exact Ho|]. cbn [w_mem w_err w_faults w_gdb w_con w_env set_files]. auto 10.
  - right. assert (Z0 : w_code w1 <> 0) by (rewrite Q; discriminate). destruct (H Z0) as (f' & E & Ho). rewrite Q in E. eexists. split; [exact E|].
    eapply fair_api; [apply sat_log|exact E].
Qed.

Lemma log_reads R name data ls ms w w' : Inv R w -> zlen (w_ctx w) = 216 -> file_is w name data -> no_io_faults w -> lines data ls ->
  log_loads ls ms -> no_wrap ms -> fit (regions w) (joined ms) -> api (GdbLogParse name) w = Done tt w' ->
  forall a bs i b, In (a, bs) ms -> nth_error bs i = Some b -> exists w'', api (readN 1 (a + Z.of_nat i)) w' = Done b w''.
Proof.
  intros HI HC HF HE HL HM HN HT HD a bs i b Hin Hb.
  destruct (log_memory R name data ls ms w HI HC HF HE HL HM HN HT) as [(w1 & E & (HA & _))|(w1 & E & _)]; [|congruence].
  rewrite HD in E. injection E as <-. pose proof (log_safe name w R HI HC) as S. rewrite HD in S. destruct S as (I' & _).
  destruct (joined_holds ms a bs Hin) as (c & u & v & Hj & ->).
  assert (HV : Forall valid_region (joined ms)).
  { destruct (loads_entries ls ms HM) as (-> & HEk). pose proof (joined_valid _ (bytes_valid ls HEk)) as V. destruct HN as [HN _]. rewrite Forall_forall in *.
    intros x Hx. destruct (V x Hx) as [V1 V2]. split; [exact V1|]. split; [unfold u32; pose proof (zlen_nonneg (snd x)); specialize (HN x Hx); cbv beta in HN; lia|exact V2]. }
  destruct (added_bytes R w w' (joined ms) I' HA HV HT c (u ++ bs ++ v) (length u + i) b Hj) as (w'' & E).
  - rewrite nth_error_app2 by lia. replace (length u + i - length u)%nat with i by lia. rewrite nth_error_app1; [exact Hb|]. apply nth_error_Some. congruence.
  - exists w''. rewrite <- E. do 2 f_equal. unfold zlen. lia.
Qed.

(** A log without memory lines needs no memory. *)
Lemma first_quiet ls : entries ls = [] -> forall o w, zlen (w_ctx w) = 216 -> feed firstPassHandler o ls w = Ret o (set_ctx w (fold_left ctx_line ls (w_ctx w))).
Proof.
  induction ls as [|l ls IH]; intros HE o w HC; [destruct w; reflexivity|]. cbn [feed fold_left].
  change (entries (l :: ls)) with (entry l ++ entries ls) in HE. apply app_eq_nil in HE as [H1 H2]. pose proof (ctx_line_len (w_ctx w) l HC) as L. unfold bind, entry in *.
  replace (ctx_line (w_ctx w) l) with (ctx_parsed (w_ctx w) (parseLine (cstr l))) in * by reflexivity. destruct (parseLine (cstr l)) as [a vs|off v|] eqn:E; [discriminate| |]; cbn [firstPassHandler].
  - destruct (parsed_register _ _ _ E) as (t & Ht & Eo & _). unfold bind. rewrite (register_step off v w t HC Ht Eo). unfold ret. rewrite (IH H2); [destruct w; reflexivity|exact L].
  - unfold ret. now apply IH.
Qed.
Lemma second_quiet ls : entries ls = [] -> forall o w, feed secondPassHandler o ls w = Ret o w.
Proof.
  induction ls as [|l ls IH]; intros HE o w; [reflexivity|]. cbn [feed].
  change (entries (l :: ls)) with (entry l ++ entries ls) in HE. apply app_eq_nil in HE as [H1 H2]. unfold bind, entry in *.
  destruct (parseLine (cstr l)) as [a vs|off v|]; [discriminate| |]; cbn [secondPassHandler]; unfold ret; now apply IH.
Qed.
Lemma log_quiet name data ls w : zlen (w_ctx w) = 216 -> file_is w name data -> no_io_faults w -> lines data ls ->
  (forall l, In l ls -> ~ like_memory l) -> exists w', api (GdbLogParse name) w = Done tt w' /\ w_mem w' = w_mem w /\ w_heap w' = w_heap w.
Proof.
  intros HC HF HE HL HM.
  assert (EN : entries ls = []).
  { unfold entries. clear HL. induction ls as [|l ls IH]; [reflexivity|]. cbn [flat_map]. rewrite (other_entry l) by (apply HM; now left). apply IH. intros x Hx. apply HM. now right. }
  destruct (log_ref name data ls w HF (no_faults_open w HE) HL) as (p1 & q1 & rw & p2 & q2 & E1 & E2 & HX & _ & H).
  destruct (HX HE) as (-> & -> & ->). rewrite app_nil_r in E1, E2. subst p1 p2.
  unfold ref_log, bind in H. set (w0 := set_exn w noException []) in *. rewrite (init_step w0 HC) in H. unfold pass, bind in H.
  rewrite (first_quiet ls EN) in H by (now apply ctx_init_len). unfold finish at 1 in H. cbn [po_size o0 Z.eqb negb] in H. unfold ret at 1 2 in H.
  rewrite (second_quiet ls EN) in H. unfold finish in H. cbn [po_size o0 Z.eqb negb] in H. unfold ret in H.
  destruct H as (f' & E & _); [reflexivity|]. eexists. split; [exact E|]. split; reflexivity.
Qed.
