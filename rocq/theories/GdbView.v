(** What a debugger sees of the image and the dump after start-up. *)
From Coq Require Import String ZArith List Bool Lia ZifyBool ZifyNat.
From Verif Require Import Base World Context MemSim CmdLine Platform Comm BaseLemmas MemSpec Sat MemLemmas MemInv MemOps MemOps2 MemOps3 MemHist MemHist2 MemThms MemThms2 MemThms3 DumpSpec DumpThms ElfSpec CmdSpec CmdThms CmdSafe CmdFull AliasSpec CmdAlias PlatSpec PlatInit PlatThms PlatSess PlatView.
Import ListNotations.
Open Scope Z_scope.
Open Scope m_scope.

(** The region as a session leaves it; [q]: without writes. *)
Definition kept_rg (q : bool) (r r' : region) : Prop :=
  same_layout r r' /\ r_wps r' = r_wps r /\ r_ro r' = r_ro r /\ ((q = true \/ r_ro r = true) -> r_data r' = r_data r).

Lemma kept_rg_refl q r : kept_rg q r r.
Proof. split; [apply same_layout_refl|auto]. Qed.
Lemma kept_rg_trans q r1 r2 r3 : kept_rg q r1 r2 -> kept_rg q r2 r3 -> kept_rg q r1 r3.
Proof.
  intros ((A1 & A2 & A3 & A4) & A5 & A6 & A7) ((B1 & B2 & B3 & B4) & B5 & B6 & B7). unfold kept_rg, same_layout. rewrite B1, B2, B3, B4, B5, B6. do 3 (split; [auto|]).
  intro H. rewrite B7; [now apply A7|]. now rewrite A6.
Qed.
Lemma kept_rg_list q rs : Forall2 (kept_rg q) rs rs.
Proof. induction rs; constructor; auto using kept_rg_refl. Qed.
Lemma kept_rg_join q rs1 rs2 : Forall2 (kept_rg q) rs1 rs2 -> forall rs3, Forall2 (kept_rg q) rs2 rs3 -> Forall2 (kept_rg q) rs1 rs3.
Proof.
  induction 1 as [|r s rs ss H HF IH]; intros rs3 H2; inversion H2; subst; constructor; [eapply kept_rg_trans; eassumption|now apply IH].
Qed.
Lemma plain_kept q rs : forall rs', map uncounted rs' = map uncounted rs -> Forall2 (kept_rg q) rs rs'.
Proof.
  induction rs as [|r rs IH]; intros [|r' rs'] H; cbn [map] in H; try discriminate; [constructor|]. injection H as H1 H2 H3 H4 H5 H6 H7 H8 H9 H10 H11 H12.
  constructor; [|now apply IH]. unfold kept_rg, same_layout. auto 10.
Qed.
Lemma stored_kept rs j r k n v : nth_error rs j = Some r -> r_ro r = false -> Forall2 (kept_rg false) rs (stored rs j k n v).
Proof.
  unfold stored. revert j. induction rs as [|x rs IH]; intros [|j] H HR; cbn [upd_nth nth_error] in *; try discriminate.
  - injection H as ->. constructor; [|apply kept_rg_list]. split; [now repeat split|]. split; [reflexivity|]. split; [reflexivity|]. rewrite HR. intros [X|X]; discriminate.
  - constructor; [apply kept_rg_refl|now apply IH].
Qed.
Lemma kept_rg_weaken rs rs' q : Forall2 (kept_rg true) rs rs' -> Forall2 (kept_rg q) rs rs'.
Proof. apply forall2_weaken. intros r r' (A & B & C & D). split; [exact A|]. split; [exact B|]. split; [exact C|]. intro. apply D. now left. Qed.

Lemma run_kept ps : forall w w', debug_state w -> Forall pcall_args ps -> prun ps w = Some w' -> Forall2 (kept_rg (negb (existsb is_write ps))) (regions w) (regions w').
Proof.
  induction ps as [|p ps IH]; intros w w' HD HA HP; cbn [prun] in HP; [injection HP as <-; apply kept_rg_list|].
  inversion HA; subst. destruct (pstep p w) as [w1|] eqn:E; [|discriminate]. pose proof (IH w1 w' (ds_call _ _ _ HD H1 E) H2 HP) as K2. cbn [existsb].
  destruct (debug_moves p w w1 HD H1 E) as (_ & M2 & M3). destruct (is_write p) eqn:EW; cbn [orb negb].
  - apply (kept_rg_join false _ (regions w1)); [|revert K2; apply forall2_weaken; intros r r' (A & B & C & D); split; [exact A|]; split; [exact B|]; split; [exact C|]; intros [X|X]; [discriminate|auto]].
    destruct p; try discriminate. specialize (M3 _ _ _ eq_refl). destruct (write_place _ _ _) as [[j k]|] eqn:EP; rewrite M3; [|apply kept_rg_list].
    unfold write_place in EP. destruct (find_from _ _ _ _) as [[j' a']|]; [|discriminate]. destruct (nth_error (regions w) j') as [r|] eqn:EN; [|discriminate].
    destruct (r_ro r || _) eqn:ER; [discriminate|]. injection EP as <- <-. apply orb_false_iff in ER as [ER _]. now apply (stored_kept _ _ r).
  - eapply kept_rg_join; [|exact K2]. apply kept_rg_weaken, plain_kept, M2. reflexivity.
Qed.

Lemma forall2_cover (P : region -> region -> Prop) rs rs' : (forall r r', P r r' -> same_layout r r') -> Forall2 P rs rs' -> forall a n i r, first_cover rs a n i r ->
  exists r', first_cover rs' a n i r' /\ P r r'.
Proof.
  intros HP HF a n i r HC. pose proof HC as (E & _). destruct (forall2_nth _ _ _ HF _ _ E) as (r' & E' & HR). exists r'. split; [|exact HR].
  assert (L : Forall2 same_layout rs rs') by (eapply forall2_weaken; eassumption). destruct (first_cover_layout _ _ _ _ _ _ L HC) as (r2 & _ & C2). pose proof C2 as (E2 & _). congruence.
Qed.

(** Regions found in some front part of the list. *)
Lemma session_readable w w' ms rs tl q : debug_state w -> debug_state w' -> Forall2 (kept_rg q) (regions w) (regions w') ->
  regions w = rs ++ tl -> Forall2 holds rs ms -> (q = true \/ forall r, In r rs -> r_ro r = true) -> fit [] ms -> readable w' ms.
Proof.
  intros HD HD' HK HR HH HQ HF. destruct (debug_state_good _ HD) as (R0 & (HI & _) & _), (debug_state_good _ HD') as (R' & (HI' & _) & _).
  intros a bs i n Hin Hn Hi Hb. pose proof (width_pos _ Hn) as Hp. pose proof HF as (F1 & F2 & _).
  destruct (parts_first _ _ _ _ _ _ HH F2 Hin Hi Hp Hb) as (j & r & C & B1 & B2 & B3 & B4 & B5 & B6). cbn [fst snd] in *.
  assert (Hr : In r rs) by (destruct C as (C & _); eapply nth_error_In; eauto).
  assert (C' : first_cover (regions w) (a + i) n j r) by (rewrite HR; now apply cover_grown).
  destruct (forall2_cover (kept_rg q) _ _ (fun r r' H => proj1 H) HK _ _ _ _ C') as (r' & C2 & ((E1 & E2 & E3 & E4) & E5 & E6 & E7)).
  assert (ED : r_data r' = r_data r) by (apply E7; destruct HQ as [HQ|HQ]; [now left|right; now apply HQ]).
  pose proof (wr_base _ _ _ (proj1 HI _ _ (proj1 C'))) as UB. rewrite Forall_forall in F1. specialize (F1 _ Hin). cbn [fst snd] in F1.
  destruct (readn_first w' n (a + i) j r') as (w'' & E); [exact Hn|unfold u32 in *; lia|now rewrite E1|exact C2|congruence|congruence|congruence| |].
  - intros b c X. exact (proj1 (wr_rc _ _ _ (proj1 HI' _ _ (proj1 C2)) _ _ X)).
  - exists w''. rewrite E, ED, B4, E1, B1. unfold slice. do 4 f_equal. f_equal. lia.
Qed.

Lemma platform_read w a n : debug_state w -> width n -> u32 a ->
  match api (readN n a) w with
  | Done v _ => refused (PRead n a) w = false /\ exists w2, api (pcall_run (PRead n a)) w = Done [v] w2
  | _ => refused (PRead n a) w = true
  end.
Proof.
  intros HD Hn Ha. destruct (debug_state_good _ HD) as (R & (HI & _) & _). pose proof (memread_run R n a w HI Hn) as MR. rewrite (W_id a Ha) in MR.
  rewrite (refused_num _ n a eq_refl), (W_id a Ha). pose proof (read_view R n a w HI Ha Hn) as P. destruct (api (readN n a) w) as [v w1|c w1|u]; [|reflexivity|destruct P].
  split; [reflexivity|]. exists w1. unfold api, pcall_run, num, bind, ret in *. destruct (Platform_MemRead n a _); try discriminate. now injection MR as -> ->.
Qed.

(** ** Aliases in a session *)

Lemma kept_holds rs rs' ps : Forall2 (kept_rg true) rs rs' -> (forall r b c, In r rs' -> r_rc r = Some (b, c) -> zlen c = r_size r / 2) -> Forall2 holds rs ps -> Forall2 holds rs' ps.
Proof.
  intro H. revert ps. induction H as [|r r' rs rs' HK HF IH]; intros ps HC HH; inversion HH as [|? x ? xs H1 H2]; subst; constructor; [|apply IH; [intros; eapply HC; [right; eassumption|eassumption]|exact H2]].
  destruct HK as ((A1 & A2 & A3 & A4) & A5 & A6 & A7), H1 as (B1 & B2 & B3 & B4 & B5 & B6). unfold holds. rewrite A1, A2, A3, A5, A7 by now left. do 5 (split; [assumption|]).
  intros b c X. rewrite <- A2. eapply HC; [now left|exact X].
Qed.
Lemma kept_alias_of q rs rs' r r' al : Forall2 (kept_rg q) rs rs' -> kept_rg q r r' -> alias_of rs r al -> alias_of rs' r' al.
Proof.
  intros HF ((A1 & A2 & A3 & A4) & _). destruct al as [[b s] rd]. intros (B1 & B2 & j & t & B3 & B4 & B5 & B6). destruct (forall2_nth _ _ _ HF _ _ B4) as (t' & T1 & ((T2 & T3 & _) & _)).
  unfold alias_of, covers in *. rewrite A1, A2, A3, A4. split; [exact B1|]. split; [exact B2|]. exists j, t'. rewrite T2, T3. auto.
Qed.
Lemma kept_aliases_of q rs rs' l l' als : Forall2 (kept_rg q) rs rs' -> Forall2 (kept_rg q) l l' -> Forall2 (alias_of rs) l als -> Forall2 (alias_of rs') l' als.
Proof.
  intros HF H. revert als. induction H as [|r r' l l' HK HL IH]; intros als HA; inversion HA; subst; constructor; [eapply kept_alias_of; eassumption|now apply IH].
Qed.

(** ** A session from start to end *)

Lemma session_start w1 w2 : api (StandardIComm_Init ;;; mriPlatform_Init) w1 = Done tt w2 -> regions w2 = regions w1 /\ w_ctx w2 = w_ctx w1.
Proof. rewrite start_run. intro E. injection E as <-. split; reflexivity. Qed.

Lemma forall2_flip {A B} (P : A -> B -> Prop) l l' : Forall2 P l l' -> Forall2 (fun x y => P y x) l' l.
Proof. induction 1; constructor; auto. Qed.

Section session.
Variables (args : list (list Z)) (os : list opt) (ms : list (Z * list Z)) (f data : list Z) (mem : list (Z * list Z)) (regs : list Z -> Prop).
Variables (w w1 w2 : world) (c : cl * bool).
Hypothesis (HH : heap_sane w) (HN : no_io_faults w) (HO : fs_open (w_files w) = []) (HS : spells args os) (HC : complete os).
Hypothesis (HFF : files_fine w os) (HDA : direct_aliases os) (HP : image_parts w os ms) (HU : uses_dump os f) (HF : file_is w f data) (HM : dump_means data mem regs).
Hypothesis (Hfit : fit [] (ms ++ mem)) (HI : api (CrashDebugCommandLine_Init args) w = Done c w1) (HB : api (StandardIComm_Init ;;; mriPlatform_Init) w1 = Done tt w2).
Variables (ps : list pcall) (w3 : world).
Hypothesis (HA : Forall pcall_args ps) (HR : prun ps w2 = Some w3).

Lemma session_debug : debug_state w2.
Proof. exact (ds_start args os w c w1 w2 HH HO HS HC HFF HDA HI HB). Qed.

Lemma session_layout : exists rs1 rs2 l, regions w2 = (rs1 ++ rs2) ++ l /\ Forall2 is_rom rs1 ms /\ Forall2 is_ram rs2 mem /\ regs (w_ctx w2) /\
    (Forall (grounded (ms ++ mem)) (aliases os) -> Forall2 (alias_of (rs1 ++ rs2)) l (aliases os)) /\ (aliases os = [] -> l = []).
Proof.
  destruct (session_start _ _ HB) as (-> & ->). exact (startup_regions args os ms f data mem regs w c w1 HH HN (proj1 HFF) HS HC HP HU HF HM Hfit HI).
Qed.

Lemma session_bases x : In x (ms ++ mem) -> u32 (fst x).
Proof.
  intro Hx. destruct (debug_state_good _ session_debug) as (R & (HI2 & _) & _). destruct session_layout as (rs1 & rs2 & l & ER & H1 & H2 & _).
  assert (HF2 : Forall2 (fun x r => holds r x) (ms ++ mem) (rs1 ++ rs2)) by (apply forall2_flip, Forall2_app; [eapply forall2_weaken; [exact rom_holds|exact H1]|eapply forall2_weaken; [exact ram_holds|exact H2]]).
  destruct (In_nth_error _ _ Hx) as (i & E). destruct (forall2_nth _ _ _ HF2 _ _ E) as (r & Er & HX).
  assert (E2 : nth_error (regions w2) i = Some r) by (rewrite ER, nth_error_app1; [exact Er|apply nth_error_Some; congruence]).
  destruct HX as (<- & _). exact (wr_base _ _ _ (proj1 HI2 _ _ E2)).
Qed.

Lemma session_image : readable w3 ms.
Proof.
  destruct session_layout as (rs1 & rs2 & l & ER & H1 & _). rewrite <- app_assoc in ER.
  apply (session_readable w2 w3 ms rs1 (rs2 ++ l) (negb (existsb is_write ps))); auto using session_debug, run_kept.
  - exact (debug_run ps w2 w3 session_debug HA HR).
  - eapply forall2_weaken; [exact rom_holds|exact H1].
  - right. intros r Hr. destruct (In_nth_error _ _ Hr) as (i & E). destruct (forall2_nth _ _ _ H1 _ _ E) as (x & _ & X). apply X.
  - exact (fit_front _ _ Hfit).
Qed.

Lemma session_context : existsb is_set ps = false -> regs (w_ctx w3).
Proof.
  intro NS. rewrite (run_ctx ps w2 w3 session_debug HA NS HR). destruct session_layout as (rs1 & rs2 & l & _ & _ & _ & X & _). exact X.
Qed.

Hypothesis (HQ : existsb changes ps = false).

Lemma session_memory : readable w3 (ms ++ mem).
Proof.
  destruct (changes_split ps HQ) as [NS NW]. destruct session_layout as (rs1 & rs2 & l & ER & H1 & H2 & _).
  apply (session_readable w2 w3 (ms ++ mem) (rs1 ++ rs2) l true); auto using session_debug.
  - exact (debug_run ps w2 w3 session_debug HA HR).
  - pose proof (run_kept ps w2 w3 session_debug HA HR) as K. rewrite NW in K. exact K.
  - apply Forall2_app; [eapply forall2_weaken; [exact rom_holds|exact H1]|eapply forall2_weaken; [exact ram_holds|exact H2]].
Qed.

Lemma session_split : exists rs l, wf (regions w3) /\ regions w3 = rs ++ l /\ Forall2 holds rs (ms ++ mem) /\
  (Forall (grounded (ms ++ mem)) (aliases os) -> Forall2 (alias_of rs) l (aliases os)).
Proof.
  destruct (changes_split ps HQ) as [NS NW]. destruct session_layout as (rs1 & rs2 & l & ER & H1 & H2 & _ & HG & _).
  pose proof (debug_run ps w2 w3 session_debug HA HR) as HD3. destruct (debug_state_good _ HD3) as (R & (HI3 & _) & _).
  pose proof (run_kept ps w2 w3 session_debug HA HR) as K. rewrite NW in K. cbn [negb] in K. rewrite ER in K. apply Forall2_app_inv_l in K as (rs' & l' & K1 & K2 & E3).
  exists rs', l'. split; [apply HI3|]. split; [exact E3|]. split.
  - apply (kept_holds (rs1 ++ rs2)); [exact K1| |apply Forall2_app; [eapply forall2_weaken; [exact rom_holds|exact H1]|eapply forall2_weaken; [exact ram_holds|exact H2]]].
    intros r b c0 Hr X. destruct (In_nth_error _ _ Hr) as (i & E). assert (E' : nth_error (regions w3) i = Some r) by (rewrite E3, nth_error_app1; [exact E|apply nth_error_Some; congruence]).
    exact (proj1 (wr_rc _ _ _ (proj1 HI3 _ _ E') _ _ X)).
  - intro G. eapply kept_aliases_of; [exact K1|exact K2|now apply HG].
Qed.

End session.
