(** What memory holds after a successful start-up. *)
From Coq Require Import String ZArith List Bool Lia ZifyBool ZifyNat.
From Verif Require Import Base World Context MemSim Dump GdbLog Elf CmdLine BaseLemmas MemSpec Sat MemFair MemLemmas MemInv MemOps MemOps3 MemThms DumpSpec DumpLemmas DumpRef DumpThms DumpSafe ElfSpec ElfThms ElfClean LogSpec LogMem LogThms CmdSpec Closed CmdThms CmdSafe.
Import ListNotations.
Open Scope Z_scope.
Open Scope m_scope.

(** ** Read-only regions survive *)

Definition kept_region (r r' : region) : Prop :=
  r_base r' = r_base r /\ r_size r' = r_size r /\ r_redir r' = r_redir r /\ r_raddr r' = r_raddr r /\ r_wps r' = r_wps r /\ r_rc r' = r_rc r /\
  (r_ro r = true -> r_ro r' = true /\ r_data r' = r_data r).
Definition rom_kept (w w' : world) : Prop :=
  forall i r, nth_error (regions w) i = Some r -> exists r', nth_error (regions w') i = Some r' /\ kept_region r r'.

Lemma kept_refl r : kept_region r r.
Proof. repeat split; auto. Qed.
Lemma kept_same w w' : regions w' = regions w -> rom_kept w w'.
Proof. intros E i r H. rewrite E. exists r. split; [exact H|apply kept_refl]. Qed.
Lemma kept_more w w' l : regions w' = regions w ++ l -> rom_kept w w'.
Proof.
  intros E i r H. rewrite E. exists r. split; [|apply kept_refl]. rewrite nth_error_app1; [exact H|]. apply nth_error_Some. congruence.
Qed.
Lemma kept_closed : closed rom_kept.
Proof.
  split.
  - split; [intro w; now apply kept_same|]. intros a b c H1 H2 i r H. destruct (H1 i r H) as (r1 & E1 & B1 & S1 & D1 & A1 & P1 & Q1 & K1). destruct (H2 i r1 E1) as (r2 & E2 & B2 & S2 & D2 & A2 & P2 & Q2 & K2).
    exists r2. split; [exact E2|]. do 6 (split; [congruence|]). intro E. destruct (K1 E) as [X1 X2]. destruct (K2 X1) as [X3 X4]. split; congruence.
  - intros w w1 H i r. apply (H i r).
  - intros. now apply kept_same.
  - intros. now apply kept_same.
  - intros. now apply kept_same.
  - intros. now apply kept_same.
  - intros. now apply kept_same.
Qed.

Lemma kept_create b s : sat rom_kept (MemorySim_CreateRegion b s).
Proof.
  intro w. rewrite CreateRegion_eq. cbv zeta. destruct (negb (alloc_ok w 0 SIZEOF_REGION)); [now apply kept_same|].
  destruct (negb (alloc_ok w 1 s)); [now apply kept_same|]. eapply kept_more. reflexivity.
Qed.
Lemma kept_alias b r s : sat rom_kept (MemorySim_CreateAlias b r s).
Proof.
  intro w. rewrite CreateAlias_eq. cbv zeta. destruct (negb (alloc_ok w 0 SIZEOF_REGION)); [now apply kept_same|].
  destruct (find_from 0 (regions w) r 1) as [[j a]|]; [|now apply kept_same]. destruct (nth_error (regions w) j); [|exact I].
  destruct (negb (alloc_ok w 1 s)); [now apply kept_same|]. eapply kept_more. reflexivity.
Qed.

Lemma kept_write n a v : sat rom_kept (writeN n a v).
Proof.
  intro w. unfold writeN, bind. rewrite getDataPointer_eq. destruct (find_from 0 (regions w) a n) as [[j a']|]; [|now apply kept_same].
  destruct (nth_error (regions w) j) as [r|] eqn:N; [|exact I]. cbv zeta. cbn [andb Z.eqb]. 
  change (WRITING =? WRITING) with true. change (WRITING =? READING) with false. cbn [andb].
  destruct (r_ro r) eqn:RO; [now apply kept_same|].
  destruct (scan_wps _ _ _ _ _ _) as [h brk]. destruct brk; [now apply kept_same|].
  destruct (roff r a' <=? zlen (r_data r)); [|exact I].
  unfold store_ptr, bind, get_region. cbn [fst snd].
  change (regions (set_hits (set_regions w (regions w)) h)) with (regions w).
  change (m_regions (w_mem (set_hits (set_regions w (regions w)) h))) with (regions w). rewrite N.
  match goal with |- context[if ?c then _ else _] => destruct c end; [|exact I]. unfold upd_region, modw.
  intros i x Hi. change (regions (set_hits (set_regions w (regions w)) h)) with (regions w).
  unfold regions in *. cbn [w_mem set_mem m_regions set_hits set_regions]. rewrite nth_error_upd_nth. 
  destruct (Nat.eqb j i) eqn:Ji.
  - apply Nat.eqb_eq in Ji. subst i. rewrite N in *. injection Hi as <-. cbn [option_map]. eexists. split; [reflexivity|].
    unfold kept_region. cbn. repeat split; congruence.
  - exists x. split; [exact Hi|apply kept_refl].
Qed.

Lemma kept_dump c : sat rom_kept (loadDumpFile c).
Proof. apply (c_dump rom_kept kept_closed kept_create kept_write). Qed.
Lemma kept_alias_option b s r : sat rom_kept (createAliasOption b s r).
Proof.
  unfold createAliasOption. cbv zeta. apply sat_try0; [apply kept_closed|apply kept_closed|apply kept_alias|]. apply (c_code_throw rom_kept kept_closed).
Qed.
Lemma kept_aliases os : sat rom_kept (make_aliases os).
Proof.
  induction os as [|[f|f a|f|b s r] os IH]; cbn [make_aliases]; try exact IH; [apply sat_ret, kept_closed|].
  apply sat_bind; [apply kept_closed|apply kept_alias_option|intros; exact IH].
Qed.

Lemma cover_kept w w' a n i r : rom_kept w w' -> first_cover (regions w) a n i r -> exists r', first_cover (regions w') a n i r' /\ kept_region r r'.
Proof.
  intros K (E & C & F). destruct (K i r E) as (r' & E' & KR). exists r'. split; [|exact KR]. split; [exact E'|]. destruct KR as (B & S & _). unfold covers in *. rewrite B, S.
  split; [exact C|]. intros i' x Hi Hx. destruct (nth_error (regions w) i') as [y|] eqn:Ey.
  - destruct (K i' y Ey) as (x' & Ex & B' & S' & _). rewrite Hx in Ex. injection Ex as <-. rewrite B', S'. apply (F i' y Hi Ey).
  - apply nth_error_None in Ey. assert (i < length (regions w))%nat by (apply nth_error_Some; congruence). lia.
Qed.

(** Reading needs only the region that is found first. *)
Lemma readn_first w n a i r : width n -> u32 a -> u32 (r_base r) -> first_cover (regions w) a n i r -> r_redir r = None -> r_wps r = [] ->
  r_size r = zlen (r_data r) -> (forall b c, r_rc r = Some (b, c) -> zlen c = r_size r / 2) ->
  exists w', api (readN n a) w = Done (of_le (slice (r_data r) (a - r_base r) n)) w'.
Proof.
  intros Hn Ha Hu HC HD HP HZ HR. assert (FF := find_first 0 _ _ _ _ _ HC). rewrite HD in FF. cbn [Nat.add] in FF. pose proof (width_pos _ Hn) as Hp.
  destruct HC as (E & (C1 & C2) & _). unfold api, readN, bind. set (w0 := set_exn w noException []). rewrite getDataPointer_eq.
  change (regions w0) with (regions w). rewrite FF, E. cbv zeta. change (READING =? WRITING) with false. cbn [andb].
  rewrite HP. cbn [scan_wps].
  assert (RO : roff r a = a - r_base r) by (unfold roff, W, u32 in *; lia). rewrite RO.
  assert (RF : (READING =? READING) && (n =? 2) && negb (rc_fits r ((a - r_base r) / 2)) = false).
  { change (READING =? READING) with true. cbn [andb]. destruct (n =? 2) eqn:N; [|reflexivity]. cbn [andb]. unfold rc_fits. destruct (r_rc r) as [[b c]|]; [|reflexivity]. specialize (HR _ _ eq_refl). lia. }
  rewrite RF. replace (a - r_base r <=? zlen (r_data r)) with true by lia.
  set (rs' := if (READING =? READING) && (n =? 2) then bump (regions w) i r ((a - r_base r) / 2) else regions w).
  assert (E' : exists r', nth_error rs' i = Some r' /\ r_data r' = r_data r).
  { unfold rs'. clear RF; destruct ((READING =? READING) && (n =? 2)); [|exists r; split; [exact E|reflexivity]]. unfold bump. destruct (r_rc r) as [[b c]|]; [|exists r; split; [exact E|reflexivity]]. rewrite nth_error_upd_nth, Nat.eqb_refl, E. eexists. split; reflexivity. }
  destruct E' as (r' & E' & ED). unfold load_ptr, bind, get_region. cbn [fst snd]. unfold set_hits, set_regions. cbn [w_mem set_mem m_regions]. rewrite E', ED.
  replace ((0 <=? a - r_base r) && (a - r_base r + n <=? zlen (r_data r))) with true by lia. unfold ret. eauto.
Qed.

(** ** Loading the image *)

Lemma bin_loads base data R w : Inv R w -> u32 base -> Forall byte data -> data <> [] -> zlen data < 4294967296 -> fit (regions w) [(base, data)] ->
  match loadBinFile base data w with
  | Ret _ w' => Inv R w' /\ w_code w' = 0 /\ rom_added w w' [(base, data)]
  | Exc w' => Inv R w' /\ w_code w' = outOfMemoryException
  | Ub _ => False
  end.
Proof.
  intros HI HU HB HN HL HF. unfold loadBinFile. rewrite try0_eq. set (w0 := set_exn w noException []).
  change (MemorySim_CreateRegion base (W (zlen data));;; MemorySim_LoadFromFlashImage base data (W (zlen data));;; MemorySim_MakeRegionReadOnly base) with (rom_region base data (W (zlen data))).
  assert (I0 : Inv R w0) by now apply Inv_exn. assert (L0 : 0 < zlen data) by (destruct data; [contradiction|unfold zlen; cbn [length]; lia]).
  replace (W (zlen data)) with (zlen data) by (unfold W; lia).
  destruct (fit_rom _ _ _ HF) as (F1 & F2 & _). cbn [fst snd] in F1, F2.
  pose proof (rom_post R w0 base data (zlen data) I0 HU ltac:(unfold u32; lia) L0 F1 HB ltac:(lia) F2) as P. unfold post in P.
  destruct (rom_region base data (zlen data) w0) as [[] w1|w1|]; [| |exact P].
  - destruct P as (I1 & C1 & A1). rewrite C1. cbn [Z.eqb]. split; [exact I1|]. split; [exact C1|]. unfold zlen in A1. rewrite Nat2Z.id, firstn_all in A1. apply (rom_exn _ _ _ _ _ A1).
  - destruct P as (I1 & F & C1). rewrite C1. cbn [Z.eqb].
    unfold bind, getExceptionCode. match goal with |- context[throw_msg ?c ?m w1] => destruct (throws_msg (A := unit) c m w1) as (m' & ->) end.
    cbn [w_code set_exn]. rewrite Z.max_id. split; [now apply Inv_exn|exact C1].
Qed.

Lemma sat_bin base data : sat fair (loadBinFile base data).
Proof. unfold loadBinFile, MemorySim_LoadFromFlashImage. fair_tac. Qed.

Lemma elf_clear b w : ElfLoad_FromMemory b (set_exn w noException []) = ElfLoad_FromMemory b w.
Proof. unfold ElfLoad_FromMemory, try_. reflexivity. Qed.

Definition image_in (R : list nat) (ms : list (Z * list Z)) (w w' : world) : Prop :=
  Inv R w' /\ w_code w' = 0 /\ Forall2 is_rom (regions w') ms /\ w_ctx w' = w_ctx w /\ rest_same w w' /\
  fs_open (w_files w') = fs_open (w_files w) /\ m_hits (w_mem w') = m_hits (w_mem w) /\ m_xml (w_mem w') = m_xml (w_mem w) /\ 0 <= refusals w w'.

Lemma opens w f data : file_is w f data -> no_io_faults w -> ~ (cannot_open w f \/ some_fault w).
Proof.
  unfold file_is, cannot_open, some_fault. intros H N [[E|E]|(k & E)]; [rewrite H in E; discriminate|rewrite N in E; discriminate|apply E, N].
Qed.

Lemma image_loads os ms R w : Inv R w -> regions w = [] -> image_parts w os ms -> fit [] ms ->
  match loadImageFile (settings os) w with
  | Ret _ w' => image_in R ms w w'
  | Exc w' => Inv R w' /\ (w_code w' <> 0 /\ w_code w' <> busErrorException) /\ (no_io_faults w -> w_code w' = outOfMemoryException /\ 0 < refusals w w')
  | Ub _ => False
  end.
Proof.
  intros HI HR HP HF.
  assert (K : forall X f data0, file_is w f data0 -> (forall d, sat fair (X d)) -> (forall b w1, Inv (b :: R) w1 -> regions w1 = [] -> w_code w1 = 0 ->
                 match X data0 w1 with
                 | Ret _ w2 => Inv (b :: R) w2 /\ w_code w2 = 0 /\ rom_added w1 w2 ms
                 | Exc w2 => Inv (b :: R) w2 /\ w_code w2 = outOfMemoryException
                 | Ub _ => False
                 end) ->
          match load_with X f w with
          | Ret _ w' => image_in R ms w w'
          | Exc w' => Inv R w' /\ (w_code w' <> 0 /\ w_code w' <> busErrorException) /\ (no_io_faults w -> w_code w' = outOfMemoryException /\ 0 < refusals w w')
          | Ub _ => False
          end).
  { intros X f data0 HF0 HS HX.
    assert (HX' : forall b data w1, file_is w f data -> Inv (b :: R) w1 -> w_mem w1 = w_mem w -> w_ctx w1 = w_ctx w -> rest_same w w1 -> w_code w1 = 0 ->
       match X data w1 with Ret _ w2 => Inv (b :: R) w2 /\ w_code w2 = 0 | Exc w2 => Inv (b :: R) w2 /\ w_code w2 <> 0 | Ub _ => False end).
    { intros b data w1 HF1 I1 M1 _ _ C1. assert (R1 : regions w1 = []) by (now rewrite M1). assert (data = data0) as -> by (unfold file_is in *; congruence).
      specialize (HX b w1 I1 R1 C1). destruct (X data0 w1); [destruct HX as (A & B & _); auto|destruct HX as (A & B); split; [exact A|rewrite B; discriminate]|exact HX]. }
    pose proof (load_with_eq X f R w HI HX') as P. pose proof (data_safe f R w HI) as D. destruct (loadFileData f w) as [[b data] w1|w1|]; [| |destruct P].
    - destruct D as (HF1 & I1 & (M1 & X1 & S1 & O1) & C1 & _ & RF). assert (R1 : regions w1 = []) by (now rewrite M1). assert (data = data0) as -> by (unfold file_is in *; congruence).
      specialize (HX b w1 I1 R1 C1). specialize (HS data0 w1).
      destruct (X data0 w1) as [[] w2|w2|]; [| |destruct P]; destruct P as (h' & -> & I3 & N3 & C3).
      + destruct HX as (_ & C2 & (new & En & HN) & F2 & H2 & XM). assert (RW : refusals w (set_heap w2 h') = refusals w w1 + refusals w1 w2) by (unfold refusals; cbn [w_heap set_heap]; rewrite N3, C3; lia).
        destruct HS as (RG & _). unfold image_in. split; [exact I3|]. split; [exact C2|]. split; [change (regions (set_heap w2 h')) with (regions w2); rewrite En, R1; exact HN|].
        split; [destruct F2 as (_ & F2 & _); cbn [w_ctx set_heap]; congruence|]. split; [eapply rest_trans; [exact S1|]; apply (frame_rest w1 w2 F2)|].
        split; [destruct F2 as (F2 & _); cbn [w_files set_heap]; congruence|]. split; [cbn [w_mem set_heap]; congruence|]. split; [cbn [w_mem set_heap]; congruence|lia].
      + destruct HX as (_ & C2). split; [exact I3|]. split; [cbn [w_code set_heap]; rewrite C2; split; discriminate|]. intro NF. assert (RW : refusals w (set_heap w2 h') = refusals w w1 + refusals w1 w2) by (unfold refusals; cbn [w_heap set_heap]; rewrite N3, C3; lia).
        split; [exact C2|]. destruct HS as (RG & RC). destruct (RC C2) as [Z|Z]; [rewrite C1 in Z; discriminate|lia].
    - rewrite P. destruct D as (I1 & _ & _ & DC). split; [exact I1|]. split; [destruct DC as [(-> & _)|(-> & _)]; split; discriminate|]. intro NF. destruct DC as [(_ & Bad)|(C & RF)]; [destruct (opens _ _ _ HF0 NF Bad)|]. split; [exact C|lia]. }
  destruct HP as [(f & data & U & HF0 & HE & -> & NE)|(f & a & data & U & HF0 & HB & HL & ->)].
  - rewrite (image_elf _ _ (set_elf _ _ U)). apply (K _ _ data HF0 sat_elf). intros b w1 I1 R1 C1. rewrite <- elf_clear.
    pose proof (elf_load (b :: R) data w1 I1 HE NE) as P. rewrite R1 in P. specialize (P HF). unfold api in P.
    destruct (ElfLoad_FromMemory data (set_exn w1 noException [])) as [[] w2|w2|].
    + destruct P as [(w' & E & P)|(w' & E & _)]; [injection E as <-; exact P|discriminate].
    + destruct P as [(w' & E & P)|(w' & E & _ & I2 & _)]; [discriminate|injection E as E1 <-; auto].
    + destruct P as [(w' & E & P)|(w' & E & _)]; discriminate.
  - assert (U' : uses_image os f) by (right; eauto). destruct U as (NE & UB). rewrite (image_bin _ f); [|now apply set_no_elf|now apply (set_bin os f a)].
    rewrite (proj2 (set_bin os f a UB)). apply (K _ _ data HF0 (sat_bin _)). intros b w1 I1 R1 C1. apply bin_loads; [exact I1|apply strtou32_u32|exact HB| |lia|rewrite R1; exact HF].
    intros ->. unfold zlen in HL. cbn in HL. lia.
Qed.

(** ** Contents of memory *)

Definition holds (r : region) (x : Z * list Z) : Prop :=
  r_base r = fst x /\ r_size r = zlen (snd x) /\ r_redir r = None /\ r_data r = snd x /\ r_wps r = [] /\ forall b c, r_rc r = Some (b, c) -> zlen c = r_size r / 2.
Lemma rom_holds r x : is_rom r x -> holds r x.
Proof.
  unfold is_rom, holds. intros (B & S & D & E & _ & P & R). do 5 (split; [assumption|]). intros b c X. rewrite X in R. cbn [option_map snd] in R. injection R as ->.
  rewrite S. unfold zlen. rewrite repeat_length. lia.
Qed.
Lemma ram_holds r x : is_ram r x -> holds r x.
Proof. unfold is_ram, holds. intros (B & S & D & E & _ & P & R). do 5 (split; [assumption|]). intros b c X. congruence. Qed.
Lemma forall2_weaken {A B} (P Q : A -> B -> Prop) l m : (forall x y, P x y -> Q x y) -> Forall2 P l m -> Forall2 Q l m.
Proof. intros H. induction 1; constructor; auto. Qed.

Lemma parts_first rs ms a bs i n : Forall2 holds rs ms -> ForallOrdPairs (fun x y => apart (range_in x) (range_in y)) ms ->
  In (a, bs) ms -> 0 <= i -> 0 < n -> i + n <= zlen bs -> exists j r, first_cover rs (a + i) n j r /\ holds r (a, bs).
Proof.
  intros HN F2 Hin Hi Hn Hb. destruct (In_nth_error _ _ Hin) as (j & Hj).
  assert (L : (j < length rs)%nat) by (rewrite (forall2_length _ _ _ HN); apply nth_error_Some; congruence).
  destruct (nth_error rs j) as [r|] eqn:E; [|apply nth_error_None in E; lia]. destruct (forall2_nth _ _ _ HN _ _ E) as (y & Ey & P).
  rewrite Hj in Ey. injection Ey as <-. exists j, r. split; [|exact P]. pose proof P as (B1 & B2 & B3 & _). cbn [fst snd] in *. split; [exact E|]. split.
  - unfold covers, zlen in *. lia.
  - intros i' r' Hlt E' [C1 C2]. destruct (forall2_nth _ _ _ HN _ _ E') as (y & Ey & (D1 & D2 & _)).
    pose proof (ordpairs_nth _ _ F2 i' j y (a, bs) Hlt Ey Hj) as X. unfold apart, range_in, zlen in *. cbn [fst snd] in *. lia.
Qed.

Lemma holds_readable w w' ms : wf (regions w) -> Forall2 holds (regions w) ms -> fit [] ms ->
  (forall a n i r, first_cover (regions w) a n i r -> exists r', first_cover (regions w') a n i r' /\ r_base r' = r_base r /\ r_size r' = r_size r /\ r_redir r' = r_redir r /\ r_data r' = r_data r /\
     r_wps r' = r_wps r /\ forall b c, r_rc r' = Some (b, c) -> zlen c = r_size r' / 2) ->
  readable w' ms.
Proof.
  intros HW HH (F1 & F2 & _) HC a bs i n Hin Hn Hi Hb. pose proof (width_pos _ Hn) as Hp.
  destruct (parts_first _ _ _ _ _ _ HH F2 Hin Hi Hp Hb) as (j & r & C & B1 & B2 & B3 & B4 & B5 & B6). cbn [fst snd] in *.
  destruct (HC _ _ _ _ C) as (r' & C' & E1 & E2 & E3 & E4 & E5 & E6). destruct C as (En & _). pose proof (wr_base _ _ _ (HW _ _ En)) as UB.
  rewrite Forall_forall in F1. specialize (F1 _ Hin). cbn [fst snd] in F1.
  destruct (readn_first w' n (a + i) j r') as (w'' & E); [exact Hn|unfold u32 in *; lia|now rewrite E1|exact C'|congruence|congruence|congruence|exact E6|].
  exists w''. rewrite E, E4, B4, E1, B1. unfold slice. do 4 f_equal. f_equal. lia.
Qed.

(** ** Whole start-ups *)

Lemma blank_inv w : heap_sane w -> Inv (h_live (w_heap w)) (set_exn (blank_state w) noException []).
Proof. intro H. apply Inv_exn. apply (MemHist2.fresh_inv (blank_state w)); [reflexivity|exact H]. Qed.

Lemma failing_raises b w : match failing b w with Ret _ _ => False | _ => True end.
Proof.
  unfold failing. unfold bind at 1. unfold displayExceptionMessage, displayCopyrightNotice, displayUsage, eprintf. cbv [bind getw modw ret].
  destruct b; [|exact I]. destruct (MemorySim_Uninit _); exact I.
Qed.

Lemma init_done args os w c w' : spells args os -> complete os -> api (CrashDebugCommandLine_Init args) w = Done c w' ->
  (stages os (set_exn (blank_state w) noException []) = Ret tt w' \/ stages os (set_exn (blank_state w) noException []) = Exc w') /\ w_code w' = 0 /\ c = (settings os, true).
Proof.
  intros HS HC H. unfold api in H. rewrite (init_stages _ _ _ HS HC) in H. change (set_exn (blank_state (set_exn w noException [])) noException []) with (set_exn (blank_state w) noException []) in H.
  destruct (stages os _) as [[] w1|w1|]; try discriminate; destruct (w_code w1 =? 0) eqn:E.
  - injection H as <- <-. split; [auto|]. split; [lia|reflexivity].
  - pose proof (failing_raises true w1) as F. destruct (failing true w1); try discriminate. destruct F.
  - injection H as <- <-. split; [auto|]. split; [lia|reflexivity].
  - pose proof (failing_raises true w1) as F. destruct (failing true w1); try discriminate. destruct F.
Qed.

(** After any successful start-up the bytes of the image are as in its file. *)
Lemma image_stays args os ms w c w' : heap_sane w -> spells args os -> complete os -> image_parts w os ms -> fit [] ms ->
  api (CrashDebugCommandLine_Init args) w = Done c w' -> readable w' ms.
Proof.
  intros HH HS HC HP HF HD. destruct (init_done _ _ _ _ _ HS HC HD) as (E & C0 & _).
  pose proof (image_loads os ms _ _ (blank_inv w HH) eq_refl HP HF) as IL. rewrite stages_eq in E.
  destruct (loadImageFile (settings os) (set_exn (blank_state w) noException [])) as [[] w1|w1|]; [| |destruct IL].
  - destruct IL as (I1 & _ & HR & _). assert (K : rom_kept w1 w').
    { pose proof (kept_dump (settings os) w1) as K1. destruct (loadDumpFile (settings os) w1) as [[] w2|w2|]; [| |destruct E; discriminate].
      - pose proof (kept_aliases os w2) as K2. eapply (pre_trans _ (cl_pre _ kept_closed)); [exact K1|]. destruct (make_aliases os w2) as [[] w3|w3|]; destruct E as [E|E]; try discriminate; injection E as <-; exact K2.
      - destruct E as [E|E]; [discriminate|]. injection E as <-. exact K1. }
    apply (holds_readable w1 w' ms (proj1 I1)); [eapply forall2_weaken; [exact rom_holds|exact HR]|exact HF|].
    intros a n i r HCv. destruct (cover_kept _ _ _ _ _ _ K HCv) as (r' & C' & (B & S & D & _ & PW & PR & RO)). exists r'. do 4 (split; [assumption|]).
    destruct HCv as (En & _). destruct (forall2_nth _ _ _ HR _ _ En) as (x & _ & (_ & _ & _ & _ & R1 & _)). split; [now apply RO|]. split; [exact PW|]. rewrite PR, S. pose proof (forall2_nth _ _ _ HR _ _ En) as (y & _ & Hy). apply rom_holds in Hy. apply Hy.
  - destruct E as [E|E]; [discriminate|]. injection E as ->. destruct IL as (_ & NZ & _). tauto.
Qed.

(** ** Out of memory only after a refused allocation *)

Lemma sat_malloc n : sat fair (malloc n).
Proof. intro w. unfold malloc. destruct (e_malloc _ _ _); cbn; (split; [unfold refusals; cbn -[Z.of_nat]; lia|]; cbn; auto). Qed.
Lemma satL_malloc L A n msg (K : nat -> M (L * world) A) : (forall b, satL fair (K b)) ->
  satL fair (b <- lift (malloc n);; match b with None => lift (throw_msg outOfMemoryException msg) | Some b => K b end).
Proof.
  intros HK [l w]. pose proof (sat_malloc n w) as S. unfold bind, lift. cbn [fst snd]. unfold malloc in *. destruct (e_malloc _ _ _).
  - match goal with |- context[K ?b ?s] => specialize (HK b s); destruct (K b s) as [a s'|s'|] end; cbn [snd] in *; try exact I; eapply (pre_trans _ fair_pre); eassumption.
  - destruct S as (S1 & _). match goal with |- context[throw_msg ?c ?m ?x] => destruct (throws_msg (A := A) c m x) as (m' & ->) end. cbn [snd].
    split; [exact S1|]. intros _. right. unfold refusals. cbn -[Z.of_nat]. lia.
Qed.
Lemma sat_fseek_end h : sat fair (fseek_end h).
Proof. intro w. unfold fseek_end, bind, next_io, get_file, put_file, ret. cbn [w_files set_files]. destruct (lookup_file _ _); [|exact I]. destruct (e_io _ _); now apply fair_same. Qed.
Lemma sat_ftell h : sat fair (ftell h).
Proof. intro w. unfold ftell, bind, next_io, get_file, ret. cbn [w_files set_files]. destruct (lookup_file _ _); [|exact I]. destruct (e_io _ _); now apply fair_same. Qed.
#[export] Hint Resolve sat_fseek_end sat_ftell sat_fseek_start sat_elf sat_bin : fair.
Lemma sat_data name : sat fair (loadFileData name).
Proof.
  unfold loadFileData, GetFileSize. apply sat_bind; [apply fair_pre| |intro l; fair_tac]. apply sat_try; [apply fair_pre|exact fair_exn| |intro l; fair_tac].
  apply satL_bind; [apply fair_pre|fair_tac|]. intros [h|]; [|fair_tac]. apply satL_bind; [apply fair_pre|fair_tac|]. intros _. apply satL_bind; [apply fair_pre|apply satL_lift, sat_try_msg; fair_tac|]. intro size.
  apply satL_malloc. intro b. fair_tac.
Qed.
#[export] Hint Resolve sat_data : fair.
Lemma sat_image c : sat fair (loadImageFile c).
Proof.
  assert (U : forall L A u, satL fair (fail_ub u : M (L * world) A)) by (intros; intro; exact I).
  unfold loadImageFile. fair_tac.
Qed.
#[export] Hint Resolve sat_image sat_read sat_log : fair.
Lemma sat_dump c : sat fair (loadDumpFile c).
Proof. unfold loadDumpFile, getFileType, CrashCatcherDump_ReadHex, CrashCatcherDump_ReadBinary. fair_tac. Qed.
Lemma sat_alias_option b s r : sat fair (createAliasOption b s r).
Proof. unfold createAliasOption. fair_tac. Qed.
#[export] Hint Resolve sat_dump sat_alias_option : fair.
Lemma sat_parse p : forall n args c, (length args <= n)%nat -> sat fair (parseArguments p args c).
Proof.
  induction n as [|n IH]; intros [|a t] c L; cbn [length] in L; try lia; cbn [parseArguments]; try (apply sat_ret, fair_pre).
  assert (T : forall msg, sat fair (throw_msg invalidArgumentException msg : M world cl)) by (intro; fair_tac).
  destruct (negb (hasDoubleDashPrefix a)); [apply T|].
  destruct (strcaseeq a (s2b "--bin")); [destruct t as [|x [|y t]]; try apply T; apply IH; cbn in L; lia|].
  destruct (strcaseeq a (s2b "--elf")); [destruct t as [|x t]; try apply T; apply IH; cbn in L; lia|].
  destruct (strcaseeq a (s2b "--dump")); [destruct t as [|x t]; try apply T; apply IH; cbn in L; lia|].
  destruct (strcaseeq a (s2b "--alias")); [|apply T]. destruct t as [|x [|y [|z t]]]; try apply T.
  apply sat_bind; [apply fair_pre|destruct p; fair_tac|intros; apply IH; cbn in L; lia].
Qed.
Lemma sat_eprintf s : sat fair (eprintf s).
Proof. intro w. unfold eprintf. now apply fair_same. Qed.
Lemma sat_freeRegions rs : sat fair (freeRegions rs).
Proof. induction rs; cbn [freeRegions]; unfold freeRegion; fair_tac. Qed.
#[export] Hint Resolve sat_eprintf sat_freeRegions : fair.
Lemma sat_init args : sat fair (CrashDebugCommandLine_Init args).
Proof.
  assert (S : forall p c, sat fair (parseArguments p args c)) by (intros; eapply sat_parse; apply le_n).
  unfold CrashDebugCommandLine_Init, throwIfRequiredArgumentNotSpecified, MemorySim_Init, MemorySim_Uninit, displayExceptionMessage, displayCopyrightNotice, displayUsage. fair_tac.
Qed.

(** ** End to end *)

Definition grown (w w' : world) : Prop := w_ctx w' = w_ctx w /\ exists l, regions w' = regions w ++ l.
Lemma grown_refl w : grown w w.
Proof. split; [reflexivity|]. exists []. now rewrite app_nil_r. Qed.
Lemma grown_trans a b c : grown a b -> grown b c -> grown a c.
Proof. intros (A1 & l1 & A2) (B1 & l2 & B2). split; [congruence|]. exists (l1 ++ l2). now rewrite B2, A2, app_assoc. Qed.
Lemma grown_pre : preorder grown.
Proof. split; [exact grown_refl|exact grown_trans]. Qed.
Lemma grown_same w w' : w_ctx w' = w_ctx w -> regions w' = regions w -> grown w w'.
Proof. intros E1 E2. split; [exact E1|]. exists []. now rewrite app_nil_r. Qed.
Lemma grown_alias b r s : sat grown (MemorySim_CreateAlias b r s).
Proof.
  intro w. rewrite CreateAlias_eq. cbv zeta. destruct (negb (alloc_ok w 0 SIZEOF_REGION)); [now apply grown_same|].
  destruct (find_from 0 (regions w) r 1) as [[j a]|]; [|now apply grown_same]. destruct (nth_error (regions w) j); [|exact I].
  destruct (negb (alloc_ok w 1 s)); [now apply grown_same|]. split; [reflexivity|]. eexists. reflexivity.
Qed.
Lemma grown_aliases os : sat grown (make_aliases os).
Proof.
  induction os as [|[f|f a|f|b s r] os IH]; cbn [make_aliases]; try exact IH; [apply sat_ret, grown_pre|].
  apply sat_bind; [apply grown_pre| |intros; exact IH]. unfold createAliasOption. cbv zeta. apply sat_try0; [apply grown_pre|intros w w1 H; exact H|apply grown_alias|].
  intro w. unfold bind, getExceptionCode. match goal with |- context[throw_msg ?c ?m w] => destruct (throws_msg (A := unit) c m w) as (m' & ->) end. now apply grown_same.
Qed.

Lemma cover_grown rs l a n i r : first_cover rs a n i r -> first_cover (rs ++ l) a n i r.
Proof.
  intros (E & C & F). assert (L : (i < length rs)%nat) by (apply nth_error_Some; congruence). split; [now rewrite nth_error_app1 by exact L|]. split; [exact C|].
  intros i' r' Hi E'. rewrite nth_error_app1 in E' by lia. eauto.
Qed.

Lemma no_aliases os : (forall o, In o os -> is_alias o = false) -> forall w, make_aliases os w = Ret tt w.
Proof.
  intros H w. rewrite aliases_filter, (filter_none is_alias os H). reflexivity.
Qed.

Lemma looks_both data : looks_binary data -> looks_hex data -> False.
Proof. intros (x & ->) (y & E). discriminate E. Qed.

Lemma catcher_loads os f data d R w : uses_dump os f -> file_is w f data -> no_io_faults w -> Inv R w -> ctx_sane w -> w_code w = 0 ->
  valid d -> fit (regions w) (d_mem d) -> dump_text d data ->
  match loadDumpFile (settings os) w with
  | Ret _ w' => Inv R w' /\ loaded w w' d /\ w_code w' = 0
  | Exc w' => w_code w' = outOfMemoryException
  | Ub _ => False
  end.
Proof.
  intros HU HF HN HI HC HW HV Hfit HT. unfold loadDumpFile. rewrite (set_dump _ _ HU). unfold bind.
  destruct (type_run f w) as [(data' & t & f' & HF' & -> & O & _ & HTy)|(Bad & _)]; [|destruct (opens _ _ _ HF HN (or_introl Bad))].
  assert (data' = data) as -> by (unfold file_is in *; congruence). specialize (HTy HN).
  assert (K : exists k, units k data = map Some (encode d) /\ forall w, match t with GDB_LOG => GdbLogParse f | CRASH_CATCHER_HEX => CrashCatcherDump_ReadHex f | CRASH_CATCHER_BIN => CrashCatcherDump_ReadBinary f end w = CrashCatcherDump_Read k f w).
  { destruct HT as [->|(HT & LH)].
    - exists Binary. split; [reflexivity|]. assert (LB : looks_binary (encode d)) by (unfold encode, enc_head; rewrite <- !app_assoc; eexists; reflexivity).
      destruct HTy as [(-> & _)|[(_ & LH)|(_ & NB & _)]]; [reflexivity|destruct (looks_both _ LB LH)|contradiction].
    - exists Hex. split; [now apply renders_units|]. destruct HTy as [(_ & LB)|[(-> & _)|(_ & _ & NH)]]; [destruct (looks_both _ LB LH)|reflexivity|contradiction]. }
  destruct K as (k & HUn & EK). rewrite EK. set (w1 := set_files w f') in *. rewrite <- read_clear.
  assert (I1 : Inv R w1) by now apply Inv_files. rewrite <- (app_nil_r (map Some (encode d))) in HUn.
  pose proof (read_ref k f data w1 HF HN HC) as P. unfold api in P.
  destruct (load_stream d k f data w1 R [] I1 HF HN HC HV Hfit HUn) as [(w' & I' & C & L & HL & G & E)|(w' & E & _)].
  - rewrite E in P. cbn [ref_all] in P. destruct (P C) as (f2 & P' & Ho). destruct (CrashCatcherDump_Read k f (set_exn w1 noException [])) as [[] w2|w2|]; try discriminate.
    injection P' as ->. split; [now apply Inv_files|]. split; [|exact C]. specialize (HL f2 Ho (w_code w') (w_msg w')).
    assert (HL' : loaded w1 (set_files w' f2) d) by (destruct w'; exact HL). destruct HL' as (A & B & D & HL'). split; [exact A|]. split; [exact B|]. split; [|exact HL'].
    rewrite D. exact O.
  - unfold api in E. destruct (CrashCatcherDump_Read k f (set_exn w1 noException [])); try discriminate. injection E as E _. exact E.
Qed.

Lemma log_ctx ls ctx : zlen ctx = 216 -> ctx = repeat 0 216 -> log_context ls (fold_left ctx_line ls (ctx_init ctx)).
Proof.
  intros HC E. pose proof (ctx_init_len _ HC) as HI. split; [now apply ctx_lines_len|]. split; [|split; [|split]].
  - intros before l after t v -> Ht HS HA. now apply lines_shown.
  - intros t Ht HN. rewrite lines_unmentioned by auto. rewrite init_unlisted by auto. now rewrite E.
  - unfold psr_word. rewrite <- (skipn_O (skipn 80 _)). change 0 with (of_le (slice (repeat 0 216) 80 4)). rewrite <- E, <- (psr_kept ctx ls HC). reflexivity.
  - rewrite flag_lines by (lia || assumption). rewrite flag_init by exact HC. rewrite E. cbn [Z.eqb andb]. rewrite orb_true_iff, existsb_exists. split.
    + intros [X|(l & Hl & H)]; [discriminate|]. apply float_line_spec in H as (i & H). eauto.
    + intros (l & i & Hl & H). right. exists l. split; [exact Hl|]. apply float_line_spec. eauto.
Qed.

Lemma dump_loads os f data mem regs R w : uses_dump os f -> file_is w f data -> no_io_faults w -> Inv R w -> w_ctx w = repeat 0 216 -> w_code w = 0 ->
  dump_means data mem regs -> fit (regions w) mem ->
  match loadDumpFile (settings os) w with
  | Ret _ w' => Inv R w' /\ (exists new, regions w' = regions w ++ new /\ Forall2 is_ram new mem) /\ regs (w_ctx w') /\ w_code w' = 0
  | Exc w' => w_code w' = outOfMemoryException
  | Ub _ => False
  end.
Proof.
  intros HU HF HN HI HX HW HM. assert (HC : ctx_sane w) by (unfold ctx_sane; now rewrite HX). destruct HM as [d HV HT|ls ms NB NH HL HM HJ]; intro Hfit.
  - pose proof (catcher_loads os f data d R w HU HF HN HI HC HW HV Hfit HT) as P. destruct (loadDumpFile (settings os) w); [|exact P|exact P].
    destruct P as (I' & (HR & HD & _) & C). split; [exact I'|]. split; [exact HR|]. split; [now rewrite HD, HX|exact C].
  - unfold loadDumpFile. rewrite (set_dump _ _ HU). unfold bind.
    destruct (type_run f w) as [(data' & t & f' & HF' & -> & O & _ & HTy)|(Bad & _)]; [|destruct (opens _ _ _ HF HN (or_introl Bad))].
    assert (data' = data) as -> by (unfold file_is in *; congruence). destruct (HTy HN) as [(_ & X)|[(_ & X)|(-> & _)]]; [contradiction..|].
    set (w1 := set_files w f') in *. assert (I1 : Inv R w1) by now apply Inv_files.
    assert (X1 : GdbLogParse f w1 = GdbLogParse f (set_exn w1 noException [])) by (symmetry; apply log_clear).
    pose proof (log_safe f w1 R I1 HC) as LS. pose proof (log_registers R f data ls w1 I1 HC HF HN HL) as LR.
    pose proof (log_memory R f data ls ms w1 I1 HC HF HN HL HM HJ Hfit) as LM. unfold api in *. rewrite X1.
    destruct (GdbLogParse f (set_exn w1 noException [])) as [[] w2|w2|]; [| |destruct LS].
    + destruct LM as [(w' & E & HA & _)|(w' & E & _)]; [injection E as <-|discriminate]. destruct LR as (I2 & EC). split; [exact I2|]. split; [exact HA|]. split; [|apply LS].
      rewrite EC. now apply log_ctx.
    + destruct LM as [(w' & E & _)|(w' & E & _)]; [discriminate|]. injection E as E _. exact E.
Qed.

Lemma ordpairs_app {A} (P : A -> A -> Prop) l m : ForallOrdPairs P (l ++ m) -> ForallOrdPairs P l /\ ForallOrdPairs P m /\ forall x y, In x l -> In y m -> P x y.
Proof.
  induction l as [|a l IH]; cbn [app]; intro H; [split; [constructor|]; split; [exact H|contradiction]|].
  inversion H as [|? ? HA HO]; subst. destruct (IH HO) as (I1 & I2 & I3). rewrite Forall_app in HA. destruct HA as (A1 & A2). split; [now constructor|]. split; [exact I2|].
  intros x y [<-|Hx] Hy; [rewrite Forall_forall in A2; now apply A2|now apply I3].
Qed.
Lemma fit_split rs ms ns : Forall2 holds rs ms -> fit [] (ms ++ ns) -> fit [] ms /\ fit rs ns.
Proof.
  intros HH (F1 & F2 & _). rewrite Forall_app in F1. destruct F1 as (A1 & A2). destruct (ordpairs_app _ _ _ F2) as (B1 & B2 & B3).
  split; [split; [exact A1|split; [exact B1|contradiction]]|]. split; [exact A2|]. split; [exact B2|].
  intros r y Hr Hy. destruct (In_nth_error _ _ Hr) as (j & Hj). destruct (forall2_nth _ _ _ HH _ _ Hj) as (x & Ex & (E1 & E2 & _)). apply nth_error_In in Ex.
  specialize (B3 x y Ex Hy). unfold apart, range_of, range_in in *. now rewrite E1, E2.
Qed.
Lemma fit_front ms ns : fit [] (ms ++ ns) -> fit [] ms.
Proof.
  intros (F1 & F2 & _). rewrite Forall_app in F1. destruct F1 as (A1 & A2). destruct (ordpairs_app _ _ _ F2) as (B1 & B2 & B3). split; [exact A1|split; [exact B1|contradiction]].
Qed.

Lemma outside_bus w ms a : wf (regions w) -> Forall2 holds (regions w) ms -> u32 a -> outside ms a ->
  api (readN 1 a) w = Raised busErrorException (set_exn w busErrorException []).
Proof.
  intros HW HH Ha HO. unfold api. rewrite readN_wf; [|exact HW|exact Ha|now left]. change (regions (set_exn w noException [])) with (regions w).
  destruct (find_from 0 (regions w) a 1) as [p|] eqn:F; [|reflexivity]. exfalso. apply find_some in F. destruct F as (i & r & (E & (C1 & C2) & _) & _).
  destruct (forall2_nth _ _ _ HH _ _ E) as (x & Ex & (E1 & E2 & _)). apply nth_error_In in Ex. apply (HO x Ex). lia.
Qed.

Lemma parts_loaded os ms f data mem regs w : heap_sane w -> no_io_faults w -> (forall f data, file_is w f data -> Forall byte data) ->
  image_parts w os ms -> uses_dump os f -> file_is w f data -> dump_means data mem regs -> fit [] (ms ++ mem) ->
  (exists w2, stages os (set_exn (blank_state w) noException []) = make_aliases os w2 /\ Inv (h_live (w_heap w)) w2 /\ w_code w2 = 0 /\
     Forall2 holds (regions w2) (ms ++ mem) /\ regs (w_ctx w2) /\
     exists rs1 rs2, regions w2 = rs1 ++ rs2 /\ Forall2 is_rom rs1 ms /\ Forall2 is_ram rs2 mem) \/
  (exists w1, stages os (set_exn (blank_state w) noException []) = Exc w1 /\ winv (h_live (w_heap w)) w1 /\ w_code w1 = outOfMemoryException).
Proof.
  intros HH HN HB HP HU HF HM Hfit. set (w0 := set_exn (blank_state w) noException []). rewrite stages_eq.
  assert (I0 := blank_inv w HH). fold w0 in I0.
  pose proof (image_loads os ms _ w0 I0 eq_refl HP (fit_front _ _ Hfit)) as IL.
  destruct (loadImageFile (settings os) w0) as [[] w1|w1|]; [| |destruct IL].
  2:{ right. exists w1. split; [reflexivity|]. destruct IL as (I1 & _ & IL). split; [now apply Inv_winv|]. now apply IL. }
  destruct IL as (I1 & C1 & HR1 & X1 & S1 & O1 & _ & _ & _).
  assert (H1 : Forall2 holds (regions w1) ms) by (eapply forall2_weaken; [exact rom_holds|exact HR1]).
  destruct (fit_split _ _ _ H1 Hfit) as (_ & Hfit2).
  assert (E1 : w_env w1 = w_env w) by (unfold rest_same in S1; change (w_env w) with (w_env w0); tauto).
  assert (F1 : file_is w1 f data) by (unfold file_is; now rewrite E1). assert (N1 : no_io_faults w1) by (unfold no_io_faults; rewrite E1; exact HN).
  assert (X1' : ctx_sane w1) by (unfold ctx_sane; rewrite X1; reflexivity).
  assert (B1 : forall f data, file_is w1 f data -> Forall byte data) by (unfold file_is; rewrite E1; exact HB).
  pose proof (dump_loads os f data mem regs _ w1 HU F1 N1 I1 X1 C1 HM Hfit2) as DL. pose proof (dump_safe os f _ w1 I1 X1' C1 B1 HU) as DS.
  destruct (loadDumpFile (settings os) w1) as [[] w2|w2|]; [| |destruct DL].
  2:{ right. exists w2. split; [reflexivity|]. split; [apply Inv_winv, DS|]. exact DL. }
  destruct DL as (I2 & (new & En & HNew) & XC & C2). left. exists w2. split; [reflexivity|]. split; [exact I2|]. split; [exact C2|]. split; [|split; [exact XC|exists (regions w1), new; auto]].
  rewrite En. apply Forall2_app; [exact H1|]. eapply forall2_weaken; [exact ram_holds|exact HNew].
Qed.

Lemma end_to_end args os ms f data mem regs w : heap_sane w -> no_io_faults w -> (forall f data, file_is w f data -> Forall byte data) ->
  spells args os -> complete os -> image_parts w os ms -> uses_dump os f -> file_is w f data -> dump_means data mem regs -> fit [] (ms ++ mem) ->
  match api (CrashDebugCommandLine_Init args) w with
  | Done _ w' =>
      readable w' (ms ++ mem) /\ regs (w_ctx w') /\
      ((forall o, In o os -> is_alias o = false) -> forall a, u32 a -> outside (ms ++ mem) a ->
         api (readN 1 a) w' = Raised busErrorException (set_exn w' busErrorException []))
  | Raised c w' => (c = outOfMemoryException /\ 0 < refusals w w') \/ exists o, In o os /\ is_alias o = true
  | Crashed _ => False
  end.
Proof.
  intros HH HN HB HS HC HP HU HF HM Hfit.
  pose proof (fun w' => fair_api _ w w' (sat_init args)) as FA.
  assert (K : (exists w1, stages os (set_exn (blank_state w) noException []) = Ret tt w1 /\ w_code w1 = 0 /\
                 readable w1 (ms ++ mem) /\ regs (w_ctx w1) /\
                 ((forall o, In o os -> is_alias o = false) -> forall a, u32 a -> outside (ms ++ mem) a ->
                    api (readN 1 a) w1 = Raised busErrorException (set_exn w1 busErrorException []))) \/
              (exists w1, stages os (set_exn (blank_state w) noException []) = Exc w1 /\ winv (h_live (w_heap w)) w1 /\
                 (w_code w1 = outOfMemoryException \/ (w_code w1 = busErrorException /\ exists o, In o os /\ is_alias o = true)))).
  { destruct (parts_loaded os ms f data mem regs w HH HN HB HP HU HF HM Hfit) as [(w2 & -> & I2 & C2 & H2 & XC & _)|(w1 & E & I1 & C1)]; [|right; exists w1; auto].
    pose proof (aliases_safe _ os w2 (Inv_winv _ _ I2) C2) as AS. pose proof (grown_aliases os w2) as G. pose proof (fun H => no_aliases os H w2) as NA.
    destruct (make_aliases os w2) as [[] w3|w3|]; [| |destruct AS].
    - left. exists w3. split; [reflexivity|]. split; [apply AS|]. destruct G as (G1 & l & G2). split.
      + apply (holds_readable w2 w3 _ (proj1 I2) H2 Hfit). intros a n i r Cv. exists r. rewrite G2. split; [now apply cover_grown|]. do 5 (split; [reflexivity|]). destruct Cv as (Cv & _). destruct (forall2_nth _ _ _ H2 _ _ Cv) as (y & _ & Hy). apply Hy.
      + split; [now rewrite G1|]. intros HA a Ha HO. specialize (NA HA). injection NA as ->. now apply (outside_bus w2 (ms ++ mem) a (proj1 I2) H2).
    - right. exists w3. split; [reflexivity|]. split; [apply AS|]. destruct AS as (_ & _ & [AS|AS]); [|now left]. right. split; [exact AS|].
      destruct (last_of is_alias os) as [Z|(o & b & a & -> & Z & _)]; [specialize (NA Z); discriminate|]. exists o. split; [apply in_or_app; right; now left|exact Z]. }
  unfold api in *. rewrite (init_stages _ _ _ HS HC) in *. change (set_exn (blank_state (set_exn w noException [])) noException []) with (set_exn (blank_state w) noException []) in *.
  destruct K as [(w1 & E & C & K)|(w1 & E & WI & K)]; rewrite E in *.
  - rewrite C. cbn [Z.eqb]. exact K.
  - assert (NZ : (w_code w1 =? 0) = false) by (destruct K as [->|(-> & _)]; reflexivity). rewrite NZ in *. destruct (failing_true _ _ WI) as (h & Ef & _). rewrite Ef in *.
    destruct K as [K|(_ & K)]; [|now right]. left. split; [exact K|]. apply FA. cbn [w_code set_mem set_heap set_err]. now rewrite K.
Qed.
