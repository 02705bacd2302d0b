(** Histories of simulator calls: the invariant holds in every reachable state. *)
From Coq Require Import String ZArith List Bool Lia ZifyBool ZifyNat Permutation Sorted.
From Verif Require Import Base World MemSim BaseLemmas MemSpec MemLemmas MemInv MemOps MemOps2 MemOps3 MemHist.
Import ListNotations.
Open Scope Z_scope.

(** ** One call *)

Lemma safe_op_ok o R w : Inv R w -> op_args o -> safe w o -> op_ok o R w.
Proof.
  intros HI Ha (H1 & H2 & H3). destruct o; cbn in Ha.
  - destruct Ha. now apply OCreate_ok.
  - destruct Ha as (? & ? & ?). now apply OAlias_ok.
  - now apply OReadOnly_ok.
  - destruct Ha as (? & ? & ?). now apply OFlash_ok.
  - destruct Ha as (? & ? & ? & ?). now apply OLoad_ok.
  - apply OXml_ok; auto. specialize (H2 eq_refl). unfold xml_fits in H2.
    replace (xml_alloc (regions w)) with (155 + 14 + zlen (regions w) * 110) by reflexivity. lia.
  - destruct Ha. now apply ORead_ok.
  - destruct Ha. now apply OWrite_ok.
  - destruct Ha. now apply OMapRead_ok.
  - destruct Ha. now apply OMapWrite_ok.
  - eapply OCount_ok; eauto.
  - destruct Ha as (? & ? & ?). now apply OSet_ok.
  - destruct Ha as (? & ? & ?). now apply OClear_ok.
  - now apply OHits_ok.
Qed.

(** As [post], but the call may also have undefined behaviour. *)
Definition wpost {A} (m : M world A) (w : world) (Q : A -> world -> Prop) (E : world -> Prop) : Prop :=
  match m w with
  | Ret a w' => Q a w'
  | Exc w' => E w'
  | Ub _ => True
  end.

Lemma post_wpost {A} (m : M world A) w Q E : post m w Q E -> wpost m w Q E.
Proof. unfold post, wpost. destruct (m w); auto. Qed.

Lemma Count_any R w a :
  Inv R w -> u32 a ->
  wpost (MemorySim_GetFlashReadCount a) w (fun _ w' => w' = w)
    (fun w' => w' = set_exn w (Z.max busErrorException (w_code w)) (w_msg w)).
Proof.
  intros [Hwf Hh] Ha. unfold wpost, MemorySim_GetFlashReadCount. unfold bind at 1. unfold findMatchingRegion.
  destruct (find_from 0 (regions w) a 2) as [[j a']|] eqn:F; [|reflexivity].
  unfold bind, get_region. cbn [fst snd]. destruct (nth_error (regions w) j) as [r|]; [|exact I].
  destruct (r_ro r); cbn [negb]; [|reflexivity].
  destruct (r_rc r) as [[b c]|]; [|exact I]. destruct (nth_error c _); [reflexivity|exact I].
Qed.

Lemma Xml_any R w :
  Inv R w ->
  wpost MemorySim_GetMemoryMapXML w
    (fun t w' => Inv R w' /\ frame w w' /\ regions w' = regions w)
    (fun w' => Inv R w' /\ frame w w' /\ w_mem w' = w_mem w).
Proof.
  intros [Hwf Hh]. unfold wpost, MemorySim_GetMemoryMapXML, getw. unfold bind at 1.
  fold (xml_alloc (regions w)). generalize (xml_alloc (regions w)). intros size.
  unfold bind at 1. unfold realloc. unfold bind at 1. unfold malloc.
  destruct (e_malloc _ _ _).
  - destr_world w. cbn in Hwf, Hh. unfold blocks in Hh. cbn in Hh.
    set (w1 := set_heap _ _).
    destruct (free_opt_hp (option_map fst xml) (nxt :: flat_map rblocks rs ++ R) w1) as (h' & Ef & Hf & _).
    { cbn. eapply hp_perm; [apply (hp_malloc (mkHeap live nxt calls szs)); exact Hh|]. cbn.
      rewrite <- app_assoc. apply Permutation_middle. }
    cbn [m_xml w_mem]. unfold bind at 1. rewrite Ef. cbn [ret m_regions h_next w_heap].
    destruct (build_xml rs size) as [txt|]; [|exact I].
    unfold bind, set_xml, modw, ret. split; [|repeat split]. split; [exact Hwf|].
    cbn. unfold blocks. cbn. exact Hf.
  - destr_world w. cbn in *. split; [|repeat split]. split; [exact Hwf|]. cbn.
    eapply hp_calls; [exact Hh|reflexivity|cbn; lia].
Qed.

Lemma op_any o R w :
  Inv R w -> op_args o -> direct_alias (regions w) o ->
  wpost (op_run o) w (fun _ w' => eff o R w w') (fun w' => eff o R w w').
Proof.
  intros HI Ha Hd.
  assert (HS : (o <> OXml) -> (forall a, o <> OCount a) -> wpost (op_run o) w (fun _ w' => eff o R w w') (fun w' => eff o R w w')).
  { intros N1 N2. apply post_wpost. apply (safe_op_ok o R w HI Ha). split; [exact Hd|]. split; [congruence|].
    intros a E. exfalso. eapply N2; eauto. }
  destruct o; try (apply HS; [discriminate|intros; discriminate]).
  - pose proof (Xml_any R w HI) as H. unfold wpost, op_run, drop, bind in *.
    destruct (MemorySim_GetMemoryMapXML w) as [t w'|w'|]; [|destruct H as (H1 & H2 & H3)|exact I].
    + destruct H as (H1 & H2 & H3). apply eff_same; auto.
    + apply eff_same; auto. now rewrite H3.
  - pose proof (Count_any R w a HI Ha) as H. unfold wpost, op_run, drop, bind in *.
    destruct (MemorySim_GetFlashReadCount a w) as [t w'|w'|]; [subst|subst|exact I].
    + apply eff_same; auto. apply frame_refl.
    + apply eff_same; auto. destr_world w. repeat split.
Qed.

Lemma step_eff o R w w' :
  Inv R w -> op_args o -> direct_alias (regions w) o -> step o w = Some w' -> eff o R w w'.
Proof.
  intros HI Ha Hd HS. unfold step, api in HS.
  pose proof (op_any o R (set_exn w noException []) (Inv_exn _ _ _ _ HI) Ha Hd) as H. unfold wpost in H.
  destruct (op_run o (set_exn w noException [])) as [u w1|w1|]; [| |discriminate]; injection HS as <-; exact H.
Qed.

Lemma step_safe o R w :
  Inv R w -> op_args o -> safe w o -> exists w', step o w = Some w' /\ eff o R w w'.
Proof.
  intros HI Ha Hs. pose proof (safe_op_ok o R (set_exn w noException []) (Inv_exn _ _ _ _ HI) Ha Hs) as H.
  unfold op_ok, post in H. unfold step, api. destruct (op_run o (set_exn w noException [])) as [u w1|w1|]; [| |contradiction]; eauto.
Qed.

Lemma fresh_inv w : fresh w -> heap_sane w -> Inv (h_live (w_heap w)) w.
Proof.
  intros F [H1 H2]. split; rewrite F; cbn.
  - intros i r H. destruct i; discriminate.
  - split; [exact H1|]. split; [exact H2|]. reflexivity.
Qed.

Lemma reachable_inv w : reachable w -> exists R, Inv R w.
Proof.
  induction 1 as [w F H|w o w' _ (R & HI) Ha Hd Hs].
  - eexists. now apply fresh_inv.
  - destruct (step_eff _ _ _ _ HI Ha Hd Hs) as (_ & (L & HI' & _) & _). eauto.
Qed.

Lemma reachable_wf w : reachable w -> wf (regions w).
Proof. intro H. destruct (reachable_inv _ H) as (R & H1 & _). exact H1. Qed.

(** ** Histories *)

(** An invariant of single calls is an invariant of histories. *)
Lemma history (P : world -> op -> Prop) (J : world -> Prop) :
  (forall R w o w', Inv R w -> op_args o -> P w o -> eff o R w w' -> J w -> J w') ->
  forall ops R w w', Inv R w -> Forall op_args ops ->
  all_along (fun w o => direct_alias (regions w) o /\ P w o) ops w -> run ops w = Some w' -> J w ->
  (exists R', Inv R' w') /\ J w'.
Proof.
  intros HJ. induction ops as [|o ops IH]; intros R w w' HI Ha HA HR J0; cbn in *.
  - injection HR as <-. eauto.
  - inversion Ha as [|? ? Ha1 Ha2]; subst. destruct HA as [[H1 H2] H3].
    destruct (step o w) as [w1|] eqn:S; [|discriminate].
    pose proof (step_eff _ _ _ _ HI Ha1 H1 S) as E. pose proof E as (_ & (L & HI' & _) & _).
    eapply IH; eauto.
Qed.

Lemma reachable_run ops w w' :
  reachable w -> Forall op_args ops -> all_along (fun w o => direct_alias (regions w) o) ops w ->
  run ops w = Some w' -> reachable w'.
Proof.
  revert w. induction ops as [|o ops IH]; intros w HR Ha HA E; cbn in *.
  - injection E as <-. exact HR.
  - inversion Ha as [|? ? Ha1 Ha2]; subst. destruct HA as [HA1 HA2]. destruct (step o w) as [w1|] eqn:S; [|discriminate].
    eapply IH; [eapply reach_step; eauto|exact Ha2|exact (HA2 _ eq_refl)|exact E].
Qed.

Lemma eff_first_cover o R w w' a n i r :
  eff o R w w' -> first_cover (regions w) a n i r ->
  exists r', first_cover (regions w') a n i r' /\ region_eff (regions w) o i r r'.
Proof.
  intros (_ & _ & E) (H1 & H2 & H3). destruct (E _ _ H1) as (r' & H1' & HE). exists r'. split; [|exact HE].
  pose proof (re_layout _ _ _ _ _ HE) as (B & S & _). split; [exact H1'|].
  unfold covers in *. rewrite B, S. split; [exact H2|].
  intros i' x Hi Hx. assert (Hi' : (i' < length (regions w))%nat).
  { apply Nat.lt_trans with i; [exact Hi|]. apply nth_error_Some. congruence. }
  apply nth_error_Some in Hi'. destruct (nth_error (regions w) i') as [y|] eqn:Hy; [|congruence].
  destruct (E _ _ Hy) as (y' & Hy' & HE'). rewrite Hx in Hy'. injection Hy' as <-.
  pose proof (re_layout _ _ _ _ _ HE') as (B' & S' & _). rewrite B', S'. eapply H3; eauto.
Qed.

Lemma eff_serves o R w w' a n j k : eff o R w w' -> serves (regions w) a n j k -> serves (regions w') a n j k.
Proof.
  intros E (i & r & F & H). destruct (eff_first_cover _ _ _ _ _ _ _ _ E F) as (r' & F' & HE).
  pose proof (re_layout _ _ _ _ _ HE) as (B & S & Rd & Ra). exists i, r'. split; [exact F'|].
  rewrite Rd, Ra, B. destruct (r_redir r) as [t|]; [|exact H]. destruct H as [-> (rt & Ht & ->)].
  split; [reflexivity|]. destruct E as (_ & _ & E). destruct (E _ _ Ht) as (rt' & Ht' & HE').
  exists rt'. split; [exact Ht'|]. pose proof (re_layout _ _ _ _ _ HE') as (B' & _). now rewrite B'.
Qed.

Lemma eff_serves_inv o R w w' a n j k :
  eff o R w w' -> serves (regions w') a n j k -> (exists j' k', serves (regions w) a n j' k') -> serves (regions w) a n j k.
Proof.
  intros E H (j' & k' & H'). pose proof (eff_serves _ _ _ _ _ _ _ _ E H') as H2.
  destruct (serves_unique _ _ _ _ _ _ _ H H2) as [-> ->]. exact H'.
Qed.
