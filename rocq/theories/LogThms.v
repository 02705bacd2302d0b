(** What the GDB log parser does to registers and memory. *)
From Coq Require Import String ZArith List Bool Lia ZifyBool ZifyNat Permutation.
From Verif Require Import Base World Context MemSim GdbLog BaseLemmas MemSpec Sat MemFair MemLemmas MemInv MemOps MemHist2 MemThms DumpSpec DumpRef DumpLemmas DumpConv DumpThms DumpSafe LogSpec LogFmt LogRef.
Import ListNotations.
Open Scope Z_scope.
Open Scope m_scope.

(** ** Registers *)

Definition set_word (ctx : list Z) (off v : Z) : list Z := splice ctx off (le 4 v).
Definition flag_up (ctx : list Z) : list Z := set_word ctx 0 (Z.lor (of_le (slice ctx 0 4)) 1).
Definition ctx_parsed (ctx : list Z) (p : parse_result) : list Z :=
  match p with
  | PRegister off v => set_word (if isFloatingPointRegister off then flag_up ctx else ctx) off v
  | _ => ctx
  end.
Definition ctx_line (ctx : list Z) (l : list Z) : list Z := ctx_parsed ctx (parseLine (cstr l)).
Definition ctx_init (ctx : list Z) : list Z := set_word (set_word ctx (OFF_R MSP) DEFAULT_SP_VALUE) (OFF_R PSP) DEFAULT_SP_VALUE.

Lemma set_word_len ctx off v : 0 <= off -> off + 4 <= zlen ctx -> zlen (set_word ctx off v) = zlen ctx.
Proof. intros. unfold set_word. apply splice_zlen; [assumption|]. rewrite le_zlen. lia. Qed.

Lemma put_word off v w : 0 <= off -> off + 4 <= zlen (w_ctx w) -> ctx_put off (le 4 v) w = Ret tt (set_ctx w (set_word (w_ctx w) off v)).
Proof. intros. apply put_ok; [assumption|]. rewrite le_zlen. lia. Qed.

Lemma parsed_register l off v : parseLine l = PRegister off v -> exists t, is_target t /\ off = offset t /\ mentions l t.
Proof.
  unfold parseLine. destruct (isMemoryLine l); [discriminate|]. destruct (isRegisterLine l) as [o|] eqn:E; [|discriminate].
  intro H. unfold parseRegisterLine in H. injection H as -> _. destruct (lookup_some _ _ E) as (t & H1 & H2 & H3). eauto.
Qed.

Lemma ctx_line_len ctx l : zlen ctx = 216 -> zlen (ctx_line ctx l) = 216.
Proof.
  intro H. unfold ctx_line, ctx_parsed. destruct (parseLine (cstr l)) as [|off v|] eqn:E; [exact H| |exact H].
  destruct (parsed_register _ _ _ E) as (t & Ht & -> & _). pose proof (offset_range t Ht).
  destruct (isFloatingPointRegister _); rewrite set_word_len; unfold flag_up; rewrite ?set_word_len; lia.
Qed.
Lemma ctx_lines_len ls : forall ctx, zlen ctx = 216 -> zlen (fold_left ctx_line ls ctx) = 216.
Proof. induction ls as [|l ls IH]; intros ctx H; [exact H|]. cbn. apply IH, ctx_line_len, H. Qed.
Lemma ctx_init_len ctx : zlen ctx = 216 -> zlen (ctx_init ctx) = 216.
Proof. intro H. unfold ctx_init, OFF_R, MSP, PSP. rewrite !set_word_len; rewrite ?set_word_len; lia. Qed.

Lemma register_step off v w t : zlen (w_ctx w) = 216 -> is_target t -> off = offset t ->
  firstPassRegisterHandler off v w = Ret tt (set_ctx w (ctx_parsed (w_ctx w) (PRegister off v))).
Proof.
  intros HC Ht ->. pose proof (offset_range t Ht) as R. unfold firstPassRegisterHandler, bind. cbn [ctx_parsed].
  destruct (isFloatingPointRegister (offset t)).
  - unfold ctx_word, OFF_FLAGS. rewrite HC. change ((0 <=? 0) && (0 + 4 <=? 216)) with true. cbv iota. change CRASH_CATCHER_FLAGS_FLOATING_POINT with 1.
    rewrite put_word by lia. fold (flag_up (w_ctx w)). rewrite put_word; cbn [w_ctx set_ctx]; unfold flag_up; rewrite ?set_word_len by lia; try lia. reflexivity.
  - unfold ret. apply put_word; lia.
Qed.

Lemma init_step w : zlen (w_ctx w) = 216 -> initPSPandMSP w = Ret tt (set_ctx w (ctx_init (w_ctx w))).
Proof.
  intro HC. unfold initPSPandMSP, bind. rewrite put_word by (unfold OFF_R, MSP; lia).
  rewrite put_word; cbn [w_ctx set_ctx]; rewrite ?set_word_len; unfold OFF_R, PSP, MSP; try lia. reflexivity.
Qed.

(** ** One pass, whatever the lines *)

Definition po_ok (o : pobj) : Prop := u32 (po_start o) /\ u32 (po_size o) /\ u32 (po_next o).

Lemma Inv_ctx R w c : Inv R w -> Inv R (set_ctx w c).
Proof. destruct w. exact (fun H => H). Qed.

Lemma skipws_parse_u32 a vs l : parseLine l = PMemory a vs -> u32 a /\ (length vs <= 4)%nat.
Proof.
  unfold parseLine. destruct (isMemoryLine l).
  - assert (G : forall k m, (length (parseValues k m) <= k)%nat).
    { induction k as [|k IH]; intro m; cbn [parseValues]; [cbn; lia|]. destruct m as [|x m]; [cbn; lia|]. destruct (strtoul0 _) as [v1 m1]. cbn [length]. specialize (IH m1). lia. }
    unfold parseMemoryLine. intro H. match type of H with PMemory ?x ?y = PMemory _ _ => assert (E1 : x = a) by congruence; assert (E2 : y = vs) by congruence end.
    rewrite <- E2. rewrite <- E1. split; [apply W_range|apply G].
  - destruct (isRegisterLine l); discriminate.
Qed.

Definition same_ctx (w w' : world) : Prop := rest_same w w' /\ w_ctx w' = w_ctx w.

Section Pass.
Variable R : list nat.

Lemma create_any o w : Inv R w -> po_ok o ->
  post (MemorySim_CreateRegion (po_start o) (po_size o)) w
    (fun _ w' => Inv R w' /\ rest_same w w' /\ w_ctx w' = w_ctx w /\ w_code w' = 0)
    (fun w' => Inv R w' /\ rest_same w w' /\ w_ctx w' = w_ctx w /\ w_code w' = outOfMemoryException).
Proof.
  intros HI (H1 & H2 & _). eapply post_weaken; [apply CreateRegion_post; [exact HI|exact H1|exact H2]| |]; cbv beta.
  - intros _ w' (I' & F & _ & C & _). split; [exact I'|]. split; [now apply frame_rest|]. split; [apply F|exact C].
  - intros w' (I' & F & _ & C & _). split; [exact I'|]. split; [now apply frame_rest|]. split; [apply F|exact C].
Qed.

Definition first_ok (w : world) (ctx : list Z) (o : pobj) (w' : world) : Prop :=
  Inv R w' /\ rest_same w w' /\ w_ctx w' = ctx /\ w_code w' = 0 /\ po_ok o.
Definition first_bad (w w' : world) : Prop := Inv R w' /\ rest_same w w' /\ zlen (w_ctx w') = 216 /\ w_code w' = outOfMemoryException.

Lemma first_memory o a vs w : Inv R w -> zlen (w_ctx w) = 216 -> w_code w = 0 -> po_ok o -> u32 a -> (length vs <= 4)%nat ->
  post (firstPassMemoryHandler o a vs) w (first_ok w (w_ctx w)) (first_bad w).
Proof.
  intros HI HC H0 Ho Ha Hv. unfold firstPassMemoryHandler. cbv zeta. apply post_bind.
  assert (HK : forall o1 w1, Inv R w1 -> rest_same w w1 -> w_ctx w1 = w_ctx w -> w_code w1 = 0 -> po_ok o1 ->
    post (ret (mkPO (po_start o1) (W (po_size o1 + 4 * zlen vs)) (W (a + 4 * zlen vs)))) w1 (first_ok w (w_ctx w)) (first_bad w)).
  { intros o1 w1 I1 R1 C1 Z1 (P1 & P2 & P3). unfold post, ret, first_ok. split; [exact I1|]. split; [exact R1|]. split; [exact C1|]. split; [exact Z1|]. split; [exact P1|]. split; apply W_range. }
  destruct (negb (a =? po_next o)).
  - apply post_bind. destruct (negb (po_start o =? 4294967295)).
    + eapply post_weaken; [apply (create_any o w HI Ho)| |]; cbv beta.
      * intros _ w1 (I1 & R1 & C1 & Z1). unfold post at 1. unfold ret at 1. apply HK; auto. destruct Ho as (P1 & P2 & P3). split; [exact Ha|]. split; [cbn; unfold u32; lia|exact P3].
      * intros w1 (I1 & R1 & C1 & Z1). unfold first_bad. rewrite C1. auto.
    + unfold post at 1. unfold ret at 1. unfold post at 1. unfold ret at 1. apply HK; auto using rest_refl. destruct Ho as (P1 & P2 & P3). split; [exact Ha|]. split; [cbn; unfold u32; lia|exact P3].
  - unfold post at 1. unfold ret at 1. apply HK; auto using rest_refl.
Qed.

Lemma first_line o l w : Inv R w -> zlen (w_ctx w) = 216 -> w_code w = 0 -> po_ok o ->
  post (firstPassHandler o (parseLine (cstr l))) w (first_ok w (ctx_line (w_ctx w) l)) (first_bad w).
Proof.
  intros HI HC H0 Ho. unfold ctx_line. destruct (parseLine (cstr l)) as [a vs|off v|] eqn:E; cbn [firstPassHandler].
  - destruct (skipws_parse_u32 _ _ _ E) as (Ha & Hv). cbn [ctx_parsed]. now apply first_memory.
  - destruct (parsed_register _ _ _ E) as (t & Ht & Eo & _). unfold post, bind. rewrite (register_step off v w t HC Ht Eo). unfold ret, first_ok.
    split; [now apply Inv_ctx|]. split; [repeat split|]. split; [reflexivity|]. split; [exact H0|exact Ho].
  - unfold post, ret, first_ok. cbn [ctx_parsed]. auto using rest_refl.
Qed.

Lemma first_feed ls : forall o w, Inv R w -> zlen (w_ctx w) = 216 -> w_code w = 0 -> po_ok o ->
  post (feed firstPassHandler o ls) w (first_ok w (fold_left ctx_line ls (w_ctx w))) (first_bad w).
Proof.
  induction ls as [|l ls IH]; intros o w HI HC H0 Ho; cbn [feed fold_left].
  - unfold post, ret, first_ok. auto using rest_refl.
  - apply post_bind. eapply post_weaken; [apply (first_line o l w HI HC H0 Ho)| |auto]; cbv beta.
    intros o1 w1 (I1 & R1 & C1 & Z1 & O1). eapply post_weaken; [apply IH; auto; rewrite C1; now apply ctx_line_len| |]; cbv beta.
    + intros o2 w2 (I2 & R2 & C2 & Z2 & O2). rewrite C1 in C2. split; [exact I2|]. split; [eapply rest_trans; eauto|]. auto.
    + intros w2 (I2 & R2 & C2 & Z2). split; [exact I2|]. split; [eapply rest_trans; eauto|]. auto.
Qed.

Lemma o0_ok : po_ok o0.
Proof. repeat split; cbn; lia. Qed.

Lemma first_pass ls w : Inv R w -> zlen (w_ctx w) = 216 -> w_code w = 0 ->
  post (pass firstPassHandler ls) w (fun _ w' => Inv R w' /\ rest_same w w' /\ w_ctx w' = fold_left ctx_line ls (w_ctx w) /\ w_code w' = 0) (first_bad w).
Proof.
  intros HI HC H0. unfold pass. apply post_bind. eapply post_weaken; [apply (first_feed ls o0 w HI HC H0 o0_ok)| |auto]; cbv beta.
  intros o1 w1 (I1 & R1 & C1 & Z1 & O1). unfold finish. destruct (negb _); [|unfold post, ret; auto].
  eapply post_weaken; [apply (create_any o1 w1 I1 O1)| |]; cbv beta.
  - intros _ w2 (I2 & R2 & C2 & Z2). rewrite C2. split; [exact I2|]. split; [eapply rest_trans; eauto|]. auto.
  - intros w2 (I2 & R2 & C2 & Z2). unfold first_bad. rewrite C2, C1. split; [exact I2|]. split; [eapply rest_trans; eauto|]. split; [now apply ctx_lines_len|exact Z2].
Qed.

(** A failing 32-bit write is a bus error. *)
Lemma scan_no_break l a e h : snd (scan_wps l a e 4 WRITING h) = false.
Proof.
  revert h. induction l as [|x l IH]; intro h; cbn [scan_wps]; [reflexivity|]. change (4 =? 2) with false. cbn [andb].
  repeat (match goal with |- context[if ?c then _ else _] => destruct c end; auto).
Qed.

Lemma write32_any a v w : Inv R w -> u32 a -> w_code w = 0 ->
  post (write32 a v) w (fun _ w' => Inv R w' /\ same_ctx w w' /\ w_code w' = 0) (fun w' => Inv R w' /\ same_ctx w w' /\ w_code w' = busErrorException /\ w_msg w' = w_msg w).
Proof.
  intros HI Ha H0. pose proof (writeN_keeps R 4 a v w HI Ha) as K. assert (HW : width 4) by (unfold width; auto). specialize (K HW).
  unfold keeps, post, write32 in *. pose proof (writeN_wf 4 a v w (proj1 HI) Ha HW) as E. rewrite E in *. clear E.
  assert (SC : forall w', frame w w' -> same_ctx w w') by (intros w' F; split; [now apply frame_rest|apply F]).
  destruct (find_from 0 (regions w) a 4) as [[j a']|].
  - destruct (nth_error (regions w) j) as [r|]; [|exact K]. cbv zeta in *. destruct (r_ro r).
    + destruct K as [K1 K2]. split; [exact K1|]. split; [now apply SC|]. cbn. rewrite H0. auto.
    + pose proof (scan_no_break (r_wps r) a' (W (a' + 4)) (m_hits (w_mem w))) as SB. destruct (scan_wps _ _ _ _ _ _) as [h brk]. cbn in SB. subst brk.
      destruct K. split; [assumption|]. split; [now apply SC|exact H0].
  - destruct K as [K1 K2]. split; [exact K1|]. split; [now apply SC|]. cbn. rewrite H0. auto.
Qed.

Lemma same_ctx_trans a b c : same_ctx a b -> same_ctx b c -> same_ctx a c.
Proof. intros [H1 H2] [H3 H4]. split; [eapply rest_trans; eauto|congruence]. Qed.
Lemma same_ctx_refl w : same_ctx w w.
Proof. split; [apply rest_refl|reflexivity]. Qed.

Definition second_ok (w : world) (w' : world) : Prop := Inv R w' /\ same_ctx w w' /\ w_code w' = 0.
Definition second_bad (w w' : world) : Prop := Inv R w' /\ same_ctx w w' /\ (w_code w' = busErrorException \/ w_code w' = outOfMemoryException).

Lemma values_any vs : forall a w, Inv R w -> u32 a -> w_code w = 0 -> post (writeValues a vs) w (fun _ => second_ok w) (second_bad w).
Proof.
  induction vs as [|v vs IH]; intros a w HI Ha H0; cbn [writeValues].
  - unfold post, ret, second_ok. auto using same_ctx_refl.
  - apply post_bind. eapply post_weaken; [apply (write32_any a v w HI Ha H0)| |]; cbv beta.
    + intros _ w1 (I1 & S1 & Z1). eapply post_weaken; [apply (IH (W (a + 4)) w1 I1 (W_range _) Z1)| |]; cbv beta.
      * intros _ w2 (I2 & S2 & Z2). split; [exact I2|]. split; [eapply same_ctx_trans; eauto|exact Z2].
      * intros w2 (I2 & S2 & Z2). split; [exact I2|]. split; [eapply same_ctx_trans; eauto|exact Z2].
    + intros w1 (I1 & S1 & Z1 & _). split; [exact I1|]. auto.
Qed.

Lemma second_feed ls : forall o w, Inv R w -> w_code w = 0 ->
  post (feed secondPassHandler o ls) w (fun o' w' => o' = o /\ second_ok w w') (second_bad w).
Proof.
  induction ls as [|l ls IH]; intros o w HI H0; cbn [feed].
  - unfold post, ret, second_ok. auto using same_ctx_refl.
  - apply post_bind. eapply (post_weaken _ _ (fun o' w' => o' = o /\ second_ok w w') _ (second_bad w)).
    + destruct (parseLine (cstr l)) as [a vs|off v|] eqn:E; cbn [secondPassHandler]; [|unfold post, ret, second_ok; auto using same_ctx_refl|unfold post, ret, second_ok; auto using same_ctx_refl].
      destruct (skipws_parse_u32 _ _ _ E) as (Ha & Hv). apply post_bind. eapply post_weaken; [apply (values_any vs a w HI Ha H0)| |auto]. cbv beta. intros _ w1 H1. unfold post, ret. auto.
    + intros o1 w1 (-> & I1 & S1 & Z1). eapply post_weaken; [apply (IH o w1 I1 Z1)| |]; cbv beta.
      * intros o2 w2 (-> & I2 & S2 & Z2). split; [reflexivity|]. split; [exact I2|]. split; [eapply same_ctx_trans; eauto|exact Z2].
      * intros w2 (I2 & S2 & Z2). split; [exact I2|]. split; [eapply same_ctx_trans; eauto|exact Z2].
    + auto.
Qed.

Lemma second_pass ls w : Inv R w -> w_code w = 0 -> post (pass secondPassHandler ls) w (fun _ => second_ok w) (second_bad w).
Proof.
  intros HI H0. unfold pass. apply post_bind. eapply post_weaken; [apply (second_feed ls o0 w HI H0)| |auto]; cbv beta.
  intros o1 w1 (-> & H1). unfold finish, o0. cbn [po_size Z.eqb negb]. exact H1.
Qed.

Definition log_code (c : Z) : Prop := c = fileException \/ c = busErrorException \/ c = outOfMemoryException.

Lemma ref_log_any p1 rw p2 w : Inv R w -> zlen (w_ctx w) = 216 -> w_code w = 0 ->
  post (ref_log p1 rw p2) w
    (fun _ w' => Inv R w' /\ rest_same w w' /\ w_ctx w' = fold_left ctx_line p1 (ctx_init (w_ctx w)) /\ w_code w' = 0)
    (fun w' => Inv R w' /\ rest_same w w' /\ zlen (w_ctx w') = 216 /\ log_code (w_code w') /\ (rw = true -> w_code w' <> fileException)).
Proof.
  intros HI HC H0. unfold ref_log. apply post_bind. unfold post at 1. rewrite (init_step w HC).
  set (w0 := set_ctx w _). assert (R0 : rest_same w w0) by (repeat split).
  apply post_bind. eapply post_weaken; [apply (first_pass p1 w0); [now apply Inv_ctx|now apply ctx_init_len|exact H0]| |]; cbv beta.
  - intros _ w1 (I1 & R1 & C1 & Z1). apply post_bind.
    destruct rw.
    + unfold post at 1, ret at 1. eapply post_weaken; [apply (second_pass p2 w1 I1 Z1)| |]; cbv beta.
      * intros _ w2 (I2 & (S2 & C2) & Z2). split; [exact I2|]. split; [eapply rest_trans; [exact R0|]; eapply rest_trans; eauto|]. rewrite C2, C1. auto.
      * intros w2 (I2 & (S2 & C2) & Z2). split; [exact I2|]. split; [eapply rest_trans; [exact R0|]; eapply rest_trans; eauto|]. rewrite C2, C1.
        split; [apply ctx_lines_len; now apply ctx_init_len|]. unfold log_code. split; [tauto|]. intros _. destruct Z2 as [Z2|Z2]; rewrite Z2; discriminate.
    + unfold post at 1, throw_msg, throw. cbn [w_code set_exn]. split; [now apply Inv_exn; apply Inv_exn|].
      split; [eapply rest_trans; [exact R0|exact R1]|]. cbn [w_ctx set_exn]. rewrite C1. split; [apply ctx_lines_len; now apply ctx_init_len|].
      rewrite Z1. split; [left; reflexivity|discriminate].
  - intros w1 (I1 & R1 & C1 & Z1). split; [exact I1|]. split; [eapply rest_trans; [exact R0|exact R1]|]. split; [exact C1|]. rewrite Z1. unfold log_code. split; [tauto|discriminate].
Qed.
End Pass.

(** ** The whole load, whatever the file *)

Lemma log_safe name w R : Inv R w -> zlen (w_ctx w) = 216 ->
  match api (GdbLogParse name) w with
  | Done _ w' => Inv R w' /\ zlen (w_ctx w') = 216 /\ rest_same w w' /\ fs_open (w_files w') = fs_open (w_files w) /\ w_code w' = 0
  | Raised c w' => Inv R w' /\ zlen (w_ctx w') = 216 /\ rest_same w w' /\ log_code c /\ fs_open (w_files w') = fs_open (w_files w)
  | Crashed _ => False
  end.
Proof.
  intros HI HC.
  assert (D : (exists data, file_is w name data /\ e_io (w_env w) (fs_calls (w_files w)) <> IoFail) \/ cannot_open w name).
  { unfold file_is, cannot_open. destruct (e_fs (w_env w) name) as [data|]; [|tauto]. destruct (e_io (w_env w) _) eqn:E; [left|tauto|left]; (exists data; split; [reflexivity|discriminate]). }
  destruct D as [(data & HF & HE)|D].
  - destruct (lines_exist data) as (ls & HL). destruct (log_ref name data ls w HF HE HL) as (p1 & q1 & rw & p2 & q2 & _ & _ & _ & _ & H).
    assert (I0 : Inv R (set_exn w noException [])) by now apply Inv_exn.
    pose proof (ref_log_any R p1 rw p2 _ I0 HC eq_refl) as P. unfold post in P. destruct (ref_log p1 rw p2 _) as [[] w1|w1|]; [| |destruct P].
    + destruct P as (I1 & R1 & C1 & Z1). destruct (H Z1) as (f' & -> & Ho). split; [destruct w1; exact I1|].
      split; [cbn; rewrite C1; apply ctx_lines_len, ctx_init_len, HC|]. split; [exact R1|]. split; [exact Ho|exact Z1].
    + destruct P as (I1 & R1 & C1 & Z1 & _). assert (Z0 : w_code w1 <> 0) by (destruct Z1 as [Z1|[Z1|Z1]]; rewrite Z1; discriminate).
      destruct (H Z0) as (f' & -> & Ho). split; [destruct w1; exact I1|]. split; [exact C1|]. split; [exact R1|]. split; [exact Z1|exact Ho].
  - destruct (log_missing name w D) as (w' & -> & H1 & H2 & H3 & H4 & H5 & H6 & H7 & H8 & H9).
    split; [unfold Inv, regions in *; rewrite H1, H2; exact HI|]. split; [congruence|]. split; [repeat split; assumption|]. split; [left; reflexivity|exact H4].
Qed.

(** If the log is read once without file errors and then cannot be rewound, loading it raises an exception. *)
Lemma log_rewind name data ls w R : Inv R w -> zlen (w_ctx w) = 216 -> file_is w name data -> lines data ls ->
  (forall i, (fs_calls (w_files w) <= i <= fs_calls (w_files w) + S (length ls))%nat -> e_io (w_env w) i = IoOk) ->
  e_io (w_env w) (fs_calls (w_files w) + S (S (length ls))) = IoFail ->
  exists c w', api (GdbLogParse name) w = Raised c w' /\ (c = fileException \/ c = outOfMemoryException).
Proof.
  intros HI HC HF HL HO HX.
  assert (HE : e_io (w_env w) (fs_calls (w_files w)) <> IoFail) by (rewrite HO by lia; discriminate).
  destruct (log_ref name data ls w HF HE HL) as (p1 & q1 & rw & p2 & q2 & _ & _ & _ & HR & H).
  destruct HR as [_ HR]; [intros i Hi; apply HO; lia|].
  replace (S (fs_calls (w_files w)) + S (length ls))%nat with (fs_calls (w_files w) + S (S (length ls)))%nat in HR by lia.
  unfold can in HR. rewrite HX in HR. subst rw.
  assert (P : post (ref_log p1 false p2) (set_exn w noException []) (fun _ _ => False) (fun w' => w_code w' = fileException \/ w_code w' = outOfMemoryException)).
  { unfold ref_log. apply post_bind. unfold post at 1. rewrite (init_step (set_exn w noException []) HC). set (w0 := set_ctx _ _).
    apply post_bind. eapply post_weaken; [apply (first_pass R p1 w0); [apply Inv_ctx; now apply Inv_exn|now apply ctx_init_len|reflexivity]| |]; cbv beta.
    - intros _ w1 (I1 & R1 & C1 & Z1). apply post_bind. unfold post, throw_msg, throw. cbn [w_code set_exn]. left. now rewrite Z1.
    - intros w1 (I1 & R1 & C1 & Z1). now right. }
  unfold post in P. destruct (ref_log p1 false p2 _) as [[] w1|w1|]; [destruct P| |destruct P].
  assert (Z0 : w_code w1 <> 0) by (destruct P as [P|P]; rewrite P; discriminate).
  destruct (H Z0) as (f' & -> & _). eauto.
Qed.

Lemma slice_0 {A} (l : list A) : slice l 0 4 = firstn 4 l.
Proof. reflexivity. Qed.

Lemma word_at_slice ctx t : word_at ctx t = of_le (slice ctx (offset t) 4).
Proof.
  destruct t as [i|i]; unfold word_at, offset, reg_word, fp_word, slice, OFF_R, OFF_FPR.
  - replace (Z.to_nat (4 + 4 * Z.of_nat i)) with (4 + 4 * i)%nat by lia. reflexivity.
  - replace (Z.to_nat (84 + 4 * Z.of_nat i)) with (84 + 4 * i)%nat by lia. reflexivity.
Qed.

Lemma read_set_same ctx off v : 0 <= off -> off + 4 <= zlen ctx -> of_le (slice (set_word ctx off v) off 4) = W v.
Proof. intros. unfold set_word. replace (slice _ off 4) with (slice (splice ctx off (le 4 v)) off (zlen (le 4 v))) by (now rewrite le_zlen). rewrite slice_splice_same by (rewrite ?le_zlen; lia). apply W_of_le4. Qed.
Lemma read_set_other ctx off v off' : 0 <= off -> off + 4 <= zlen ctx -> 0 <= off' -> off' + 4 <= zlen ctx -> off' + 4 <= off \/ off + 4 <= off' ->
  slice (set_word ctx off v) off' 4 = slice ctx off' 4.
Proof. intros. unfold set_word. apply slice_splice_other; rewrite ?le_zlen; lia. Qed.

(** Everything outside the flags and the register a line is about keeps its value. *)
Lemma line_other ctx l off' : zlen ctx = 216 -> 4 <= off' -> off' + 4 <= 216 ->
  (forall t, is_target t -> mentions l t -> off' + 4 <= offset t \/ offset t + 4 <= off') ->
  slice (ctx_line ctx l) off' 4 = slice ctx off' 4.
Proof.
  intros HC H1 H2 H. unfold ctx_line, ctx_parsed. destruct (parseLine (cstr l)) as [|off v|] eqn:E; [reflexivity| |reflexivity].
  destruct (parsed_register _ _ _ E) as (t & Ht & -> & Hm). apply (proj1 (mentions_cstr l t Ht)) in Hm. specialize (H t Ht Hm). pose proof (offset_range t Ht).
  destruct (isFloatingPointRegister _); unfold flag_up.
  - rewrite read_set_other by (rewrite ?set_word_len; lia). apply read_set_other; lia.
  - apply read_set_other; lia.
Qed.

Lemma lines_other ls off' : 4 <= off' -> off' + 4 <= 216 -> forall ctx, zlen ctx = 216 ->
  (forall l t, In l ls -> is_target t -> mentions l t -> off' + 4 <= offset t \/ offset t + 4 <= off') ->
  slice (fold_left ctx_line ls ctx) off' 4 = slice ctx off' 4.
Proof.
  intros H1 H2. induction ls as [|l ls IH]; intros ctx HC H; [reflexivity|]. cbn [fold_left]. rewrite IH; [|now apply ctx_line_len|intros l' t' Hl Ht Hm; apply (H l' t'); [now right|auto|auto]].
  apply line_other; auto. intros t Ht Hm. apply (H l t); [now left|auto|auto].
Qed.

Lemma targets_apart t t' : is_target t -> is_target t' -> t <> t' -> offset t + 4 <= offset t' \/ offset t' + 4 <= offset t.
Proof. unfold offset, OFF_R, OFF_FPR. destruct t as [i|i], t' as [j|j]; cbn [is_target]; intros H H' N; try lia; assert (i <> j) by congruence; lia. Qed.

Lemma lines_unmentioned ls t ctx : zlen ctx = 216 -> is_target t -> (forall l, In l ls -> ~ mentions l t) ->
  word_at (fold_left ctx_line ls ctx) t = word_at ctx t.
Proof.
  intros HC Ht H. rewrite !word_at_slice. f_equal. pose proof (offset_range t Ht). apply lines_other; try lia; auto.
  intros l t' Hl Ht' Hm. apply targets_apart; auto. intros ->. exact (H l Hl Hm).
Qed.

Lemma shows_u32 l t v : shows l t v -> u32 v.
Proof.
  unfold shows. destruct t; [intros (? & ? & _ & (_ & _ & H) & _); exact H|].
  destruct (Nat.ltb _ _); [intros (? & ? & ? & ? & _ & _ & _ & _ & (_ & _ & H) & _); exact H|intros (? & ? & _ & (_ & _ & H) & _); exact H].
Qed.

Lemma line_shown ctx l t v : zlen ctx = 216 -> is_target t -> shows l t v -> word_at (ctx_line ctx l) t = v.
Proof.
  intros HC Ht HS. unfold ctx_line. rewrite (shows_parse l t v Ht HS). cbn [ctx_parsed]. rewrite word_at_slice. pose proof (offset_range t Ht).
  rewrite read_set_same; [apply W_id; eapply shows_u32; eauto|lia|]. destruct (isFloatingPointRegister _); unfold flag_up; rewrite ?set_word_len; lia.
Qed.

Lemma lines_shown before l after t v ctx : zlen ctx = 216 -> is_target t -> shows l t v -> (forall l', In l' after -> ~ mentions l' t) ->
  word_at (fold_left ctx_line (before ++ l :: after) ctx) t = v.
Proof.
  intros HC Ht HS H. rewrite fold_left_app. cbn [fold_left]. rewrite lines_unmentioned; auto; [|now apply ctx_line_len, ctx_lines_len].
  apply line_shown; auto. now apply ctx_lines_len.
Qed.

Lemma init_unlisted ctx t : zlen ctx = 216 -> is_target t -> word_at (ctx_init ctx) t = unlisted ctx t.
Proof.
  intros HC Ht. unfold ctx_init.
  assert (D : t = TInt 17 \/ t = TInt 18 \/ (t <> TInt 17 /\ t <> TInt 18)).
  { destruct t as [i|i]; [|right; right; split; discriminate]. destruct (Nat.eq_dec i 17) as [->|]; [tauto|]. destruct (Nat.eq_dec i 18) as [->|]; [tauto|]. right. right. split; congruence. }
  destruct D as [->|[->|[N1 N2]]].
  - rewrite word_at_slice. change (OFF_R PSP) with 76. change (OFF_R MSP) with 72. change (offset (TInt 17)) with 72.
    rewrite read_set_other by (rewrite ?set_word_len; lia). rewrite read_set_same by lia. reflexivity.
  - rewrite word_at_slice. change (OFF_R PSP) with 76. change (OFF_R MSP) with 72. change (offset (TInt 18)) with 76.
    rewrite read_set_same by (rewrite ?set_word_len; lia). reflexivity.
  - replace (unlisted ctx t) with (word_at ctx t).
    2:{ unfold unlisted. destruct t as [i|i]; [|reflexivity]. do 17 (destruct i as [|i]; [reflexivity|]). destruct i as [|i]; [destruct (N1 eq_refl)|]. destruct i as [|i]; [destruct (N2 eq_refl)|]. reflexivity. }
    rewrite !word_at_slice. f_equal. pose proof (offset_range t Ht).
    pose proof (targets_apart t (TInt 17) Ht ltac:(cbn; lia) N1) as A1. pose proof (targets_apart t (TInt 18) Ht ltac:(cbn; lia) N2) as A2.
    change (offset (TInt 17)) with 72 in A1. change (offset (TInt 18)) with 76 in A2. change (OFF_R PSP) with 76. change (OFF_R MSP) with 72.
    rewrite !read_set_other by (rewrite ?set_word_len; lia). reflexivity.
Qed.

(** *** Flags and the exception PSR *)

Definition float_line (l : list Z) : bool :=
  match parseLine (cstr l) with PRegister off _ => isFloatingPointRegister off | _ => false end.

Lemma float_line_spec l : float_line l = true <-> exists i, (i < 32)%nat /\ mentions l (TFloat i).
Proof.
  unfold float_line. split.
  - destruct (parseLine (cstr l)) as [|off v|] eqn:E; [discriminate| |discriminate]. intro H.
    destruct (parsed_register _ _ _ E) as (t & Ht & -> & Hm). apply offset_float in H; [|exact Ht]. destruct H as (i & -> & Hi).
    exists i. split; [exact Hi|]. exact (proj1 (mentions_cstr l _ Ht) Hm).
  - intros (i & Hi & Hm). assert (Ht : is_target (TFloat i)) by (cbn; lia). rewrite (mentions_parse l _ Ht Hm). unfold parseRegisterLine.
    apply offset_float; eauto.
Qed.

Lemma W_bit v n : 0 <= n < 32 -> Z.testbit (W v) n = Z.testbit v n.
Proof. intro H. unfold W. change 4294967296 with (2 ^ 32). apply Z.mod_pow2_bits_low. lia. Qed.

Lemma flag_line ctx l n : zlen ctx = 216 -> 0 <= n < 32 -> flag_bit (ctx_line ctx l) n = flag_bit ctx n || (n =? 0) && float_line l.
Proof.
  intros HC Hn. unfold flag_bit, float_line, ctx_line. destruct (parseLine (cstr l)) as [a vs|off v|] eqn:E; cbn [ctx_parsed];
    [rewrite andb_false_r, orb_false_r; reflexivity| |rewrite andb_false_r, orb_false_r; reflexivity].
  destruct (parsed_register _ _ _ E) as (t & Ht & -> & _). pose proof (offset_range t Ht). rewrite <- !slice_0.
  destruct (isFloatingPointRegister _); unfold flag_up.
  - rewrite read_set_other by (rewrite ?set_word_len; lia). rewrite read_set_same by lia. rewrite W_bit by exact Hn. rewrite Z.lor_spec. f_equal.
    rewrite andb_true_r. destruct (Z.eqb_spec n 0) as [->|]; [reflexivity|]. change 1 with (2 ^ 0). apply Z.pow2_bits_false. lia.
  - rewrite andb_false_r, orb_false_r. rewrite read_set_other by lia. reflexivity.
Qed.

Lemma flag_lines n : 0 <= n < 32 -> forall ls ctx, zlen ctx = 216 ->
  flag_bit (fold_left ctx_line ls ctx) n = flag_bit ctx n || (n =? 0) && existsb float_line ls.
Proof.
  intro Hn. induction ls as [|l ls IH]; intros ctx HC; cbn [fold_left existsb]; [rewrite andb_false_r, orb_false_r; reflexivity|].
  rewrite IH by now apply ctx_line_len. rewrite flag_line by auto. rewrite <- orb_assoc, <- andb_orb_distrib_r. reflexivity.
Qed.

Lemma flag_init ctx n : zlen ctx = 216 -> flag_bit (ctx_init ctx) n = flag_bit ctx n.
Proof.
  intro HC. unfold flag_bit. rewrite <- !slice_0. unfold ctx_init. change (OFF_R PSP) with 76. change (OFF_R MSP) with 72.
  rewrite !read_set_other by (rewrite ?set_word_len; lia). reflexivity.
Qed.

Lemma psr_kept ctx ls : zlen ctx = 216 -> slice (fold_left ctx_line ls (ctx_init ctx)) 80 4 = slice ctx 80 4.
Proof.
  intro HC. rewrite lines_other; try lia; [|now apply ctx_init_len|].
  - unfold ctx_init. change (OFF_R PSP) with 76. change (OFF_R MSP) with 72. rewrite !read_set_other by (rewrite ?set_word_len; lia). reflexivity.
  - intros l t _ Ht _. pose proof (offset_range t Ht). lia.
Qed.
