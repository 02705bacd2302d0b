(** The messages of the dump reader. *)
From Coq Require Import String ZArith List Bool Lia ZifyBool ZifyNat.
From Verif Require Import Base World Context MemSim Dump BaseLemmas TextLemmas MemSpec MemLemmas MemInv MemOps MemHist2 MemFair Sat DumpSpec ElfSpec NumSpec MsgSpec DumpRef DumpLemmas DumpConv DumpThms ElfThms ElfClean.
Import ListNotations.
Open Scope Z_scope.
Open Scope m_scope.

(** Failed with this message. *)
Definition said (w' : world) (c : Z) (m : list Z) : Prop := w_code w' = c /\ w_msg w' = firstn 1023 m.

Lemma throws_said A c m w : w_code w = 0 -> 0 <= c -> exists w', (throw_msg c m : M world A) w = Exc w' /\ said w' c m.
Proof. intros H Hc. unfold throw_msg, throw. eexists. split; [reflexivity|]. split; cbn [w_code w_msg set_exn]; [rewrite H; lia|reflexivity]. Qed.

(** One field. *)
Lemma field_said {A} d n data w msg (g : list Z * stream -> M world A) :
  room_in d n -> zlen (w_ctx w) = 216 -> w_code w = 0 ->
  (exists bs rest, data = bs ++ rest /\ length bs = n /\ zlen (w_ctx (stored d w bs)) = 216 /\
     bind (ref_read d n (map Some data)) (fun p => if negb (Nat.eqb (length (fst p)) n) then throw_msg fileFormatException msg else g p) w = g (bs, map Some rest) (stored d w bs)) \/
  ((length data < n)%nat /\ exists w', bind (ref_read d n (map Some data)) (fun p => if negb (Nat.eqb (length (fst p)) n) then throw_msg fileFormatException msg else g p) w = Exc w' /\ said w' fileFormatException msg).
Proof.
  intros Hr HC Hc. destruct (le_lt_dec n (length data)) as [L|L].
  - left. destruct (cut n data L) as (bs & rest & -> & Lb). exists bs, rest. split; [reflexivity|]. split; [exact Lb|].
    destruct (stored_ok d n bs w Hr ltac:(lia) HC) as (E1 & L1). split; [exact L1|]. rewrite map_app. unfold bind at 1. subst n. rewrite read_run. unfold bind. rewrite E1. cbn [ret fst]. rewrite Nat.eqb_refl. reflexivity.
  - right. split; [exact L|]. destruct (stored_ok d n data w Hr (Nat.lt_le_incl _ _ L) HC) as (E1 & L1). unfold bind at 1. rewrite read_short by exact L. unfold bind. rewrite E1. cbn [ret fst].
    rewrite (proj2 (Nat.eqb_neq (length data) n)) by lia. cbn [negb]. apply throws_said; [destruct d; exact Hc|vm_compute; discriminate].
Qed.
Lemma stored_code d w bs : w_code (stored d w bs) = w_code w.
Proof. destruct d; reflexivity. Qed.

Ltac done_said := match goal with H : Exc _ = Exc _ |- _ => injection H as <- end.

(** Before the regions. *)
Lemma head_said data w w' : Forall byte data -> zlen (w_ctx w) = 216 -> w_code w = 0 -> ref_dump (map Some data) w = Exc w' ->
  (exists m, dump_complaint (ranges w) data (w_code w') m /\ w_msg w' = firstn 1023 m) \/
  (exists d rest, valid d /\ d_mem d = [] /\ data = enc_head d ++ rest).
Proof.
  intros HB HC Hc E. 
  assert (FIN : forall c m, said w' c m -> dump_complaint (ranges w) data c m -> exists m, dump_complaint (ranges w) data (w_code w') m /\ w_msg w' = firstn 1023 m).
  { intros c m (S1 & S2) D. exists m. rewrite S1. auto. }
  unfold ref_dump in E.
  (* signature *)
  assert (ES : (exists v2 d1, data = start_of v2 ++ d1 /\ ref_signature (map Some data) w = Ret (v2, map Some d1) w) \/
               (exists w1 m, ref_signature (map Some data) w = Exc w1 /\ said w1 fileFormatException m /\ dump_complaint (ranges w) data fileFormatException m)).
  { set (g := fun p : list Z * stream => if bytes_eqb (fst p) [SIGNATURE_BYTE0; SIGNATURE_BYTE1; VERSION_MAJOR; VERSION_MINOR] then ret (false, snd p)
                else if bytes_eqb (fst p) [SIGNATURE_BYTE0; SIGNATURE_BYTE1; 2; 0] then ret (true, snd p)
                else throw_msg fileFormatException (s2b "The dump file didn't start with the expected 4-byte signature.")).
    assert (R' : ref_signature (map Some data) w = bind (ref_read Local 4 (map Some data)) (fun p => if negb (Nat.eqb (length (fst p)) 4) then throw_msg fileFormatException (s2b "The dump file was too short to contain the 4-byte signature.") else g p) w).
    { unfold ref_signature, bind. destruct (ref_read Local 4 (map Some data) w) as [[x y] z| |]; reflexivity. }
    destruct (field_said Local 4 data w (s2b "The dump file was too short to contain the 4-byte signature.") g I HC Hc) as [(bs & d1 & Ed & L & _ & R)|(L & w1 & R & S)]; rewrite R', R.
    - cbn [stored]. unfold g. cbn [fst snd].
      destruct (bytes_eqb bs [SIGNATURE_BYTE0; SIGNATURE_BYTE1; VERSION_MAJOR; VERSION_MINOR]) eqn:Q1; [|destruct (bytes_eqb bs [SIGNATURE_BYTE0; SIGNATURE_BYTE1; 2; 0]) eqn:Q2].
      + left. exists false, d1. apply bytes_eqb_eq in Q1. subst bs. split; [exact Ed|reflexivity].
      + left. exists true, d1. apply bytes_eqb_eq in Q2. subst bs. split; [exact Ed|reflexivity].
      + right. destruct (throws_said (bool * stream) fileFormatException (s2b "The dump file didn't start with the expected 4-byte signature.") w Hc ltac:(vm_compute; discriminate)) as (w1 & E1 & S1).
        exists w1, (s2b "The dump file didn't start with the expected 4-byte signature."). split; [exact E1|]. split; [exact S1|].
        assert (F4 : firstn 4 data = bs) by (rewrite Ed, firstn_app, L, Nat.sub_diag, firstn_O, app_nil_r; apply firstn_all2; lia).
        apply dc_wrong; [rewrite Ed; unfold zlen; rewrite app_length; lia| |].
        * rewrite F4. intros ->. discriminate Q2.
        * rewrite F4. intros ->. discriminate Q1.
    - right. exists w1, (s2b "The dump file was too short to contain the 4-byte signature."). split; [reflexivity|]. split; [exact S|]. apply dc_signature. unfold zlen. lia. }
  destruct ES as [(v2 & d1 & Ed & ES)|(w1 & m & ES & S & D)]; unfold bind at 1 in E; rewrite ES in E; [|done_said; left; eapply FIN; eassumption].
  cbn [fst snd] in E. rewrite Ed in HB. apply Forall_app in HB as [_ HB].
  (* flags *)
  destruct (field_said (Ctx OFF_FLAGS) 4 d1 w (s2b "The dump file was too short to contain the flags.") (fun p => ret (tt, snd p)))
    as [(fl & d2 & E1 & Lfl & C2 & R)|(L & w1 & R & S)]; [unfold room_in, OFF_FLAGS; lia|exact HC|exact Hc| |];
    unfold bind at 1 in E; unfold ref_flags, too_short in E; rewrite R in E; clear R; [|done_said; left; eapply FIN; [exact S|]; eapply dc_flags; [exact Ed|unfold zlen; lia]].
  cbn [ret fst snd] in E. subst d1. apply Forall_app in HB as [Bfl HB]. destruct (word_of fl Lfl Bfl) as (Wf1 & Wf2). cbn [stored] in *.
  set (w2 := set_ctx w (splice (w_ctx w) OFF_FLAGS fl)) in *.
  assert (F2 : firstn 4 (w_ctx w2) = fl).
  { unfold w2, splice. cbn [w_ctx set_ctx]. unfold OFF_FLAGS. change (Z.to_nat 0) with 0%nat. rewrite (firstn_O (w_ctx w)). cbn [app]. rewrite firstn_app, Lfl, Nat.sub_diag, firstn_O, app_nil_r. apply firstn_all2. lia. }
  (* integer registers *)
  set (size := if v2 then 68%nat else 76%nat) in *.
  unfold bind at 1 in E. unfold ref_integer in E. fold size in E. cbv zeta in E.
  assert (EB : exists c, (if v2 then ctx_put (OFF_R MSP) (le 4 DEFAULT_SP_VALUE);;; ctx_put (OFF_R PSP) (le 4 DEFAULT_SP_VALUE) else ret tt) w2 =
                   Ret tt (set_ctx w c) /\ zlen c = 216 /\ firstn 4 c = fl).
  { unfold w2 in *. cbn [w_ctx set_ctx] in *. destruct v2.
    - unfold bind. rewrite put_ok by (cbn [w_ctx set_ctx]; rewrite ?le_zlen; unfold OFF_R, MSP; lia). cbn [w_ctx set_ctx].
      assert (X : zlen (splice (splice (w_ctx w) OFF_FLAGS fl) (OFF_R MSP) (le 4 DEFAULT_SP_VALUE)) = 216)
        by (rewrite splice_zlen; rewrite ?le_zlen; unfold OFF_R, MSP; lia).
      rewrite put_ok by (cbn [w_ctx set_ctx]; rewrite ?le_zlen, ?X; unfold OFF_R, MSP, PSP; lia). eexists. split; [reflexivity|].
      cbn [w_ctx set_ctx]. split; [rewrite splice_zlen; rewrite ?le_zlen, ?X; unfold OFF_R, PSP; lia|].
      rewrite firstn_splice by (unfold zlen in X; unfold OFF_R, PSP, MSP in *; lia). rewrite firstn_splice by (unfold zlen in C2; unfold OFF_R, MSP; lia). exact F2.
    - eexists. split; [reflexivity|]. auto. }
  destruct EB as (c & EB & Lc & Fc). unfold bind at 1 in E. rewrite EB in E. clear EB.
  destruct (field_said (Ctx (OFF_R 0)) size d2 (set_ctx w c) (s2b "The dump file was too short to contain the integer registers.")
      (fun p => q <- ref_read (Ctx OFF_PSR) 4 (snd p);;
         if negb (Nat.eqb (length (fst q)) 4) then too_short "The dump file was too short to contain the exception PSR." else ret (tt, snd q)))
    as [(rg & d3 & E1 & Lr & C3 & R)|(L & w1 & R & S)]; [unfold room_in, OFF_R, size; destruct v2; lia|exact Lc|exact Hc| |];
    unfold too_short in E at 1; rewrite R in E; clear R.
  2: { done_said. left. eapply FIN; [exact S|]. eapply (dc_integer _ _ v2 (of_le fl)); [rewrite Ed, Wf1; reflexivity|exact Wf2|unfold zlen, size in *; destruct v2; lia]. }
  subst d2. apply Forall_app in HB as [Brg HB]. cbn [snd] in E.
  destruct (unwords_spec (if v2 then 17 else 19) rg) as (Wr1 & Wr2 & Wr3); [rewrite Lr; unfold size; destruct v2; reflexivity|exact Brg|].
  cbn [stored w_ctx set_ctx] in E, C3.
  assert (Fc' : firstn 4 (splice c (OFF_R 0) rg) = fl) by (rewrite firstn_splice; [exact Fc|unfold OFF_R; lia|unfold zlen in Lc; lia]).
  destruct (field_said (Ctx OFF_PSR) 4 d3 (set_ctx w (splice c (OFF_R 0) rg)) (s2b "The dump file was too short to contain the exception PSR.")
      (fun q => ret (tt, snd q))) as [(ps & d4 & E1 & Lp & C4 & R)|(L & w1 & R & S)]; [unfold room_in, OFF_PSR; lia|exact C3|exact Hc| |];
    unfold too_short in E at 1; change (set_ctx (set_ctx w c) (splice c (OFF_R 0) rg)) with (set_ctx w (splice c (OFF_R 0) rg)) in E; rewrite R in E; clear R.
  2: { done_said. left. eapply FIN; [exact S|]. eapply (dc_psr _ _ v2 (of_le fl) _ d3); [rewrite Ed, Wf1, Wr1; reflexivity|exact Wf2|exact Wr2|unfold zlen; lia]. }
  subst d3. apply Forall_app in HB as [Bps HB]. destruct (word_of ps Lp Bps) as (Wp1 & Wp2). cbn [ret snd] in E.
  cbn [stored w_ctx set_ctx] in E, C4. set (c3 := splice (splice c (OFF_R 0) rg) OFF_PSR ps) in *.
  assert (F3 : firstn 4 c3 = fl) by (unfold c3; rewrite firstn_splice; [exact Fc'|unfold OFF_PSR; lia|unfold zlen in C3; lia]).
  (* floating point *)
  change (set_ctx (set_ctx w (splice c (OFF_R 0) rg)) c3) with (set_ctx w c3) in E.
  assert (EW : ctx_word OFF_FLAGS (set_ctx w c3) = Ret (of_le fl) (set_ctx w c3)).
  { unfold ctx_word. cbn [w_ctx set_ctx]. unfold OFF_FLAGS. replace ((0 <=? 0) && (0 + 4 <=? zlen c3)) with true by lia.
    unfold slice. change (Z.to_nat 0) with 0%nat. change (Z.to_nat 4) with 4%nat. rewrite skipn_O, F3. reflexivity. }
  unfold bind at 1 in E. unfold ref_fp in E. unfold bind at 1 in E. rewrite EW in E. unfold CRASH_CATCHER_FLAGS_FLOATING_POINT in E. rewrite odd_land in E.
  destruct (Z.odd (of_le fl)) eqn:ODD; cbn [negb] in E.
  - destruct (field_said (Ctx (OFF_FPR 0)) 132 d4 (set_ctx w c3) (s2b "The dump file was too short to contain the floating point registers.") (fun p => ret (tt, snd p)))
      as [(fp & d5 & E1 & Lf & C5 & R)|(L & w1 & R & S)]; [unfold room_in, OFF_FPR; lia|exact C4|exact Hc| |].
    + right. subst d4. apply Forall_app in HB as [Bfp HB]. destruct (unwords_spec 33 fp) as (Wx1 & Wx2 & Wx3); [exact Lf|exact Bfp|].
      exists (mkDump v2 (of_le fl) (unwords (if v2 then 17 else 19) rg) (of_le ps) (unwords 33 fp) []), d5.
      split; [|split; [reflexivity|]].
      * unfold valid, has_fp. cbn [d_v2 d_flags d_regs d_psr d_fp d_mem]. rewrite ODD. auto 10.
      * rewrite Ed. unfold enc_head, start_of, starts_v2, starts_v3. cbn [d_v2 d_flags d_regs d_psr d_fp d_mem]. rewrite Wf1, Wp1, Wr1, Wx1. rewrite <- !app_assoc. destruct v2; reflexivity.
    + unfold too_short in E at 1. rewrite R in E. done_said. left. eapply FIN; [exact S|].
      eapply (dc_float _ _ v2 (of_le fl) _ (of_le ps) d4); [rewrite Ed, Wf1, Wp1, Wr1; reflexivity|exact Wf2|exact ODD|exact Wr2|unfold zlen; lia].
  - right. exists (mkDump v2 (of_le fl) (unwords (if v2 then 17 else 19) rg) (of_le ps) [] []), d4.
    split; [|split; [reflexivity|]].
    + unfold valid, has_fp. cbn [d_v2 d_flags d_regs d_psr d_fp d_mem]. rewrite ODD. auto 10.
    + rewrite Ed. unfold enc_head, start_of, starts_v2, starts_v3. cbn [d_v2 d_flags d_regs d_psr d_fp d_mem]. rewrite Wf1, Wp1, Wr1. rewrite <- !app_assoc. destruct v2; reflexivity.
Qed.

(** Numbers. *)
Lemma hexU_is d : 0 <= d < 16 -> is_digit 16 (hexU d) d.
Proof.
  intros H. split; [|lia]. assert (C : d = 0 \/ d = 1 \/ d = 2 \/ d = 3 \/ d = 4 \/ d = 5 \/ d = 6 \/ d = 7 \/ d = 8 \/ d = 9 \/ d = 10 \/ d = 11 \/ d = 12 \/ d = 13 \/ d = 14 \/ d = 15) by lia.
  repeat (destruct C as [->|C]; [reflexivity|]). now subst.
Qed.
Lemma dec_is d : 0 <= d < 10 -> is_digit 10 (48 + d) d.
Proof.
  intros H. split; [|lia]. assert (C : d = 0 \/ d = 1 \/ d = 2 \/ d = 3 \/ d = 4 \/ d = 5 \/ d = 6 \/ d = 7 \/ d = 8 \/ d = 9) by lia.
  repeat (destruct C as [->|C]; [reflexivity|]). now subst.
Qed.
Lemma digits_text b f : 2 <= b -> (forall d, 0 <= d < b -> is_digit b (f d) d) -> forall fuel v, 0 <= v < b ^ (Z.of_nat fuel + 1) -> value_of b (map f (digits fuel b v)) v.
Proof.
  intros Hb Hf. assert (ONE : forall v, 0 <= v < b -> value_of b [f v] v).
  { intros v Hv. change [f v] with ([] ++ [f v]). replace v with (b * 0 + v) at 2 by lia. apply v_snoc; [constructor|now apply Hf]. }
  induction fuel as [|k IH]; intros v Hv; cbn [digits].
  - change (b ^ (Z.of_nat 0 + 1)) with (b ^ 1) in Hv. rewrite Z.pow_1_r in Hv. rewrite Z.mod_small by lia. now apply ONE.
  - destruct (v <? b) eqn:E; [apply ONE; lia|]. rewrite map_app. cbn [map]. replace v with (b * (v / b) + v mod b) at 3 by (pose proof (Z.div_mod v b); lia).
    apply v_snoc; [|apply Hf, Z.mod_pos_bound; lia]. apply IH. split; [apply Z.div_pos; lia|]. apply Z.div_lt_upper_bound; [lia|].
    rewrite <- Z.pow_succ_r by lia. replace (Z.succ (Z.of_nat k + 1)) with (Z.of_nat (S k) + 1) by lia. lia.
Qed.
Lemma pad_text b f : 2 <= b -> (forall d, 0 <= d < b -> is_digit b (f d) d) -> forall n v, 0 <= v < b ^ (Z.of_nat n) -> value_of b (map f (digits_pad n b v)) v.
Proof.
  intros Hb Hf. induction n as [|k IH]; intros v Hv; cbn [digits_pad].
  - change (b ^ Z.of_nat 0) with 1 in Hv. replace v with 0 by lia. constructor.
  - rewrite map_app. cbn [map]. replace v with (b * (v / b) + v mod b) at 3 by (pose proof (Z.div_mod v b); lia).
    apply v_snoc; [|apply Hf, Z.mod_pos_bound; lia]. apply IH. split; [apply Z.div_pos; lia|]. apply Z.div_lt_upper_bound; [lia|].
    rewrite <- Z.pow_succ_r by lia. replace (Z.succ (Z.of_nat k)) with (Z.of_nat (S k)) by lia. lia.
Qed.
Lemma shown8_fmt v : u32 v -> shown8 (fmt08X v) v.
Proof.
  intro H. split; [apply pad_text; [lia|apply hexU_is|exact H]|]. unfold fmt08X. now rewrite map_length, digits_pad_length.
Qed.
Lemma shown_fmtu v : u32 v -> shown (fmtu v) v.
Proof.
  intro H. split; [apply digits_text; [lia|apply dec_is|]; change (10 ^ (Z.of_nat 20 + 1)) with 1000000000000000000000; unfold u32 in H; lia|].
  unfold fmtu. intro E. apply map_eq_nil in E. now apply digits_nonempty in E.
Qed.

(** One region. *)
Lemma bytes_said R data : forall a count w w', Forall byte data -> Inv R w -> u32 a -> w_code w = 0 ->
  ref_bytes (map Some data) a count w = Exc w' -> w_code w' = fileFormatException -> zlen data < count.
Proof.
  induction data as [|b t IH]; intros a count w w' HB HI Ha Hc E C; cbn [map ref_bytes] in E; destruct (count <=? 0) eqn:Q; try discriminate E.
  - rewrite zlen_nil. lia.
  - inversion HB as [|? ? B1 B2]; subst. unfold bind in E. pose proof (write8_post R a b w HI Ha) as P. unfold post in P.
    destruct (write8 a b w) as [[] w1|w1|]; [| |discriminate E].
    + destruct P as (I1 & F1 & C1). rewrite Hc in C1. specialize (IH _ _ _ _ B2 I1 (W_range _) C1 E C). rewrite zlen_cons. lia.
    + injection E as <-. destruct P as (_ & _ & C1). rewrite C1, Hc in C. discriminate C.
Qed.

Definition region_text (a e : Z) : list Z :=
  s2b "The dump file failed to load RAM memory region at 0x" ++ fmt08X a ++ s2b " - 0x" ++ fmt08X e ++ s2b ".".

Lemma body_said R a e data w w' : Forall byte data -> Inv R w -> u32 a -> u32 e -> region_body a e (map Some data) w = Exc w' ->
  said w' (w_code w') (region_text a e) /\
  ((w_code w' = fileFormatException /\ zlen data < W (e - a)) \/ w_code w' = busErrorException \/ w_code w' = outOfMemoryException).
Proof.
  intros HB HI Ha He E. assert (BO : bytes_ok (map Some data)) by (unfold bytes_ok; rewrite Forall_map; exact HB).
  pose proof (body_cases R a e (map Some data) w BO HI Ha He) as P. rewrite E in P. destruct P as (_ & _ & P).
  unfold region_body, bind at 1, try_, bind, lift, setl in E. cbn [fst snd] in E. pose proof (W_range (e - a)) as HW.
  pose proof (CreateRegion_post a (W (e - a)) R (set_exn w noException []) (Inv_exn _ _ _ _ HI)) as P1. unfold post in P1.
  destruct (MemorySim_CreateRegion a (W (e - a)) (set_exn w noException [])) as [[] w1|w1|]; [| |discriminate E].
  - destruct P1 as (I1 & F1 & _ & C1 & _); [assumption|assumption|].
    pose proof (bytes_cases R (map Some data) a (W (e - a)) w1 BO I1 Ha) as Q. pose proof (bytes_said R data a (W (e - a)) w1) as QS.
    destruct (ref_bytes (map Some data) a (W (e - a)) w1) as [[x us2] w2|w2|]; [| |discriminate E].
    + destruct Q as (_ & _ & _ & C2); [unfold u32 in *; lia|exact C1|]. cbn [fst snd] in E. rewrite C2 in E. cbn [Z.eqb] in E. unfold ret in E. discriminate E.
    + destruct Q as (_ & _ & C2); [unfold u32 in *; lia|exact C1|]. cbn [fst snd] in E.
      destruct (w_code w2 =? 0) eqn:Z0; [destruct C2 as [C2|C2]; rewrite C2 in Z0; discriminate|].
      unfold getExceptionCode, throw_msg, throw in E. injection E as <-. split; [split; [reflexivity|reflexivity]|].
      cbn [w_code set_exn] in *. rewrite Z.max_id in *. destruct C2 as [C2|C2]; [left|now right; left]. split; [exact C2|].
      specialize (QS w2 HB I1 Ha C1 eq_refl C2). exact QS.
  - destruct P1 as (I1 & F1 & _ & C1 & _); [assumption|assumption|]. cbn [fst snd] in E. rewrite C1 in E. change (outOfMemoryException =? 0) with false in E. cbv iota in E.
    unfold getExceptionCode, throw_msg, throw in E. injection E as <-. split; [split; reflexivity|]. right. right. cbn [w_code set_exn]. rewrite C1. reflexivity.
Qed.

(** The ranges of memory while regions are loaded. *)
Lemma clash_dec rs a n : clashes rs a n \/ (a + n <= 4294967296 /\ forall r, In r rs -> apart r (a, n)).
Proof.
  destruct (Z_lt_ge_dec 4294967296 (a + n)) as [H|H]; [left; now left|].
  induction rs as [|r rs IH]; [right; split; [lia|intros r []]|].
  destruct IH as [[H1|(x & H1 & H2)]|[H1 H2]]; [left; now left|left; right; exists x; split; [now right|exact H2]|].
  assert (D : apart r (a, n) \/ ~ apart r (a, n)) by (unfold apart; lia). destruct D as [D|D].
  - right. split; [lia|]. intros x [<-|Hx]; auto.
  - left. right. exists r. split; [now left|exact D].
Qed.

Lemma write8_ranges R a b w w' : Inv R w -> u32 a -> write8 a b w = Ret tt w' -> ranges w' = ranges w.
Proof.
  intros HI Ha. unfold write8. rewrite writeN_wf; [|apply HI|exact Ha|unfold width; auto].
  destruct (find_from _ _ _ _) as [[j a']|]; [|discriminate]. destruct (nth_error _ _) as [r|]; [|discriminate]. cbv zeta. destruct (r_ro r); [discriminate|].
  destruct (scan_wps _ _ _ _ _ _) as [h [|]]; [discriminate|]. intro E. injection E as <-. unfold ranges. cbn [w_mem set_mem m_regions set_regions set_hits]. apply upd_ranges. reflexivity.
Qed.

Lemma bytes_ranges R us : forall a count w u us' w', bytes_ok us -> Inv R w -> u32 a -> ref_bytes us a count w = Ret (u, us') w' -> ranges w' = ranges w.
Proof.
  induction us as [|[b|] us IH]; intros a count w u us' w' HB HI Ha E; cbn [ref_bytes] in E; destruct (count <=? 0); try discriminate E.
  1, 2, 4: unfold ret in E; now injection E as _ _ <-.
  inversion HB as [|? ? B1 B2]; subst. unfold bind in E. pose proof (write8_post R a b w HI Ha) as P. unfold post in P.
  destruct (write8 a b w) as [[] w1|w1|] eqn:E1; try discriminate E. destruct P as (I1 & _).
  rewrite <- (write8_ranges R a b w w1 HI Ha E1). exact (IH _ _ _ _ _ _ B2 I1 (W_range _) E).
Qed.

Lemma region_ranges R x us us' w w' : Forall byte (enc_region x) -> bytes_ok us -> Inv R w -> valid_region x -> ref_region (map Some (enc_region x) ++ us) w = Ret (false, us') w' -> ranges w' = ranges w ++ [range_in x].
Proof.
  intros HX HB HI (V1 & V2 & V3) E. destruct x as [a bs]. unfold enc_region, range_in in *. cbn [fst snd] in *. unfold u32 in *.
  rewrite app_assoc, map_app, <- app_assoc, region_header_run in E. unfold region_body in E. rewrite W_sub_l, W_sub_r in E.
  replace (a + zlen bs - a) with (zlen bs) in E by lia. rewrite (W_id a), (W_id (zlen bs)) in E by (unfold u32; lia).
  unfold try_, bind, lift, setl, ret in E. cbn [fst snd] in E.
  pose proof (CreateRegion_post a (zlen bs) R (set_exn w noException []) (Inv_exn _ _ _ _ HI)) as P.
  unfold post in P. destruct (MemorySim_CreateRegion a (zlen bs) (set_exn w noException [])) as [[] w1|w1|]; [| |discriminate E].
  - destruct P as (I1 & F1 & E1 & C1 & _); [unfold u32; lia|unfold u32; lia|].
    change (regions (set_exn w noException [])) with (regions w) in E1.
    assert (RW : ranges w1 = ranges w ++ [(a, zlen bs)]) by (unfold ranges; rewrite E1, map_app; reflexivity). rewrite <- RW.
    assert (BO : bytes_ok (map Some bs ++ us)) by (apply Forall_app; split; [unfold bytes_ok; rewrite Forall_map; exact V3|exact HB]).
    pose proof (bytes_ranges R (map Some bs ++ us) a (zlen bs) w1) as Q. pose proof (bytes_cases R (map Some bs ++ us) a (zlen bs) w1 BO I1 V1) as QC.
    destruct (ref_bytes (map Some bs ++ us) a (zlen bs) w1) as [[x us2] w2|w2|]; [| |discriminate E].
    + cbn [fst snd] in E. specialize (Q _ _ _ BO I1 V1 eq_refl). destruct (w_code w2 =? 0); [|discriminate E]. injection E as _ <-. exact Q.
    + exfalso. destruct QC as (_ & _ & C2); [apply zlen_nonneg|exact C1|]. cbn [fst snd] in E. destruct C2 as [C2|C2]; rewrite C2 in E; discriminate E.
  - destruct P as (_ & _ & _ & C1 & _); [unfold u32; lia|unfold u32; lia|]. cbn [fst snd] in E. rewrite C1 in E. discriminate E.
Qed.

(** What is wrong after some whole regions. *)
Inductive tail_complaint (old : list (Z * Z)) (data : list Z) : Z -> list Z -> Prop :=
| tc_header : 0 < zlen data < 8 -> data <> overflow_mark -> tail_complaint old data fileFormatException (s2b "The dump file contained a truncated memory region header.")
| tc_overflow : data = overflow_mark -> tail_complaint old data stackOverflowException (s2b "The dump file ended with an indication that CrashCatcher detected a stack overflow.")
| tc_region a e t c : data = le 4 a ++ le 4 e ++ t -> u32 a -> u32 e ->
    (c = fileFormatException /\ zlen t < (e - a) mod 4294967296) \/ (c = busErrorException /\ clashes old a ((e - a) mod 4294967296)) \/ c = outOfMemoryException ->
    tail_complaint old data c (region_text a e).

Lemma region_said R data w w' : Forall byte data -> Inv R w -> w_code w = 0 -> ref_region (map Some data) w = Exc w' ->
  exists m, tail_complaint (ranges w) data (w_code w') m /\ w_msg w' = firstn 1023 m.
Proof.
  intros HB HI Hc E. destruct (le_lt_dec 8 (length data)) as [L|L].
  - destruct (cut 4 data) as (a & r & -> & La); [lia|]. rewrite app_length in L. destruct (cut 4 r) as (e & t & -> & Le); [lia|].
    apply Forall_app in HB as [Ba HB]. apply Forall_app in HB as [Be HB]. destruct (word_of a La Ba) as (Wa1 & Wa2). destruct (word_of e Le Be) as (We1 & We2).
    assert (NB : w_code w' = busErrorException -> clashes (ranges w) (of_le a) (W (of_le e - of_le a))).
    { intro B. destruct (clash_dec (ranges w) (of_le a) (W (of_le e - of_le a))) as [D|[D1 D2]]; [exact D|exfalso].
      assert (LE : le 4 (of_le a + W (of_le e - of_le a)) = e).
      { transitivity (le 4 (of_le e)); [|exact We1]. apply of_le_inj; try apply le_bytes; [now rewrite !le_length|]. rewrite !W_of_le4, W_add_r. replace (of_le a + (of_le e - of_le a)) with (of_le e) by lia. reflexivity. }
      assert (D3 : forall r, In r (regions w) -> apart (range_of r) (of_le a, W (of_le e - of_le a))) by (intros r Hr; apply D2; unfold ranges; now apply in_map).
      pose proof (W_range (of_le e - of_le a)) as WR. destruct (Z_lt_ge_dec (zlen t) (W (of_le e - of_le a))) as [S|S].
      - destruct (region_short [] R (of_le a) _ t w I HI Wa2 WR HB S D1 D3) as (w2 & c & E2 & (_ & _ & C2) & C3). rewrite LE, Wa1, app_nil_r, E in E2. injection E2 as <-. destruct C3 as [-> | ->]; rewrite C2 in B; discriminate B.
      - set (n := Z.to_nat (W (of_le e - of_le a))) in *. assert (LN : zlen (firstn n t) = W (of_le e - of_le a)) by (unfold zlen in *; rewrite firstn_length; lia).
        assert (BF : Forall byte (firstn n t)) by (rewrite <- (firstn_skipn n t) in HB; apply Forall_app in HB as [? _]; assumption).
        destruct (region_run R (of_le a, firstn n t) (map Some (skipn n t)) w HI) as [(w2 & E2 & _)|(w2 & E2 & _ & _ & C2)]; unfold range_in, valid_region; cbn [fst snd]; rewrite ?LN; auto.
        + unfold enc_region in E2. cbn [fst snd] in E2. rewrite LN, LE, Wa1, <- map_app, <- !app_assoc, firstn_skipn in E2. congruence.
        + unfold enc_region in E2. cbn [fst snd] in E2. rewrite LN, LE, Wa1, <- map_app, <- !app_assoc, firstn_skipn, E in E2. injection E2 as <-. rewrite C2 in B. discriminate B. }
    rewrite <- Wa1, <- We1 in E. rewrite app_assoc, map_app, region_header_run, (W_id (of_le a)), (W_id (of_le e)) in E by assumption.
    destruct (body_said R _ _ _ _ _ HB HI Wa2 We2 E) as ((_ & S) & D). exists (region_text (of_le a) (of_le e)). split; [|exact S].
    apply (tc_region _ _ (of_le a) (of_le e) t); [now rewrite Wa1, We1|exact Wa2|exact We2|]. destruct D as [D|[D|D]]; auto.
  - destruct data as [|b0 t0]; [discriminate E|]. set (data := b0 :: t0) in *. assert (N : data <> []) by discriminate. clearbody data.
    unfold ref_region, bind at 1 in E. rewrite read_short in E by exact L. unfold bind at 1 in E. cbn [store_dest] in E. unfold ret at 1 in E.
    cbv beta iota in E. unfold ret at 1 in E. cbv beta iota in E.
    destruct (Nat.eqb (length data) 4 && (of_le data =? STACK_SENTINEL)) eqn:Q.
    + unfold throw_msg, throw in E. injection E as <-. exists (s2b "The dump file ended with an indication that CrashCatcher detected a stack overflow."). split; [|reflexivity]. cbn [w_code set_exn]. rewrite Hc. change (Z.max stackOverflowException 0) with stackOverflowException. apply tc_overflow.
      apply andb_true_iff in Q as [Q1 Q2]. apply of_le_inj.
      * apply Nat.eqb_eq in Q1. rewrite Q1. reflexivity.
      * exact HB.
      * unfold overflow_mark, byte. repeat constructor; lia.
      * apply Z.eqb_eq in Q2. rewrite Q2. reflexivity.
    + destruct (Nat.eqb_spec (length data) 0) as [Z0|Z0]; [destruct data; [congruence|discriminate]|].
      destruct (Nat.eqb_spec (length data) 8) as [Z8|_]; [lia|]. cbn [negb] in E.
      unfold throw_msg, throw in E. injection E as <-. exists (s2b "The dump file contained a truncated memory region header."). split; [|reflexivity]. cbn [w_code set_exn]. rewrite Hc. change (Z.max fileFormatException 0) with fileFormatException.
      apply tc_header; [unfold zlen; lia|]. intros ->. discriminate Q.
Qed.

Lemma all_said R : forall n data w w', (length data < n)%nat -> Forall byte data -> Inv R w -> w_code w = 0 -> ref_all (map Some data) w = Exc w' ->
  exists ms rest m, Forall valid_region ms /\ data = flat_map enc_region ms ++ rest /\ tail_complaint (ranges w ++ map range_in ms) rest (w_code w') m /\ w_msg w' = firstn 1023 m.
Proof.
  induction n as [|n IH]; intros data w w' L HB HI Hc E; [lia|].
  assert (BO : bytes_ok (map Some data)) by (unfold bytes_ok; rewrite Forall_map; exact HB).
  pose proof (region_cases R (map Some data) w BO HI Hc) as P.
  destruct (ref_region (map Some data) w) as [[[|] us1] w1|w1|] eqn:E1; [| | |destruct P].
  - destruct P as (X & -> & ->). apply map_eq_nil in X. subst. discriminate E.
  - destruct P as ((x & V & X) & I1 & F1 & C1). rewrite (all_step _ _ _ _ E1) in E.
    assert (exists d2, us1 = map Some d2 /\ data = enc_region x ++ d2) as (d2 & -> & ->).
    { assert (D : firstn (length (enc_region x)) data = enc_region x).
      { apply map_some_inj. rewrite <- firstn_map', X, firstn_app, map_length, Nat.sub_diag, firstn_O, app_nil_r. apply firstn_all2. now rewrite map_length. }
      exists (skipn (length (enc_region x)) data). split.
      - rewrite <- skipn_map', X, skipn_app, map_length, Nat.sub_diag, skipn_O, skipn_all2; [reflexivity|now rewrite map_length].
      - rewrite <- D at 1. symmetry. apply firstn_skipn. }
    apply Forall_app in HB as [BX HB]. assert (RR : ranges w1 = ranges w ++ [range_in x]).
    { rewrite map_app in E1. eapply region_ranges; [exact BX| |exact HI|exact V|exact E1]. unfold bytes_ok. rewrite Forall_map. exact HB. }
    pose proof (region_consumes _ _ _ _ E1) as L1. rewrite !map_length in L1.
    destruct (IH d2 w1 w') as (ms & rest & m & V2 & -> & T & S); auto; [lia|].
    exists (x :: ms), rest, m. split; [now constructor|]. split; [cbn [flat_map]; now rewrite <- app_assoc|]. split; [|exact S].
    cbn [map]. change (range_in x :: map range_in ms) with ([range_in x] ++ map range_in ms). rewrite app_assoc, <- RR. exact T.
  - rewrite (all_exc _ _ _ E1) in E. injection E as ->. destruct (region_said R data w w' HB HI Hc E1) as (m & T & S). exists [], data, m. cbn [map]. rewrite app_nil_r. auto.
Qed.

Lemma dump_said R data w w' : Forall byte data -> Inv R w -> zlen (w_ctx w) = 216 -> w_code w = 0 -> ref_dump (map Some data) w = Exc w' ->
  dump_complaint (ranges w) data (w_code w') (w_msg w').
Proof.
  intros HB HI HC Hc E. enough (exists m, dump_complaint (ranges w) data (w_code w') m /\ w_msg w' = firstn 1023 m) as (m & D & ->).
  { rewrite firstn_all2; [exact D|]. assert (forall s, (length (s2b s) <= 1023)%nat -> (length (s2b s) <= 1023)%nat) by auto.
    destruct D as [| | | | | | | |? ? ? ? ? ? ? ? ? ? ? ? [_ L1] [_ L2]]; try (apply Nat.leb_le; vm_compute; reflexivity). rewrite !app_length, L1, L2. apply Nat.leb_le. vm_compute. reflexivity. }
  destruct (head_said data w w' HB HC Hc E) as [D|(d & rest & V & EM & ->)]; [exact D|].
  rewrite map_app, head_run in E by assumption. apply Forall_app in HB as [_ HB].
  destruct (all_said R (S (length rest)) rest _ _ (Nat.lt_succ_diag_r _) HB (Inv_ctx _ _ _ HI) Hc E) as (ms & t & m & V2 & -> & T & S).
  exists m. split; [|exact S]. assert (VM : valid (with_mem d ms)) by now apply valid_with.
  assert (EE : forall x, enc_head d ++ flat_map enc_region ms ++ x = encode (with_mem d ms) ++ x) by (intro x; unfold encode; rewrite <- app_assoc; reflexivity).
  rewrite EE. clear - T VM. inversion T as [H1 H2|H|a e r c H H1 H2 H3]; subst.
  - eapply dc_header; eauto.
  - eapply dc_overflow; eauto.
  - unfold region_text. eapply dc_region; eauto; now apply shown8_fmt.
Qed.

(** Loading a binary dump, or a hex dump. *)
Lemma read_said k name text data w c w' : reachable w -> file_is w name text -> units k text = map Some data -> Forall byte data -> no_io_faults w -> ctx_sane w ->
  api (CrashCatcherDump_Read k name) w = Raised c w' -> dump_complaint (ranges w) data c (w_msg w').
Proof.
  intros HR HF HU HB HE HC H. destruct (reachable_inv _ HR) as (R & HI). pose proof (read_ref k name text w HF HE HC) as P. rewrite HU in P.
  pose proof (dump_said R data (set_exn w noException [])) as D.
  assert (BO : bytes_ok (map Some data)) by (unfold bytes_ok; rewrite Forall_map; exact HB).
  pose proof (dump_cases R (map Some data) (set_exn w noException []) BO (Inv_exn _ _ _ _ HI) HC eq_refl) as Q.
  destruct (ref_dump (map Some data) (set_exn w noException [])) as [[u us'] w1|w1|u]; [| |destruct Q].
  - destruct Q as (_ & _ & _ & _ & _ & C). destruct (P C) as (f' & P' & _). congruence.
  - destruct P as (f' & P' & _). rewrite P' in H. injection H as <- <-. exact (D w1 HB (Inv_exn _ _ _ _ HI) HC eq_refl eq_refl).
Qed.
