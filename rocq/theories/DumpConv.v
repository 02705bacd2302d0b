(** What the reference dump reader does on arbitrary input. *)
From Coq Require Import String ZArith List Bool Lia ZifyBool ZifyNat Permutation.
From Verif Require Import Base World Context MemSim Dump BaseLemmas MemSpec MemLemmas MemInv MemOps MemThms DumpSpec DumpRef DumpLemmas.
Import ListNotations.
Open Scope Z_scope.
Open Scope m_scope.

(** Every unit that is a byte at all is one. *)
Definition bytes_ok (us : stream) : Prop := Forall (fun u => match u with Some b => byte b | None => True end) us.

Lemma bytes_ok_split bs us : bytes_ok (map Some bs ++ us) -> Forall byte bs /\ bytes_ok us.
Proof.
  unfold bytes_ok. rewrite Forall_app, Forall_map. intros [H1 H2]. auto.
Qed.

Lemma put_ok off bs w : 0 <= off -> off + zlen bs <= zlen (w_ctx w) -> ctx_put off bs w = Ret tt (set_ctx w (splice (w_ctx w) off bs)).
Proof. intros H1 H2. unfold ctx_put. destruct (_ && _) eqn:Q; [reflexivity|lia]. Qed.

(** ** Decoding words *)

Fixpoint unwords (n : nat) (bs : list Z) : list Z :=
  match n with
  | O => []
  | S k => of_le (firstn 4 bs) :: unwords k (skipn 4 bs)
  end.

Lemma unwords_spec n : forall bs, length bs = (4 * n)%nat -> Forall byte bs ->
  words (unwords n bs) = bs /\ length (unwords n bs) = n /\ Forall u32 (unwords n bs).
Proof.
  induction n as [|n IH]; intros bs L HB.
  - destruct bs; [|cbn in L; lia]. repeat split. constructor.
  - destruct (cut 4 bs) as (a & b & -> & La); [lia|]. rewrite app_length in L. apply Forall_app in HB as [B1 B2].
    cbn [unwords]. rewrite firstn_app, La, Nat.sub_diag, firstn_O, app_nil_r, firstn_all2 by lia.
    rewrite skipn_app, La, Nat.sub_diag, skipn_O, skipn_all2 by lia. cbn [app].
    destruct (IH b) as (H1 & H2 & H3); [lia|exact B2|]. unfold words in *. cbn [flat_map length]. rewrite H1, H2.
    rewrite <- La at 1. rewrite le_of_le by exact B1. repeat split. constructor; [|exact H3].
    pose proof (of_le_range a B1) as Hr. unfold zlen in Hr. rewrite La in Hr. exact Hr.
Qed.

Lemma word_of bs : length bs = 4%nat -> Forall byte bs -> le 4 (of_le bs) = bs /\ u32 (of_le bs).
Proof.
  intros L B. split; [rewrite <- L; now apply le_of_le|]. pose proof (of_le_range bs B) as Hr. unfold zlen in Hr. rewrite L in Hr. exact Hr.
Qed.

(** ** The header *)

(** Failed in the header: only the register context has changed. *)
Definition head_fail (w w' : world) : Prop :=
  exists c m, w' = set_exn (set_ctx w c) fileFormatException m /\ zlen c = 216.

Lemma fail_ctx w c w' : zlen c = 216 -> head_fail (set_ctx w c) w' -> head_fail w w'.
Proof. intros H (c1 & m & -> & L). exists c1, m. split; [destruct w; reflexivity|exact L]. Qed.

Lemma fail_throw_msg A w m : zlen (w_ctx w) = 216 -> w_code w = 0 ->
  exists w', (throw_msg fileFormatException m : M world A) w = Exc w' /\ head_fail w w'.
Proof.
  intros H C. unfold throw_msg, throw. eexists. split; [reflexivity|]. exists (w_ctx w), (firstn 1023 m). split; [|exact H].
  cbn [w_code w_msg set_exn]. rewrite C. destruct w; reflexivity.
Qed.

Definition room_in (d : dest) (n : nat) : Prop := match d with Local => True | Ctx off => 0 <= off /\ off + Z.of_nat n <= 216 end.
Definition stored (d : dest) (w : world) (bs : list Z) : world := match d with Local => w | Ctx off => set_ctx w (splice (w_ctx w) off bs) end.

Lemma stored_ok d n bs w : room_in d n -> (length bs <= n)%nat -> zlen (w_ctx w) = 216 ->
  store_dest d 0 bs w = Ret tt (stored d w bs) /\ zlen (w_ctx (stored d w bs)) = 216.
Proof.
  intros Hr L C. destruct d as [|off]; cbn [store_dest stored room_in] in *; [auto|]. rewrite Z.add_0_r.
  rewrite put_ok by (unfold zlen in *; lia). split; [reflexivity|]. cbn [w_ctx set_ctx]. rewrite splice_zlen; unfold zlen in *; lia.
Qed.

Lemma field_cases {A} d n us w msg (g : list Z * stream -> M world A) :
  room_in d n -> zlen (w_ctx w) = 216 -> w_code w = 0 ->
  (exists bs us', us = map Some bs ++ us' /\ length bs = n /\
     bind (ref_read d n us) (fun p => if negb (Nat.eqb (length (fst p)) n) then throw_msg fileFormatException msg else g p) w = g (bs, us') (stored d w bs)) \/
  (exists w', bind (ref_read d n us) (fun p => if negb (Nat.eqb (length (fst p)) n) then throw_msg fileFormatException msg else g p) w = Exc w' /\ head_fail w w').
Proof.
  intros Hr HC Hc. unfold ref_read. destruct (scan (firstn n us)) as [bs ok] eqn:S.
  assert (L : (length bs <= n)%nat).
  { pose proof (scan_length (firstn n us)) as L. rewrite S in L. cbn in L. rewrite firstn_length in L. lia. }
  destruct (stored_ok d n bs w Hr L HC) as (E1 & L1).
  assert (HF : forall w', head_fail (stored d w bs) w' -> head_fail w w').
  { intros w' H. destruct d as [|off]; [exact H|]. eapply fail_ctx; [|exact H]. exact L1. }
  assert (C1 : w_code (stored d w bs) = 0) by (destruct d; exact Hc).
  unfold bind at 1 3. unfold bind at 1 2. rewrite E1. destruct ok.
  - unfold ret. cbn [fst]. apply scan_true in S. destruct (Nat.eqb_spec (length bs) n) as [Ln|Ln]; cbn [negb].
    + left. exists bs, (skipn n us). split; [rewrite <- S; symmetry; apply firstn_skipn|]. auto.
    + right. destruct (fail_throw_msg A _ msg L1 C1) as (w' & E & H). exists w'. auto.
  - right. unfold throw. eexists. split; [reflexivity|]. apply HF. exists (w_ctx (stored d w bs)), (w_msg (stored d w bs)).
    split; [|exact L1]. rewrite C1. destruct d; destruct w; reflexivity.
Qed.

Lemma firstn_splice {A} (l bs : list A) off k : (k <= Z.to_nat off)%nat -> (k <= length l)%nat -> firstn k (splice l off bs) = firstn k l.
Proof.
  intros H1 H2. unfold splice. rewrite firstn_app, firstn_firstn, firstn_length.
  replace (k - Nat.min (Z.to_nat off) (length l))%nat with 0%nat by lia. rewrite firstn_O, app_nil_r. f_equal. lia.
Qed.

Lemma bind_fail {A B} (m : M world A) (g : A -> M world B) w w' : m w = Exc w' -> bind m g w = Exc w'.
Proof. intro H. unfold bind. now rewrite H. Qed.

Lemma code_ctx w c : w_code (set_ctx w c) = w_code w.
Proof. reflexivity. Qed.

Lemma head_cases us w :
  bytes_ok us -> zlen (w_ctx w) = 216 -> w_code w = 0 ->
  (exists d us', valid d /\ d_mem d = [] /\ us = map Some (enc_head d) ++ us') \/
  (exists w', ref_dump us w = Exc w' /\ head_fail w w').
Proof.
  intros HB HC Hc. unfold ref_dump.
  (* signature *)
  assert (ES : (exists v2 us1, us = map Some (s2b "cC" ++ (if v2 : bool then [2; 0] else [3; 0])) ++ us1 /\ ref_signature us w = Ret (v2, us1) w) \/
               (exists w', ref_signature us w = Exc w' /\ head_fail w w')).
  { pose proof (field_cases Local 4 us w (s2b "The dump file was too short to contain the 4-byte signature.")
      (fun p => if bytes_eqb (fst p) [SIGNATURE_BYTE0; SIGNATURE_BYTE1; VERSION_MAJOR; VERSION_MINOR] then ret (false, snd p)
                else if bytes_eqb (fst p) [SIGNATURE_BYTE0; SIGNATURE_BYTE1; 2; 0] then ret (true, snd p)
                else throw_msg fileFormatException (s2b "The dump file didn't start with the expected 4-byte signature."))
      I HC Hc) as [(bs & us1 & E & L & R)|(w' & R & F)].
    - cbn [stored fst snd] in R.
      assert (R' : ref_signature us w = (if bytes_eqb bs [SIGNATURE_BYTE0; SIGNATURE_BYTE1; VERSION_MAJOR; VERSION_MINOR] then ret (false, us1)
                else if bytes_eqb bs [SIGNATURE_BYTE0; SIGNATURE_BYTE1; 2; 0] then ret (true, us1)
                else throw_msg fileFormatException (s2b "The dump file didn't start with the expected 4-byte signature.")) w).
      { rewrite <- R. unfold ref_signature, bind. destruct (ref_read Local 4 us w) as [[x y] z| |]; reflexivity. }
      rewrite R'. destruct (bytes_eqb bs _) eqn:Q1.
      + left. exists false, us1. apply bytes_eqb_eq in Q1. subst bs. split; [exact E|reflexivity].
      + destruct (bytes_eqb bs [SIGNATURE_BYTE0; SIGNATURE_BYTE1; 2; 0]) eqn:Q2.
        * left. exists true, us1. apply bytes_eqb_eq in Q2. subst bs. split; [exact E|reflexivity].
        * right. now apply fail_throw_msg.
    - right. exists w'. split; [|exact F]. rewrite <- R. unfold ref_signature, bind. destruct (ref_read Local 4 us w) as [[x y] z| |]; reflexivity. }
  destruct ES as [(v2 & us1 & -> & ES)|(w' & ES & F)]; [|right; exists w'; split; [now apply bind_fail|exact F]].
  apply bytes_ok_split in HB as [_ HB].
  (* flags *)
  assert (EF : (exists bs us2, us1 = map Some bs ++ us2 /\ length bs = 4%nat /\ ref_flags us1 w = Ret (tt, us2) (stored (Ctx 0) w bs)) \/
               (exists w', ref_flags us1 w = Exc w' /\ head_fail w w')).
  { unfold ref_flags. destruct (field_cases (Ctx OFF_FLAGS) 4 us1 w (s2b "The dump file was too short to contain the flags.") (fun p => ret (tt, snd p)))
      as [(bs & us2 & E & L & R)|(w' & R & F)]; [unfold room_in, OFF_FLAGS; lia|exact HC|exact Hc| |].
    - left. exists bs, us2. split; [exact E|]. split; [exact L|]. exact R.
    - right. exists w'. auto. }
  destruct EF as [(fl & us2 & -> & Lfl & EF)|(w' & EF & F)];
    [|right; exists w'; split; [|exact F]; unfold bind at 1; rewrite ES; cbn [fst snd]; now apply bind_fail].
  apply bytes_ok_split in HB as [Bfl HB]. cbn [stored] in EF. set (w2 := set_ctx w (splice (w_ctx w) 0 fl)) in *.
  assert (HC2 : zlen (w_ctx w2) = 216) by (unfold w2; cbn [w_ctx set_ctx]; rewrite splice_zlen; unfold zlen in *; lia).
  assert (F2 : firstn 4 (w_ctx w2) = fl).
  { unfold w2, splice. cbn [w_ctx set_ctx]. change (Z.to_nat 0) with 0%nat. rewrite (firstn_O (w_ctx w)). cbn [app]. rewrite firstn_app, Lfl, Nat.sub_diag, firstn_O, app_nil_r. apply firstn_all2. lia. }
  assert (UP2 : forall w', head_fail w2 w' -> head_fail w w') by (intros w' H; eapply fail_ctx; [|exact H]; exact HC2).
  (* integer registers *)
  set (size := if v2 then 68%nat else 76%nat).
  assert (EI : (exists rg ps us3 w3, us2 = map Some rg ++ map Some ps ++ us3 /\ length rg = size /\ length ps = 4%nat /\
                 ref_integer v2 us2 w2 = Ret (tt, us3) w3 /\ (exists c, w3 = set_ctx w c /\ zlen c = 216 /\ firstn 4 c = fl)) \/
               (exists w', ref_integer v2 us2 w2 = Exc w' /\ head_fail w w')).
  { unfold ref_integer. fold size. cbv zeta.
    assert (EB : exists c, (if v2 then ctx_put (OFF_R MSP) (le 4 DEFAULT_SP_VALUE);;; ctx_put (OFF_R PSP) (le 4 DEFAULT_SP_VALUE) else ret tt) w2 =
                   Ret tt (set_ctx w c) /\ zlen c = 216 /\ firstn 4 c = fl).
    { unfold w2 in *. cbn [w_ctx set_ctx] in *. destruct v2.
      - unfold bind. rewrite put_ok by (cbn [w_ctx set_ctx]; rewrite ?le_zlen; unfold OFF_R, MSP; lia). cbn [w_ctx set_ctx].
        assert (X : zlen (splice (splice (w_ctx w) 0 fl) (OFF_R MSP) (le 4 DEFAULT_SP_VALUE)) = 216)
          by (rewrite splice_zlen; rewrite ?le_zlen; unfold OFF_R, MSP; lia).
        rewrite put_ok by (cbn [w_ctx set_ctx]; rewrite ?le_zlen, ?X; unfold OFF_R, MSP, PSP; lia). eexists. split; [reflexivity|].
        cbn [w_ctx set_ctx]. split; [rewrite splice_zlen; rewrite ?le_zlen, ?X; unfold OFF_R, PSP; lia|].
        rewrite firstn_splice by (unfold zlen in X; unfold OFF_R, PSP, MSP in *; lia). rewrite firstn_splice by (unfold zlen in HC2; unfold OFF_R, MSP; lia). exact F2.
      - eexists. split; [reflexivity|]. auto. }
    destruct EB as (c & EB & Lc & Fc).
    destruct (field_cases (Ctx (OFF_R 0)) size us2 (set_ctx w c) (s2b "The dump file was too short to contain the integer registers.")
        (fun p => q <- ref_read (Ctx OFF_PSR) 4 (snd p);;
           if negb (Nat.eqb (length (fst q)) 4) then too_short "The dump file was too short to contain the exception PSR." else ret (tt, snd q)))
      as [(rg & us3 & -> & Lr & R)|(w' & R & F)]; [unfold room_in, OFF_R, size; destruct v2; lia|exact Lc|exact Hc| |].
    - cbn [stored snd w_ctx set_ctx] in R.
      assert (Lc' : zlen (splice c (OFF_R 0) rg) = 216) by (rewrite splice_zlen; unfold zlen in *; unfold OFF_R, size in *; destruct v2; lia).
      assert (Fc' : firstn 4 (splice c (OFF_R 0) rg) = fl) by (rewrite firstn_splice; [exact Fc|unfold OFF_R; lia|unfold zlen in Lc; lia]).
      destruct (field_cases (Ctx OFF_PSR) 4 us3 (set_ctx w (splice c (OFF_R 0) rg)) (s2b "The dump file was too short to contain the exception PSR.")
        (fun q => ret (tt, snd q))) as [(ps & us4 & -> & Lp & R2)|(w' & R2 & F)]; [unfold room_in, OFF_PSR; lia|exact Lc'|exact Hc| |].
      + left. exists rg, ps, us4, (set_ctx w (splice (splice c (OFF_R 0) rg) OFF_PSR ps)). split; [reflexivity|]. split; [exact Lr|]. split; [exact Lp|].
        split.
        * unfold bind at 1. rewrite EB. etransitivity; [exact R|]. exact R2.
        * eexists. split; [reflexivity|]. split; [rewrite splice_zlen; unfold zlen in *; unfold OFF_PSR; lia|].
          rewrite firstn_splice; [exact Fc'|unfold OFF_PSR; lia|unfold zlen in Lc'; lia].
      + right. exists w'. split; [unfold bind at 1; rewrite EB; etransitivity; [exact R|exact R2]|]. eapply fail_ctx; [|exact F]. exact Lc'.
    - right. exists w'. split; [unfold bind at 1; rewrite EB; exact R|]. eapply fail_ctx; [|exact F]. exact Lc. }
  destruct EI as [(rg & ps & us3 & w3 & -> & Lr & Lp & EI & c3 & E3 & L3 & F3)|(w' & EI & F)];
    [|right; exists w'; split; [|exact F]; unfold bind at 1; rewrite ES; cbn [fst snd]; unfold bind at 1; rewrite EF; cbn [fst snd]; now apply bind_fail].
  apply bytes_ok_split in HB as [Brg HB]. apply bytes_ok_split in HB as [Bps HB].
  destruct (word_of fl Lfl Bfl) as (Wf1 & Wf2). destruct (word_of ps Lp Bps) as (Wp1 & Wp2).
  destruct (unwords_spec (if v2 then 17 else 19) rg) as (Wr1 & Wr2 & Wr3); [rewrite Lr; unfold size; destruct v2; reflexivity|exact Brg|].
  (* floating point *)
  assert (EW : ctx_word OFF_FLAGS w3 = Ret (of_le fl) w3).
  { rewrite E3. unfold ctx_word. cbn [w_ctx set_ctx]. unfold OFF_FLAGS. replace ((0 <=? 0) && (0 + 4 <=? zlen c3)) with true by lia.
    unfold slice. change (Z.to_nat 0) with 0%nat. change (Z.to_nat 4) with 4%nat. rewrite skipn_O, F3. reflexivity. }
  destruct (Z.odd (of_le fl)) eqn:ODD.
  - assert (EP : (exists fp us4, us3 = map Some fp ++ us4 /\ length fp = 132%nat) \/ (exists w', ref_fp us3 w3 = Exc w' /\ head_fail w w')).
    { destruct (field_cases (Ctx (OFF_FPR 0)) 132 us3 w3 (s2b "The dump file was too short to contain the floating point registers.") (fun p => ret (tt, snd p)))
        as [(fp & us4 & E & L & R)|(w' & R & F)]; [unfold room_in, OFF_FPR; lia|rewrite E3; exact L3|rewrite E3; exact Hc|left; eauto|].
      right. exists w'. split; [|eapply fail_ctx; [exact L3|]; rewrite <- E3; exact F]. unfold ref_fp, bind at 1. rewrite EW.
      unfold CRASH_CATCHER_FLAGS_FLOATING_POINT. rewrite odd_land, ODD. exact R. }
    destruct EP as [(fp & us4 & -> & Lf)|(w' & EP & F)].
    + left. apply bytes_ok_split in HB as [Bfp HB]. destruct (unwords_spec 33 fp) as (Wx1 & Wx2 & Wx3); [exact Lf|exact Bfp|].
      exists (mkDump v2 (of_le fl) (unwords (if v2 then 17 else 19) rg) (of_le ps) (unwords 33 fp) []), us4.
      split; [|split; [reflexivity|]].
      * unfold valid, has_fp. cbn [d_v2 d_flags d_regs d_psr d_fp d_mem]. rewrite ODD. auto 10.
      * unfold enc_head. cbn [d_v2 d_flags d_regs d_psr d_fp d_mem]. rewrite Wf1, Wp1, Wr1, Wx1. rewrite !map_app, <- !app_assoc. reflexivity.
    + right. exists w'. split; [|exact F]. unfold bind at 1; rewrite ES; cbn [fst snd]; unfold bind at 1; rewrite EF; cbn [fst snd].
      unfold bind at 1. rewrite EI. cbn [fst snd]. now apply bind_fail.
  - left. exists (mkDump v2 (of_le fl) (unwords (if v2 then 17 else 19) rg) (of_le ps) [] []), us3.
    split; [|split; [reflexivity|]].
    + unfold valid, has_fp. cbn [d_v2 d_flags d_regs d_psr d_fp d_mem]. rewrite ODD. auto 10.
    + unfold enc_head. cbn [d_v2 d_flags d_regs d_psr d_fp d_mem]. rewrite Wf1, Wp1, Wr1. rewrite !map_app, <- !app_assoc. reflexivity.
Qed.

(** ** Regions *)

Lemma write8_post R a b w : Inv R w -> u32 a ->
  post (write8 a b) w (fun _ w' => Inv R w' /\ frame w w' /\ w_code w' = w_code w)
                      (fun w' => Inv R w' /\ frame w w' /\ w_code w' = Z.max busErrorException (w_code w)).
Proof.
  intros HI Ha. pose proof (writeN_keeps R 1 a b w HI Ha) as K. unfold keeps, post, write8 in *.
  assert (HW : width 1) by (unfold width; auto). specialize (K HW).
  rewrite writeN_wf in * by (apply HI || assumption). destruct (find_from _ _ _ _) as [[j a']|]; [|destruct K; auto].
  destruct (nth_error _ _) as [r|]; [|exact K]. cbv zeta in *. destruct (r_ro r); [destruct K; auto|].
  pose proof (scan_writing (r_wps r) a' (W (a' + 1)) 1 (m_hits (w_mem w))) as B.
  destruct (scan_wps _ _ _ _ _ _) as [h brk]. cbn [snd] in B. subst brk. destruct K; auto.
Qed.

Lemma bytes_cases R us : forall a count w, bytes_ok us -> Inv R w -> u32 a -> 0 <= count -> w_code w = 0 ->
  match ref_bytes us a count w with
  | Ret (_, us') w' => (exists bs, us = map Some bs ++ us' /\ zlen bs = count) /\ Inv R w' /\ frame w w' /\ w_code w' = 0
  | Exc w' => Inv R w' /\ frame w w' /\ (w_code w' = fileFormatException \/ w_code w' = busErrorException)
  | Ub _ => False
  end.
Proof.
  induction us as [|[b|] us IH]; intros a count w HB HI Ha Hn Hc; cbn [ref_bytes]; destruct (count <=? 0) eqn:Q.
  1, 3, 5: unfold ret; split; [exists []; split; [reflexivity|rewrite zlen_nil; lia]|auto using frame_refl].
  - unfold throw. split; [now apply Inv_exn|]. split; [apply frame_exn|]. left. cbn [w_code set_exn]. rewrite Hc. reflexivity.
  - inversion HB as [|? ? B1 B2]; subst. unfold bind. pose proof (write8_post R a b w HI Ha) as P. unfold post in P.
    destruct (write8 a b w) as [[] w1|w1|]; [| |exact P].
    + destruct P as (I1 & F1 & C1). rewrite Hc in C1. specialize (IH (W (a + 1)) (count - 1) w1 B2 I1 (W_range _)).
      destruct (ref_bytes us (W (a + 1)) (count - 1) w1) as [[x us2] w2|w2|]; [| |apply IH; lia].
      * destruct IH as ((bs & -> & L) & I2 & F2 & C2); [lia|exact C1|]. split; [exists (b :: bs); split; [reflexivity|rewrite zlen_cons; lia]|].
        split; [exact I2|]. split; [eapply frame_trans; eauto|exact C2].
      * destruct IH as (I2 & F2 & C2); [lia|exact C1|]. split; [exact I2|]. split; [eapply frame_trans; eauto|exact C2].
    + destruct P as (I1 & F1 & C1). split; [exact I1|]. split; [exact F1|]. right. rewrite C1, Hc. reflexivity.
  - unfold throw. split; [now apply Inv_exn|]. split; [apply frame_exn|]. left. cbn [w_code set_exn]. rewrite Hc. reflexivity.
Qed.

Definition read_errors (c : Z) : Prop := c = fileFormatException \/ c = busErrorException \/ c = outOfMemoryException.

Lemma body_cases R start end_ us w : bytes_ok us -> Inv R w -> u32 start -> u32 end_ ->
  match region_body start end_ us w with
  | Ret (eof, us') w' => eof = false /\ (exists bs, us = map Some bs ++ us' /\ zlen bs = W (end_ - start)) /\ Inv R w' /\ frame w w' /\ w_code w' = 0
  | Exc w' => Inv R w' /\ frame w w' /\ read_errors (w_code w')
  | Ub _ => False
  end.
Proof.
  intros HB HI Hs He. unfold region_body, bind at 1, try_, bind, lift, setl. cbn [fst snd].
  pose proof (W_range (end_ - start)) as HW.
  pose proof (CreateRegion_post start (W (end_ - start)) R (set_exn w noException []) (Inv_exn _ _ _ _ HI)) as P. unfold post in P.
  destruct (MemorySim_CreateRegion start (W (end_ - start)) (set_exn w noException [])) as [[] w1|w1|]; [| |apply P; assumption].
  - destruct P as (I1 & F1 & _ & C1 & _); [assumption|assumption|].
    assert (F0 : frame w w1) by (eapply frame_trans; [apply (frame_exn w noException [])|exact F1]).
    pose proof (bytes_cases R us start (W (end_ - start)) w1 HB I1 Hs) as P. 
    destruct (ref_bytes us start (W (end_ - start)) w1) as [[x us2] w2|w2|]; [| |apply P; unfold u32 in *; lia].
    + destruct P as (P1 & I2 & F2 & C2); [unfold u32 in *; lia|exact C1|]. cbn [fst snd]. rewrite C2. cbn [Z.eqb]. unfold ret.
      split; [reflexivity|]. split; [exact P1|]. split; [exact I2|]. split; [eapply frame_trans; eauto|exact C2].
    + destruct P as (I2 & F2 & C2); [unfold u32 in *; lia|exact C1|]. cbn [fst snd].
      destruct (w_code w2 =? 0) eqn:Q; [destruct C2 as [C2|C2]; rewrite C2 in Q; discriminate|].
      unfold getExceptionCode, throw_msg, throw. split; [now do 2 apply Inv_exn|].
      split; [eapply frame_trans; [exact F0|]; eapply frame_trans; [exact F2|]; repeat split|].
      cbn [w_code set_exn]. rewrite Z.max_id. unfold read_errors. tauto.
  - destruct P as (I1 & F1 & _ & C1 & _); [assumption|assumption|]. cbn [fst snd]. rewrite C1. change (outOfMemoryException =? 0) with false. cbv iota.
    unfold getExceptionCode, throw_msg, throw. split; [now do 2 apply Inv_exn|].
    split; [eapply frame_trans; [apply (frame_exn w noException [])|]; eapply frame_trans; [exact F1|]; repeat split|].
    cbn [w_code set_exn]. rewrite C1. unfold read_errors. auto.
Qed.

Lemma region_cases R us w : bytes_ok us -> Inv R w -> w_code w = 0 ->
  match ref_region us w with
  | Ret (true, us') w' => us = [] /\ us' = [] /\ w' = w
  | Ret (false, us') w' => (exists x, valid_region x /\ us = map Some (enc_region x) ++ us') /\ Inv R w' /\ frame w w' /\ w_code w' = 0
  | Exc w' => Inv R w' /\ frame w w' /\
              ((us = map Some overflow_mark /\ w_code w' = stackOverflowException) \/
               (us <> [] /\ us <> map Some overflow_mark /\ read_errors (w_code w')))
  | Ub _ => False
  end.
Proof.
  intros HB HI Hc. destruct (scan (firstn 8 us)) as [bs ok] eqn:S. destruct ok.
  - apply scan_true in S. assert (E : us = map Some bs ++ skipn 8 us) by (rewrite <- S; symmetry; apply firstn_skipn).
    assert (L : (length bs <= 8)%nat) by (rewrite <- (map_length Some bs), <- S, firstn_length; lia).
    destruct (Nat.eq_dec (length bs) 8) as [L8|L8].
    + destruct (cut 4 bs) as (a & e & -> & La); [lia|]. rewrite app_length in L8. assert (Le : length e = 4%nat) by lia.
      set (us1 := skipn 8 us) in *. clearbody us1. subst us. apply bytes_ok_split in HB as [B1 B2]. apply Forall_app in B1 as [Ba Be].
      destruct (word_of a La Ba) as (Wa1 & Wa2). destruct (word_of e Le Be) as (We1 & We2).
      rewrite <- Wa1, <- We1. rewrite region_header_run. rewrite (W_id (of_le a)), (W_id (of_le e)) by assumption.
      pose proof (body_cases R (of_le a) (of_le e) us1 w B2 HI Wa2 We2) as P.
      destruct (region_body (of_le a) (of_le e) us1 w) as [[eof us2] w2|w2|]; [| |exact P].
      * destruct P as (-> & (bs & -> & Lb) & P). split; [|exact P]. apply bytes_ok_split in B2 as [Bb _].
        exists (of_le a, bs). split.
        -- split; [exact Wa2|]. split; [|exact Bb]. cbn [snd]. rewrite Lb. apply W_range.
        -- unfold enc_region. cbn [fst snd]. rewrite Lb. rewrite !map_app, <- !app_assoc. do 2 f_equal. f_equal.
           apply of_le_inj; rewrite ?le_length; auto using le_bytes. rewrite !W_of_le4, W_add_r. f_equal. lia.
      * destruct P as (I2 & F2 & C2). split; [exact I2|]. split; [exact F2|]. right. split; [discriminate|]. split; [|exact C2].
        intro X. apply (f_equal (@length _)) in X. rewrite !app_length, !map_length, !app_length, !le_length in X. cbn in X. lia.
    + assert (E' : us = map Some bs).
      { rewrite E, skipn_all2, app_nil_r; [reflexivity|]. apply (f_equal (@length _)) in S. rewrite firstn_length, map_length in S. lia. }
      subst us. clear E S. destruct bs as [|b0 t0]; [cbn; auto|].
      destruct (header_short R (b0 :: t0) w HI Hc) as (w' & c & R1 & (F1 & F2 & F3) & F4); [discriminate|lia|]. rewrite R1. split; [exact F1|]. split; [exact F2|].
      rewrite F3, F4. destruct (Nat.eqb (length (b0 :: t0)) 4 && (of_le (b0 :: t0) =? STACK_SENTINEL)) eqn:Q.
      * left. split; [|reflexivity]. apply andb_true_iff in Q as [Q1 Q2]. f_equal. apply of_le_inj.
        -- apply Nat.eqb_eq in Q1. rewrite Q1. reflexivity.
        -- rewrite <- (app_nil_r (map Some _)) in HB. now apply bytes_ok_split in HB as [HB _].
        -- unfold overflow_mark, byte. repeat constructor; lia.
        -- apply Z.eqb_eq in Q2. rewrite Q2. reflexivity.
      * right. split; [discriminate|]. split; [|unfold read_errors; auto]. intro X. apply (f_equal (map (fun o => match o with Some x => x | None => 0 end))) in X.
        rewrite !map_map, !map_id in X. rewrite X in Q. discriminate Q.
  - assert (X : exists v, ref_region us w = Exc (set_exn w fileFormatException v)).
    { unfold ref_region, bind at 1, ref_read. rewrite S. unfold bind, store_dest, ret, throw. rewrite Hc. eauto. }
    destruct X as (v & ->). split; [now apply Inv_exn|]. split; [apply frame_exn|]. right. split; [intros ->; discriminate S|].
    split; [intros ->; discriminate S|]. unfold read_errors. auto.
Qed.

Lemma all_cases R : forall n us w, (length us < n)%nat -> bytes_ok us -> Inv R w -> w_code w = 0 ->
  match ref_all us w with
  | Ret (_, us') w' => (exists ms, Forall valid_region ms /\ us = map Some (flat_map enc_region ms)) /\ us' = [] /\ Inv R w' /\ frame w w' /\ w_code w' = 0
  | Exc w' => Inv R w' /\ frame w w' /\
              ((exists ms, Forall valid_region ms /\ us = map Some (flat_map enc_region ms ++ overflow_mark)) /\ w_code w' = stackOverflowException \/
               read_errors (w_code w'))
  | Ub _ => False
  end.
Proof.
  induction n as [|n IH]; intros us w L HB HI Hc; [lia|]. pose proof (region_cases R us w HB HI Hc) as P.
  destruct (ref_region us w) as [[[|] us1] w1|w1|] eqn:E; [| | |destruct P].
  - destruct P as (-> & -> & ->). cbn. split; [exists []; split; [constructor|reflexivity]|]. auto using frame_refl.
  - destruct P as ((x & V & ->) & I1 & F1 & C1). pose proof (region_consumes _ _ _ _ E) as L1. rewrite (all_step _ _ _ _ E).
    specialize (IH us1 w1). apply bytes_ok_split in HB as [_ HB]. 
    destruct (ref_all us1 w1) as [[u us2] w2|w2|]; [| |apply IH; auto; lia].
    + destruct IH as ((ms & V2 & ->) & E2 & I2 & F2 & C2); [lia|exact HB|exact I1|exact C1|]. split; [|split; [exact E2|split; [exact I2|split; [eapply frame_trans; eauto|exact C2]]]].
      exists (x :: ms). split; [constructor; assumption|]. cbn [flat_map]. rewrite map_app. reflexivity.
    + destruct IH as (I2 & F2 & C2); [lia|exact HB|exact I1|exact C1|]. split; [exact I2|]. split; [eapply frame_trans; eauto|].
      destruct C2 as [((ms & V2 & ->) & C2)|C2]; [left|now right]. split; [|exact C2]. exists (x :: ms). split; [constructor; assumption|].
      cbn [flat_map]. rewrite !map_app, <- app_assoc. reflexivity.
  - destruct P as (I1 & F1 & C1). rewrite (all_exc _ _ _ E). split; [exact I1|]. split; [exact F1|].
    destruct C1 as [(-> & C1)|(_ & _ & C1)]; [left|now right]. split; [|exact C1]. exists []. split; [constructor|reflexivity].
Qed.

(** The whole dump. *)
Lemma valid_with d ms : valid d -> Forall valid_region ms -> valid (with_mem d ms).
Proof. intros (H1 & H2 & H3 & H4 & H5) V. repeat split; try apply H1; try apply H2; try apply H3; try apply H4; exact V. Qed.

(** Same but for memory, heap, context and exception. *)
Definition outer (w w' : world) : Prop :=
  w_files w' = w_files w /\ w_err w' = w_err w /\ w_faults w' = w_faults w /\ w_gdb w' = w_gdb w /\ w_con w' = w_con w /\ w_env w' = w_env w.
Lemma frame_outer w w' : frame w w' -> outer w w'.
Proof. unfold frame, outer. tauto. Qed.
Lemma outer_refl w : outer w w.
Proof. repeat split. Qed.
Lemma outer_trans a b c : outer a b -> outer b c -> outer a c.
Proof. unfold outer. intuition congruence. Qed.

Lemma Inv_ctx R w c : Inv R w -> Inv R (set_ctx w c).
Proof. destruct w. exact (fun H => H). Qed.

Lemma context_length d old : valid d -> zlen old = 216 -> zlen (context d old) = 216.
Proof.
  intros (_ & (_ & L1) & _ & (_ & L2) & _) H. unfold context, zlen in *. rewrite !app_length, !le_length, !words_length, L1.
  destruct (d_v2 d); destruct (has_fp d); rewrite ?words_length, ?L2, ?skipn_length; cbn [length]; lia.
Qed.

Lemma dump_cases R us w : bytes_ok us -> Inv R w -> zlen (w_ctx w) = 216 -> w_code w = 0 ->
  match ref_dump us w with
  | Ret (_, us') w' => (exists d, valid d /\ us = map Some (encode d)) /\ us' = [] /\ Inv R w' /\ outer w w' /\ zlen (w_ctx w') = 216 /\ w_code w' = 0
  | Exc w' => Inv R w' /\ outer w w' /\ zlen (w_ctx w') = 216 /\
              ((exists d, valid d /\ us = map Some (encode d ++ overflow_mark)) /\ w_code w' = stackOverflowException \/
               read_errors (w_code w'))
  | Ub _ => False
  end.
Proof.
  intros HB HI HC Hc. destruct (head_cases us w HB HC Hc) as [(d & us1 & V & M & ->)|(w' & E & c & m & -> & L)].
  - rewrite head_run by assumption. apply bytes_ok_split in HB as [_ HB]. set (w1 := set_ctx w (context d (w_ctx w))).
    pose proof (all_cases R (S (length us1)) us1 w1 (Nat.lt_succ_diag_r _) HB (Inv_ctx _ _ _ HI) Hc) as P.
    assert (CL : zlen (w_ctx w1) = 216) by (apply context_length; assumption).
    assert (OU : outer w w1) by (unfold w1; destruct w; repeat split).
    destruct (ref_all us1 w1) as [[u us2] w2|w2|]; [| |exact P].
    + destruct P as ((ms & V2 & ->) & E2 & I2 & F2 & C2). split; [|split; [exact E2|split; [exact I2|]]].
      * exists (with_mem d ms). split; [now apply valid_with|]. unfold encode. cbn [with_mem d_mem]. rewrite map_app. reflexivity.
      * split; [eapply outer_trans; [exact OU|now apply frame_outer]|]. split; [|exact C2]. destruct F2 as (_ & -> & _). exact CL.
    + destruct P as (I2 & F2 & C2). split; [exact I2|]. split; [eapply outer_trans; [exact OU|now apply frame_outer]|].
      split; [destruct F2 as (_ & -> & _); exact CL|]. destruct C2 as [((ms & V2 & ->) & C2)|C2]; [left|now right].
      split; [|exact C2]. exists (with_mem d ms). split; [now apply valid_with|]. unfold encode. cbn [with_mem d_mem].
      rewrite !map_app, <- !app_assoc. reflexivity.
  - rewrite E. split; [apply Inv_exn; now apply Inv_ctx|]. split; [destruct w; repeat split|]. split; [exact L|]. right. unfold read_errors. auto.
Qed.
