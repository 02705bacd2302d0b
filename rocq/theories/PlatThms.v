(** Theorems about single calls of the platform layer and about sessions. *)
From Coq Require Import String ZArith List Bool Lia ZifyBool ZifyNat Permutation.
From Verif Require Import Base World Context MemSim CmdLine Platform Comm BaseLemmas MemSpec Sat MemLemmas MemInv MemOps MemOps2 MemOps3 MemHist MemHist2 MemThms MemThms2 TextLemmas MemThms3 DumpSpec DumpRef DumpLemmas DumpConv DumpThms DumpSafe CmdSpec CmdThms CmdSafe PlatSpec PlatInit.
Import ListNotations.
Open Scope Z_scope.
Open Scope m_scope.

Lemma exn_exn w c m d n : set_exn (set_exn w c m) d n = set_exn w d n.
Proof. reflexivity. Qed.
Lemma W_u32 a : u32 (W a).
Proof. unfold u32, W. lia. Qed.

(** ** Memory accesses *)

(** Successful accesses leave no exception code; no access crashes. *)
Lemma access_run R n a v w : Inv R w -> width n -> u32 a ->
  (match api (readN n a) w with Done _ w1 => w_code w1 = 0 /\ frame w w1 /\ Inv R w1 | Raised c w1 => c <> 0 /\ w_code w1 = c /\ frame w w1 /\ Inv R w1 | Crashed _ => False end) /\
  (match api (writeN n a v) w with Done _ w1 => w_code w1 = 0 /\ frame w w1 /\ Inv R w1 | Raised c w1 => c <> 0 /\ w_code w1 = c /\ frame w w1 /\ Inv R w1 | Crashed _ => False end).
Proof.
  intros HI Hn Ha.
  pose proof (readN_keeps R n a (set_exn w noException []) (Inv_exn _ _ _ _ HI) Ha Hn) as K1.
  pose proof (writeN_keeps R n a v (set_exn w noException []) (Inv_exn _ _ _ _ HI) Ha Hn) as K2.
  unfold keeps, post in *. unfold api. rewrite (readN_wf n a (set_exn w noException [])) in * by (try assumption; apply HI).
  rewrite (writeN_wf n a v (set_exn w noException [])) in * by (try assumption; apply HI).
  assert (FR : forall w1, frame (set_exn w noException []) w1 -> frame w w1) by (intros w1 H; exact H).
  split; [revert K1; clear K2|revert K2; clear K1].
  - destruct (find_from 0 _ a n) as [[j a']|]; [|intros [K1 K1']; split; [vm_compute; discriminate|auto]].
    destruct (nth_error _ j) as [r|]; [|intros []]. cbv zeta. destruct (scan_wps _ _ _ _ _ _) as [h []]; intros [K1 K1'].
    + split; [vm_compute; discriminate|auto].
    + auto.
  - destruct (find_from 0 _ a n) as [[j a']|]; [|intros [K2 K2']; split; [vm_compute; discriminate|auto]].
    destruct (nth_error _ j) as [r|]; [|intros []]. cbv zeta. destruct (r_ro r); [intros [K2 K2']; split; [vm_compute; discriminate|auto]|].
    destruct (scan_wps _ _ _ _ _ _) as [h []]; intros [K2 K2'].
    + split; [vm_compute; discriminate|auto].
    + auto.
Qed.

Lemma count_fault w : countFault w = if w_faults w <? 2147483647 then Ret tt (set_faults w (w_faults w + 1)) else Ub UbOverflow.
Proof. reflexivity. Qed.

Lemma memread_run R n a w : Inv R w -> width n ->
  api (Platform_MemRead n a) w =
  match api (readN n (W a)) w with
  | Done v w1 => Done v w1
  | Raised c w1 => if w_faults w <? 2147483647 then Done 0 (set_faults w1 (w_faults w + 1)) else Crashed UbOverflow
  | Crashed u => Crashed u
  end.
Proof.
  intros HI Hn. pose proof (proj1 (access_run R n (W a) 0 w HI Hn (W_u32 a))) as P. unfold api in *.
  unfold Platform_MemRead, try_, bind at 1. unfold lift. cbn [snd fst]. rewrite exn_exn.
  destruct (readN n (W a) (set_exn w noException [])) as [v w1|w1|u]; [| |reflexivity].
  - unfold setl. cbn [snd fst]. destruct P as (-> & _). reflexivity.
  - destruct P as (NZ & _ & F & _). replace (w_code w1 =? 0) with false by lia. unfold bind, ret. rewrite count_fault. destruct F as (_ & _ & _ & -> & _).
    destruct (_ <? _); reflexivity.
Qed.

Lemma memwrite_run R n a v w : Inv R w -> width n ->
  api (Platform_MemWrite n a v) w =
  match api (writeN n (W a) v) w with
  | Done u w1 => Done u w1
  | Raised c w1 => if w_faults w <? 2147483647 then Done tt (set_faults w1 (w_faults w + 1)) else Crashed UbOverflow
  | Crashed u => Crashed u
  end.
Proof.
  intros HI Hn. pose proof (proj2 (access_run R n (W a) v w HI Hn (W_u32 a))) as P. unfold api in *.
  unfold Platform_MemWrite. rewrite try0_eq, exn_exn.
  destruct (writeN n (W a) v (set_exn w noException [])) as [[] w1|w1|u]; [| |reflexivity].
  - destruct P as (-> & _). reflexivity.
  - destruct P as (NZ & _ & F & _). replace (w_code w1 =? 0) with false by lia. rewrite count_fault. destruct F as (_ & _ & _ & -> & _).
    destruct (_ <? _); reflexivity.
Qed.

(** ** Contexts *)

Lemma ctx_bytes_run off n w : 0 <= off -> off + n <= zlen (w_ctx w) -> ctx_bytes off n w = Ret (slice (w_ctx w) off n) w.
Proof. intros H1 H2. unfold ctx_bytes. replace ((0 <=? off) && (off + n <=? zlen (w_ctx w))) with true by lia. reflexivity. Qed.
Lemma ctx_word_run off w : 0 <= off -> off + 4 <= zlen (w_ctx w) -> ctx_word off w = Ret (word_at (w_ctx w) (Z.to_nat off)) w.
Proof. intros H1 H2. unfold ctx_word, word_at, slice. replace ((0 <=? off) && (off + 4 <=? zlen (w_ctx w))) with true by lia. reflexivity. Qed.
Lemma land_odd v : negb (Z.land v 1 =? 0) = Z.odd v.
Proof. change 1 with (Z.ones 1). rewrite Z.land_ones by lia. rewrite Zmod_odd. destruct (Z.odd v); reflexivity. Qed.
Lemma fpu_run w : zlen (w_ctx w) = 216 -> hasFPURegisters w = Ret (has_fpu (w_ctx w)) w.
Proof. intro H. unfold hasFPURegisters, bind. rewrite ctx_word_run by (unfold OFF_FLAGS; lia). unfold ret, CRASH_CATCHER_FLAGS_FLOATING_POINT, has_fpu. now rewrite land_odd. Qed.

Lemma hexL_digit d : 0 <= d < 16 -> hexL d = lower_digit d.
Proof.
  intro H. assert (C : forallb (fun n => hexL (Z.of_nat n) =? lower_digit (Z.of_nat n)) (seq 0 16) = true) by reflexivity.
  rewrite forallb_forall in C. specialize (C (Z.to_nat d)). rewrite Z2Nat.id in C by lia. apply Z.eqb_eq, C. apply in_seq. lia.
Qed.
Lemma write_hex bs : Forall byte bs -> writeBytesToBufferAsHex bs = hex_text bs.
Proof.
  induction 1 as [|b bs Hb H IH]; [reflexivity|]. cbn [writeBytesToBufferAsHex hex_text flat_map]. fold (hex_text bs). rewrite IH. unfold hexByte, byte in *.
  rewrite !hexL_digit by lia. reflexivity.
Qed.
Lemma hex_text_app a b : hex_text (a ++ b) = hex_text a ++ hex_text b.
Proof. unfold hex_text. apply flat_map_app. Qed.
Lemma hex_text_len bs : length (hex_text bs) = (2 * length bs)%nat.
Proof. induction bs as [|b bs IH]; [reflexivity|]. cbn [hex_text flat_map]. fold (hex_text bs). cbn [app length]. lia. Qed.

Lemma slice_bytes l off n : Forall byte l -> Forall byte (slice l off n).
Proof. intro H. unfold slice. now apply Forall_firstn', Forall_skipn'. Qed.

Lemma get_regs w : zlen (w_ctx w) = 216 -> Forall byte (w_ctx w) -> Platform_CopyContextToBuffer w = Ret (hex_text (register_bytes (w_ctx w))) w.
Proof.
  intros HL HB. unfold Platform_CopyContextToBuffer, bind, OFF_R, OFF_FPR. rewrite ctx_bytes_run by lia. rewrite fpu_run by exact HL. unfold register_bytes.
  destruct (has_fpu (w_ctx w)).
  - rewrite ctx_bytes_run by lia. unfold ret. rewrite !write_hex by now apply slice_bytes. rewrite hex_text_app. reflexivity.
  - unfold ret. rewrite write_hex by now apply slice_bytes. rewrite app_nil_r. reflexivity.
Qed.

(** Reading a packet. *)
Lemma hexd_value c : hexDigitValue c = hex_value c.
Proof.
  unfold hexDigitValue, isHexDigit, digit_val, hex_value.
  destruct ((48 <=? c) && (c <=? 57)) eqn:A; [reflexivity|]. destruct ((97 <=? c) && (c <=? 102)) eqn:B.
  - replace ((65 <=? c) && (c <=? 70)) with false by lia. cbn [orb]. replace ((97 <=? c) && (c <=? 122)) with true by lia. f_equal. 
  - destruct ((65 <=? c) && (c <=? 70)) eqn:C; [|reflexivity]. cbn [orb]. replace ((97 <=? c) && (c <=? 122)) with false by lia. replace ((65 <=? c) && (c <=? 90)) with true by lia. f_equal.
Qed.

Lemma splice_len (l bs : list Z) off : 0 <= off -> off + zlen bs <= zlen l -> zlen (splice l off bs) = zlen l.
Proof.
  intros H1 H2. unfold splice, zlen in *. rewrite !app_length, firstn_length, skipn_length. lia.
Qed.
Lemma splice_bytes (l bs : list Z) off : Forall byte l -> Forall byte bs -> Forall byte (splice l off bs).
Proof. intros H1 H2. unfold splice. apply Forall_app. split; [now apply Forall_firstn'|]. apply Forall_app. split; [exact H2|now apply Forall_skipn']. Qed.
Lemma splice_cons (l : list Z) off b bs : 0 <= off -> off + 1 + zlen bs <= zlen l ->
  splice (splice l off [b]) (off + 1) bs = splice l off (b :: bs).
Proof.
  intros H1 H2. unfold splice, zlen in *. cbn [length] in *.
  replace (Z.to_nat (off + 1)) with (Z.to_nat off + 1)%nat by lia. set (k := Z.to_nat off) in *.
  assert (HL : length (firstn k l) = k) by (rewrite firstn_length; lia).
  rewrite firstn_app, HL, firstn_all2 by lia. replace (k + 1 - k)%nat with 1%nat by lia. cbn [app firstn].
  rewrite <- app_assoc. cbn [app]. f_equal. f_equal.
  rewrite skipn_app, HL, skipn_all2 by lia. cbn [app]. replace (k + 1 + length bs - k)%nat with (S (length bs)) by lia. cbn [skipn].
  f_equal. rewrite skipn_skipn. f_equal. lia.
Qed.
Lemma splice_nil (l : list Z) off : 0 <= off <= zlen l -> splice l off [] = l.
Proof. intros H. unfold splice, zlen in *. cbn [app length]. rewrite Nat.add_0_r. apply firstn_skipn. Qed.

Lemma read_hex bs text : is_hex_of bs text -> forall off w rest, 0 <= off -> off + zlen bs <= zlen (w_ctx w) ->
  readBytesFromBufferAsHex (length bs) off (text ++ rest) w = Ret rest (set_ctx w (splice (w_ctx w) off bs)).
Proof.
  induction 1 as [|b bs h l text Hb Hh Hl HT IH]; intros off w rest H1 H2; cbn [length readBytesFromBufferAsHex app].
  - unfold ret. cbn [zlen length] in H2. rewrite splice_nil by (unfold zlen in *; cbn [length] in *; lia). destruct w; reflexivity.
  - rewrite !hexd_value, Hh, Hl. replace (16 * (b / 16) + b mod 16) with b by lia.
    unfold bind, ctx_put. unfold zlen in *. cbn [length] in *.
    replace ((0 <=? off) && (off + Z.of_nat 1 <=? Z.of_nat (length (w_ctx w)))) with true by lia.
    rewrite IH; cbn [w_ctx set_ctx]; [|lia|pose proof (splice_len (w_ctx w) [b] off) as SL; unfold zlen in SL; cbn [length] in SL; lia].
    rewrite splice_cons by (unfold zlen; lia). reflexivity.
Qed.

(** Whatever the packet, only bytes of the range change, and to bytes. *)
Lemma read_hex_any n : forall off w text, 0 <= off -> off + Z.of_nat n <= zlen (w_ctx w) -> Forall byte (w_ctx w) ->
  match readBytesFromBufferAsHex n off text w with
  | Ret _ w' => exists bs, length bs = n /\ Forall byte bs /\ w' = set_ctx w (splice (w_ctx w) off bs)
  | Exc w' => exists bs c m, (length bs <= n)%nat /\ Forall byte bs /\ 0 < c /\ w' = set_exn (set_ctx w (splice (w_ctx w) off bs)) c m
  | Ub _ => False
  end.
Proof.
  induction n as [|n IH]; intros off w text H1 H2 HB; cbn [readBytesFromBufferAsHex].
  - exists []. split; [reflexivity|]. split; [constructor|]. rewrite splice_nil by lia. destruct w; reflexivity.
  - assert (T : forall e, 0 < e -> match (throw e : M world (list Z)) w with Ret _ w' => exists bs, length bs = S n /\ Forall byte bs /\ w' = set_ctx w (splice (w_ctx w) off bs)
        | Exc w' => exists bs c m, (length bs <= S n)%nat /\ Forall byte bs /\ 0 < c /\ w' = set_exn (set_ctx w (splice (w_ctx w) off bs)) c m | Ub _ => False end).
    { intros e He. unfold throw. exists [], (Z.max e (w_code w)), (w_msg w). split; [cbn; lia|]. split; [constructor|]. split; [lia|]. rewrite splice_nil by lia. destruct w; reflexivity. }
    destruct text as [|h [|l text]]; [apply T; reflexivity|apply T; reflexivity|]. rewrite !hexd_value.
    destruct (hex_value h) as [x|] eqn:X; [|apply T; reflexivity]. destruct (hex_value l) as [y|] eqn:Y; [|apply T; reflexivity].
    apply hex_value_range in X, Y. assert (B : byte (16 * x + y)) by (unfold byte; lia).
    unfold bind, ctx_put. change (zlen [16 * x + y]) with 1. replace ((0 <=? off) && (off + 1 <=? zlen (w_ctx w))) with true by lia.
    assert (SL : zlen (splice (w_ctx w) off [16 * x + y]) = zlen (w_ctx w)) by (apply splice_len; [lia|change (zlen [16 * x + y]) with 1; lia]).
    specialize (IH (off + 1) (set_ctx w (splice (w_ctx w) off [16 * x + y])) text). cbn [w_ctx set_ctx] in IH. rewrite SL in IH.
    specialize (IH ltac:(lia) ltac:(lia) (splice_bytes _ _ _ HB (Forall_cons _ B (Forall_nil _)))).
    destruct (readBytesFromBufferAsHex n _ _ _) as [t w'|w'|]; [| |exact IH].
    + destruct IH as (bs & L & F & ->). exists ((16 * x + y) :: bs). split; [cbn; lia|]. split; [now constructor|]. rewrite splice_cons by (unfold zlen in *; lia). reflexivity.
    + destruct IH as (bs & c & m & L & F & C & ->). exists ((16 * x + y) :: bs), c, m. split; [cbn; lia|]. split; [now constructor|]. split; [exact C|]. rewrite splice_cons by (unfold zlen in *; lia). reflexivity.
Qed.

Lemma splice_skip (l bs : list Z) off k : (k + 4 <= Z.to_nat off)%nat -> (Z.to_nat off <= length l)%nat -> firstn 4 (skipn k (splice l off bs)) = firstn 4 (skipn k l).
Proof.
  intros H1 H2. unfold splice. rewrite !skipn_app, !firstn_app.
  assert (HL : length (firstn (Z.to_nat off) l) = Z.to_nat off) by (rewrite firstn_length; lia).
  rewrite skipn_length, HL. replace (4 - (Z.to_nat off - k))%nat with 0%nat by lia. rewrite firstn_O, app_nil_r.
  rewrite skipn_firstn_comm. rewrite firstn_firstn. f_equal. lia.
Qed.
Lemma splice_skip_after (l bs : list Z) off k : 0 <= off -> off + zlen bs <= zlen l -> (Z.to_nat off + length bs <= k)%nat -> skipn k (splice l off bs) = skipn k l.
Proof.
  intros H0 H1 H2. unfold splice, zlen in *. assert (HL : length (firstn (Z.to_nat off) l) = Z.to_nat off) by (rewrite firstn_length; lia).
  rewrite !skipn_app, HL, (skipn_all2 (firstn _ _)) by lia. rewrite (skipn_all2 bs) by lia. cbn [app]. rewrite skipn_skipn. f_equal. lia.
Qed.
Lemma fpu_splice l bs off : 4 <= off -> off + zlen bs <= zlen l -> has_fpu (splice l off bs) = has_fpu l.
Proof. intros H1 H2. unfold has_fpu, word_at. unfold zlen in *. now rewrite splice_skip by lia. Qed.

Lemma is_hex_len bs text : is_hex_of bs text -> length text = (2 * length bs)%nat /\ Forall byte bs.
Proof. induction 1 as [|b bs h l text Hb Hh Hl HT [IH1 IH2]]; [split; [reflexivity|constructor]|]. split; [cbn [length]; lia|now constructor]. Qed.
Lemma is_hex_split b1 : forall b2 text, is_hex_of (b1 ++ b2) text -> exists t1 t2, text = t1 ++ t2 /\ is_hex_of b1 t1 /\ is_hex_of b2 t2.
Proof.
  induction b1 as [|b b1 IH]; intros b2 text H; cbn [app] in H.
  - exists [], text. split; [reflexivity|]. split; [constructor|exact H].
  - inversion H as [|? ? h l t Hb Hh Hl HT]; subst. apply IH in HT as (t1 & t2 & -> & H1 & H2). exists (h :: l :: t1), t2. split; [reflexivity|]. split; [now constructor|exact H2].
Qed.

Lemma splice_regs (l bs : list Z) : zlen l = 216 -> length bs = 76%nat -> splice l 4 bs = firstn 4 l ++ bs ++ firstn 4 (skipn 80 l) ++ skipn 84 l.
Proof.
  intros HL HB. unfold splice. rewrite HB. change (Z.to_nat 4 + 76)%nat with 80%nat. change (Z.to_nat 4) with 4%nat. f_equal. f_equal.
  rewrite <- (firstn_skipn 4 (skipn 80 l)) at 1. now rewrite skipn_skipn.
Qed.

Lemma set_regs w bs text rest : zlen (w_ctx w) = 216 -> is_hex_of bs text -> length bs = length (register_bytes (w_ctx w)) ->
  Platform_CopyContextFromBuffer (text ++ rest) w = Ret rest (set_ctx w (with_registers (w_ctx w) bs)).
Proof.
  intros HL HT HB. unfold register_bytes in HB. unfold Platform_CopyContextFromBuffer, OFF_R, OFF_FPR, with_registers.
  assert (L1 : length (firstn 76 (skipn 4 (w_ctx w))) = 76%nat) by (rewrite firstn_length, skipn_length; unfold zlen in HL; lia).
  rewrite app_length, L1 in HB. destruct (has_fpu (w_ctx w)) eqn:FP.
  - assert (L2 : length (firstn 132 (skipn 84 (w_ctx w))) = 132%nat) by (rewrite firstn_length, skipn_length; unfold zlen in HL; lia). rewrite L2 in HB.
    rewrite <- (firstn_skipn 76 bs) in HT. apply is_hex_split in HT as (t1 & t2 & -> & T1 & T2). rewrite <- app_assoc.
    assert (LA : length (firstn 76 bs) = 76%nat) by (rewrite firstn_length; lia). assert (LB : length (skipn 76 bs) = 132%nat) by (rewrite skipn_length; lia).
    unfold bind at 1. pose proof (read_hex _ _ T1 (4 + 4 * 0) w (t2 ++ rest)) as E. rewrite LA in E. rewrite E by (unfold zlen in *; rewrite ?LA; lia). clear E.
    change (4 + 4 * 0) with 4. unfold bind at 1. rewrite fpu_run by (cbn [w_ctx set_ctx]; rewrite splice_len; unfold zlen in *; rewrite ?LA; lia).
    cbn [w_ctx set_ctx]. rewrite fpu_splice by (unfold zlen in *; rewrite ?LA; lia). rewrite FP.
    pose proof (read_hex _ _ T2 (84 + 4 * 0) (set_ctx w (splice (w_ctx w) 4 (firstn 76 bs))) rest) as E. rewrite LB in E.
    rewrite E by (cbn [w_ctx set_ctx]; rewrite ?splice_len; unfold zlen in *; rewrite ?LB, ?LA; lia). clear E. change (84 + 4 * 0) with 84. cbn [w_ctx set_ctx].
    change (set_ctx (set_ctx w ?x) ?y) with (set_ctx w y). f_equal. f_equal. rewrite (splice_regs _ _ HL LA). unfold splice at 1. rewrite LB.
    change (Z.to_nat 84 + 132)%nat with 216%nat. change (Z.to_nat 84) with 84%nat.
    rewrite (skipn_all2 (n := 216)) by (rewrite !app_length, !firstn_length, !skipn_length; unfold zlen in HL; lia). rewrite app_nil_r.
    rewrite !app_assoc. f_equal. rewrite <- !app_assoc. rewrite !firstn_app, !firstn_length, !skipn_length. unfold zlen in HL.
    rewrite (firstn_all2 (n := 84) (firstn 4 (w_ctx w))) by (rewrite firstn_length; lia).
    replace (84 - Nat.min 4 (length (w_ctx w)))%nat with 80%nat by lia.
    rewrite (firstn_all2 (n := 80) (firstn 76 bs)) by lia. replace (80 - Nat.min 76 (length bs))%nat with 4%nat by lia. rewrite firstn_firstn. change (Nat.min 4 4) with 4%nat.
    replace (4 - Nat.min 4 (length (w_ctx w) - 80))%nat with 0%nat by lia. rewrite firstn_O, app_nil_r. reflexivity.
  - cbn [length] in HB. assert (HB' : length bs = 76%nat) by lia.
    unfold bind at 1. pose proof (read_hex _ _ HT (4 + 4 * 0) w rest) as E. rewrite HB' in E. rewrite E by (unfold zlen in *; lia). clear E.
    change (4 + 4 * 0) with 4. unfold bind at 1. rewrite fpu_run by (cbn [w_ctx set_ctx]; rewrite splice_len; unfold zlen in *; lia).
    cbn [w_ctx set_ctx]. rewrite fpu_splice by (unfold zlen in *; lia). rewrite FP. unfold ret. f_equal. f_equal.
    rewrite (splice_regs _ _ HL HB'). rewrite (firstn_all2 (n := 76) bs) by lia. reflexivity.
Qed.

Lemma regs_len ctx : zlen ctx = 216 -> length (register_bytes ctx) = (if has_fpu ctx then 208 else 76)%nat.
Proof.
  intro H. unfold register_bytes, zlen in *. rewrite app_length, firstn_length, skipn_length. destruct (has_fpu ctx); [rewrite firstn_length, skipn_length|cbn [length]]; lia.
Qed.
Lemma with_regs_fpu ctx bs : zlen ctx = 216 -> has_fpu (with_registers ctx bs) = has_fpu ctx.
Proof.
  intro H. assert (E : firstn 4 (with_registers ctx bs) = firstn 4 ctx); [|unfold has_fpu, word_at in *; rewrite !skipn_O, E; reflexivity].
  unfold with_registers. rewrite firstn_app, firstn_length. unfold zlen in H.
  replace (4 - Nat.min 4 (length ctx))%nat with 0%nat by lia. rewrite firstn_O, app_nil_r, firstn_firstn. reflexivity.
Qed.
Lemma with_regs_get ctx bs : zlen ctx = 216 -> length bs = length (register_bytes ctx) -> register_bytes (with_registers ctx bs) = bs.
Proof.
  intros H HB. rewrite regs_len in HB by exact H. unfold register_bytes. rewrite with_regs_fpu by exact H. unfold with_registers, zlen in *.
  assert (L1 : length (firstn 4 ctx) = 4%nat) by (rewrite firstn_length; lia). assert (L2 : length (firstn 76 bs) = 76%nat) by (rewrite firstn_length; destruct (has_fpu ctx); lia).
  assert (L3 : length (firstn 4 (skipn 80 ctx)) = 4%nat) by (rewrite firstn_length, skipn_length; lia).
  destruct (has_fpu ctx).
  - assert (E1 : firstn 76 (skipn 4 (firstn 4 ctx ++ firstn 76 bs ++ firstn 4 (skipn 80 ctx) ++ skipn 76 bs)) = firstn 76 bs).
    { rewrite skipn_app, (skipn_all2 (firstn 4 ctx)), L1 by lia. cbn [app]. change (4 - 4)%nat with 0%nat. rewrite skipn_O, firstn_app, firstn_firstn, L2.
      change (76 - 76)%nat with 0%nat. rewrite firstn_O, app_nil_r. reflexivity. }
    rewrite E1. rewrite !skipn_app, (skipn_all2 (firstn 4 ctx)), L1, (skipn_all2 (firstn 76 bs)), L2, (skipn_all2 (firstn 4 (skipn 80 ctx))), L3 by lia.
    cbn [app]. change (84 - 4 - 76 - 4)%nat with 0%nat. rewrite skipn_O. rewrite (firstn_all2 (n := 132)) by (rewrite skipn_length; lia). apply firstn_skipn.
  - rewrite app_nil_r. rewrite skipn_app, (skipn_all2 (firstn 4 ctx)), L1 by lia. cbn [app]. change (4 - 4)%nat with 0%nat. rewrite skipn_O, firstn_app, firstn_firstn, L2.
    change (76 - 76)%nat with 0%nat. rewrite firstn_O, app_nil_r. apply firstn_all2. lia.
Qed.
Lemma get_regs_with ctx : zlen ctx = 216 -> with_registers ctx (register_bytes ctx) = ctx.
Proof.
  intros H. unfold with_registers, register_bytes, zlen in *.
  assert (L1 : length (firstn 76 (skipn 4 ctx)) = 76%nat) by (rewrite firstn_length, skipn_length; lia).
  assert (E : firstn 4 ctx ++ firstn 76 (skipn 4 ctx) ++ firstn 4 (skipn 80 ctx) ++ skipn 84 ctx = ctx).
  { rewrite <- (firstn_skipn 4 ctx) at 5. f_equal. rewrite <- (firstn_skipn 76 (skipn 4 ctx)) at 2. f_equal. rewrite skipn_skipn. change (76 + 4)%nat with 80%nat.
    rewrite <- (firstn_skipn 4 (skipn 80 ctx)) at 2. f_equal. rewrite skipn_skipn. reflexivity. }
  destruct (has_fpu ctx).
  - rewrite firstn_app, L1. change (76 - 76)%nat with 0%nat. rewrite firstn_O, app_nil_r, firstn_firstn. change (Nat.min 76 76) with 76%nat.
    rewrite skipn_app, L1, (skipn_all2 (firstn 76 _)) by lia. change (76 - 76)%nat with 0%nat. rewrite skipn_O. cbn [app].
    rewrite (firstn_all2 (n := 132)) by (rewrite skipn_length; lia). exact E.
  - rewrite app_nil_r, firstn_firstn. change (Nat.min 76 76) with 76%nat. exact E.
Qed.

Lemma digit_value d : 0 <= d < 16 -> hex_value (lower_digit d) = Some d.
Proof.
  intro H. assert (C : forallb (fun n => match hex_value (lower_digit (Z.of_nat n)) with Some x => x =? Z.of_nat n | None => false end) (seq 0 16) = true) by reflexivity.
  rewrite forallb_forall in C. specialize (C (Z.to_nat d)). rewrite Z2Nat.id in C by lia. specialize (C ltac:(apply in_seq; lia)).
  destruct (hex_value (lower_digit d)); [f_equal; lia|discriminate].
Qed.
Lemma is_hex_text bs : Forall byte bs -> is_hex_of bs (hex_text bs).
Proof.
  induction 1 as [|b bs Hb H IH]; [constructor|]. unfold byte in Hb. cbn [hex_text flat_map app]. apply hex_cons; [exact Hb|apply digit_value; lia|apply digit_value; lia|exact IH].
Qed.
Lemma value_lower c d : hex_value c = Some d -> (if (65 <=? c) && (c <=? 90) then c + 32 else c) = lower_digit d.
Proof.
  intro H. pose proof (hex_value_range _ _ H) as R. assert (B : 0 <= c < 256).
  { unfold hex_value in H. destruct ((48 <=? c) && (c <=? 57)) eqn:A; [lia|]. destruct ((97 <=? c) && (c <=? 102)) eqn:B; [lia|]. destruct ((65 <=? c) && (c <=? 70)) eqn:C; [lia|discriminate]. }
  assert (C : forallb (fun n => match hex_value (Z.of_nat n) with Some x => (if (65 <=? Z.of_nat n) && (Z.of_nat n <=? 90) then Z.of_nat n + 32 else Z.of_nat n) =? lower_digit x | None => true end) (seq 0 256) = true) by (vm_compute; reflexivity).
  rewrite forallb_forall in C. specialize (C (Z.to_nat c)). rewrite Z2Nat.id in C by lia. specialize (C ltac:(apply in_seq; lia)). rewrite H in C. lia.
Qed.
Lemma is_hex_lower bs text : is_hex_of bs text -> hex_text bs = lower_case text.
Proof.
  induction 1 as [|b bs h l text Hb Hh Hl HT IH]; [reflexivity|]. cbn [hex_text flat_map lower_case map app]. fold (lower_case text). fold (hex_text bs). rewrite IH.
  rewrite (value_lower h _ Hh), (value_lower l _ Hl). reflexivity.
Qed.

(** ** The fault report *)

Definition says (w w' : world) (ls : list gdbout) : Prop :=
  exists h c m, w' = set_gdb (set_exn (set_hits w h) c m) (rev ls ++ w_gdb w).

Lemma says_trans w w1 w2 a b : says w w1 a -> says w1 w2 b -> says w w2 (a ++ b).
Proof.
  intros (h & c & m & ->) (h' & c' & m' & ->). exists h', c', m'. cbn [w_gdb set_gdb]. rewrite rev_app_distr, app_assoc. destruct w; reflexivity.
Qed.
Lemma says_regions w w' ls : says w w' ls -> regions w' = regions w.
Proof. intros (h & c & m & ->). reflexivity. Qed.

(** The value depends on the memory alone. *)
Definition reg_of (rs : list region) (a : Z) : option Z :=
  match find_from 0 rs a 4 with
  | None => None
  | Some (j, a') => match nth_error rs j with Some r => Some (of_le (slice (r_data r) (roff r a') 4)) | None => None end
  end.

Lemma read4_run w a : wf (regions w) -> u32 a -> w_code w = 0 ->
  match reg_of (regions w) a with
  | Some v => exists h, readN 4 a w = Ret v (set_hits w h)
  | None => readN 4 a w = Exc (set_exn w busErrorException (w_msg w))
  end.
Proof.
  intros Hwf Ha HC. rewrite (readN_wf 4 a w Hwf Ha) by (unfold width; auto). unfold reg_of.
  destruct (find_from 0 (regions w) a 4) as [[j a']|] eqn:F.
  2:{ rewrite HC. reflexivity. }
  destruct (locate _ _ 4 _ _ Hwf Ha ltac:(lia) F) as (r & k & L1 & L2 & _). rewrite L1. cbv zeta.
  pose proof (scan_width (r_wps r) a' (W (a' + 4)) 4 READING (m_hits (w_mem w)) ltac:(lia)) as S.
  destruct (scan_wps _ _ _ _ _ _) as [h brk]. cbn [snd] in S. subst brk. exists h. f_equal.
Qed.

Lemma fault_register_eq w a : wf (regions w) -> u32 a -> fault_register w a = reg_of (regions w) a.
Proof.
  intros Hwf Ha. unfold fault_register, api. pose proof (read4_run (set_exn w noException []) a Hwf Ha eq_refl) as P.
  change (regions (set_exn w noException [])) with (regions w) in P. destruct (reg_of (regions w) a).
  - destruct P as (h & ->). reflexivity.
  - rewrite P. reflexivity.
Qed.

(** The computation writes these lines; the lines may depend on the memory. *)
Definition emits (m : M world unit) (rs : list region) (ls : list gdbout) : Prop :=
  forall w, regions w = rs -> exists w', m w = Ret tt w' /\ says w w' ls.

Lemma emits_ret rs : emits (ret tt) rs [].
Proof. intros w _. exists w. split; [reflexivity|]. exists (m_hits (w_mem w)), (w_code w), (w_msg w). destruct w as [[? ? ?] ? ? ? ? ? ? ? ? ? ?]. reflexivity. Qed.
Lemma emits_bind m k rs a b : emits m rs a -> emits k rs b -> emits (m ;;; k) rs (a ++ b).
Proof.
  intros H1 H2 w Hw. destruct (H1 w Hw) as (w1 & E1 & S1). destruct (H2 w1) as (w2 & E2 & S2); [rewrite (says_regions _ _ _ S1); exact Hw|].
  exists w2. split; [unfold bind; now rewrite E1|eapply says_trans; eauto].
Qed.
Lemma emits_say rs s : emits (say s) rs [text s].
Proof. intros w _. eexists. split; [reflexivity|]. exists (m_hits (w_mem w)), (w_code w), (w_msg w). destruct w as [[? ? ?] ? ? ? ? ? ? ? ? ? ?]. reflexivity. Qed.
Lemma emits_hex rs v : emits (sayHex v) rs [GHex v].
Proof. intros w _. eexists. split; [reflexivity|]. exists (m_hits (w_mem w)), (w_code w), (w_msg w). destruct w as [[? ? ?] ? ? ? ? ? ? ? ? ? ?]. reflexivity. Qed.
Lemma emits_if rs v b s : emits (sayIf v b s) rs (bit_lines v [(b, s)]).
Proof. unfold sayIf, bit_lines. cbn [filter fst snd map]. destruct (Z.testbit v b); [apply emits_say|apply emits_ret]. Qed.
Lemma bit_lines_cons v x t : bit_lines v (x :: t) = bit_lines v [x] ++ bit_lines v t.
Proof. unfold bit_lines. cbn [filter]. destruct (Z.testbit v (fst x)); reflexivity. Qed.

Lemma try_read_run rs a (f : Z -> Z) : wf rs -> u32 a -> forall w, regions w = rs ->
  exists w', try_read (v <- read32 a;; ret (f v)) w = Ret (option_map f (reg_of rs a)) w' /\ says w w' [].
Proof.
  intros Hwf Ha w Hw. unfold try_read, try_, lift, read32, bind. cbn [snd fst].
  pose proof (read4_run (set_exn w noException []) a ltac:(rewrite <- Hw in Hwf; exact Hwf) Ha eq_refl) as P. change (regions (set_exn w noException [])) with (regions w) in P. rewrite Hw in P.
  destruct (reg_of rs a) as [v|].
  - destruct P as (h & ->). cbn [snd fst ret setl]. change (w_code (set_hits _ _)) with 0. eexists. split; [reflexivity|]. exists h, noException, []. destruct w as [[? ? ?] ? ? ? ? ? ? ? ? ? ?]. reflexivity.
  - rewrite P. cbn [snd fst]. change (w_code (set_exn _ busErrorException _)) with busErrorException. eexists. split; [reflexivity|].
    exists (m_hits (w_mem w)), busErrorException, []. destruct w as [[? ? ?] ? ? ? ? ? ? ? ? ? ?]. reflexivity.
Qed.

Lemma emits_address rs a : wf rs -> u32 a -> emits (displayFaultAddress a) rs (address_lines true (reg_of rs a)).
Proof.
  intros Hwf Ha w Hw. unfold displayFaultAddress. rewrite try0_eq. unfold bind, read32.
  pose proof (read4_run (set_exn w noException []) a ltac:(rewrite <- Hw in Hwf; exact Hwf) Ha eq_refl) as P. change (regions (set_exn w noException [])) with (regions w) in P. rewrite Hw in P.
  destruct (reg_of rs a) as [v|].
  - destruct P as (h & ->). unfold say, sayHex, modw. cbn [w_code set_gdb set_hits set_mem set_exn Z.eqb noException]. change (noException =? 0) with true. cbv iota.
    eexists. split; [reflexivity|]. exists h, noException, []. destruct w as [[? ? ?] ? ? ? ? ? ? ? ? ? ?]. reflexivity.
  - rewrite P. change (w_code (set_exn _ busErrorException _)) with busErrorException. eexists. split; [reflexivity|].
    exists (m_hits (w_mem w)), busErrorException, []. destruct w as [[? ? ?] ? ? ? ? ? ? ? ? ? ?]. reflexivity.
Qed.

(** After reading a status register. *)
Lemma emits_read rs a (f : Z -> Z) k ls : wf rs -> u32 a -> (forall o, o = option_map f (reg_of rs a) -> emits (k o) rs ls) ->
  emits (s <- try_read (v <- read32 a;; ret (f v));; k s) rs ls.
Proof.
  intros Hwf Ha HK w Hw. destruct (try_read_run rs a f Hwf Ha w Hw) as (w1 & E & S). unfold bind at 1. rewrite E.
  destruct (HK _ eq_refl w1) as (w2 & E2 & S2); [rewrite (says_regions _ _ _ S); exact Hw|]. exists w2. split; [exact E2|]. apply (says_trans _ _ _ [] _ S S2).
Qed.
Lemma emits_valid rs a (b : bool) : wf rs -> u32 a -> emits (if b then displayFaultAddress a else ret tt) rs (address_lines b (reg_of rs a)).
Proof. intros Hwf Ha. destruct b; [now apply emits_address|apply emits_ret]. Qed.

Lemma land255 v : Z.land v 255 = v mod 256.
Proof. change 255 with (Z.ones 8). now rewrite Z.land_ones by lia. Qed.
Lemma land65535 v : Z.land v 65535 = v mod 65536.
Proof. change 65535 with (Z.ones 16). now rewrite Z.land_ones by lia. Qed.
Ltac emit := repeat first [apply emits_say | apply emits_hex | apply emits_if | apply emits_ret | apply emits_bind].

Definition part_of (rs : list region) (header : string) (f : Z -> Z) (addr : option Z) (table : list (Z * string)) : list gdbout :=
  status_part header (option_map f (reg_of rs 0xE000ED28)) addr table.

Lemma emits_mem rs : wf rs -> emits displayMemFaultCauseToGdbConsole rs (part_of rs "**MPU Fault**" (fun v => v mod 256) (reg_of rs 0xE000ED34) mem_bits).
Proof.
  intro Hwf. unfold displayMemFaultCauseToGdbConsole, part_of. apply emits_read; [exact Hwf|unfold u32, CFSR; lia|]. intros o ->. unfold CFSR.
  destruct (reg_of rs 3758157096) as [v|]; cbn [option_map status_part]; [|apply emits_ret]. rewrite land255. destruct (v mod 256 =? 0); [apply emits_ret|].
  apply (emits_bind _ _ _ [_]); [emit|]. apply (emits_bind _ _ _ [_]); [emit|]. apply (emits_bind _ _ _ [_]); [emit|].
  apply emits_bind; [apply emits_valid; [exact Hwf|unfold u32, MMFAR; lia]|]. unfold mem_bits. rewrite !(bit_lines_cons _ _ (_ :: _)). emit.
Qed.
Lemma emits_bus rs : wf rs -> emits displayBusFaultCauseToGdbConsole rs (part_of rs "**Bus Fault**" (fun v => v / 256 mod 256) (reg_of rs 0xE000ED38) bus_bits).
Proof.
  intro Hwf. unfold displayBusFaultCauseToGdbConsole, part_of. apply emits_read; [exact Hwf|unfold u32, CFSR; lia|]. intros o ->. unfold CFSR.
  destruct (reg_of rs 3758157096) as [v|]; cbn [option_map status_part]; [|apply emits_ret]. rewrite land255, Z.shiftr_div_pow2 by lia. change (2 ^ 8) with 256. destruct (v / 256 mod 256 =? 0); [apply emits_ret|].
  apply (emits_bind _ _ _ [_]); [emit|]. apply (emits_bind _ _ _ [_]); [emit|]. apply (emits_bind _ _ _ [_]); [emit|].
  apply emits_bind; [apply emits_valid; [exact Hwf|unfold u32, BFAR; lia]|]. unfold bus_bits. rewrite !(bit_lines_cons _ _ (_ :: _)). emit.
Qed.
Lemma emits_usage rs : wf rs -> emits displayUsageFaultCauseToGdbConsole rs (part_of rs "**Usage Fault**" (fun v => v / 65536 mod 65536) None usage_bits).
Proof.
  intro Hwf. unfold displayUsageFaultCauseToGdbConsole, part_of. apply emits_read; [exact Hwf|unfold u32, CFSR; lia|]. intros o ->. unfold CFSR.
  destruct (reg_of rs 3758157096) as [v|]; cbn [option_map status_part]; [|apply emits_ret]. rewrite land65535, Z.shiftr_div_pow2 by lia. change (2 ^ 16) with 65536. destruct (v / 65536 mod 65536 =? 0); [apply emits_ret|].
  apply (emits_bind _ _ _ [_]); [emit|]. apply (emits_bind _ _ _ [_]); [emit|]. apply (emits_bind _ _ _ [_]); [emit|].
  replace (address_lines _ None) with (@nil gdbout) by (unfold address_lines; destruct (Z.testbit _ _); reflexivity). cbn [app].
  unfold usage_bits. rewrite !(bit_lines_cons _ _ (_ :: _)). emit.
Qed.
Lemma emits_hard rs : wf rs -> emits displayHardFaultCauseToGdbConsole rs
  (text "**Hard Fault**" :: match reg_of rs 0xE000ED2C with
   | None => []
   | Some h => [text "  Status Register: "; GHex h] ++ bit_lines h hard_bits ++
       if Z.testbit h 30 then text "    Forced" :: part_of rs "**MPU Fault**" (fun v => v mod 256) (reg_of rs 0xE000ED34) mem_bits ++
          part_of rs "**Bus Fault**" (fun v => v / 256 mod 256) (reg_of rs 0xE000ED38) bus_bits ++ part_of rs "**Usage Fault**" (fun v => v / 65536 mod 65536) None usage_bits else []
   end).
Proof.
  intro Hwf. unfold displayHardFaultCauseToGdbConsole. apply (emits_bind _ _ _ [_]); [emit|].
  assert (E : forall k : option Z -> M world unit, emits (s <- try_read (v <- read32 HFSR;; ret v);; k s) rs
      (match reg_of rs 0xE000ED2C with None => [] | Some h => [text "  Status Register: "; GHex h] ++ bit_lines h hard_bits ++
       if Z.testbit h 30 then text "    Forced" :: part_of rs "**MPU Fault**" (fun v => v mod 256) (reg_of rs 0xE000ED34) mem_bits ++
          part_of rs "**Bus Fault**" (fun v => v / 256 mod 256) (reg_of rs 0xE000ED38) bus_bits ++ part_of rs "**Usage Fault**" (fun v => v / 65536 mod 65536) None usage_bits else [] end) ->
      emits (s <- try_read (read32 HFSR);; k s) rs
      (match reg_of rs 0xE000ED2C with None => [] | Some h => [text "  Status Register: "; GHex h] ++ bit_lines h hard_bits ++
       if Z.testbit h 30 then text "    Forced" :: part_of rs "**MPU Fault**" (fun v => v mod 256) (reg_of rs 0xE000ED34) mem_bits ++
          part_of rs "**Bus Fault**" (fun v => v / 256 mod 256) (reg_of rs 0xE000ED38) bus_bits ++ part_of rs "**Usage Fault**" (fun v => v / 65536 mod 65536) None usage_bits else [] end)).
  { intros k H w Hw. destruct (H w Hw) as (w' & E & S). exists w'. split; [|exact S]. rewrite <- E. unfold bind at 1 3. unfold try_read, try_, lift, bind. cbn [snd fst].
    destruct (read32 HFSR (set_exn w noException [])); reflexivity. }
  apply E. clear E. apply emits_read; [exact Hwf|unfold u32, HFSR; lia|]. intros o ->. unfold HFSR. destruct (reg_of rs 3758157100) as [h|]; cbn [option_map]; [|apply emits_ret].
  apply (emits_bind _ _ _ [_]); [emit|]. apply (emits_bind _ _ _ [_]); [emit|]. unfold hard_bits. rewrite !(bit_lines_cons _ _ (_ :: _)), <- app_assoc.
  apply emits_bind; [emit|]. apply emits_bind; [emit|]. destruct (Z.testbit h 30); [|apply emits_ret].
  apply (emits_bind _ _ _ [_]); [emit|]. apply emits_bind; [now apply emits_mem|]. apply emits_bind; [now apply emits_bus|now apply emits_usage].
Qed.

Lemma report_run w : wf (regions w) -> zlen (w_ctx w) = 216 ->
  exists w', Platform_DisplayFaultCauseToGdbConsole w = Ret tt w' /\ says w w' (fault_report w).
Proof.
  intros Hwf HL. unfold Platform_DisplayFaultCauseToGdbConsole, getCurrentlyExecutingExceptionNumber. unfold bind at 1. unfold bind at 1.
  rewrite ctx_word_run by (unfold OFF_PSR; lia). unfold ret at 1. change (Z.to_nat OFF_PSR) with 80%nat. rewrite land255. unfold fault_report.
  assert (Hn : 0 <= word_at (w_ctx w) 80 mod 256 < 256) by lia. set (n := word_at (w_ctx w) 80 mod 256) in *.
  unfold hard_part, mem_part, bus_part, usage_part. rewrite !fault_register_eq by (try exact Hwf; unfold u32; lia).
  destruct (Z.eqb_spec n 3) as [->|N3]; [apply (emits_bind _ _ (regions w)); [now apply emits_hard|emit|reflexivity]|].
  destruct (Z.eqb_spec n 4) as [->|N4]; [apply (emits_bind _ _ (regions w)); [now apply emits_mem|emit|reflexivity]|].
  destruct (Z.eqb_spec n 5) as [->|N5]; [apply (emits_bind _ _ (regions w)); [now apply emits_bus|emit|reflexivity]|].
  destruct (Z.eqb_spec n 6) as [->|N6]; [apply (emits_bind _ _ (regions w)); [now apply emits_usage|emit|reflexivity]|].
  replace (match n with 3 => _ | 4 => _ | 5 => _ | 6 => _ | _ => _ end) with (@nil gdbout); [apply (emits_ret (regions w)); reflexivity|].
  destruct n as [|[[[p|p|]|[p|p|]|]|[[p|p|]|[p|p|]|]|]|]; try reflexivity; lia.
Qed.
