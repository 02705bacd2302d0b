(** Sessions: every call of the platform layer keeps the invariant of the session. *)
From Coq Require Import String ZArith List Bool Lia ZifyBool ZifyNat Permutation.
From Verif Require Import Base World Context MemSim CmdLine Platform Comm BaseLemmas MemSpec Sat MemLemmas MemInv MemOps MemOps2 MemOps3 MemHist MemHist2 MemThms MemThms2 TextLemmas MemThms3 DumpSpec DumpRef DumpLemmas DumpConv DumpThms DumpSafe CmdSpec CmdThms CmdSafe PlatSpec PlatInit PlatThms.
Import ListNotations.
Open Scope Z_scope.
Open Scope m_scope.

(** ** Single calls *)

Definition t_entry (number : string) (bs : list Z) : list Z := s2b number ++ s2b ":" ++ hex_text bs ++ s2b ";".

Lemma word_le l k : zlen l = 216 -> Forall byte l -> (k + 4 <= 216)%nat -> le 4 (word_at l k) = firstn 4 (skipn k l).
Proof.
  intros HL HB HK. unfold word_at. assert (E : length (firstn 4 (skipn k l)) = 4%nat) by (rewrite firstn_length, skipn_length; unfold zlen in HL; lia).
  rewrite <- E at 1. apply le_of_le. now apply Forall_firstn', Forall_skipn'.
Qed.

Lemma t_regs w : zlen (w_ctx w) = 216 -> Forall byte (w_ctx w) ->
  Platform_WriteTResponseRegistersToBuffer w =
  Ret (t_entry "0c" (firstn 4 (skipn 52 (w_ctx w))) ++ t_entry "0d" (firstn 4 (skipn 56 (w_ctx w))) ++
       t_entry "0e" (firstn 4 (skipn 60 (w_ctx w))) ++ t_entry "0f" (firstn 4 (skipn 64 (w_ctx w)))) w.
Proof.
  intros HL HB. unfold Platform_WriteTResponseRegistersToBuffer, bind, OFF_R. rewrite !ctx_word_run by lia. unfold ret. f_equal.
  change (Z.to_nat (4 + 4 * 12)) with 52%nat. change (Z.to_nat (4 + 4 * 13)) with 56%nat. change (Z.to_nat (4 + 4 * 14)) with 60%nat. change (Z.to_nat (4 + 4 * 15)) with 64%nat.
  assert (E : forall r k s, (k + 4 <= 216)%nat -> hexByte r = s2b s -> sendRegisterForTResponse r (word_at (w_ctx w) k) = t_entry s (firstn 4 (skipn k (w_ctx w)))).
  { intros r k s HK HR. unfold sendRegisterForTResponse, t_entry. rewrite HR, word_le by assumption. rewrite write_hex by now apply Forall_firstn', Forall_skipn'. reflexivity. }
  rewrite (E 12 52%nat "0c"%string), (E 13 56%nat "0d"%string), (E 14 60%nat "0e"%string), (E 15 64%nat "0f"%string) by (lia || reflexivity). reflexivity.
Qed.

Lemma cause_run w : zlen (w_ctx w) = 216 -> Platform_DetermineCauseOfException w = Ret (signal_for (word_at (w_ctx w) 80 mod 256)) w.
Proof.
  intro HL. unfold Platform_DetermineCauseOfException, getCurrentlyExecutingExceptionNumber, bind. rewrite ctx_word_run by (unfold OFF_PSR; lia). unfold ret.
  change (Z.to_nat OFF_PSR) with 80%nat. rewrite land255. f_equal. assert (H : 0 <= word_at (w_ctx w) 80 mod 256 < 256) by lia. set (n := _ mod 256) in *. clearbody n. revert H. clear.
  intro H. assert (C : forallb (fun n => (if Z.of_nat n =? 2 then SIGINT else if Z.of_nat n =? 3 then SIGSEGV else if Z.of_nat n =? 4 then SIGSEGV else if Z.of_nat n =? 5 then SIGBUS else if Z.of_nat n =? 6 then SIGILL else if Z.of_nat n =? 12 then SIGTRAP else SIGSTOP) =? signal_for (Z.of_nat n)) (seq 0 256) = true) by (vm_compute; reflexivity).
  rewrite forallb_forall in C. specialize (C (Z.to_nat n)). rewrite Z2Nat.id in C by lia. apply Z.eqb_eq, C. apply in_seq. lia.
Qed.

(** ** The console *)

(** Only the console and the exception state differ. *)
Definition con_only (w w' : world) : Prop := exists k c m, w' = set_exn (set_con w k) c m.
Lemma poll_run w : exists k, hasReceiveData w = Ret (match e_poll (w_env w) (c_polls (w_con w)) with PollYes => true | _ => false end) (set_exn (set_con w k) 0 [])
  /\ c_connected k = c_connected (w_con w) /\ c_polls k = S (c_polls (w_con w)).
Proof.
  exists (mkCon (S (c_polls (w_con w))) (c_reads (w_con w)) (c_writes (w_con w)) (c_connected (w_con w)) (c_out (w_con w))). split; [|auto].
  unfold hasReceiveData, try_, lift, bind, Console_HasStdInDataToRead, setl, throw. cbn [snd fst]. change (w_env (set_exn w noException [])) with (w_env w). change (w_con (set_exn w noException [])) with (w_con w).
  destruct (e_poll _ _); try reflexivity. 
Qed.

Lemma comm_run p w : (p = PHasData \/ p = PReceive \/ (exists c, p = PSend c) \/ p = PWaiting) ->
  match api (pcall_run p) w with
  | Done _ w' => con_only w w'
  | Raised c w' => 0 < c /\ con_only w w'
  | Crashed _ => False
  end.
Proof.
  assert (CE : forall k c m, con_only w (set_exn (set_con (set_exn w noException []) k) c m)) by (intros k c m; exists k, c, m; reflexivity).
  unfold api. intros [->|[->|[(c & ->)| ->]]]; cbn [pcall_run]; unfold num, nothing, bind, Platform_CommHasReceiveData, Platform_CommReceiveChar, Platform_CommSendChar, Platform_CommIsWaitingForGdbToConnect, ret.
  - destruct (poll_run (set_exn w noException [])) as (k & -> & _). apply CE.
  - unfold receiveChar, bind, Console_ReadStdIn, throw. destruct (e_read _ _).
    + split; [reflexivity|]. eexists _, _, _. reflexivity.
    + unfold set_connected, modw, ret. eexists _, _, _. reflexivity.
    + unfold set_connected, modw, ret. eexists _, _, _. reflexivity.
  - unfold sendChar, Console_WriteStdOut, throw. destruct (e_write _ _); [|split; [reflexivity|]]; eexists _, _, _; reflexivity.
  - unfold isGdbConnected, bind, getw. destruct (c_connected _); [unfold ret; exists (w_con w), noException, []; destruct w; reflexivity|].
    destruct (poll_run (set_exn w noException [])) as (k & -> & _). apply CE.
Qed.

(** ** The invariant *)

(** Open files, messages and the environment are the same; the number of regions too. *)
Definition rest (w w' : world) : Prop :=
  w_files w' = w_files w /\ w_err w' = w_err w /\ w_env w' = w_env w /\ zlen (regions w') = zlen (regions w).
Definition good (R : list nat) (w : world) : Prop := Inv R w /\ zlen (w_ctx w) = 216 /\ Forall byte (w_ctx w).
(** What a call does to the failure counter. *)
Definition faults_after (p : pcall) (w : world) : Z := match p with PFaults => 0 | _ => w_faults w + (if refused p w then 1 else 0) end.

Lemma bump_length rs j r k : length (bump rs j r k) = length rs.
Proof. unfold bump. destruct (r_rc r) as [[b c]|]; [apply upd_nth_length|reflexivity]. Qed.
Lemma counted_length rs j r n k t : length (counted_regions rs j r n k t) = length rs.
Proof. unfold counted_regions. destruct (_ && _); [apply bump_length|reflexivity]. Qed.

Lemma read_len n a w : wf (regions w) -> u32 a -> width n ->
  match api (readN n a) w with Done _ w1 => zlen (regions w1) = zlen (regions w) | Raised _ w1 => zlen (regions w1) = zlen (regions w) | Crashed _ => True end.
Proof.
  intros Hwf Ha Hn. unfold api. rewrite readN_wf by assumption. destruct (find_from _ _ _ _) as [[j a']|]; [|reflexivity]. destruct (nth_error _ j) as [r|]; [|exact I]. cbv zeta.
  destruct (scan_wps _ _ _ _ _ _) as [h []]; unfold zlen; change (regions (set_hits (set_regions ?w ?x) ?h)) with x; change (regions (set_exn (set_hits (set_regions ?w ?x) ?h) ?c ?m)) with x; now rewrite counted_length.
Qed.
Lemma write_len n a v w : wf (regions w) -> u32 a -> width n ->
  match api (writeN n a v) w with Done _ w1 => zlen (regions w1) = zlen (regions w) | Raised _ w1 => zlen (regions w1) = zlen (regions w) | Crashed _ => True end.
Proof.
  intros Hwf Ha Hn. unfold api. rewrite writeN_wf by assumption. destruct (find_from _ _ _ _) as [[j a']|]; [|reflexivity]. destruct (nth_error _ j) as [r|]; [|exact I]. cbv zeta.
  destruct (r_ro r); [reflexivity|]. destruct (scan_wps _ _ _ _ _ _) as [h []]; unfold zlen; [reflexivity|]. change (regions (set_hits (set_regions ?w ?x) ?h)) with x. now rewrite upd_nth_length.
Qed.

Lemma xml_raises w w' : MemorySim_GetMemoryMapXML w = Exc w' -> 0 < w_code w'.
Proof.
  unfold MemorySim_GetMemoryMapXML, getw. unfold bind at 1. cbv zeta. set (size := _ + _). generalize (build_xml (regions w) size). intro r. clearbody size.
  unfold bind at 1. unfold realloc. unfold bind at 1. unfold malloc. destruct (e_malloc _ _ _).
  - unfold bind at 1. destruct (free_opt _ _) as [[] w1|w1|] eqn:E.
    + unfold ret at 1. destruct r; [discriminate|discriminate].
    + unfold free_opt, free in E. destruct (option_map _ _); [|discriminate]. destruct (is_live _ _); discriminate.
    + discriminate.
  - unfold ret, throw. intro E. injection E as <-. apply Z.lt_le_trans with outOfMemoryException; [reflexivity|]. apply Z.le_max_l.
Qed.

Lemma good_frame R w w' : good R w -> frame w w' -> Inv R w' -> good R w'.
Proof. intros (_ & G1 & G2) (_ & F & _) HI. unfold good. now rewrite F. Qed.
Lemma refused_num p n a : p = PRead n a -> forall w, refused p w = match api (readN n (W a)) w with Raised _ _ => true | _ => false end.
Proof.
  intros -> w. unfold refused, access, drop, api, bind, ret. destruct (readN n (W a) _); reflexivity.
Qed.

(** A register packet of any content. *)
Definition only_registers (ctx c : list Z) : Prop :=
  zlen c = 216 /\ Forall byte c /\ word_at c 0 = word_at ctx 0 /\ word_at c 80 = word_at ctx 80 /\ (has_fpu ctx = false -> skipn 84 c = skipn 84 ctx).
Lemma only_first ctx bs : zlen ctx = 216 -> Forall byte ctx -> Forall byte bs -> (length bs <= 76)%nat -> only_registers ctx (splice ctx (4 + 4 * 0) bs).
Proof.
  intros HC HB FB L. change (4 + 4 * 0) with 4. assert (LC : zlen (splice ctx 4 bs) = 216) by (rewrite splice_len; unfold zlen in *; lia).
  split; [exact LC|]. split; [now apply splice_bytes|]. unfold word_at. unfold zlen in HC. split; [rewrite splice_skip by (unfold zlen in *; lia); reflexivity|]. split; [|intros _].
  - rewrite splice_skip_after by (unfold zlen in *; lia). reflexivity.
  - apply splice_skip_after; unfold zlen in *; lia.
Qed.
Lemma only_second ctx c bs : only_registers ctx c -> has_fpu c = true -> Forall byte bs -> (length bs <= 132)%nat -> only_registers ctx (splice c (84 + 8 * 0) bs).
Proof.
  intros (L1 & B1 & W0 & W80 & _) FP FB L. change (84 + 8 * 0) with 84. split; [rewrite splice_len; unfold zlen in *; lia|]. split; [now apply splice_bytes|].
  unfold word_at in *. unfold zlen in L1. rewrite !splice_skip by lia. split; [exact W0|]. split; [exact W80|]. intro F. unfold has_fpu, word_at in *. rewrite <- W0 in F. congruence.
Qed.
Lemma set_regs_any text w : zlen (w_ctx w) = 216 -> Forall byte (w_ctx w) ->
  match Platform_CopyContextFromBuffer text w with
  | Ret _ w' => exists c, only_registers (w_ctx w) c /\ w' = set_ctx w c
  | Exc w' => exists c e m, only_registers (w_ctx w) c /\ 0 < e /\ w' = set_exn (set_ctx w c) e m
  | Ub _ => False
  end.
Proof.
  intros HC HB. unfold Platform_CopyContextFromBuffer, bind, OFF_R, OFF_FPR. pose proof (read_hex_any 76 (4 + 4 * 0) w text ltac:(lia) ltac:(lia) HB) as P.
  destruct (readBytesFromBufferAsHex 76 (4 + 4 * 0) text w) as [r w1|w1|]; [| |destruct P].
  - destruct P as (bs & L & FB & ->). pose proof (only_first (w_ctx w) bs HC HB FB ltac:(lia)) as O. pose proof O as (LC & BC & _).
    rewrite fpu_run by (cbn [w_ctx set_ctx]; exact LC). cbn [w_ctx set_ctx]. destruct (has_fpu (splice _ _ _)) eqn:FP.
    + pose proof (read_hex_any 132 (84 + 8 * 0) (set_ctx w (splice (w_ctx w) (4 + 4 * 0) bs)) r) as P. cbn [w_ctx set_ctx] in P. specialize (P ltac:(lia) ltac:(lia) BC).
      change (set_ctx (set_ctx w ?x) ?y) with (set_ctx w y) in P.
      destruct (readBytesFromBufferAsHex 132 _ r _) as [r2 w2|w2|]; [| |destruct P].
      * destruct P as (b2 & L2 & FB2 & ->). eexists. split; [|reflexivity]. apply only_second; auto. lia.
      * destruct P as (b2 & e & m & L2 & FB2 & E & ->). eexists _, e, m. split; [|split; [exact E|reflexivity]]. apply only_second; auto.
    + unfold ret. eexists. split; [|reflexivity]. exact O.
  - destruct P as (bs & e & m & L & FB & E & ->). eexists _, e, m. split; [|split; [exact E|reflexivity]]. now apply only_first.
Qed.

Lemma pcall_ok R p w : good R w -> 0 <= w_faults w < 2147483648 -> pcall_args p ->
  match api (pcall_run p) w with
  | Done _ w' => good R w' /\ rest w w' /\ w_faults w' = faults_after p w /\ (refused p w = true -> w_faults w < 2147483647)
  | Raised c w' => 0 < c /\ good R w' /\ rest w w' /\ w_faults w' = faults_after p w /\ (refused p w = true -> w_faults w < 2147483647)
  | Crashed _ => (refused p w = true /\ w_faults w = 2147483647) \/ ((p = PMap \/ p = PMapSize) /\ ~ xml_fits (regions w))
  end.
Proof.
  intros HG HF HA. pose proof HG as (HI & HC & HB).
  assert (RR : forall w', w_files w' = w_files w -> w_err w' = w_err w -> w_env w' = w_env w -> regions w' = regions w -> rest w w') by (intros w' E1 E2 E3 E4; unfold rest; now rewrite E1, E2, E3, E4).
  assert (NR : refused p w = false -> refused p w = true -> w_faults w < 2147483647) by congruence.
  assert (COMM : (p = PHasData \/ p = PReceive \/ (exists c, p = PSend c) \/ p = PWaiting) ->
    match api (pcall_run p) w with
    | Done _ w' => good R w' /\ rest w w' /\ w_faults w' = faults_after p w /\ (refused p w = true -> w_faults w < 2147483647)
    | Raised c w' => 0 < c /\ good R w' /\ rest w w' /\ w_faults w' = faults_after p w /\ (refused p w = true -> w_faults w < 2147483647)
    | Crashed _ => (refused p w = true /\ w_faults w = 2147483647) \/ ((p = PMap \/ p = PMapSize) /\ ~ xml_fits (regions w)) end).
  { intro HP. pose proof (comm_run p w HP) as P.
    assert (FA : forall w', con_only w w' -> good R w' /\ rest w w' /\ w_faults w' = faults_after p w /\ (refused p w = true -> w_faults w < 2147483647)).
    { intros w' (k & c & m & ->). split; [exact HG|]. split; [now apply RR|]. destruct HP as [->|[->|[(ch & ->)| ->]]]; (split; [cbn [faults_after]; change (refused _ w) with false; cbn [w_faults set_exn set_con]; lia|discriminate]). }
    destruct (api _ w); [auto| |contradiction]. destruct P as [P1 P2]. auto. }
  assert (XML : forall A (k : list Z -> A), match api (x <- MemorySim_GetMemoryMapXML;; ret (k x)) w with
    | Done _ w' => good R w' /\ rest w w' /\ w_faults w' = w_faults w
    | Raised c w' => 0 < c /\ good R w' /\ rest w w' /\ w_faults w' = w_faults w
    | Crashed _ => ~ xml_fits (regions w) end).
  { intros A k. pose proof (Xml_any R (set_exn w noException []) (Inv_exn _ _ _ _ HI)) as P. pose proof (Xml_post R (set_exn w noException []) (Inv_exn _ _ _ _ HI)) as P2. unfold wpost, post in *. unfold api, bind, ret.
    assert (RF : forall w', frame (set_exn w noException []) w' -> zlen (regions w') = zlen (regions w) -> rest w w') by (intros w' (F1 & _ & F3 & _ & _ & _ & F7) E; unfold rest; auto).
    destruct (MemorySim_GetMemoryMapXML _) as [t w'|w'|u] eqn:EX.
    - destruct P as (P1 & P3 & P4). split; [now apply (good_frame R w)|]. split; [apply RF; [exact P3|now rewrite P4]|]. apply P3.
    - destruct P as (P1 & P3 & P4). split; [|split; [now apply (good_frame R w)|split; [apply RF; [exact P3|now rewrite P4]|apply P3]]].
      eapply xml_raises. eassumption.
    - intro X. apply P2. unfold xml_fits in X. change (regions (set_exn w noException [])) with (regions w). replace (xml_alloc (regions w)) with (155 + 14 + zlen (regions w) * 110) by reflexivity. lia. }
  destruct p; cbn [pcall_args] in HA; try (apply COMM; solve [eauto 6]); clear COMM.
  - (* control *) assert (E : exists v, api (pcall_run (PControl c)) w = Done v (set_exn w noException [])) by (destruct c; eexists; reflexivity).
    destruct E as (v & ->). split; [exact HG|]. split; [now apply RR|]. cbn [faults_after]. change (refused (PControl c) w) with false. cbn [w_faults set_exn]. split; [lia|discriminate].
  - (* read *) cbn [pcall_run]. unfold num. assert (E : forall m : M world Z, api (x <- m;; ret [x]) w = match api m w with Done v w' => Done [v] w' | Raised c w' => Raised c w' | Crashed u => Crashed u end).
    { intro m. unfold api, bind, ret. destruct (m _); reflexivity. }
    rewrite E, (memread_run R n a w HI HA). clear E XML. cbn [faults_after]. rewrite (refused_num _ n a eq_refl) in *.
    pose proof (proj1 (access_run R n (W a) 0 w HI HA (W_u32 a))) as P. pose proof (read_len n (W a) w (proj1 HI) (W_u32 a) HA) as PL.
    destruct (api (readN n (W a)) w) as [v w1|c w1|u]; [| |destruct P].
    + destruct P as (_ & F & HI1). split; [now apply (good_frame R w)|]. destruct F as (F1 & F2 & F3 & F4 & F5 & F6 & F7). split; [unfold rest; auto|]. split; [lia|auto].
    + destruct P as (_ & _ & F & HI1). destruct (w_faults w <? 2147483647) eqn:L; [|left; split; [reflexivity|lia]].
      split; [apply (good_frame R w w1 HG F HI1)|]. destruct F as (F1 & F2 & F3 & F4 & F5 & F6 & F7). split; [unfold rest; auto|]. split; [reflexivity|lia].
  - (* write *) cbn [pcall_run]. unfold nothing. assert (E : forall m : M world unit, api (m ;;; ret []) w = match api m w with Done v w' => Done ([] : list Z) w' | Raised c w' => Raised c w' | Crashed u => Crashed u end).
    { intro m. unfold api, bind, ret. destruct (m _); reflexivity. }
    rewrite E, (memwrite_run R n a v w HI HA). clear E XML. cbn [faults_after]. change (refused (PWrite n a v) w) with (match api (writeN n (W a) v) w with Raised _ _ => true | _ => false end) in *.
    pose proof (proj2 (access_run R n (W a) v w HI HA (W_u32 a))) as P. pose proof (write_len n (W a) v w (proj1 HI) (W_u32 a) HA) as PL.
    destruct (api (writeN n (W a) v) w) as [[] w1|c w1|u]; [| |destruct P].
    + destruct P as (_ & F & HI1). split; [now apply (good_frame R w)|]. destruct F as (F1 & F2 & F3 & F4 & F5 & F6 & F7). split; [unfold rest; auto|]. split; [lia|auto].
    + destruct P as (_ & _ & F & HI1). destruct (w_faults w <? 2147483647) eqn:L; [|left; split; [reflexivity|lia]].
      split; [apply (good_frame R w w1 HG F HI1)|]. destruct F as (F1 & F2 & F3 & F4 & F5 & F6 & F7). split; [unfold rest; auto|]. split; [reflexivity|lia].
  - (* faults *) change (api (pcall_run PFaults) w) with (Done [w_faults w] (set_faults (set_exn w noException []) 0)). cbn [faults_after]. split; [exact HG|]. split; [now apply RR|]. split; [reflexivity|discriminate].
  - (* cause *) cbn [pcall_run]. unfold api, num, bind. rewrite cause_run by exact HC. unfold ret. split; [exact HG|]. split; [now apply RR|]. cbn [faults_after]. change (refused PCause w) with false. cbn [w_faults set_exn]. split; [lia|discriminate].
  - (* report *) cbn [pcall_run]. unfold api, nothing, bind. destruct (report_run (set_exn w noException []) (proj1 HI) HC) as (w' & -> & h & c & m & ->). unfold ret.
    split; [split; [exact HI|auto]|]. split; [now apply RR|]. cbn [faults_after]. change (refused PReport w) with false. cbn [w_faults set_exn set_gdb set_hits set_mem]. split; [lia|discriminate].
  - (* get *) cbn [pcall_run]. unfold api. rewrite get_regs by assumption. split; [exact HG|]. split; [now apply RR|]. cbn [faults_after]. change (refused PGetRegs w) with false. cbn [w_faults set_exn]. split; [lia|discriminate].
  - (* set *) cbn [pcall_run]. unfold api.
    pose proof (set_regs_any packet (set_exn w noException []) HC HB) as P. cbn [faults_after]. change (refused (PSetRegs packet) w) with false.
    destruct (Platform_CopyContextFromBuffer packet _) as [t w'|w'|u]; [| |destruct P].
    + destruct P as (c & (L & FB & _) & ->). split; [split; [exact HI|split; [exact L|exact FB]]|]. split; [now apply RR|]. cbn [w_faults set_exn set_ctx]. split; [lia|discriminate].
    + destruct P as (c & e & m & (L & FB & _) & P0 & ->). cbn [w_code set_exn]. split; [exact P0|]. split; [split; [exact HI|split; [exact L|exact FB]]|]. split; [now apply RR|]. cbn [w_faults set_exn set_ctx]. split; [lia|discriminate].
  - (* T *) cbn [pcall_run]. unfold api. rewrite t_regs by assumption. split; [exact HG|]. split; [now apply RR|]. cbn [faults_after]. change (refused PTRegs w) with false. cbn [w_faults set_exn]. split; [lia|discriminate].
  - (* map *) cbn [pcall_run]. pose proof (XML _ (fun x => x)) as P. cbv beta in P. assert (E : api (x <- MemorySim_GetMemoryMapXML;; ret x) w = api Platform_GetDeviceMemoryMapXml w).
    { unfold api, bind, ret, Platform_GetDeviceMemoryMapXml. destruct (MemorySim_GetMemoryMapXML _); reflexivity. }
    rewrite E in P. cbn [faults_after]. change (refused PMap w) with false. destruct (api _ w).
    + destruct P as (P1 & P2 & P3). split; [exact P1|]. split; [exact P2|]. split; [lia|discriminate].
    + destruct P as (P0 & P1 & P2 & P3). split; [exact P0|]. split; [exact P1|]. split; [exact P2|]. split; [lia|discriminate].
    + right. auto.
  - (* map size *) cbn [pcall_run]. pose proof (XML _ (fun x => [zlen x])) as P. cbv beta in P. assert (E : api (x <- MemorySim_GetMemoryMapXML;; ret [zlen x]) w = api (num (fun x => x) Platform_GetDeviceMemoryMapXmlSize) w).
    { unfold api, num, bind, ret, Platform_GetDeviceMemoryMapXmlSize, bind, ret. destruct (MemorySim_GetMemoryMapXML _); reflexivity. }
    rewrite E in P. cbn [faults_after]. change (refused PMapSize w) with false. destruct (api _ w).
    + destruct P as (P1 & P2 & P3). split; [exact P1|]. split; [exact P2|]. split; [lia|discriminate].
    + destruct P as (P0 & P1 & P2 & P3). split; [exact P0|]. split; [exact P1|]. split; [exact P2|]. split; [lia|discriminate].
    + right. auto.
  - (* target *) cbn [pcall_run]. unfold api, Platform_GetTargetXml, bind. rewrite fpu_run by exact HC. unfold ret. split; [exact HG|]. split; [now apply RR|]. cbn [faults_after]. change (refused PTarget w) with false. cbn [w_faults set_exn]. split; [lia|discriminate].
  - (* size *) cbn [pcall_run]. unfold api, Platform_GetTargetXmlSize, num, bind. rewrite fpu_run by exact HC. unfold ret. split; [exact HG|]. split; [now apply RR|]. cbn [faults_after]. change (refused PTargetSize w) with false. cbn [w_faults set_exn]. split; [lia|discriminate].
Qed.

Lemma start_run w : api (StandardIComm_Init ;;; mriPlatform_Init) w = Done tt (set_exn (CmdMain.monitor_start w) noException []).
Proof. destruct w; reflexivity. Qed.

Lemma debug_state_good w : debug_state w -> exists R, good R w /\ 0 <= w_faults w < 2147483648.
Proof.
  induction 1 as [args os w c w1 w' HH HO HS HC HF HD HI HP|w1 w' HR HL HB HP|w p w' HD IH HA HP].
  - rewrite start_run in HP. injection HP as <-. destruct (start_session _ _ _ _ _ HH HO HS HC HF HD HI) as (I1 & L & B). exists (h_live (w_heap w)). split; [split; [exact I1|auto]|].
    change (0 <= 0 < 2147483648). lia.
  - rewrite start_run in HP. injection HP as <-. destruct (reachable_inv _ HR) as (R & HI). exists R. split; [split; [exact HI|auto]|]. change (0 <= 0 < 2147483648). lia.
  - destruct IH as (R & HG & HF). exists R. pose proof (pcall_ok R p w HG HF HA) as P. unfold pstep in HP.
    assert (FA : (refused p w = true -> w_faults w < 2147483647) -> 0 <= faults_after p w < 2147483648).
    { intro Q. unfold faults_after. destruct (refused p w); [specialize (Q eq_refl)|]; destruct p; lia. }
    destruct (api (pcall_run p) w) as [x w1|c w1|]; [| |discriminate]; injection HP as <-.
    + destruct P as (P1 & _ & -> & P4). auto.
    + destruct P as (_ & P1 & _ & -> & P4). auto.
Qed.

(** ** Counting failures *)

Lemma refused_faults w : refused PFaults w = false.
Proof. reflexivity. Qed.

Lemma count_ok R ps : forall w, good R w -> 0 <= w_faults w < 2147483648 -> Forall pcall_args ps -> ~ In PFaults ps ->
  match prun ps w with
  | Some w' => good R w' /\ rest w w' /\ w_faults w' = w_faults w + refused_calls ps w /\ w_faults w' < 2147483648
  | None => ~ xml_fits (regions w) \/ 2147483648 <= w_faults w + refused_calls ps w
  end /\ 0 <= refused_calls ps w.
Proof.
  induction ps as [|p ps IH]; intros w HG HF HA HN; cbn [prun refused_calls].
  - split; [|lia]. split; [exact HG|]. split; [repeat split|]. split; [lia|lia].
  - inversion HA as [|? ? HA1 HA2]; subst. pose proof (pcall_ok R p w HG HF HA1) as P. unfold pstep.
    assert (NP : faults_after p w = w_faults w + (if refused p w then 1 else 0)) by (unfold faults_after; destruct p; try reflexivity; destruct HN; now left).
    assert (K : forall w1, good R w1 -> rest w w1 -> w_faults w1 = faults_after p w -> (refused p w = true -> w_faults w < 2147483647) ->
       match prun ps w1 with
       | Some w' => good R w' /\ rest w w' /\ w_faults w' = w_faults w + ((if refused p w then 1 else 0) + refused_calls ps w1) /\ w_faults w' < 2147483648
       | None => ~ xml_fits (regions w) \/ 2147483648 <= w_faults w + ((if refused p w then 1 else 0) + refused_calls ps w1)
       end /\ 0 <= (if refused p w then 1 else 0) + refused_calls ps w1).
    { intros w1 G1 R1 F1 B1. rewrite NP in F1. assert (F2 : 0 <= w_faults w1 < 2147483648) by (destruct (refused p w); [specialize (B1 eq_refl)|]; lia).
      destruct (IH w1 G1 F2 HA2) as [I1 I2]; [intro X; apply HN; now right|]. split; [|destruct (refused p w); lia]. destruct (prun ps w1) as [w'|].
      - destruct I1 as (I3 & I4 & I5 & I6). split; [exact I3|]. split; [|split; [lia|exact I6]].
        destruct R1 as (R1 & R2 & R3 & R4), I4 as (J1 & J2 & J3 & J4). unfold rest. rewrite J1, J2, J3, J4. auto.
      - destruct I1 as [I1|I1]; [left|right; lia]. destruct R1 as (_ & _ & _ & R4). unfold xml_fits in *. now rewrite <- R4. }
    destruct (api (pcall_run p) w) as [x w1|c w1|u].
    + destruct P as (P1 & P2 & P3 & P4). now apply K.
    + destruct P as (_ & P1 & P2 & P3 & P4). now apply K.
    + split; [|destruct (refused p w); lia]. destruct P as [(-> & E)|(_ & X)]; [right; lia|now left].
Qed.

(** Enough failing reads overflow the counter. *)
Lemma too_many R n a k : forall w, good R w -> width n -> regions w = [] -> 0 <= w_faults w < 2147483648 -> w_faults w + Z.of_nat k = 2147483648 ->
  prun (repeat (PRead n a) k) w = None.
Proof.
  induction k as [|k IH]; intros w HG Hn HR HF HK; cbn [repeat prun]; [lia|].
  pose proof (pcall_ok R (PRead n a) w HG HF Hn) as P. unfold pstep.
  assert (RF : refused (PRead n a) w = true).
  { rewrite (refused_num _ n a eq_refl). unfold api. rewrite readN_wf by (try exact Hn; try apply W_u32; apply HG). change (regions (set_exn w noException [])) with (regions w). rewrite HR. reflexivity. }
  destruct (api (pcall_run (PRead n a)) w) as [x w1|c w1|u]; [| |reflexivity].
  - destruct P as (P1 & P2 & P3 & P4). specialize (P4 RF). unfold faults_after in P3. rewrite RF in P3. apply IH; auto; [|lia|lia].
    destruct P2 as (_ & _ & _ & L). rewrite HR in L. unfold zlen in L. destruct (regions w1); [reflexivity|cbn [length] in L; lia].
  - destruct P as (_ & P1 & P2 & P3 & P4). specialize (P4 RF). unfold faults_after in P3. rewrite RF in P3. apply IH; auto; [|lia|lia].
    destruct P2 as (_ & _ & _ & L). rewrite HR in L. unfold zlen in L. destruct (regions w1); [reflexivity|cbn [length] in L; lia].
Qed.

(** ** The monitor *)

Lemma monitor_keeps R m : forall w, good R w -> 0 <= w_faults w < 2147483648 -> monitor_ok m ->
  match monitor_run m w with
  | Ret _ w' => good R w' /\ rest w w'
  | Exc w' => good R w' /\ rest w w' /\ w_code w' <> 0
  | Ub _ => True
  end.
Proof.
  induction m as [|c|p k IHk h IHh]; intros w HG HF HM; cbn [monitor_run monitor_ok] in *.
  - split; [exact HG|repeat split].
  - unfold throw. split; [exact HG|]. split; [repeat split|]. cbn [w_code set_exn]. lia.
  - destruct HM as (M1 & M2 & M3). pose proof (pcall_ok R p w HG HF M1) as P.
    assert (FA : (refused p w = true -> w_faults w < 2147483647) -> 0 <= faults_after p w < 2147483648).
    { intro Q. unfold faults_after. destruct (refused p w); [specialize (Q eq_refl)|]; destruct p; lia. }
    assert (TR : forall w1 w2, rest w w1 -> rest w1 w2 -> rest w w2).
    { intros w1 w2 (R1 & R2 & R3 & R4) (J1 & J2 & J3 & J4). unfold rest. rewrite J1, J2, J3, J4. auto. }
    destruct (api (pcall_run p) w) as [x w1|c w1|]; [| |exact I].
    + destruct P as (P1 & P2 & P3 & P4). specialize (IHk x w1 P1 ltac:(rewrite P3; auto) (M2 x)).
      destruct (monitor_run (k x) w1); [| |exact I]; [destruct IHk as (? & ?)|destruct IHk as (? & ? & ?)]; eauto.
    + destruct P as (_ & P1 & P2 & P3 & P4). specialize (IHh c w1 P1 ltac:(rewrite P3; auto) (M3 c)).
      destruct (monitor_run (h c) w1); [| |exact I]; [destruct IHh as (? & ?)|destruct IHh as (? & ? & ?)]; eauto.
Qed.

(** ** Receiving *)

Lemma recv_run w : let c := w_con w in let k b := mkCon (c_polls c) (S (c_reads c)) (c_writes c) b (c_out c) in
  api (ccall_run CReceive) w =
  match e_read (w_env w) (c_reads c) with
  | RdErr => Raised fileException (set_exn (set_con w (k (c_connected c))) fileException [])
  | RdEof => Done [0] (set_exn (set_con w (k true)) noException [])
  | RdByte b => Done [if b <? 128 then b else b - 256] (set_exn (set_con w (k true)) noException [])
  end.
Proof.
  cbv zeta. unfold api, ccall_run, num, receiveChar, bind, Console_ReadStdIn, throw, set_connected, modw, ret.
  change (w_env (set_exn w noException [])) with (w_env w). change (w_con (set_exn w noException [])) with (w_con w). destruct (e_read _ _); reflexivity.
Qed.
Lemma send_run ch w : let c := w_con w in let k l := mkCon (c_polls c) (c_reads c) (S (c_writes c)) (c_connected c) l in
  api (ccall_run (CSend ch)) w =
  if e_write (w_env w) (c_writes c) then Done [] (set_exn (set_con w (k (c_out c ++ [ch mod 256]))) noException [])
  else Raised fileException (set_exn (set_con w (k (c_out c))) fileException []).
Proof.
  cbv zeta. unfold api, ccall_run, nothing, sendChar, bind, Console_WriteStdOut, throw, ret.
  change (w_env (set_exn w noException [])) with (w_env w). change (w_con (set_exn w noException [])) with (w_con w). destruct (e_write _ _); reflexivity.
Qed.
Lemma hasdata_run w : let c := w_con w in
  api (ccall_run CHasData) w = Done [match e_poll (w_env w) (c_polls c) with PollYes => 1 | _ => 0 end]
    (set_exn (set_con w (mkCon (S (c_polls c)) (c_reads c) (c_writes c) (c_connected c) (c_out c))) noException []).
Proof.
  cbv zeta. unfold api, ccall_run, num, bind, hasReceiveData, try_, lift, bind, Console_HasStdInDataToRead, setl, throw, ret. cbn [snd fst].
  change (w_env (set_exn (set_exn w noException []) noException [])) with (w_env w). change (w_con (set_exn (set_exn w noException []) noException [])) with (w_con w). destruct (e_poll _ _); reflexivity.
Qed.
Lemma connected_run w : let c := w_con w in
  api (ccall_run CConnected) w = if c_connected c then Done [1] (set_exn w noException []) else api (ccall_run CHasData) w.
Proof.
  cbv zeta. unfold api, ccall_run, num, bind, isGdbConnected, bind, getw, ret. change (w_con (set_exn w noException [])) with (w_con w). destruct (c_connected _); reflexivity.
Qed.

(** No call crashes; the flag says whether something was received; the environment stays. *)
Lemma ccall_ok c w :
  match api (ccall_run c) w with
  | Done _ w' => (c_connected (w_con w') = true <-> c_connected (w_con w) = true \/ c = CReceive) /\ w_env w' = w_env w
  | Raised e w' => e = fileException /\ (c = CReceive \/ exists ch, c = CSend ch) /\ c_connected (w_con w') = c_connected (w_con w) /\ w_env w' = w_env w
  | Crashed _ => False
  end.
Proof.
  destruct c.
  - rewrite hasdata_run. cbv zeta. cbn [w_con set_con set_exn c_connected w_env]. split; [|reflexivity]. intuition discriminate.
  - rewrite recv_run. cbv zeta. destruct (e_read _ _); cbn [w_con set_con set_exn c_connected w_env]; intuition.
  - rewrite send_run. cbv zeta. destruct (e_write _ _); cbn [w_con set_con set_exn c_connected w_env]; [intuition discriminate|eauto 6].
  - rewrite connected_run. cbv zeta. destruct (c_connected (w_con w)) eqn:E; [cbn [w_con set_exn w_env]; rewrite E; intuition|].
    rewrite hasdata_run. cbv zeta. cbn [w_con set_con set_exn c_connected w_env]. split; [|reflexivity]. rewrite E. intuition discriminate.
Qed.

Lemma crun_ok cs : forall w, exists w', crun cs w = Some w' /\ (c_connected (w_con w') = true <-> c_connected (w_con w) = true \/ received cs w) /\ w_env w' = w_env w.
Proof.
  induction cs as [|c cs IH]; intro w; cbn [crun received].
  - exists w. split; [reflexivity|]. split; [intuition|reflexivity].
  - pose proof (ccall_ok c w) as P. destruct (api (ccall_run c) w) as [x w1|e w1|]; [| |destruct P].
    + destruct P as [P1 P2]. destruct (IH w1) as (w' & E & Q & EV). exists w'. split; [exact E|]. split; [rewrite Q, P1; tauto|congruence].
    + destruct P as (_ & _ & P1 & P2). destruct (IH w1) as (w' & E & Q & EV). exists w'. split; [exact E|]. split; [rewrite Q, P1; tauto|congruence].
Qed.

Lemma sent_got cs : forall w w', crun cs w = Some w' ->
  c_out (w_con w') = c_out (w_con w) ++ sent cs w /\ got cs w = delivered (w_env w) (c_reads (w_con w)) (receive_calls cs).
Proof.
  induction cs as [|c cs IH]; intros w w' E; cbn [crun sent got] in *.
  - injection E as <-. now rewrite app_nil_r.
  - destruct c.
    + rewrite hasdata_run in *. cbv zeta in *. apply IH in E. exact E.
    + rewrite recv_run in *. cbv zeta in *. unfold receive_calls, delivered. cbn [filter length seq flat_map]. fold (receive_calls cs).
      destruct (e_read (w_env w) (c_reads (w_con w))) eqn:EV; (apply IH in E as [E1 E2]; split; [exact E1|]; rewrite E2); reflexivity.
    + rewrite send_run in *. cbv zeta in *. destruct (e_write _ _); apply IH in E as [E1 E2]; (split; [|exact E2]); rewrite E1; [cbn [w_con set_con set_exn c_out]; now rewrite app_assoc|reflexivity].
    + rewrite connected_run in *. cbv zeta in *. destruct (c_connected (w_con w)).
      * apply IH in E. exact E.
      * rewrite hasdata_run in *. cbv zeta in *. apply IH in E. exact E.
Qed.

(** ** Lines of the report *)

Lemma text_inj a b : text a = text b <-> a = b.
Proof.
  split; [|now intros ->]. unfold text. intro H. injection H as H. revert b H. induction a as [|c a IH]; intros [|d b] H; cbn [s2b] in H; try discriminate; [reflexivity|].
  injection H as H1 H2. f_equal; [|now apply IH]. rewrite <- (Ascii.ascii_nat_embedding c), <- (Ascii.ascii_nat_embedding d). f_equal. lia.
Qed.
Lemma in_bits v tbl b s : In (b, s) tbl -> (forall b', In (b', s) tbl -> b' = b) -> (In (text s) (bit_lines v tbl) <-> Z.testbit v b = true).
Proof.
  intros H U. unfold bit_lines. rewrite in_map_iff. split.
  - intros ((b' & s') & E & F). apply filter_In in F as [F1 F2]. cbn [snd fst] in *. apply text_inj in E as ->. now rewrite (U _ F1) in F2.
  - intro T. exists (b, s). split; [reflexivity|]. apply filter_In. auto.
Qed.
(** Lines that are not about a bit. *)
Definition frame_line (s : string) : bool :=
  existsb (String.eqb s) ["**MPU Fault**"; "**Bus Fault**"; "**Usage Fault**"; "**Hard Fault**"; "  Status Register: "; "    Fault Address: "; ""]%string.
Lemma in_part header v addr tbl b s : frame_line s = false -> frame_line header = true -> In (b, s) tbl -> (forall b', In (b', s) tbl -> b' = b) ->
  (In (text s) (status_part header (Some v) addr tbl ++ [text ""]) <-> Z.testbit v b = true).
Proof.
  intros F FH H U. assert (N : forall h, frame_line h = true -> text h <> text s) by (intros h Fh E; apply text_inj in E as ->; congruence).
  unfold status_part. destruct (Z.eqb_spec v 0) as [->|NZ].
  - rewrite Z.bits_0. cbn [app In]. split; [intros [E|[]]|discriminate]. destruct (N ""%string eq_refl E).
  - rewrite <- (in_bits v tbl b s H U). rewrite !in_app_iff. cbn [In]. unfold address_lines. split.
    + intros [[[E|[E|[E|[]]]]|[E|E]]|[E|[]]]; try (now apply N in E); try discriminate; [|exact E].
      destruct (Z.testbit v 7), addr; cbn [In] in E; [|destruct E..]. destruct E as [E|[E|[]]]; [now apply N in E|discriminate].
    + tauto.
Qed.
