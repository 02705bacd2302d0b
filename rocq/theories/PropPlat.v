(** Properties C42 - C46, C49 (sessions) and C51 - C54: the platform layer and the console. *)
From Coq Require Import String ZArith List Bool Lia ZifyBool ZifyNat Permutation.
From Verif Require Import DumpSafe CmdFull Base World Context MemSim CmdLine Platform Comm MainProg BaseLemmas MemSpec MemLemmas MemInv MemOps MemHist2 MemThms MemThms3 DumpSpec CmdSpec CmdThms CmdSafe CmdMain PlatSpec PlatInit PlatThms PlatSess MemEx PropMem PropCmd.
Import ListNotations.
Open Scope Z_scope.
Open Scope m_scope.

(** ** Examples *)

(** Fault registers, some RAM, and a context: HardFault, floating point. *)
Definition ctx_plat : list Z :=
  [1; 0; 0; 0] ++ map Z.of_nat (seq 1 76) ++ [3; 0; 0; 1] ++ map Z.of_nat (seq 100 132).
(** The same without floating point and with a MemManage fault. *)
Definition ctx_mem : list Z :=
  [0; 0; 0; 0] ++ map Z.of_nat (seq 1 76) ++ [4; 0; 0; 1] ++ map Z.of_nat (seq 100 132).
Definition ops_plat : list op :=
  [OCreate 0xE000ED28 20; OLoad 0xE000ED28 [146; 130; 0; 2; 0; 0; 0; 64; 1; 2; 3; 4; 16; 17; 18; 19; 32; 33; 34; 35] 20; OCreate 0x20000000 16].
(** Input: poll errors and data, then one byte. *)
Definition env_plat : env :=
  mkEnv (fun _ _ => true) (fun _ => None) (fun _ => IoOk) (fun k => match k with O => PollErr | 1%nat => PollNo | _ => PollYes end)
        (fun k => match k with O => RdErr | 1%nat => RdByte 200 | _ => RdEof end) (fun k => negb (Nat.eqb k 1)).
Definition w_with (ctx : list Z) (ops : list op) : world :=
  match run ops (set_ctx (w_start env_plat) ctx) with Some w => monitor_start w | None => w_start env_plat end.
Definition w_plat : world := w_with ctx_plat ops_plat.
Definition w_memf : world := w_with ctx_mem ops_plat.
Definition w_none : world := w_with ctx_mem [].

Lemma with_ok ctx ops : zlen ctx = 216 -> forallb (fun b => (0 <=? b) && (b <? 256)) ctx = true ->
  forallb op_argsb ops && all_alongb (fun w o => direct_aliasb (regions w) o) ops (set_ctx (w_start env_plat) ctx) &&
  match run ops (set_ctx (w_start env_plat) ctx) with Some w => (zlen (w_ctx w) =? 216) && forallb (fun b => (0 <=? b) && (b <? 256)) (w_ctx w) | None => false end = true ->
  debug_state (set_exn (w_with ctx ops) noException []).
Proof.
  intros HL HB H. apply andb_prop in H as [H H3]. apply andb_prop in H as [H1 H2]. unfold w_with.
  destruct (run ops _) as [w|] eqn:E; [|discriminate]. apply andb_prop in H3 as [H3 H4].
  apply (ds_memory w); [| | |apply start_run].
  - eapply reachable_run; [apply (reach_fresh (set_ctx (w_start env_plat) ctx)); [reflexivity|exact (start_sane env_plat)]|exact (ops_argsb_ok _ H1)| |exact E].
    eapply all_alongb_ok; [|exact H2]. cbn. intros; now apply direct_aliasb_ok.
  - lia.
  - apply Forall_forall. intros b Hb. rewrite forallb_forall in H4. specialize (H4 b Hb). unfold byte. lia.
Qed.
Lemma plat_debug : debug_state (set_exn w_plat noException []) /\ debug_state (set_exn w_memf noException []) /\ debug_state (set_exn w_none noException []).
Proof. split; [|split]; (apply with_ok; [reflexivity|reflexivity|vm_compute; reflexivity]). Qed.

(** ** C42: register packets *)

(** C42.  Reading the registers gives two lower-case hexadecimal digits for each byte of the registers,
    in order, and changes nothing. *)
Theorem C42_read w : debug_state w ->
  api (pcall_run PGetRegs) w = Done (hex_text (register_bytes (w_ctx w))) (set_exn w noException []).
Proof.
  intro H. destruct (debug_state_good _ H) as (R & (HI & HL & HB) & HF). unfold api, pcall_run. now rewrite get_regs.
Qed.

(** C42.  Writing back the packet just read succeeds, uses all of it and leaves everything as it was. *)
Theorem C42_read_write w : debug_state w -> exists packet w1,
  api (pcall_run PGetRegs) w = Done packet w1 /\ api (pcall_run (PSetRegs packet)) w1 = Done [] (set_exn w noException []).
Proof.
  intro H. destruct (debug_state_good _ H) as (R & (HI & HL & HB) & HF). exists (hex_text (register_bytes (w_ctx w))), (set_exn w noException []).
  split; [now apply C42_read|]. unfold api, pcall_run.
  pose proof (set_regs (set_exn w noException []) (register_bytes (w_ctx w)) (hex_text (register_bytes (w_ctx w))) [] HL) as E. rewrite app_nil_r in E.
  change (set_exn (set_exn w noException []) noException []) with (set_exn w noException []). rewrite E; [|apply is_hex_text|reflexivity].
  - change (w_ctx (set_exn w noException [])) with (w_ctx w). rewrite get_regs_with by exact HL. destruct w; reflexivity.
  - unfold register_bytes. apply Forall_app. split; [now apply DumpSafe.Forall_firstn', DumpSafe.Forall_skipn'|]. destruct (has_fpu _); [now apply DumpSafe.Forall_firstn', DumpSafe.Forall_skipn'|constructor].
Qed.

(** C42.  Writing a packet with a pair of digits (in either case) for each register byte, followed by
    anything, leaves what follows unread, changes the registers and nothing else - not the flags or the
    crash PSR -, and reading gives the same packet in lower case. *)
Theorem C42_write_read w bs packet rest : debug_state w -> is_hex_of bs packet -> length bs = length (register_bytes (w_ctx w)) ->
  exists w1, api (pcall_run (PSetRegs (packet ++ rest))) w = Done rest w1 /\
    api (pcall_run PGetRegs) w1 = Done (lower_case packet) w1 /\
    register_bytes (w_ctx w1) = bs /\ word_at (w_ctx w1) 0 = word_at (w_ctx w) 0 /\ word_at (w_ctx w1) 80 = word_at (w_ctx w) 80 /\
    w1 = set_exn (set_ctx w (w_ctx w1)) noException [].
Proof.
  intros H HX HN. destruct (debug_state_good _ H) as (R & (HI & HL & HB) & HF).
  assert (E : api (pcall_run (PSetRegs (packet ++ rest))) w = Done rest (set_exn (set_ctx w (with_registers (w_ctx w) bs)) noException [])).
  { unfold api, pcall_run. rewrite (set_regs (set_exn w noException []) bs packet rest HL HX HN). reflexivity. }
  exists (set_exn (set_ctx w (with_registers (w_ctx w) bs)) noException []). split; [exact E|].
  assert (D : debug_state (set_exn (set_ctx w (with_registers (w_ctx w) bs)) noException [])) by (eapply (ds_call w (PSetRegs (packet ++ rest))); [exact H|exact I|unfold pstep; now rewrite E]).
  pose proof (with_regs_get (w_ctx w) bs HL HN) as G.
  split; [rewrite (C42_read _ D); cbn [w_ctx set_exn set_ctx]; rewrite G, (is_hex_lower _ _ HX); reflexivity|]. cbn [w_ctx set_exn set_ctx]. split; [exact G|].
  pose proof (set_regs_any packet (set_exn w noException []) HL HB) as P. pose proof (set_regs (set_exn w noException []) bs packet [] HL HX HN) as Q. rewrite app_nil_r in Q. rewrite Q in P.
  destruct P as (c & (_ & _ & W0 & W80 & _) & EC). assert (c = with_registers (w_ctx w) bs) by (apply (f_equal w_ctx) in EC; cbn [w_ctx set_ctx set_exn] in EC; congruence). subst c. auto.
Qed.

(** C42.  Whatever a packet contains, writing it changes nothing but registers: not the flags, not the
    crash PSR, not the floating-point part of a context without floating point, nothing outside the
    context.  It does not crash. *)
Theorem C42_any_packet w packet : debug_state w ->
  match api (pcall_run (PSetRegs packet)) w with
  | Done _ w' | Raised _ w' =>
      word_at (w_ctx w') 0 = word_at (w_ctx w) 0 /\ word_at (w_ctx w') 80 = word_at (w_ctx w) 80 /\ zlen (w_ctx w') = 216 /\
      (has_fpu (w_ctx w) = false -> skipn 84 (w_ctx w') = skipn 84 (w_ctx w)) /\
      w' = set_exn (set_ctx w (w_ctx w')) (w_code w') (w_msg w')
  | Crashed _ => False
  end.
Proof.
  intro H. destruct (debug_state_good _ H) as (R & (HI & HL & HB) & HF). unfold api, pcall_run. pose proof (set_regs_any packet (set_exn w noException []) HL HB) as P.
  destruct (Platform_CopyContextFromBuffer packet _) as [x w'|w'|]; [| |exact P].
  - destruct P as (c & (L & FB & W0 & W80 & FP) & ->). cbn [w_ctx set_exn set_ctx] in *. repeat (split; [assumption|]). reflexivity.
  - destruct P as (c & e & m & (L & FB & W0 & W80 & FP) & _ & ->). cbn [w_ctx set_exn set_ctx] in *. repeat (split; [assumption|]). reflexivity.
Qed.

(** C42.  The target description declares the registers of the packet: their names in the order of the
    packet, and as many bits as four times the number of digits.  The packet fits in GDB's buffer. *)
Definition core_names : list string := ["r0"; "r1"; "r2"; "r3"; "r4"; "r5"; "r6"; "r7"; "r8"; "r9"; "r10"; "r11"; "r12"; "sp"; "lr"; "pc"; "xpsr"; "msp"; "psp"]%string.
Definition fpu_names : list string := ["d0"; "d1"; "d2"; "d3"; "d4"; "d5"; "d6"; "d7"; "d8"; "d9"; "d10"; "d11"; "d12"; "d13"; "d14"; "d15"; "fpscr"]%string.
Theorem C42_declared w : debug_state w -> exists packet w1 xml w2,
  api (pcall_run PGetRegs) w = Done packet w1 /\ api (pcall_run PTarget) w = Done xml w2 /\
  total (reg_bits xml) = 4 * zlen packet /\
  reg_names xml = map s2b (core_names ++ if has_fpu (w_ctx w) then fpu_names else []) /\
  reg_bits xml = map (fun n => if existsb (String.eqb n) (firstn 16 fpu_names) then 64 else 32) (core_names ++ if has_fpu (w_ctx w) then fpu_names else []) /\
  zlen packet <= Platform_GetPacketBufferSize /\ w1 = set_exn w noException [] /\ w2 = set_exn w noException [].
Proof.
  intro H. destruct (debug_state_good _ H) as (R & (HI & HL & HB) & HF). exists (hex_text (register_bytes (w_ctx w))), (set_exn w noException []), (if has_fpu (w_ctx w) then g_targetFpuXML else g_targetXML), (set_exn w noException []).
  split; [now apply C42_read|]. split; [unfold api, pcall_run, Platform_GetTargetXml, bind; rewrite fpu_run by exact HL; reflexivity|].
  unfold zlen. rewrite hex_text_len, regs_len by exact HL. destruct (has_fpu (w_ctx w)).
  - split; [vm_compute; reflexivity|]. split; [vm_compute; reflexivity|]. split; [vm_compute; reflexivity|]. split; [unfold Platform_GetPacketBufferSize; lia|auto].
  - split; [vm_compute; reflexivity|]. split; [vm_compute; reflexivity|]. split; [vm_compute; reflexivity|]. split; [unfold Platform_GetPacketBufferSize; lia|auto].
Qed.

Example C42_example : debug_state (set_exn w_plat noException []) /\ has_fpu (w_ctx w_plat) = true /\ has_fpu (w_ctx w_memf) = false /\
  exists bs packet, is_hex_of bs packet /\ length bs = length (register_bytes (w_ctx w_memf)) /\ lower_case packet <> packet.
Proof.
  split; [apply plat_debug|]. split; [reflexivity|]. split; [reflexivity|]. exists (repeat 171 76), (concat (repeat (s2b "Ab") 76)). split; [|split; [reflexivity|vm_compute; discriminate]].
  cbn [repeat concat app s2b]. repeat (apply hex_cons; [unfold byte; lia|reflexivity|reflexivity|]). constructor.
Qed.

(** ** C51: the T response *)

(** C51.  The stop reply shows registers 12 to 15 with the same digits as the register packet, and
    changes nothing. *)
Theorem C51_stop_reply w : debug_state w -> exists packet w1,
  api (pcall_run PGetRegs) w = Done packet w1 /\
  api (pcall_run PTRegs) w =
    Done (s2b "0c:" ++ firstn 8 (skipn 96 packet) ++ s2b ";0d:" ++ firstn 8 (skipn 104 packet) ++
          s2b ";0e:" ++ firstn 8 (skipn 112 packet) ++ s2b ";0f:" ++ firstn 8 (skipn 120 packet) ++ s2b ";") (set_exn w noException []).
Proof.
  intro H. destruct (debug_state_good _ H) as (R & (HI & HL & HB) & HF). exists (hex_text (register_bytes (w_ctx w))), (set_exn w noException []).
  split; [now apply C42_read|]. unfold api, pcall_run. rewrite t_regs by assumption. change (w_ctx (set_exn w noException [])) with (w_ctx w). f_equal.
  assert (SK : forall k bs, skipn (2 * k) (hex_text bs) = hex_text (skipn k bs)).
  { induction k as [|k IH]; intros bs; [reflexivity|]. destruct bs as [|b bs]; [destruct (2 * S k)%nat; reflexivity|]. replace (2 * S k)%nat with (S (S (2 * k))) by lia. cbn [hex_text flat_map app]. fold (hex_text bs). apply IH. }
  assert (F : forall k bs, firstn (2 * k) (hex_text bs) = hex_text (firstn k bs)).
  { induction k as [|k IH]; intros bs; [reflexivity|]. destruct bs as [|b bs]; [destruct (2 * S k)%nat; reflexivity|]. replace (2 * S k)%nat with (S (S (2 * k))) by lia. cbn [hex_text flat_map app firstn]. fold (hex_text bs). fold (hex_text (firstn k bs)). f_equal. f_equal. apply IH. }
  assert (P : forall k, (k + 4 <= 76)%nat -> firstn 8 (skipn (2 * k) (hex_text (register_bytes (w_ctx w)))) = hex_text (firstn 4 (skipn (4 + k) (w_ctx w)))).
  { intros k HK. rewrite SK. change 8%nat with (2 * 4)%nat. rewrite F. f_equal. unfold register_bytes.
    assert (L76 : length (firstn 76 (skipn 4 (w_ctx w))) = 76%nat) by (rewrite firstn_length, skipn_length; unfold zlen in HL; lia).
    rewrite skipn_app, firstn_app, L76. assert (L2 : length (skipn k (firstn 76 (skipn 4 (w_ctx w)))) = (76 - k)%nat) by (rewrite skipn_length, L76; reflexivity).
    rewrite L2. replace (4 - (76 - k))%nat with 0%nat by lia. rewrite firstn_O, app_nil_r. rewrite skipn_firstn_comm, firstn_firstn, skipn_skipn. replace (Nat.min 4 (76 - k)) with 4%nat by lia. f_equal. f_equal. lia. }
  pose proof (P 48%nat ltac:(lia)) as P1. pose proof (P 52%nat ltac:(lia)) as P2. pose proof (P 56%nat ltac:(lia)) as P3. pose proof (P 60%nat ltac:(lia)) as P4.
  change (2 * 48)%nat with 96%nat in P1. change (2 * 52)%nat with 104%nat in P2. change (2 * 56)%nat with 112%nat in P3. change (2 * 60)%nat with 120%nat in P4.
  rewrite P1, P2, P3, P4. unfold t_entry. rewrite <- !app_assoc. reflexivity.
Qed.

Example C51_example : exists l w', api (pcall_run PTRegs) (set_exn w_plat noException []) = Done l w' /\ firstn 12 l = s2b "0c:31323334;".
Proof. eexists _, _. split; vm_compute; reflexivity. Qed.

(** ** C43: memory accesses of the debugger *)

(** C43.  A read of any address and width returns what the memory holds, or 0 if the memory refuses it;
    no exception escapes and the only undefined behaviour is the overflow of the failure counter.  A
    refused read changes no storage. *)
Theorem C43_read w n a : debug_state w -> width n ->
  match api (pcall_run (PRead n a)) w with
  | Done x w' => (refused (PRead n a) w = false /\ exists v, x = [v] /\ api (readN n (W a)) w = Done v w') \/
                 (refused (PRead n a) w = true /\ x = [0] /\ w_faults w' = w_faults w + 1 /\ w_ctx w' = w_ctx w /\
                  forall j k, storage (regions w') j k = storage (regions w) j k)
  | Raised _ _ => False
  | Crashed _ => w_faults w = 2147483647 /\ refused (PRead n a) w = true
  end.
Proof.
  intros H Hn. destruct (debug_state_good _ H) as (R & (HI & HL & HB) & HF). rewrite (refused_num _ n a eq_refl).
  assert (E : api (pcall_run (PRead n a)) w = match api (Platform_MemRead n a) w with Done v w' => Done [v] w' | Raised c w' => Raised c w' | Crashed u => Crashed u end).
  { unfold pcall_run, num, api, bind, ret. destruct (Platform_MemRead n a _); reflexivity. }
  rewrite E, (memread_run R n a w HI Hn). pose proof (proj1 (access_run R n (W a) 0 w HI Hn (W_u32 a))) as P.
  destruct (api (readN n (W a)) w) as [v w1|c w1|u] eqn:EA; [| |destruct P].
  - left. split; [reflexivity|]. eauto.
  - destruct (w_faults w <? 2147483647) eqn:L; [|split; [lia|reflexivity]]. right. split; [reflexivity|]. split; [reflexivity|]. split; [reflexivity|].
    destruct P as (_ & _ & (_ & F & _) & _). split; [exact F|].
    destruct (proj2 (failing_access_wf w w1 c n (W a) 0 (proj1 HI) Hn (W_u32 a)) EA) as [(_ & ->)|(_ & _ & Q)]; [reflexivity|exact Q].
Qed.

(** C43.  A write stores as the memory does, or, if the memory refuses it, has no effect at all except
    on the failure counter and the exception state. *)
Theorem C43_write w n a v : debug_state w -> width n ->
  match api (pcall_run (PWrite n a v)) w with
  | Done x w' => x = [] /\
                 ((refused (PWrite n a v) w = false /\ api (writeN n (W a) v) w = Done tt w') \/
                  (refused (PWrite n a v) w = true /\ w' = set_faults (set_exn w (w_code w') (w_msg w')) (w_faults w + 1)))
  | Raised _ _ => False
  | Crashed _ => w_faults w = 2147483647 /\ refused (PWrite n a v) w = true
  end.
Proof.
  intros H Hn. destruct (debug_state_good _ H) as (R & (HI & HL & HB) & HF). change (refused (PWrite n a v) w) with (match api (writeN n (W a) v) w with Raised _ _ => true | _ => false end).
  assert (E : api (pcall_run (PWrite n a v)) w = match api (Platform_MemWrite n a v) w with Done _ w' => Done [] w' | Raised c w' => Raised c w' | Crashed u => Crashed u end).
  { unfold pcall_run, nothing, api, bind, ret. destruct (Platform_MemWrite n a v _); reflexivity. }
  rewrite E, (memwrite_run R n a v w HI Hn). pose proof (proj2 (access_run R n (W a) v w HI Hn (W_u32 a))) as P.
  destruct (api (writeN n (W a) v) w) as [[] w1|c w1|u] eqn:EA; [| |destruct P].
  - split; [reflexivity|]. left. auto.
  - destruct (w_faults w <? 2147483647) eqn:L; [|split; [lia|reflexivity]]. split; [reflexivity|]. right. split; [reflexivity|].
    destruct (proj1 (failing_access_wf w w1 c n (W a) v (proj1 HI) Hn (W_u32 a)) EA) as (_ & ->). reflexivity.
Qed.

(** C43.  The fault query returns the number of refused reads and writes since the last query. *)
Theorem C43_count w0 x w1 ps w2 : debug_state w0 -> api (pcall_run PFaults) w0 = Done x w1 ->
  Forall pcall_args ps -> ~ In PFaults ps -> prun ps w1 = Some w2 ->
  exists w3, api (pcall_run PFaults) w2 = Done [refused_calls ps w1] w3.
Proof.
  intros H E HA HN HP. destruct (debug_state_good _ H) as (R & HG & HF).
  injection E as _ <-. destruct (count_ok R ps (set_faults (set_exn w0 noException []) 0) HG) as [C _]; [cbn [w_faults set_faults]; lia|exact HA|exact HN|].
  rewrite HP in C. destruct C as (_ & _ & C & _). cbn [w_faults set_faults] in C. rewrite Z.add_0_l in C. rewrite <- C. eexists. reflexivity.
Qed.
(** So does the first query of a session. *)
Theorem C43_count_first w0 w1 ps w2 : api (StandardIComm_Init ;;; mriPlatform_Init) w0 = Done tt w1 -> debug_state w1 ->
  Forall pcall_args ps -> ~ In PFaults ps -> prun ps w1 = Some w2 ->
  exists w3, api (pcall_run PFaults) w2 = Done [refused_calls ps w1] w3.
Proof.
  intros E H HA HN HP. rewrite start_run in E. injection E as <-. destruct (debug_state_good _ H) as (R & HG & HF).
  destruct (count_ok R ps (set_exn (monitor_start w0) noException []) HG) as [C _]; [change (0 <= 0 < 2147483648); lia|exact HA|exact HN|].
  rewrite HP in C. destruct C as (_ & _ & C & _). change (w_faults (set_exn (monitor_start w0) noException [])) with 0 in C. rewrite Z.add_0_l in C. rewrite <- C. eexists. reflexivity.
Qed.

(** C43.  A session does not crash as long as there are fewer than 2^31 failures between two queries.
    Missing: more failures, see C43_overflow_refuted. *)
Theorem C43_never_crashes_partial w0 x w1 ps : debug_state w0 -> api (pcall_run PFaults) w0 = Done x w1 ->
  Forall pcall_args ps -> ~ In PFaults ps -> xml_fits (regions w0) -> refused_calls ps w1 < 2147483648 ->
  exists w2, prun ps w1 = Some w2.
Proof.
  intros H E HA HN HX HR. destruct (debug_state_good _ H) as (R & HG & HF). injection E as _ <-.
  destruct (count_ok R ps (set_faults (set_exn w0 noException []) 0) HG) as [C _]; [cbn [w_faults set_faults]; lia|exact HA|exact HN|].
  destruct (prun ps _) as [w2|]; [eauto|]. exfalso. destruct C as [C|C]; [apply C; exact HX|]. cbn [w_faults set_faults] in C. lia.
Qed.

Definition calls_ex : list pcall := [PRead 4 0x20000000; PRead 2 5; PWrite 4 0x20000000 7; PWrite 1 0x20000010 7; PCause; PReport; PRead 4 0x20000000; PRead 4 0x10FFFFFFFF].
Example C43_example : Forall pcall_args calls_ex /\ ~ In PFaults calls_ex /\
  exists x w1 w2, api (pcall_run PFaults) (set_exn w_plat noException []) = Done x w1 /\ prun calls_ex w1 = Some w2 /\ refused_calls calls_ex w1 = 3 /\
  exists w3, api (pcall_run PFaults) w2 = Done [3] w3.
Proof.
  split; [unfold calls_ex; repeat (apply Forall_cons; [cbn [pcall_args]; unfold width; auto|]); apply Forall_nil|]. split; [cbn [calls_ex In]; intuition discriminate|].
  eexists _, _, _. split; [vm_compute; reflexivity|]. split; [vm_compute; reflexivity|]. split; [vm_compute; reflexivity|]. eexists. vm_compute. reflexivity.
Qed.

(** C43 fails in general: after 2^31 refused reads without a query the counter overflows. *)
Theorem C43_overflow_refuted : exists w ps, debug_state w /\ Forall pcall_args ps /\ ~ In PFaults ps /\ xml_fits (regions w) /\ prun ps w = None.
Proof.
  exists (set_exn w_none noException []), (repeat (PRead 4 0) (Z.to_nat 2147483648)). pose proof (proj2 (proj2 plat_debug)) as D.
  split; [exact D|]. split; [apply Forall_forall; intros p Hp; apply repeat_spec in Hp as ->; cbn [pcall_args]; unfold width; auto|].
  split; [intro X; apply repeat_spec in X; discriminate|]. split; [change (regions (set_exn w_none noException [])) with (@nil region); unfold xml_fits, zlen; cbn [length]; lia|].
  destruct (debug_state_good _ D) as (R & HG & _). apply (too_many R).
  - exact HG.
  - unfold width. auto.
  - reflexivity.
  - change (w_faults (set_exn w_none noException [])) with 0. lia.
  - change (w_faults (set_exn w_none noException [])) with 0. rewrite Z2Nat.id by lia. reflexivity.
Qed.

(** ** C44: the signal *)

(** C44.  The signal is the one for the low 8 bits of the crash PSR; asking for it changes nothing. *)
Theorem C44_signal w : debug_state w ->
  api (pcall_run PCause) w = Done [signal_for (word_at (w_ctx w) 80 mod 256)] (set_exn w noException []).
Proof.
  intro H. destruct (debug_state_good _ H) as (R & (HI & HL & HB) & HF). unfold api, pcall_run, num, bind. rewrite cause_run by exact HL. reflexivity.
Qed.
(** C44.  In particular a numbered interrupt whose exception number is 256 more shows as the same
    signal: two states that differ only above bit 7 of the PSR cannot be told apart. *)
Theorem C44_low_bits w w' : debug_state w -> debug_state w' -> (word_at (w_ctx w) 80 - word_at (w_ctx w') 80) mod 256 = 0 ->
  outcome_of (api (pcall_run PCause) w) = outcome_of (api (pcall_run PCause) w').
Proof. intros H H' E. rewrite (C44_signal _ H), (C44_signal _ H'). cbn [outcome_of]. replace (word_at (w_ctx w) 80 mod 256) with (word_at (w_ctx w') 80 mod 256) by lia. reflexivity. Qed.

Example C44_example : outcome_of (api (pcall_run PCause) (set_exn w_plat noException [])) = Value [11] /\
  word_at (w_ctx w_plat) 80 = 0x01000003.
Proof. split; vm_compute; reflexivity. Qed.

(** ** C45: the fault report *)

(** C45.  The report is determined by the exception number and the fault registers; it raises nothing
    and changes nothing else than the watchpoint hit count and the exception state. *)
Theorem C45_report w : debug_state w -> exists w',
  api (pcall_run PReport) w = Done [] w' /\ w_gdb w' = rev (fault_report w) ++ w_gdb w /\
  regions w' = regions w /\ w_ctx w' = w_ctx w /\ w_faults w' = w_faults w /\ w_heap w' = w_heap w /\ w_files w' = w_files w /\
  w_err w' = w_err w /\ w_con w' = w_con w.
Proof.
  intro H. destruct (debug_state_good _ H) as (R & (HI & HL & HB) & HF). unfold api, pcall_run, nothing, bind.
  destruct (report_run (set_exn w noException []) (proj1 HI) HL) as (w' & -> & S). exists w'. split; [reflexivity|].
  replace (fault_report (set_exn w noException [])) with (fault_report w) in S by reflexivity. destruct S as (h & c & m & ->). repeat (split; [reflexivity|]). reflexivity.
Qed.

Lemma prints_report w ls : debug_state w -> prints w ls -> ls = fault_report w.
Proof.
  intros H (w' & E & P). destruct (C45_report w H) as (w2 & E2 & P2 & _). rewrite E in E2. injection E2 as <-. rewrite P in P2. apply app_inv_tail in P2. rewrite <- (rev_involutive ls), P2. apply rev_involutive.
Qed.

Lemma low_bit v b : 0 <= b < 8 -> Z.testbit (v mod 256) b = Z.testbit v b.
Proof. intro H. change 256 with (2 ^ 8). apply Z.mod_pow2_bits_low. lia. Qed.
Lemma mid_bit v b : 0 <= b < 8 -> Z.testbit (v / 256 mod 256) b = Z.testbit v (b + 8).
Proof. intro H. change 256 with (2 ^ 8). rewrite Z.mod_pow2_bits_low by lia. rewrite Z.div_pow2_bits by lia. reflexivity. Qed.
Lemma high_bit v b : 0 <= b < 16 -> Z.testbit (v / 65536 mod 65536) b = Z.testbit v (b + 16).
Proof. intro H. change 65536 with (2 ^ 16). rewrite Z.mod_pow2_bits_low by lia. rewrite Z.div_pow2_bits by lia. reflexivity. Qed.

Ltac table_tac := match goal with HT : In (?b, ?s) _ |- _ =>
  cbn [In] in HT; repeat (destruct HT as [HT|HT]; [injection HT as <- <-; reflexivity|]); destruct HT end.
Ltac unique_tac := let b' := fresh "b'" in let H := fresh "H" in intros b' H; cbn [In] in *;
  repeat match goal with X : _ \/ _ |- _ => destruct X end; first [contradiction|congruence].
Ltac range_tac := match goal with HT : In (?b, ?s) _ |- _ =>
  cbn [In] in HT; repeat (destruct HT as [HT|HT]; [injection HT as <- <-; lia|]); destruct HT end.

(** C45.  The line for a bit is printed iff that bit of the CFSR is set: memory faults are bits 0-7, bus
    faults bits 8-15, usage faults bits 16-31. *)
Theorem C45_bits w ls v b s : debug_state w -> prints w ls -> fault_register w 0xE000ED28 = Some v ->
  (word_at (w_ctx w) 80 mod 256 = 4 -> In (b, s) mem_bits -> (In (text s) ls <-> Z.testbit v b = true)) /\
  (word_at (w_ctx w) 80 mod 256 = 5 -> In (b, s) bus_bits -> (In (text s) ls <-> Z.testbit v (b + 8) = true)) /\
  (word_at (w_ctx w) 80 mod 256 = 6 -> In (b, s) usage_bits -> (In (text s) ls <-> Z.testbit v (b + 16) = true)).
Proof.
  intros H HP HV. rewrite (prints_report w ls H HP). unfold fault_report. split; [|split]; intros -> HT.
  - unfold mem_part. rewrite HV. cbn [option_map]. unfold mem_bits in HT. rewrite <- low_bit by range_tac. apply in_part; [table_tac|reflexivity|exact HT|unfold mem_bits; unique_tac].
  - unfold bus_part. rewrite HV. cbn [option_map]. unfold bus_bits in HT. rewrite <- mid_bit by range_tac. apply in_part; [table_tac|reflexivity|exact HT|unfold bus_bits; unique_tac].
  - unfold usage_part. rewrite HV. cbn [option_map]. unfold usage_bits in HT. rewrite <- high_bit by range_tac. apply in_part; [table_tac|reflexivity|exact HT|unfold usage_bits; unique_tac].
Qed.

(** C45.  The fault address is printed iff its valid bit is set and the address register is in the
    dump; it is then the value of that register. *)
Theorem C45_address w ls v : debug_state w -> prints w ls -> fault_register w 0xE000ED28 = Some v ->
  (word_at (w_ctx w) 80 mod 256 = 4 ->
     (In (text "    Fault Address: ") ls <-> Z.testbit v 7 = true /\ fault_register w 0xE000ED34 <> None) /\
     (forall a, Z.testbit v 7 = true -> fault_register w 0xE000ED34 = Some a -> exists l r, ls = l ++ [text "    Fault Address: "; GHex a] ++ r)) /\
  (word_at (w_ctx w) 80 mod 256 = 5 ->
     (In (text "    Fault Address: ") ls <-> Z.testbit v 15 = true /\ fault_register w 0xE000ED38 <> None) /\
     (forall a, Z.testbit v 15 = true -> fault_register w 0xE000ED38 = Some a -> exists l r, ls = l ++ [text "    Fault Address: "; GHex a] ++ r)).
Proof.
  intros H HP HV. rewrite (prints_report w ls H HP). unfold fault_report.
  assert (K : forall header s ad tbl, frame_line header = true -> text header <> text "    Fault Address: " -> (forall b x, In (b, x) tbl -> frame_line x = false) ->
    (In (text "    Fault Address: ") (status_part header (Some s) ad tbl ++ [text ""]) <-> Z.testbit s 7 = true /\ ad <> None) /\
    (forall a, Z.testbit s 7 = true -> ad = Some a -> exists l r, status_part header (Some s) ad tbl ++ [text ""] = l ++ [text "    Fault Address: "; GHex a] ++ r)).
  { intros header s ad tbl FH NH FT. unfold status_part. destruct (Z.eqb_spec s 0) as [->|NZ].
    - rewrite Z.bits_0. split; [|discriminate]. cbn [app In]. split; [intros [E|[]]; apply text_inj in E; discriminate|intros [E _]; discriminate].
    - split.
      + rewrite !in_app_iff. cbn [In]. unfold address_lines. split.
        * intros [[[E|[E|[E|[]]]]|[E|E]]|[E|[]]]; [contradiction|apply text_inj in E; discriminate|discriminate| | |apply text_inj in E; discriminate].
          -- destruct (Z.testbit s 7), ad; cbn [In] in E; try contradiction. split; [reflexivity|discriminate].
          -- unfold bit_lines in E. apply in_map_iff in E as ((b & x) & E & F). apply filter_In in F as [F _]. apply FT in F. cbn [snd] in E. apply text_inj in E. subst x. discriminate.
        * intros [E N]. left. right. left. rewrite E. destruct ad; [now left|congruence].
      + intros a E ->. exists [text header; text "  Status Register: "; GHex s], (bit_lines s tbl ++ [text ""]). rewrite E. cbn [address_lines]. rewrite <- !app_assoc. reflexivity. }
  split; intros ->.
  - unfold mem_part. rewrite HV. cbn [option_map]. rewrite <- (low_bit v 7) by lia. apply K; [reflexivity|intro E; apply text_inj in E; discriminate|]. intros b x HT. unfold mem_bits in HT. table_tac.
  - unfold bus_part. rewrite HV. cbn [option_map]. change 15 with (7 + 8). rewrite <- (mid_bit v 7) by lia. apply K; [reflexivity|intro E; apply text_inj in E; discriminate|]. intros b x HT. unfold bus_bits in HT. table_tac.
Qed.

(** C45.  Without the status register a memory, bus or usage fault prints a blank line only, and so it
    does if the register has none of its bits set; a hard fault prints its name and a blank line; other
    exceptions print nothing. *)
Theorem C45_absent w ls : debug_state w -> prints w ls ->
  (word_at (w_ctx w) 80 mod 256 = 4 \/ word_at (w_ctx w) 80 mod 256 = 5 \/ word_at (w_ctx w) 80 mod 256 = 6 ->
     fault_register w 0xE000ED28 = None \/ fault_register w 0xE000ED28 = Some 0 -> ls = [text ""]) /\
  (word_at (w_ctx w) 80 mod 256 = 3 -> fault_register w 0xE000ED2C = None -> ls = [text "**Hard Fault**"; text ""]) /\
  (~ (3 <= word_at (w_ctx w) 80 mod 256 <= 6) -> ls = []).
Proof.
  intros H HP. rewrite (prints_report w ls H HP). unfold fault_report. split; [|split].
  - intros HE HV. assert (E : mem_part w = [] /\ bus_part w = [] /\ usage_part w = []) by (unfold mem_part, bus_part, usage_part; destruct HV as [-> | ->]; auto).
    destruct E as (E1 & E2 & E3). destruct HE as [->|[->| ->]]; [now rewrite E1|now rewrite E2|now rewrite E3].
  - intros -> HV. unfold hard_part. now rewrite HV.
  - intro N. destruct (word_at (w_ctx w) 80 mod 256) as [|[[[p|p|]|[p|p|]|]|[[p|p|]|[p|p|]|]|]|]; try reflexivity; lia.
Qed.

(** C45.  Hard faults: bits 31 and 1 of the HFSR have their lines; if bit 30 is set the lines for the
    bits of the CFSR follow. *)
Theorem C45_hard w ls h : debug_state w -> prints w ls -> fault_register w 0xE000ED2C = Some h -> word_at (w_ctx w) 80 mod 256 = 3 ->
  (In (text "    Debug Event") ls <-> Z.testbit h 31 = true) /\
  (In (text "    Vector Table Read") ls <-> Z.testbit h 1 = true) /\
  (In (text "    Forced") ls <-> Z.testbit h 30 = true) /\
  (Z.testbit h 30 = true -> exists l r, ls = l ++ mem_part w ++ bus_part w ++ usage_part w ++ r /\ length r = 1%nat) /\
  (Z.testbit h 30 = false -> forall v, In (GHex v) ls <-> v = h).
Proof.
  intros H HP HV HE. rewrite (prints_report w ls H HP). unfold fault_report. rewrite HE. unfold hard_part. rewrite HV.
  assert (SP : forall header s ad tbl x, text header <> text x -> frame_line x = false -> (forall b y, In (b, y) tbl -> y <> x) -> ~ In (text x) (status_part header s ad tbl)).
  { intros header s ad tbl x N F T. unfold status_part. destruct s as [s|]; [|intros []]. destruct (s =? 0); [intros []|]. rewrite !in_app_iff. cbn [In].
    intros [[E|[E|[E|[]]]]|[E|E]]; [contradiction|apply text_inj in E; subst x; discriminate|discriminate| |].
    - unfold address_lines in E. destruct (Z.testbit s 7), ad; cbn [In] in E; try contradiction. destruct E as [E|[E|[]]]; [apply text_inj in E; subst x; discriminate|discriminate].
    - unfold bit_lines in E. apply in_map_iff in E as ((b & y) & E & G). apply filter_In in G as [G _]. apply T in G. cbn [snd] in E. apply text_inj in E. congruence. }
  assert (SP3 : forall x, In x ["    Debug Event"; "    Vector Table Read"; "    Forced"]%string -> ~ In (text x) (mem_part w) /\ ~ In (text x) (bus_part w) /\ ~ In (text x) (usage_part w)).
  { intros x Hx. assert (Q : frame_line x = false) by (destruct Hx as [<-|[<-|[<-|[]]]]; reflexivity).
    split; [|split]; (apply SP; [intro E; apply text_inj in E; subst x; discriminate|exact Q|]); intros b y HT ->; [unfold mem_bits in HT|unfold bus_bits in HT|unfold usage_bits in HT];
      cbn [In] in HT; repeat (destruct HT as [HT|HT]; [injection HT as <- <-; cbn [In] in Hx; intuition discriminate|]); destruct HT. }
  assert (HB : forall b x, In (b, x) hard_bits -> (In (text x) (bit_lines h hard_bits) <-> Z.testbit h b = true)).
  { intros b x HT. apply in_bits; [exact HT|]. unfold hard_bits in *. unique_tac. }
  set (rest := mem_part w ++ bus_part w ++ usage_part w) in *.
  assert (SR : forall x, In x ["    Debug Event"; "    Vector Table Read"; "    Forced"]%string -> ~ In (text x) rest).
  { intros x Hx. destruct (SP3 x Hx) as (A & B & C). unfold rest. rewrite !in_app_iff. tauto. }
  assert (NF : ~ In (text "    Forced") (bit_lines h hard_bits)).
  { unfold bit_lines. intro E. apply in_map_iff in E as ((b & y) & E & G). apply filter_In in G as [G _]. cbn [snd] in E. apply text_inj in E. subst y.
    cbn [hard_bits In] in G. intuition discriminate. }
  assert (LI : forall x, frame_line x = false -> (In (text x) ((text "**Hard Fault**" :: [text "  Status Register: "; GHex h] ++ bit_lines h hard_bits ++ (if Z.testbit h 30 then text "    Forced" :: rest else [])) ++ [text ""])
     <-> In (text x) (bit_lines h hard_bits) \/ (Z.testbit h 30 = true /\ (x = "    Forced"%string \/ In (text x) rest)))).
  { intros x F. cbn [app In]. rewrite !in_app_iff. cbn [In].
    assert (Q : forall y, frame_line y = true -> text y <> text x) by (intros y Fy E; apply text_inj in E; congruence).
    split.
    - intros [E|[E|[E|[[E|E]|[E|[]]]]]]; try (now apply Q in E); try discriminate; [auto|]. destruct (Z.testbit h 30); [|destruct E]. right. split; [reflexivity|]. destruct E as [E|E]; [apply text_inj in E; auto|auto].
    - intros [E|(E & [->|X])]; [auto 8| |]; rewrite E; right; right; right; left; right; [now left|now right]. }
  split; [|split; [|split; [|split]]].
  - rewrite LI by reflexivity. rewrite (HB 31 "    Debug Event"%string) by (cbn; auto). split; [intros [E|(_ & [E|E])]; [exact E|discriminate|]|auto]. destruct (SR "    Debug Event"%string); [now left|exact E].
  - rewrite LI by reflexivity. rewrite (HB 1 "    Vector Table Read"%string) by (cbn; auto). split; [intros [E|(_ & [E|E])]; [exact E|discriminate|]|auto]. destruct (SR "    Vector Table Read"%string); [right; now left|exact E].
  - rewrite LI by reflexivity. tauto.
  - intro E. rewrite E. exists (text "**Hard Fault**" :: [text "  Status Register: "; GHex h] ++ bit_lines h hard_bits ++ [text "    Forced"]), [text ""]. split; [|reflexivity].
    unfold rest. cbn [app]. rewrite <- !app_assoc. cbn [app]. rewrite <- !app_assoc. reflexivity.
  - intros E v. rewrite E, app_nil_r. cbn [app In]. rewrite in_app_iff. cbn [In]. split.
    + intros [X|[X|[X|[X|[X|[]]]]]]; try discriminate; [now injection X as <-|]. unfold bit_lines in X. apply in_map_iff in X as (? & X & _). discriminate.
    + intros ->. auto.
Qed.

Example C45_example : exists ls, prints (set_exn w_plat noException []) ls /\ In (text "    Forced") ls /\ In (text "    Fault Address: ") ls /\
  exists ls', prints (set_exn w_memf noException []) ls' /\ In (text "    Data Access") ls' /\ ~ In (text "    Instruction Fetch") ls' /\ In (GHex 0x13121110) ls' /\
  prints (set_exn w_none noException []) [text ""].
Proof.
  destruct plat_debug as (D1 & D2 & D3).
  assert (P : forall w, debug_state w -> prints w (fault_report w)) by (intros w D; destruct (C45_report w D) as (w' & E & G & _); exists w'; auto).
  exists (fault_report (set_exn w_plat noException [])). split; [now apply P|].
  set (x := fault_report (set_exn w_plat noException [])). vm_compute in x. subst x. split; [cbn [In]; auto 10|]. split; [cbn [In]; auto 10|].
  exists (fault_report (set_exn w_memf noException [])). split; [now apply P|]. set (x := fault_report (set_exn w_memf noException [])). vm_compute in x. subst x. split; [cbn [In]; auto 10|].
  split; [cbn [In]; intuition discriminate|]. split; [cbn [In]; auto 10|]. 
  assert (E : fault_report (set_exn w_none noException []) = [text ""]) by (vm_compute; reflexivity). rewrite <- E. now apply P.
Qed.

(** ** C46: the connection latch *)

(** C46.  After any calls on the channel, the debugger counts as connected iff a call to receive has
    returned since initialisation or input is waiting; the question itself neither raises nor crashes. *)
Theorem C46_connected wi w0 cs w : api StandardIComm_Init wi = Done tt w0 -> crun cs w0 = Some w ->
  exists b w', api (ccall_run CConnected) w = Done [b] w' /\ (b = 0 \/ b = 1) /\ (b = 1 <-> received cs w0 \/ input_waiting w).
Proof.
  intros EI HC. destruct (crun_ok cs w0) as (w' & E & L & _). rewrite HC in E. injection E as <-.
  assert (F : c_connected (w_con w0) = false).
  { apply (f_equal (fun r => match r with Done _ w => c_connected (w_con w) | _ => false end)) in EI. symmetry. exact EI. }
  rewrite connected_run. cbv zeta. destruct (c_connected (w_con w)).
  - exists 1, (set_exn w noException []). split; [reflexivity|]. split; [auto|]. split; [|auto]. intros _. left. destruct (proj1 L eq_refl) as [X|X]; [congruence|exact X].
  - rewrite hasdata_run. cbv zeta. eexists _, _. split; [reflexivity|]. unfold input_waiting.
    assert (N : ~ received cs w0) by (intro X; pose proof (proj2 L (or_intror X)); discriminate).
    destruct (e_poll _ _); (split; [auto|]); split; intro X; try discriminate; try (destruct X as [X|X]; [contradiction|discriminate]); auto.
Qed.

(** C46.  Polling returns 1 iff input is waiting - an error of the console counts as no - and never
    raises an exception.  No sequence of calls crashes. *)
Theorem C46_polls w : exists b w', api (ccall_run CHasData) w = Done [b] w' /\ (b = 0 \/ b = 1) /\ (b = 1 <-> input_waiting w) /\ c_out (w_con w') = c_out (w_con w).
Proof. rewrite hasdata_run. cbv zeta. eexists _, _. split; [reflexivity|]. unfold input_waiting. destruct (e_poll _ _); (split; [auto|]); (split; [|reflexivity]); split; intro X; try discriminate; reflexivity. Qed.
Theorem C46_total cs w : exists w', crun cs w = Some w'.
Proof. destruct (crun_ok cs w) as (w' & E & _). eauto. Qed.
(** C46.  What asks whether the monitor waits for a connection is the opposite. *)
Theorem C46_waiting w : exists b w', api (ccall_run CConnected) w = Done [b] w' /\ api (pcall_run PWaiting) w = Done [1 - b] w'.
Proof.
  pose proof (connected_run w) as E. cbv zeta in E. unfold api, ccall_run, pcall_run, num, Platform_CommIsWaitingForGdbToConnect, bind in *.
  destruct (isGdbConnected (set_exn w noException [])) as [b w'|w'|] eqn:X.
  - unfold ret. exists (Z.b2z b), w'. split; [reflexivity|]. destruct b; reflexivity.
  - exfalso. pose proof (ccall_ok CConnected w) as P. unfold api, ccall_run, num, bind in P. rewrite X in P. destruct P as (_ & [P|(ch & P)] & _); discriminate.
  - exfalso. pose proof (ccall_ok CConnected w) as P. unfold api, ccall_run, num, bind in P. rewrite X in P. exact P.
Qed.

Definition ccalls_ex : list ccall := [CConnected; CHasData; CSend 300; CReceive; CSend 65; CReceive; CConnected].
Example C46_example : exists w0 w, api StandardIComm_Init w_plat = Done tt w0 /\ crun ccalls_ex w0 = Some w /\ received ccalls_ex w0 /\
  ~ received (firstn 5 ccalls_ex) w0 /\ e_poll (w_env w0) 0 = PollErr.
Proof.
  eexists _, _. split; [reflexivity|]. split; [vm_compute; reflexivity|]. split; [vm_compute; tauto|]. split; [vm_compute; intuition discriminate|reflexivity].
Qed.

(** C46 fails for the end of input: a call to receive that finds no character because the input has
    ended counts as a character received, and the debugger as connected from then on. *)
Theorem C46_end_of_input_refuted : exists wi w0 w, api StandardIComm_Init wi = Done tt w0 /\
  (forall k, e_read (w_env wi) k = RdEof) /\ (forall k, e_poll (w_env wi) k = PollNo) /\
  crun [CReceive] w0 = Some w /\ exists w', api (ccall_run CConnected) w = Done [1] w'.
Proof.
  exists (w_start (mkEnv (fun _ _ => true) (fun _ => None) (fun _ => IoOk) (fun _ => PollNo) (fun _ => RdEof) (fun _ => true))).
  eexists _, _. split; [reflexivity|]. split; [reflexivity|]. split; [reflexivity|]. split; [reflexivity|]. eexists. reflexivity.
Qed.

(** ** C54: bytes sent and received *)

(** C54.  After any calls, the output is what it was followed by the bytes of the calls to send that
    returned, in order: a byte is either written or its call raises.  The calls to receive that
    returned gave what the console delivered to the reads made, in order. *)
Theorem C54_bytes cs w w' : crun cs w = Some w' ->
  c_out (w_con w') = c_out (w_con w) ++ sent cs w /\ got cs w = delivered (w_env w) (c_reads (w_con w)) (receive_calls cs).
Proof. apply sent_got. Qed.
(** C54.  Sending and receiving raise only the file exception. *)
Theorem C54_errors c w e w' : api (ccall_run c) w = Raised e w' -> e = fileException /\ (c = CReceive \/ exists ch, c = CSend ch) /\ c_out (w_con w') = c_out (w_con w).
Proof.
  intro H. pose proof (ccall_ok c w) as P. rewrite H in P. destruct P as (-> & P & _). split; [reflexivity|]. split; [exact P|].
  destruct P as [->|(ch & ->)]; [rewrite recv_run in H|rewrite send_run in H]; cbv zeta in H; [destruct (e_read _ _)|destruct (e_write _ _)]; try discriminate; now injection H as <-.
Qed.

Example C54_example : sent ccalls_ex w_plat = [44] /\ got ccalls_ex w_plat = [-56].
Proof. split; vm_compute; reflexivity. Qed.

(** ** C53: sizes of the descriptions *)

(** C53.  The size GDB is told is the length of the text it is given, for the target description and
    for the memory map. *)
Theorem C53_target w : debug_state w -> exists xml, api (pcall_run PTarget) w = Done xml (set_exn w noException []) /\
  api (pcall_run PTargetSize) w = Done [zlen xml] (set_exn w noException []).
Proof.
  intro H. destruct (debug_state_good _ H) as (R & (HI & HL & HB) & HF). exists (if has_fpu (w_ctx w) then g_targetFpuXML else g_targetXML).
  unfold api, pcall_run, Platform_GetTargetXml, Platform_GetTargetXmlSize, num, bind. rewrite !fpu_run by exact HL. change (w_ctx (set_exn w noException [])) with (w_ctx w).
  split; [reflexivity|]. unfold ret. destruct (has_fpu _); reflexivity.
Qed.
Theorem C53_map w s w1 xml w2 : debug_state w ->
  api (pcall_run PMapSize) w = Done s w1 -> api (pcall_run PMap) w1 = Done xml w2 -> s = [zlen xml].
Proof.
  intros H E1 E2. destruct (debug_state_good _ H) as (R & (HI & HL & HB) & HF).
  assert (K : forall w, Inv R w -> forall x w', MemorySim_GetMemoryMapXML w = Ret x w' ->
     build_xml (regions w) (MemOps3.xml_alloc (regions w)) = Some x /\ regions w' = regions w /\ Inv R w').
  { intros w' HI' x w'' E. pose proof (Xml_any R w' HI') as P. unfold wpost in P. rewrite E in P. destruct P as (P1 & _ & P2). split; [|auto].
    unfold MemorySim_GetMemoryMapXML, getw in E. unfold bind at 1 in E. fold (MemOps3.xml_alloc (regions w')) in E. unfold bind at 1 in E.
    destruct (realloc _ _ w') as [[b|] w3|w3|]; try discriminate. change (m_regions (w_mem w')) with (regions w') in E. fold (MemOps3.xml_alloc (regions w')) in E.
    destruct (build_xml _ _); [|discriminate]. unfold bind, set_xml, modw, ret in E. now injection E as <- _. }
  unfold api, pcall_run, num, Platform_GetDeviceMemoryMapXmlSize, Platform_GetDeviceMemoryMapXml, bind, ret in *.
  destruct (MemorySim_GetMemoryMapXML (set_exn w noException [])) as [x w'|w'|] eqn:X1; try discriminate. injection E1 as <- <-.
  destruct (K _ (Inv_exn _ _ _ _ HI) _ _ X1) as (T1 & Q2 & Q3).
  destruct (MemorySim_GetMemoryMapXML (set_exn w' noException [])) as [x2 w''|w''|] eqn:X2; try discriminate. injection E2 as <- <-.
  destruct (K _ (Inv_exn _ _ _ _ Q3) _ _ X2) as (T2 & _).
  change (regions (set_exn w' noException [])) with (regions w') in T2. rewrite Q2, T1 in T2. injection T2 as <-. reflexivity.
Qed.
(** C53.  The map is the text specified for C15. *)
Theorem C53_map_text w xml w1 : debug_state w -> api (pcall_run PMap) w = Done xml w1 -> xml = map_text (regions w).
Proof. intros H E. rewrite map_text_eq. exact (xml_value _ _ _ E). Qed.

Example C53_example : exists s w1 xml w2, api (pcall_run PMapSize) (set_exn w_plat noException []) = Done s w1 /\ api (pcall_run PMap) w1 = Done xml w2 /\ xml_fits (regions w_plat) /\ 200 < zlen xml.
Proof. eexists _, _, _, _. split; [vm_compute; reflexivity|]. split; [vm_compute; reflexivity|]. split; vm_compute; reflexivity. Qed.

(** ** C52: the end of a session *)

(** C52.  The loop around the debug monitor never ends by itself, whatever the monitor does in each of
    its iterations: a session ends only by an exception (or the end of the process). *)
Theorem C52_endless monitor w : match mriPlatform_Run monitor w with Ret ended _ => ended = false | _ => True end.
Proof.
  revert w. induction monitor as [|m t IH]; intro w; cbn [mriPlatform_Run]; [reflexivity|]. unfold bind. destruct (m w) as [u w1|w1|]; auto. apply IH.
Qed.
(** C52.  Each iteration runs the monitor once, in the state the iteration before left. *)
Theorem C52_iterations before m after w w1 b : mriPlatform_Run before w = Ret b w1 ->
  mriPlatform_Run (before ++ m :: after) w =
  match m w1 with Ret _ w2 => mriPlatform_Run after w2 | Exc w2 => Exc w2 | Ub u => Ub u end.
Proof.
  revert w. induction before as [|m0 t IH]; intros w H; cbn [mriPlatform_Run app] in *.
  - injection H as _ <-. unfold bind, shouldStopRun, ret. destruct (m w); reflexivity.
  - unfold bind, shouldStopRun, ret in *. destruct (m0 w) as [u w2|w2|]; try discriminate. cbv iota in *. now apply IH.
Qed.

(** ** C49: sessions *)

(** C49.  With files that load safely and no alias of an alias, whatever calls the monitor makes: the
    program ends with status 0 or -1, everything allocated is free and every file closed; it raises
    nothing, and crashes only if a call of the monitor does. *)
Theorem C49_session_partial m args os w : heap_sane w -> fs_open (w_files w) = [] -> spells args os -> complete os -> files_fine w os -> direct_aliases os ->
  monitor_ok m ->
  match api (main (monitor_run m) args) w with
  | Done s w' => (s = 0 \/ s = -1) /\ Permutation (h_live (w_heap w')) (h_live (w_heap w)) /\ fs_open (w_files w') = []
  | Raised _ _ => False
  | Crashed u => exists c w1, api (CrashDebugCommandLine_Init args) w = Done c w1 /\ monitor_run m (monitor_start w1) = Ub u
  end.
Proof.
  intros HH HO HS HC HF HD HM. pose proof (init_clean args os w HH HS HC HF) as P. pose proof (fun c w1 => start_session args os w c w1 HH HO HS HC HF HD) as S.
  pose proof (init_stages args os w HS HC) as IS. unfold api in *. rewrite main_run, init_clear in *.
  destruct (CrashDebugCommandLine_Init args w) as [[c b] w1|w1|] eqn:EI; [| |destruct P].
  - destruct P as (_ & P1 & P2 & P3). destruct (S _ _ eq_refl) as (S1 & S2 & S3).
    assert (b = true) as ->.
    { destruct (stages os _) as [[] w2|w2|] in IS; try discriminate; destruct (w_code w2 =? 0) in IS; try (injection IS as _ <- _; reflexivity);
        pose proof (failing_raises true w2) as F; rewrite <- IS in F; destruct F. }
    assert (K0 : good (h_live (w_heap w)) (monitor_start w1)) by (split; [exact S1|split; [exact S2|exact S3]]).
    pose proof (monitor_keeps (h_live (w_heap w)) m (monitor_start w1) K0 ltac:(change (0 <= 0 < 2147483648); lia) HM) as K.
    assert (END : forall (s : Z) w2 w3, good (h_live (w_heap w)) w2 -> rest (monitor_start w1) w2 -> w_mem w3 = w_mem w2 -> w_heap w3 = w_heap w2 -> w_files w3 = w_files w2 ->
      exists w4, (CrashDebugCommandLine_Uninit true ;;; ret s) w3 = Ret s w4 /\ Permutation (h_live (w_heap w4)) (h_live (w_heap w)) /\ fs_open (w_files w4) = []).
    { intros s w2 w3 ((_ & Hh) & _) (RF & _) M1 M2 M3. rewrite <- M1, <- M2 in Hh. destruct (uninit_hp _ _ Hh) as (h & E & Hh'). unfold CrashDebugCommandLine_Uninit, bind. rewrite E. unfold ret. eexists. split; [reflexivity|].
      cbn [w_heap w_files set_mem set_heap]. split; [apply Hh'|]. rewrite M3, RF. change (w_files (monitor_start w1)) with (w_files w1). rewrite P2. exact HO. }
    destruct (monitor_run m (monitor_start w1)) as [u w2|w2|u] eqn:EM.
    + destruct K as (K1 & K2). destruct (w_code w2 =? 0).
      * destruct (END 0 w2 w2 K1 K2 eq_refl eq_refl eq_refl) as (w4 & -> & Q). split; [auto|exact Q].
      * destruct (after_handler_keeps w2) as (A1 & A2 & A3). destruct (END (-1) w2 (after_handler w2) K1 K2 A1 A2 A3) as (w4 & -> & Q). split; [auto|exact Q].
    + destruct K as (K1 & K2 & _). destruct (w_code w2 =? 0).
      * destruct (END 0 w2 w2 K1 K2 eq_refl eq_refl eq_refl) as (w4 & -> & Q). split; [auto|exact Q].
      * destruct (after_handler_keeps w2) as (A1 & A2 & A3). destruct (END (-1) w2 (after_handler w2) K1 K2 A1 A2 A3) as (w4 & -> & Q). split; [auto|exact Q].
    + exists (c, true), w1. auto.
  - destruct P as (IC & _ & _ & P3 & P4 & _). destruct (init_code_nonzero _ IC) as (NZ & _). replace (w_code w1 =? 0) with false by lia.
    destruct (after_handler_keeps w1) as (A1 & A2 & A3). split; [auto|]. rewrite A2, A3, P4. split; [apply P3|exact HO].
Qed.

(** A monitor that reads a word, and raises an exception if it cannot be the one expected. *)
Definition monitor_ex : monitor :=
  MCall PMap (fun _ => MCall (PRead 4 0) (fun _ => MCall PGetRegs (fun regs => MCall (PSetRegs regs) (fun _ => MDone) (fun _ => MDone)) (fun _ => MDone)) (fun _ => MDone)) (fun _ => MRaise 16).
Example C49_session_example : monitor_ok monitor_ex /\ spells args_ex opts_ex /\ complete opts_ex /\ files_fine (w_dir files_ex) opts_ex /\ direct_aliases opts_ex /\
  exists w', api (main (monitor_run monitor_ex) args_ex) (w_dir files_ex) = Done 0 w' /\ h_live (w_heap w') = [].
Proof.
  split; [cbn [monitor_ex monitor_ok pcall_args]; unfold width; repeat (split; auto; intros)|].
  split; [apply ex_spells|]. split; [apply ex_complete|].
  split; [split; [exact ex_bytes|]; intros f data (b & a & E & _); destruct b as [|? [|? [|? [|? ?]]]]; discriminate|].
  split; [|eexists; split; vm_compute; reflexivity].
  intros before b s r middle b' s' r' after E. exfalso. apply (f_equal (fun l => length (filter (fun o => match o with Alias _ _ _ => true | _ => false end) l))) in E.
  rewrite filter_app, app_length in E. cbn [filter] in E. rewrite filter_app in E. cbn [filter length] in E. rewrite app_length in E. cbn [length] in E.
  change (1 = length (filter (fun o => match o with Alias _ _ _ => true | _ => false end) before) +
    S (length (filter (fun o => match o with Alias _ _ _ => true | _ => false end) middle) + S (length (filter (fun o => match o with Alias _ _ _ => true | _ => false end) after))))%nat in E. lia.
Qed.

Print Assumptions C42_read.
Print Assumptions C42_read_write.
Print Assumptions C42_write_read.
Print Assumptions C42_any_packet.
Print Assumptions C42_declared.
Print Assumptions C51_stop_reply.
Print Assumptions C43_read.
Print Assumptions C43_write.
Print Assumptions C43_count.
Print Assumptions C43_count_first.
Print Assumptions C43_never_crashes_partial.
Print Assumptions C43_overflow_refuted.
Print Assumptions C44_signal.
Print Assumptions C44_low_bits.
Print Assumptions C45_report.
Print Assumptions C45_bits.
Print Assumptions C45_address.
Print Assumptions C45_absent.
Print Assumptions C45_hard.
Print Assumptions C46_connected.
Print Assumptions C46_polls.
Print Assumptions C46_total.
Print Assumptions C46_waiting.
Print Assumptions C46_end_of_input_refuted.
Print Assumptions C54_bytes.
Print Assumptions C54_errors.
Print Assumptions C53_target.
Print Assumptions C53_map.
Print Assumptions C53_map_text.
Print Assumptions C52_endless.
Print Assumptions C52_iterations.
Print Assumptions C49_session_partial.
