(** What calls of the platform layer change: reads change read counters only, an accepted write changes
    the bytes it names, and no call but the setting of registers changes the registers. *)
From Coq Require Import String ZArith List Bool Lia ZifyBool ZifyNat.
From Verif Require Import Base World Context MemSim CmdLine Platform Comm BaseLemmas MemSpec Sat MemLemmas MemInv MemOps MemOps2 MemOps3 MemHist MemHist2 MemThms MemThms2 TextLemmas MemThms3 DumpSpec DumpRef DumpLemmas DumpConv DumpThms DumpSafe CmdSpec CmdThms CmdSafe PlatSpec PlatInit PlatThms PlatSess.
Import ListNotations.
Open Scope Z_scope.
Open Scope m_scope.

(** A region without its read counters. *)
Definition uncounted (r : region) : region := with_rc r None.
Definition plain (w : world) : list region := map uncounted (regions w).

Lemma map_upd_nth {A B} (g : A -> B) f j l : (forall x, g (f x) = g x) -> map g (upd_nth j f l) = map g l.
Proof. intro H. revert j; induction l as [|x l IH]; intros [|j]; cbn [upd_nth map]; [reflexivity..|now rewrite H|now rewrite IH]. Qed.
Lemma plain_counted rs j r n k t : map uncounted (counted_regions rs j r n k t) = map uncounted rs.
Proof. unfold counted_regions, bump. destruct (_ && _); [|reflexivity]. destruct (r_rc r) as [[b c]|]; [|reflexivity]. now apply map_upd_nth. Qed.

Lemma hit_uncounted r a n : hit (uncounted r) a n = hit r a n.
Proof. reflexivity. Qed.
Lemma find_plain rs : forall i a n, find_from i (map uncounted rs) a n = find_from i rs a n.
Proof. induction rs as [|r rs IH]; intros i a n; cbn [find_from map]; [reflexivity|]. rewrite hit_uncounted, IH. reflexivity. Qed.
Lemma xml_plain rs : xml_text (map uncounted rs) = xml_text rs.
Proof. unfold xml_text. f_equal. f_equal. induction rs as [|r rs IH]; [reflexivity|]. cbn [map flat_map]. rewrite IH. reflexivity. Qed.
Lemma zlen_map {A B} (f : A -> B) l : zlen (map f l) = zlen l.
Proof. unfold zlen. now rewrite map_length. Qed.

(** The break of a scan does not depend on the hit counter. *)
Lemma scan_break l a e n t : forall h h', snd (scan_wps l a e n t h) = snd (scan_wps l a e n t h').
Proof.
  induction l as [|x l IH]; intros h h'; cbn [scan_wps]; [reflexivity|]. destruct (_ =? 0); [apply IH|]. destruct (_ =? WATCHPOINT_BREAKPOINT).
  - destruct (_ && _); [reflexivity|apply IH].
  - destruct (accessInRange _ _ _); [apply IH|]. destruct (a <? _); [reflexivity|apply IH].
Qed.

(** The result of a read of the simulated memory, without the counters. *)
Definition read_result (rs : list region) (n a : Z) : option Z :=
  match find_from 0 rs a n with
  | None => None
  | Some (j, a') =>
    match nth_error rs j with
    | None => None
    | Some r => if snd (scan_wps (r_wps r) a' (W (a' + n)) n READING 0) then None else Some (of_le (slice (r_data r) (roff r a') n))
    end
  end.
Lemma read_result_plain rs n a : read_result (map uncounted rs) n a = read_result rs n a.
Proof.
  unfold read_result. rewrite find_plain. destruct (find_from 0 rs a n) as [[j a']|]; [|reflexivity]. rewrite nth_error_map. destruct (nth_error rs j); reflexivity.
Qed.
Lemma read_view R n a w : Inv R w -> u32 a -> width n ->
  match api (readN n a) w with
  | Done v w' => read_result (regions w) n a = Some v /\ plain w' = plain w
  | Raised _ w' => read_result (regions w) n a = None /\ plain w' = plain w
  | Crashed _ => False
  end.
Proof.
  intros HI Ha Hn. pose proof (proj1 (access_run R n a 0 w HI Hn Ha)) as P. unfold api in *. rewrite readN_wf in * by (assumption || apply HI).
  change (regions (set_exn w noException [])) with (regions w) in *. unfold read_result. destruct (find_from 0 (regions w) a n) as [[j a']|]; [|auto].
  destruct (nth_error (regions w) j) as [r|]; [|exact P]. cbv zeta in *. rewrite (scan_break _ _ _ _ _ 0 (m_hits (w_mem (set_exn w noException [])))).
  destruct (scan_wps _ _ _ _ _ _) as [h brk]. cbn [snd]. destruct brk; (split; [reflexivity|]; unfold plain; apply plain_counted).
Qed.

(** The result of a write: where it goes, if it is accepted. *)
Definition write_place (rs : list region) (n a : Z) : option (nat * Z) :=
  match find_from 0 rs a n with
  | None => None
  | Some (j, a') =>
    match nth_error rs j with
    | None => None
    | Some r => if r_ro r || snd (scan_wps (r_wps r) a' (W (a' + n)) n WRITING 0) then None else Some (j, roff r a')
    end
  end.
Lemma write_place_plain rs n a : write_place (map uncounted rs) n a = write_place rs n a.
Proof.
  unfold write_place. rewrite find_plain. destruct (find_from 0 rs a n) as [[j a']|]; [|reflexivity]. rewrite nth_error_map. destruct (nth_error rs j); reflexivity.
Qed.
Definition stored (rs : list region) (j : nat) (k n v : Z) : list region := upd_nth j (fun r => with_data r (splice (r_data r) k (le (Z.to_nat n) v))) rs.
Lemma write_view R n a v w : Inv R w -> u32 a -> width n ->
  match api (writeN n a v) w with
  | Done _ w' => exists j k, write_place (regions w) n a = Some (j, k) /\ regions w' = stored (regions w) j k n v
  | Raised _ w' => write_place (regions w) n a = None /\ regions w' = regions w
  | Crashed _ => False
  end.
Proof.
  intros HI Ha Hn. pose proof (proj2 (access_run R n a v w HI Hn Ha)) as P. unfold api in *. rewrite writeN_wf in * by (assumption || apply HI).
  change (regions (set_exn w noException [])) with (regions w) in *. unfold write_place. destruct (find_from 0 (regions w) a n) as [[j a']|]; [|auto].
  destruct (nth_error (regions w) j) as [r|]; [|exact P]. cbv zeta in *. destruct (r_ro r); [auto|]. cbn [orb].
  rewrite (scan_break _ _ _ _ _ 0 (m_hits (w_mem (set_exn w noException [])))).
  destruct (scan_wps _ _ _ _ _ _) as [h brk]. cbn [snd]. destruct brk; [auto|]. exists j, (roff r a'). auto.
Qed.

(** ** One call *)

Definition is_set (p : pcall) : bool := match p with PSetRegs _ => true | _ => false end.
Definition is_write (p : pcall) : bool := match p with PWrite _ _ _ => true | _ => false end.

Definition moved (p : pcall) (w w' : world) : Prop :=
  (is_set p = false -> w_ctx w' = w_ctx w) /\
  (is_write p = false -> plain w' = plain w) /\
  (forall n a v, p = PWrite n a v -> match write_place (regions w) n (W a) with
                                     | Some (j, k) => regions w' = stored (regions w) j k n v
                                     | None => regions w' = regions w
                                     end).

Lemma same_moved p w w' : is_write p = false -> w_ctx w' = w_ctx w -> plain w' = plain w -> moved p w w'.
Proof. intros H1 H2 H3. split; [auto|]. split; [auto|]. intros n a v ->. discriminate. Qed.

Lemma pcall_moves R p w : good R w -> 0 <= w_faults w < 2147483648 -> pcall_args p ->
  forall w', pstep p w = Some w' -> moved p w w'.
Proof.
  intros HG HF HA w' HP. pose proof HG as (HI & HC & HB). unfold pstep in HP.
  assert (COMM : (p = PHasData \/ p = PReceive \/ (exists c, p = PSend c) \/ p = PWaiting) -> moved p w w').
  { intro H. pose proof (comm_run p w H) as P. apply same_moved.
    - destruct H as [->|[->|[(c & ->)| ->]]]; reflexivity.
    - destruct (api _ w); [| |discriminate]; injection HP as <-; [destruct P as (k & c & m & ->)|destruct P as (_ & k & c & m & ->)]; reflexivity.
    - destruct (api _ w); [| |discriminate]; injection HP as <-; [destruct P as (k & c & m & ->)|destruct P as (_ & k & c & m & ->)]; reflexivity. }
  assert (XML : forall A (k : list Z -> A) w1, match api (x <- MemorySim_GetMemoryMapXML;; ret (k x)) w with Done _ w2 => Some w2 | Raised _ w2 => Some w2 | Crashed _ => None end = Some w1 ->
     w_ctx w1 = w_ctx w /\ plain w1 = plain w).
  { intros A k w1 E. pose proof (Xml_any R (set_exn w noException []) (Inv_exn _ _ _ _ HI)) as P. unfold wpost in P. unfold api, bind, ret in E.
    unfold plain. destruct (MemorySim_GetMemoryMapXML _) as [t w2|w2|u]; [| |discriminate]; injection E as <-; destruct P as (_ & (_ & P2 & _) & P3); rewrite P3; auto. }
  destruct p; cbn [pcall_args] in HA; try (apply COMM; solve [eauto 6]); clear COMM.
  - assert (E : exists v, api (pcall_run (PControl c)) w = Done v (set_exn w noException [])) by (destruct c; eexists; reflexivity).
    destruct E as (v & E). rewrite E in HP. injection HP as <-. now apply same_moved.
  - cbn [pcall_run] in HP. unfold num in HP. assert (E : forall m : M world Z, api (x <- m;; ret [x]) w = match api m w with Done v w' => Done [v] w' | Raised c w' => Raised c w' | Crashed u => Crashed u end).
    { intro m. unfold api, bind, ret. destruct (m _); reflexivity. }
    rewrite E, (memread_run R n a w HI HA) in HP. clear E XML.
    pose proof (proj1 (access_run R n (W a) 0 w HI HA (W_u32 a))) as P. pose proof (read_view R n (W a) w HI (W_u32 a) HA) as Q.
    destruct (api (readN n (W a)) w) as [v w1|c w1|u]; [| |discriminate].
    + injection HP as <-. destruct P as (_ & (_ & F2 & _) & _). apply same_moved; [reflexivity|exact F2|apply Q].
    + destruct (w_faults w <? 2147483647); [|discriminate]. injection HP as <-. destruct P as (_ & _ & (_ & F2 & _) & _). apply same_moved; [reflexivity|exact F2|apply Q].
  - cbn [pcall_run] in HP. unfold nothing in HP. assert (E : forall m : M world unit, api (m ;;; ret []) w = match api m w with Done v w' => Done ([] : list Z) w' | Raised c w' => Raised c w' | Crashed u => Crashed u end).
    { intro m. unfold api, bind, ret. destruct (m _); reflexivity. }
    rewrite E, (memwrite_run R n a v w HI HA) in HP. clear E XML.
    pose proof (proj2 (access_run R n (W a) v w HI HA (W_u32 a))) as P. pose proof (write_view R n (W a) v w HI (W_u32 a) HA) as Q.
    destruct (api (writeN n (W a) v) w) as [[] w1|c w1|u]; [| |discriminate].
    + injection HP as <-. destruct P as (_ & (_ & F2 & _) & _). split; [intros _; exact F2|]. split; [discriminate|]. intros n' a' v' E. injection E as <- <- <-. destruct Q as (j & k & -> & Q). exact Q.
    + destruct (w_faults w <? 2147483647); [|discriminate]. injection HP as <-. destruct P as (_ & _ & (_ & F2 & _) & _). split; [intros _; exact F2|]. split; [discriminate|]. intros n' a' v' E. injection E as <- <- <-. destruct Q as (-> & Q). exact Q.
  - injection HP as <-. now apply same_moved.
  - cbn [pcall_run] in HP. unfold api, num, bind in HP. rewrite cause_run in HP by exact HC. injection HP as <-. now apply same_moved.
  - cbn [pcall_run] in HP. unfold api, nothing, bind in HP. destruct (report_run (set_exn w noException []) (proj1 HI) HC) as (w2 & E & h & c & m & ->). rewrite E in HP. injection HP as <-. now apply same_moved.
  - cbn [pcall_run] in HP. unfold api in HP. rewrite get_regs in HP by assumption. injection HP as <-. now apply same_moved.
  - cbn [pcall_run] in HP. unfold api in HP. pose proof (set_regs_any packet (set_exn w noException []) HC HB) as P.
    split; [discriminate|]. split; [intros _|discriminate].
    destruct (Platform_CopyContextFromBuffer packet _) as [t w2|w2|u]; [| |discriminate]; injection HP as <-.
    + destruct P as (c & _ & ->). reflexivity.
    + destruct P as (c & e & m & _ & _ & ->). reflexivity.
  - cbn [pcall_run] in HP. unfold api in HP. rewrite t_regs in HP by assumption. injection HP as <-. now apply same_moved.
  - cbn [pcall_run] in HP. specialize (XML _ (fun x => x) w'). assert (E : api (x <- MemorySim_GetMemoryMapXML;; ret x) w = api Platform_GetDeviceMemoryMapXml w).
    { unfold api, bind, ret, Platform_GetDeviceMemoryMapXml. destruct (MemorySim_GetMemoryMapXML _); reflexivity. }
    cbv beta in XML. rewrite E in XML. destruct (XML HP). now apply same_moved.
  - cbn [pcall_run] in HP. specialize (XML _ (fun x => [zlen x]) w'). assert (E : api (x <- MemorySim_GetMemoryMapXML;; ret [zlen x]) w = api (num (fun x => x) Platform_GetDeviceMemoryMapXmlSize) w).
    { unfold api, num, bind, ret, Platform_GetDeviceMemoryMapXmlSize, bind, ret. destruct (MemorySim_GetMemoryMapXML _); reflexivity. }
    cbv beta in XML. rewrite E in XML. destruct (XML HP). now apply same_moved.
  - cbn [pcall_run] in HP. unfold api, Platform_GetTargetXml, bind in HP. rewrite fpu_run in HP by exact HC. injection HP as <-. now apply same_moved.
  - cbn [pcall_run] in HP. unfold api, Platform_GetTargetXmlSize, num, bind in HP. rewrite fpu_run in HP by exact HC. injection HP as <-. now apply same_moved.
Qed.

(** ** Many calls *)

Lemma debug_run ps : forall w w', debug_state w -> Forall pcall_args ps -> prun ps w = Some w' -> debug_state w'.
Proof.
  induction ps as [|p ps IH]; intros w w' HD HA HP; cbn [prun] in HP; [injection HP as <-; exact HD|].
  inversion HA; subst. destruct (pstep p w) as [w1|] eqn:E; [|discriminate]. eapply IH; [|eassumption..]. eapply ds_call; eassumption.
Qed.
Lemma debug_moves p w w' : debug_state w -> pcall_args p -> pstep p w = Some w' -> moved p w w'.
Proof. intros HD HA HP. destruct (debug_state_good _ HD) as (R & HG & HF). eapply pcall_moves; eassumption. Qed.

Lemma run_ctx ps : forall w w', debug_state w -> Forall pcall_args ps -> existsb is_set ps = false -> prun ps w = Some w' -> w_ctx w' = w_ctx w.
Proof.
  induction ps as [|p ps IH]; intros w w' HD HA HN HP; cbn [prun] in HP; [injection HP as <-; reflexivity|].
  inversion HA; subst. destruct (pstep p w) as [w1|] eqn:E; [|discriminate]. cbn [existsb] in HN. apply orb_false_iff in HN. destruct HN as [N1 N2].
  transitivity (w_ctx w1); [eapply IH; try eassumption; eapply ds_call; eassumption|]. now apply (debug_moves p w w1).
Qed.
Lemma run_plain ps : forall w w', debug_state w -> Forall pcall_args ps -> existsb is_write ps = false -> prun ps w = Some w' -> plain w' = plain w.
Proof.
  induction ps as [|p ps IH]; intros w w' HD HA HN HP; cbn [prun] in HP; [injection HP as <-; reflexivity|].
  inversion HA; subst. destruct (pstep p w) as [w1|] eqn:E; [|discriminate]. cbn [existsb] in HN. apply orb_false_iff in HN. destruct HN as [N1 N2].
  transitivity (plain w1); [eapply IH; try eassumption; eapply ds_call; eassumption|]. now apply (debug_moves p w w1).
Qed.
Lemma changes_split ps : existsb changes ps = false -> existsb is_set ps = false /\ existsb is_write ps = false.
Proof.
  induction ps as [|p ps IH]; cbn [existsb]; [auto|]. intro H. apply orb_false_iff in H. destruct H as [H1 H2]. destruct (IH H2) as [-> ->].
  destruct p; cbn [changes is_set is_write] in *; auto; discriminate.
Qed.

(** ** What queries see *)

Lemma plain_read w w' n a : plain w' = plain w -> read_result (regions w') n a = read_result (regions w) n a.
Proof. intro H. rewrite <- (read_result_plain (regions w')), <- (read_result_plain (regions w)). unfold plain in H. now rewrite H. Qed.
Lemma plain_write w w' n a : plain w' = plain w -> write_place (regions w') n a = write_place (regions w) n a.
Proof. intro H. rewrite <- (write_place_plain (regions w')), <- (write_place_plain (regions w)). unfold plain in H. now rewrite H. Qed.
Lemma plain_xml w w' : plain w' = plain w -> xml_text (regions w') = xml_text (regions w).
Proof. intro H. rewrite <- (xml_plain (regions w')), <- (xml_plain (regions w)). unfold plain in H. now rewrite H. Qed.

Lemma refused_read R n a w : Inv R w -> width n -> refused (PRead n a) w = match read_result (regions w) n (W a) with None => true | Some _ => false end.
Proof.
  intros HI Hn. rewrite (refused_num _ n a eq_refl). pose proof (read_view R n (W a) w HI (W_u32 a) Hn) as P.
  destruct (api (readN n (W a)) w); [destruct P as (-> & _)|destruct P as (-> & _)|destruct P]; reflexivity.
Qed.
Lemma refused_write R n a v w : Inv R w -> width n -> refused (PWrite n a v) w = match write_place (regions w) n (W a) with None => true | Some _ => false end.
Proof.
  intros HI Hn. change (refused (PWrite n a v) w) with (match api (writeN n (W a) v) w with Raised _ _ => true | _ => false end).
  pose proof (write_view R n (W a) v w HI (W_u32 a) Hn) as P. destruct (api (writeN n (W a) v) w); [destruct P as (j & k & -> & _)|destruct P as (-> & _)|destruct P]; reflexivity.
Qed.
Lemma refused_view p w w' : debug_state w -> debug_state w' -> pcall_args p -> plain w' = plain w -> refused p w' = refused p w.
Proof.
  intros H1 H2 HA E. destruct (debug_state_good _ H1) as (R1 & (I1 & _) & _), (debug_state_good _ H2) as (R2 & (I2 & _) & _).
  destruct p; try reflexivity; cbn [pcall_args] in HA.
  - rewrite (refused_read R1 n a w), (refused_read R2 n a w') by assumption. now rewrite (plain_read w w').
  - rewrite (refused_write R1 n a v w), (refused_write R2 n a v w') by assumption. now rewrite (plain_write w w').
Qed.

Lemma read_value R n a w x w1 : Inv R w -> width n -> api (pcall_run (PRead n a)) w = Done x w1 ->
  x = [match read_result (regions w) n (W a) with Some v => v | None => 0 end].
Proof.
  intros HI HA HP. cbn [pcall_run] in HP. unfold num in HP. assert (E : forall m : M world Z, api (x <- m;; ret [x]) w = match api m w with Done v w' => Done [v] w' | Raised c w' => Raised c w' | Crashed u => Crashed u end).
  { intro m. unfold api, bind, ret. destruct (m _); reflexivity. }
  rewrite E, (memread_run R n a w HI HA) in HP. clear E. pose proof (read_view R n (W a) w HI (W_u32 a) HA) as Q.
  destruct (api (readN n (W a)) w) as [v w2|c w2|u]; [| |discriminate].
  - injection HP as <- _. destruct Q as (-> & _). reflexivity.
  - destruct (w_faults w <? 2147483647); [|discriminate]. injection HP as <- _. destruct Q as (-> & _). reflexivity.
Qed.
Lemma describes_view q w w' x y w1 w2 : debug_state w -> debug_state w' -> pcall_args q -> describes q = true ->
  plain w' = plain w -> w_ctx w' = w_ctx w ->
  api (pcall_run q) w = Done x w1 -> api (pcall_run q) w' = Done y w2 -> y = x.
Proof.
  intros H1 H2 HA HQ EP EC E1 E2. destruct (debug_state_good _ H1) as (R1 & (I1 & C1 & B1) & _), (debug_state_good _ H2) as (R2 & (I2 & C2 & B2) & _).
  assert (XML : forall A (k : list Z -> A) x y w1 w2, api (x <- MemorySim_GetMemoryMapXML;; ret (k x)) w = Done x w1 -> api (x <- MemorySim_GetMemoryMapXML;; ret (k x)) w' = Done y w2 -> y = x).
  { clear - EP. intros A k x y w1 w2 E1 E2.
    assert (Q : forall w x w1, api (x <- MemorySim_GetMemoryMapXML;; ret (k x)) w = Done x w1 -> x = k (xml_text (regions w))).
    { clear. intros w x w1 E. unfold api, bind, ret in E. destruct (MemorySim_GetMemoryMapXML (set_exn w noException [])) as [t w2|w2|u] eqn:EX; [|discriminate..]. injection E as <- _.
      f_equal. apply (xml_value w t w2). unfold api. now rewrite EX. }
    apply Q in E1. apply Q in E2. now rewrite E1, E2, (plain_xml w w'). }
  destruct q; try discriminate HQ; cbn [pcall_args] in HA.
  - destruct c; unfold api in *; cbn in E1, E2; congruence.
  - apply (read_value R1) in E1; [|assumption..]. apply (read_value R2) in E2; [|assumption..]. now rewrite E1, E2, (plain_read w w').
  - cbn [pcall_run] in *. unfold api, num, bind in E1, E2. rewrite cause_run in E1, E2 by assumption. cbn [w_ctx set_exn] in E1, E2. rewrite EC in E2. unfold ret in *. congruence.
  - cbn [pcall_run] in *. unfold api in *. rewrite get_regs in E1, E2 by assumption. cbn [w_ctx set_exn] in E1, E2. rewrite EC in E2. congruence.
  - cbn [pcall_run] in *. unfold api in *. rewrite t_regs in E1, E2 by assumption. cbn [w_ctx set_exn] in E1, E2. rewrite EC in E2. congruence.
  - apply (XML _ (fun x => x) x y w1 w2).
    + unfold api, bind, ret in *. cbn [pcall_run] in E1. unfold Platform_GetDeviceMemoryMapXml in E1. destruct (MemorySim_GetMemoryMapXML _); exact E1.
    + unfold api, bind, ret in *. cbn [pcall_run] in E2. unfold Platform_GetDeviceMemoryMapXml in E2. destruct (MemorySim_GetMemoryMapXML (set_exn w' _ _)); exact E2.
  - apply (XML _ (fun x => [zlen x]) x y w1 w2).
    + unfold api, bind, ret in *. cbn [pcall_run] in E1. unfold num, Platform_GetDeviceMemoryMapXmlSize, bind, ret in E1. destruct (MemorySim_GetMemoryMapXML _); exact E1.
    + unfold api, bind, ret in *. cbn [pcall_run] in E2. unfold num, Platform_GetDeviceMemoryMapXmlSize, bind, ret in E2. destruct (MemorySim_GetMemoryMapXML (set_exn w' _ _)); exact E2.
  - cbn [pcall_run] in *. unfold api, Platform_GetTargetXml, bind in *. rewrite fpu_run in E1, E2 by assumption. cbn [w_ctx set_exn] in E1, E2. rewrite EC in E2. unfold ret in *. congruence.
  - cbn [pcall_run] in *. unfold api, Platform_GetTargetXmlSize, num, bind in *. rewrite fpu_run in E1, E2 by assumption. cbn [w_ctx set_exn] in E1, E2. rewrite EC in E2. unfold ret in *. congruence.
Qed.

Lemma reg_view w w' a : debug_state w -> debug_state w' -> u32 a -> plain w' = plain w -> fault_register w' a = fault_register w a.
Proof.
  intros H1 H2 Ha E. destruct (debug_state_good _ H1) as (R1 & (I1 & _) & _), (debug_state_good _ H2) as (R2 & (I2 & _) & _). unfold fault_register.
  pose proof (read_view R1 4 a w I1 Ha ltac:(unfold width; auto)) as P1. pose proof (read_view R2 4 a w' I2 Ha ltac:(unfold width; auto)) as P2.
  rewrite (plain_read w w') in P2 by exact E.
  destruct (api (readN 4 a) w), (api (readN 4 a) w'); try contradiction; destruct P1 as [P1 _], P2 as [P2 _]; congruence.
Qed.
Lemma report_view w w' : debug_state w -> debug_state w' -> plain w' = plain w -> w_ctx w' = w_ctx w -> fault_report w' = fault_report w.
Proof.
  intros H1 H2 EP EC. unfold fault_report, hard_part, mem_part, bus_part, usage_part. rewrite EC. rewrite !(reg_view w w') by (try assumption; unfold u32; lia). reflexivity.
Qed.

(** ** Writes *)

Lemma stored_nth rs j k n v i : nth_error (stored rs j k n v) i =
  option_map (fun r => if Nat.eqb i j then with_data r (splice (r_data r) k (le (Z.to_nat n) v)) else r) (nth_error rs i).
Proof.
  unfold stored. revert i j. induction rs as [|r rs IH]; intros i j; [destruct i, j; reflexivity|].
  destruct j as [|j], i as [|i]; cbn [upd_nth nth_error Nat.eqb option_map]; try reflexivity; [now destruct (nth_error rs i)|apply IH].
Qed.
Lemma find_stored rs j k n v : forall i a m, find_from i (stored rs j k n v) a m = find_from i rs a m.
Proof.
  unfold stored. revert j. induction rs as [|r rs IH]; intros j i a m; [destruct j; reflexivity|].
  destruct j as [|j]; cbn [upd_nth find_from]; [reflexivity|]. now rewrite IH.
Qed.

Lemma same_layout_list rs : Forall2 same_layout rs rs.
Proof. induction rs; constructor; auto using same_layout_refl. Qed.
Lemma plain_layout rs : forall rs', map uncounted rs' = map uncounted rs -> Forall2 same_layout rs rs'.
Proof.
  induction rs as [|r rs IH]; intros [|r' rs'] H; cbn [map] in H; try discriminate; [constructor|]. injection H as H1 H2 H3 H4 H5 H6 H7 H8 H9 H10 H11 H12.
  constructor; [|now apply IH]. repeat split; assumption.
Qed.
Lemma plain_storage rs rs' j k : map uncounted rs' = map uncounted rs -> storage rs' j k = storage rs j k.
Proof.
  intro H. apply (f_equal (fun l => nth_error l j)) in H. rewrite !nth_error_map in H. unfold storage.
  destruct (nth_error rs' j) as [r'|], (nth_error rs j) as [r|]; cbn [option_map] in H; try discriminate; [|reflexivity].
  apply (f_equal (option_map r_data)) in H. cbn in H. injection H as ->. reflexivity.
Qed.

(** Where an accepted write goes is where the access is served. *)
Lemma place_serves rs n a j k : wf rs -> u32 a -> width n -> write_place rs n a = Some (j, k) ->
  serves rs a n j k /\ exists r, nth_error rs j = Some r /\ 0 <= k /\ k + n <= zlen (r_data r).
Proof.
  intros Hwf Ha Hn H. unfold write_place in H. destruct (find_from 0 rs a n) as [[j' a']|] eqn:F; [|discriminate].
  destruct (locate _ _ _ _ _ Hwf Ha (width_nn _ Hn) F) as (r & k' & L1 & L2 & L3 & L4 & L5 & L6 & L7 & _). rewrite L1 in H. destruct (_ || _); [discriminate|].
  injection H as <- <-. rewrite L4. split; [exact L3|]. exists r. rewrite L7. auto.
Qed.

Lemma stored_layout rs j k n v : Forall2 same_layout rs (stored rs j k n v).
Proof.
  unfold stored. revert j. induction rs as [|r rs IH]; intros [|j]; cbn [upd_nth]; constructor; auto using same_layout_refl, same_layout_list. now repeat split.
Qed.
Lemma stored_storage rs j r k n v j' k' : nth_error rs j = Some r -> 0 <= k -> 0 <= n -> k + n <= zlen (r_data r) -> ~ (j' = j /\ k <= k' < k + n) ->
  storage (stored rs j k n v) j' k' = storage rs j' k'.
Proof.
  intros Hr Hk Hn Hl HN. unfold storage. rewrite stored_nth. destruct (nth_error rs j') as [r'|] eqn:E; [|reflexivity]. cbn [option_map].
  destruct (Nat.eqb_spec j' j) as [->|]; [|reflexivity]. rewrite Hr in E. injection E as <-. cbn [r_data with_data]. destruct (0 <=? k') eqn:K; [|reflexivity].
  rewrite nth_error_splice by (rewrite ?le_zlen; lia). rewrite le_zlen.
  replace ((k <=? Z.of_nat (Z.to_nat k')) && (Z.of_nat (Z.to_nat k') <? k + Z.of_nat (Z.to_nat n))) with false; [reflexivity|]. symmetry. apply not_true_iff_false. intro B. apply HN. lia.
Qed.

Lemma step_layout p w w' : debug_state w -> pcall_args p -> pstep p w = Some w' -> Forall2 same_layout (regions w) (regions w').
Proof.
  intros HD HA HP. destruct (debug_moves p w w' HD HA HP) as (_ & M2 & M3). destruct (is_write p) eqn:EW; [|now apply plain_layout, M2].
  destruct p; try discriminate. specialize (M3 _ _ _ eq_refl). destruct (write_place _ _ _) as [[j k]|]; rewrite M3; [apply stored_layout|apply same_layout_list].
Qed.
Lemma step_storage p w w' j k : debug_state w -> pcall_args p -> pstep p w = Some w' ->
  (forall n a v, p = PWrite n a v -> ~ touches (regions w) (OWrite n (W a) v) j k) -> storage (regions w') j k = storage (regions w) j k.
Proof.
  intros HD HA HP HT. destruct (debug_moves p w w' HD HA HP) as (_ & M2 & M3). destruct (is_write p) eqn:EW; [|now apply plain_storage, M2].
  destruct p; try discriminate. specialize (M3 _ _ _ eq_refl). destruct (write_place _ _ _) as [[j' k']|] eqn:E; [|now rewrite M3].
  destruct (debug_state_good _ HD) as (R & (HI & _) & _). cbn [pcall_args] in HA. destruct (place_serves _ _ _ _ _ (proj1 HI) (W_u32 a) HA E) as (S1 & r & S2 & S3 & S4).
  rewrite M3. apply (stored_storage _ _ r); auto using width_nn. intros (-> & Q). apply (HT n a v eq_refl). exists k'. auto.
Qed.
Lemma touches_layout rs rs' n a v j k : Forall2 same_layout rs rs' -> touches rs' (OWrite n a v) j k -> touches rs (OWrite n a v) j k.
Proof.
  intros HL (k' & S & B). exists k'. split; [|exact B]. eapply serves_layout; [|exact S]. clear - HL. induction HL; constructor; auto using same_layout_sym.
Qed.
Lemma layout_trans rs1 rs2 rs3 : Forall2 same_layout rs1 rs2 -> Forall2 same_layout rs2 rs3 -> Forall2 same_layout rs1 rs3.
Proof.
  intro H. revert rs3. induction H as [|r s rs ss H HF IH]; intros rs3 H2; inversion H2 as [|? t ? ts H3 H4]; subst; constructor; [|now apply IH].
  destruct H as (A1 & A2 & A3 & A4), H3 as (B1 & B2 & B3 & B4). unfold same_layout. rewrite B1, B2, B3, B4. auto.
Qed.
Lemma run_storage ps : forall w w' j k, debug_state w -> Forall pcall_args ps -> prun ps w = Some w' ->
  (forall n a v, In (PWrite n a v) ps -> ~ touches (regions w) (OWrite n (W a) v) j k) ->
  Forall2 same_layout (regions w) (regions w') /\ storage (regions w') j k = storage (regions w) j k.
Proof.
  induction ps as [|p ps IH]; intros w w' j k HD HA HP HT; cbn [prun] in HP; [injection HP as <-; split; [apply same_layout_list|reflexivity]|].
  inversion HA; subst. destruct (pstep p w) as [w1|] eqn:E; [|discriminate]. pose proof (step_layout p w w1 HD H1 E) as L1.
  destruct (IH w1 w' j k) as [L2 S2]; [eapply ds_call; eassumption|assumption..| |].
  { intros n a v HIn T. apply (HT n a v); [now right|]. eapply touches_layout; eassumption. }
  split; [eapply layout_trans; eassumption|]. rewrite S2. apply (step_storage p w w1); auto. intros n a v ->. apply HT. now left.
Qed.

Lemma slice_storage rs j r k n : nth_error rs j = Some r -> 0 <= k -> k + n <= zlen (r_data r) -> 0 <= n ->
  forall rs' r', nth_error rs' j = Some r' -> length (r_data r') = length (r_data r) -> (forall i, k <= i < k + n -> storage rs' j i = storage rs j i) -> slice (r_data r') k n = slice (r_data r) k n.
Proof.
  intros Hr Hk HL Hn rs' r' Hr' HL' HS. apply slice_ext; [exact Hk|exact HL'|]. intros i Hi. specialize (HS (Z.of_nat i) ltac:(lia)). unfold storage in HS. rewrite Hr, Hr' in HS.
  replace (0 <=? Z.of_nat i) with true in HS by lia. now rewrite Nat2Z.id in HS.
Qed.

Lemma session_read_back w n a v w1 ps w2 x w3 : debug_state w -> width n ->
  refused (PWrite n a v) w = false -> pstep (PWrite n a v) w = Some w1 ->
  Forall pcall_args ps -> prun ps w1 = Some w2 ->
  (forall m b u j k, In (PWrite m b u) ps -> touches (regions w) (OWrite n (W a) v) j k -> ~ touches (regions w) (OWrite m (W b) u) j k) ->
  refused (PRead n a) w2 = false -> api (pcall_run (PRead n a)) w2 = Done x w3 -> x = [v mod 2 ^ (8 * n)].
Proof.
  intros HD Hn HR HP HA HPS HT HR2 HX. pose proof (ds_call w (PWrite n a v) w1 HD Hn HP) as HD1. pose proof (debug_run ps w1 w2 HD1 HA HPS) as HD2.
  destruct (debug_state_good _ HD) as (R0 & (I0 & _) & _), (debug_state_good _ HD1) as (R1 & (I1 & _) & _), (debug_state_good _ HD2) as (R2 & (I2 & _) & _).
  destruct (debug_moves (PWrite n a v) w w1 HD Hn HP) as (_ & _ & M3). specialize (M3 _ _ _ eq_refl). rewrite (refused_write R0) in HR by assumption.
  destruct (write_place (regions w) n (W a)) as [[j k]|] eqn:EP; [|discriminate].
  destruct (place_serves _ _ _ _ _ (proj1 I0) (W_u32 a) Hn EP) as (S1 & r & S2 & S3 & S4).
  assert (L1 : Forall2 same_layout (regions w) (regions w1)) by (rewrite M3; apply stored_layout).
  assert (SV1 : serves (regions w1) (W a) n j k) by (eapply serves_layout; eassumption).
  assert (RS : forall i, k <= i < k + n -> Forall2 same_layout (regions w1) (regions w2) /\ storage (regions w2) j i = storage (regions w1) j i).
  { intros i Hi. apply (run_storage ps); auto. intros m b u HIn T. eapply (HT m b u j i HIn); [exists k; auto|]. eapply touches_layout; eassumption. }
  pose proof (width_pos _ Hn) as Hp. assert (L2 := proj1 (RS k ltac:(lia))).
  assert (SV2 : serves (regions w2) (W a) n j k) by (eapply serves_layout; eassumption).
  destruct (serves_region _ _ _ _ _ (proj1 I2) (W_u32 a) (width_nn _ Hn) SV2) as (r2 & Hr2 & _ & _ & _ & Z2).
  destruct (serves_region _ _ _ _ _ (proj1 I1) (W_u32 a) (width_nn _ Hn) SV1) as (r1 & Hr1 & _ & _ & K1 & Z1).
  destruct (Forall2_nth _ _ _ _ _ L2 Hr1) as (r2' & Hr2' & (_ & LZ & _)). rewrite Hr2 in Hr2'. injection Hr2' as <-.
  assert (ES : slice (r_data r2) k n = slice (r_data r1) k n).
  { apply (slice_storage (regions w1) j r1 k n Hr1 S3 ltac:(lia) ltac:(lia) (regions w2) r2 Hr2); [unfold zlen in *; lia|]. intros i Hi. apply RS, Hi. }
  assert (ED : slice (r_data r1) k n = le (Z.to_nat n) v).
  { rewrite M3, stored_nth, Nat.eqb_refl, S2 in Hr1. cbn [option_map] in Hr1. injection Hr1 as <-. cbn [r_data with_data].
    replace n with (zlen (le (Z.to_nat n) v)) at 2 by (rewrite le_zlen; lia). apply slice_splice_same; rewrite ?le_zlen; lia. }
  rewrite (read_value R2 n a w2 x w3 I2 Hn HX). rewrite (refused_read R2) in HR2 by assumption.
  destruct (read_served n (W a) w2 j k r2 (proj1 I2) (W_u32 a) Hn SV2 Hr2) as (w4 & [E|[_ E]]); pose proof (read_view R2 n (W a) w2 I2 (W_u32 a) Hn) as V; rewrite E in V.
  - destruct V as (-> & _). rewrite ES, ED, of_le_le, width_pow by exact Hn. reflexivity.
  - destruct V as (V & _). rewrite V in HR2. discriminate.
Qed.

(** ** Control requests *)

Definition is_control (p : pcall) : bool := match p with PControl _ => true | _ => false end.
Lemma api_exn {A} (m : M world A) w c t : api m (set_exn w c t) = api m w.
Proof. reflexivity. Qed.
Lemma pstep_exn p w c t : pstep p (set_exn w c t) = pstep p w.
Proof. reflexivity. Qed.
Lemma drop_control ps : forall w w', prun ps w = Some w' -> exists w'', prun (filter (fun p => negb (is_control p)) ps) w = Some w'' /\ exists c t, w' = set_exn w'' c t.
Proof.
  assert (G : forall ps w w' c t, prun ps (set_exn w c t) = Some w' -> exists w'', prun (filter (fun p => negb (is_control p)) ps) w = Some w'' /\ exists c t, w' = set_exn w'' c t).
  { intro qs. induction qs as [|p qs IH]; intros w w' c t H; cbn [prun filter] in *; [injection H as <-; eauto|]. rewrite pstep_exn in H.
    destruct (is_control p) eqn:E; cbn [negb].
    - destruct p; try discriminate. assert (Q : exists c t, pstep (PControl c0) w = Some (set_exn w c t)) by (destruct c0; eexists _, _; reflexivity).
      destruct Q as (c1 & t1 & Q). rewrite Q in H. now apply IH in H.
    - cbn [prun]. destruct (pstep p w) as [w1|]; [|discriminate]. specialize (IH w1 w' (w_code w1) (w_msg w1)). apply IH. replace (set_exn w1 (w_code w1) (w_msg w1)) with w1 by (destruct w1; reflexivity). exact H. }
  intros w w' H. apply (G ps w w' (w_code w) (w_msg w)). replace (set_exn w (w_code w) (w_msg w)) with w by (destruct w; reflexivity). exact H.
Qed.
