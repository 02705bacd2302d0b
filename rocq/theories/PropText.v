(** Property C71: the numbers that the program prints. *)
From Coq Require Import String ZArith List Bool Lia ZifyBool ZifyNat.
From Verif Require Import Base World MemSim CmdLine BaseLemmas TextLemmas MemSpec DumpSpec LogSpec CmdSpec AliasSpec NumSpec ElfSpec CmdThms CmdSafe CmdMain CmdFull MemThms MemHist2 MemInv PropMem PropDump PropElf PropCmd PropAlias PropNum MemEx.
Import ListNotations.
Open Scope Z_scope.

Lemma hexU_digit d : 0 <= d < 16 -> is_digit 16 (hexU d) d.
Proof.
  intros H. split; [|lia]. assert (C : d = 0 \/ d = 1 \/ d = 2 \/ d = 3 \/ d = 4 \/ d = 5 \/ d = 6 \/ d = 7 \/ d = 8 \/ d = 9 \/ d = 10 \/ d = 11 \/ d = 12 \/ d = 13 \/ d = 14 \/ d = 15) by lia.
  repeat (destruct C as [->|C]; [reflexivity|]). now subst.
Qed.
Lemma dec_digit d : 0 <= d < 10 -> is_digit 10 (48 + d) d.
Proof.
  intros H. split; [|lia]. assert (C : d = 0 \/ d = 1 \/ d = 2 \/ d = 3 \/ d = 4 \/ d = 5 \/ d = 6 \/ d = 7 \/ d = 8 \/ d = 9) by lia.
  repeat (destruct C as [->|C]; [reflexivity|]). now subst.
Qed.
Lemma digits_text b f : 2 <= b -> (forall d, 0 <= d < b -> is_digit b (f d) d) -> forall (fuel : nat) v, 0 <= v < b ^ (Z.of_nat fuel + 1) -> value_of b (map f (Base.digits fuel b v)) v.
Proof.
  intros Hb Hf. assert (ONE : forall v, 0 <= v < b -> value_of b [f v] v).
  { intros v Hv. change [f v] with ([] ++ [f v]). replace v with (b * 0 + v) at 2 by lia. apply v_snoc; [constructor|now apply Hf]. }
  induction fuel as [|k IH]; intros v Hv; cbn [Base.digits].
  - change (b ^ (Z.of_nat 0 + 1)) with (b ^ 1) in Hv. rewrite Z.pow_1_r in Hv. rewrite Z.mod_small by lia. now apply ONE.
  - destruct (v <? b) eqn:E; [apply ONE; lia|]. rewrite map_app. cbn [map]. replace v with (b * (v / b) + v mod b) at 3 by (pose proof (Z.div_mod v b); lia).
    apply v_snoc; [|apply Hf, Z.mod_pos_bound; lia]. apply IH. split; [apply Z.div_pos; lia|]. apply Z.div_lt_upper_bound; [lia|].
    rewrite <- Z.pow_succ_r by lia. replace (Z.succ (Z.of_nat k + 1)) with (Z.of_nat (S k) + 1) by lia. lia.
Qed.
Lemma fmtX_text v : u32 v -> value_of 16 (fmtX v) v /\ fmtX v <> [].
Proof.
  intro H. split; [apply digits_text; [lia|apply hexU_digit|]; change (16 ^ (Z.of_nat 8 + 1)) with 68719476736; unfold u32 in H; lia|].
  unfold fmtX. intro E. apply map_eq_nil in E. now apply digits_nonempty in E.
Qed.
Lemma fmtu_text v : u32 v -> value_of 10 (fmtu v) v /\ fmtu v <> [].
Proof.
  intro H. split; [apply digits_text; [lia|apply dec_digit|]; change (10 ^ (Z.of_nat 20 + 1)) with 1000000000000000000000; unfold u32 in H; lia|].
  unfold fmtu. intro E. apply map_eq_nil in E. now apply digits_nonempty in E.
Qed.
Lemma fmt08X_text v : u32 v -> value_of 16 (fmt08X v) v /\ length (fmt08X v) = 8%nat.
Proof.
  intro U. split; [|unfold fmt08X; now rewrite map_length, digits_pad_length].
  pose proof (C58_every_number v U) as H. change (s2b "0x" ++ fmt08X v) with (48 :: 120 :: fmt08X v) in H. inversion H; [congruence| |assumption].
  exfalso. destruct (value_digit _ _ _ 120 H1 (or_introl eq_refl)) as (d & D & _). discriminate D.
Qed.

Lemma digits_in (fuel : nat) v : 0 <= v -> forall d, In d (Base.digits fuel 16 v) -> 0 <= d < 16.
Proof.
  revert v. induction fuel as [|k IH]; intros v Hv d; cbn [Base.digits].
  - intros [<-|[]]. apply Z.mod_pos_bound. lia.
  - destruct (v <? 16) eqn:E; [intros [<-|[]]; lia|]. intro H. apply in_app_or in H. destruct H as [H|[<-|[]]]; [|apply Z.mod_pos_bound; lia]. apply (IH (v / 16)); [apply Z.div_pos; lia|exact H].
Qed.
Lemma digits_pad_in (n : nat) v : forall d, In d (digits_pad n 16 v) -> 0 <= d < 16.
Proof.
  revert v. induction n as [|k IH]; intros v d; cbn [digits_pad]; [intros []|]. intro H. apply in_app_or in H. destruct H as [H|[<-|[]]]; [now apply (IH (v / 16))|apply Z.mod_pos_bound; lia].
Qed.
Lemma hexU_upper d : 0 <= d < 16 -> In (hexU d) (s2b "0123456789ABCDEF").
Proof.
  intros H. assert (C : d = 0 \/ d = 1 \/ d = 2 \/ d = 3 \/ d = 4 \/ d = 5 \/ d = 6 \/ d = 7 \/ d = 8 \/ d = 9 \/ d = 10 \/ d = 11 \/ d = 12 \/ d = 13 \/ d = 14 \/ d = 15) by lia.
  repeat (destruct C as [->|C]; [vm_compute; tauto|]). subst. vm_compute. tauto.
Qed.
Lemma digits_lead (fuel : nat) : forall b v, 2 <= b -> 0 < v < b ^ (Z.of_nat fuel + 1) -> hd 0 (Base.digits fuel b v) <> 0.
Proof.
  induction fuel as [|k IH]; intros b v Hb Hv; cbn [Base.digits].
  - change (b ^ (Z.of_nat 0 + 1)) with (b ^ 1) in Hv. rewrite Z.pow_1_r in Hv. cbn [hd]. rewrite Z.mod_small; lia.
  - destruct (v <? b) eqn:E; [cbn [hd]; lia|]. assert (X : hd 0 (Base.digits k b (v / b)) <> 0).
    { apply IH; [exact Hb|]. split; [apply Z.div_str_pos; lia|]. apply Z.div_lt_upper_bound; [lia|]. rewrite <- Z.pow_succ_r by lia. replace (Z.succ (Z.of_nat k + 1)) with (Z.of_nat (S k) + 1) by lia. lia. }
    destruct (Base.digits k b (v / b)); [cbn [hd] in X; congruence|exact X].
Qed.

(** C71.  The ways to write a number that occur in the texts specified for the other properties:
    hexadecimal without leading zeros, hexadecimal with eight digits, and decimal without leading zeros
    (as a signed number where the code does so).  The letters among the digits are capital. *)
Theorem C71_formats n : u32 n ->
  (value_of 16 (fmtX n) n /\ fmtX n <> [] /\ (n <> 0 -> hd 0 (fmtX n) <> 48)) /\
  (value_of 16 (fmt08X n) n /\ length (fmt08X n) = 8%nat) /\
  (value_of 10 (fmtu n) n /\ fmtu n <> [] /\ (n <> 0 -> hd 0 (fmtu n) <> 48)) /\
  (fmtd n = if n <? 2 ^ 31 then fmtu n else s2b "-" ++ fmtu (2 ^ 32 - n)) /\
  (forall c, In c (fmtX n) \/ In c (fmt08X n) -> In c (s2b "0123456789ABCDEF")).
Proof.
  intro U. destruct (fmtX_text n U) as [A1 A2], (fmtu_text n U) as [B1 B2], (fmt08X_text n U) as [C1 C2]. pose proof U as V. unfold u32 in V.
  assert (N : forall (f : Z -> Z) l, l <> [] -> hd 0 (map f l) = f (hd 0 l)) by (intros f [|x l] HL; [now destruct HL|reflexivity]).
  split; [|split; [auto|split; [|split; [reflexivity|]]]].
  - split; [exact A1|]. split; [exact A2|]. intro H0. unfold fmtX in *. rewrite N by (intro E; rewrite E in A2; now apply A2).
    pose proof (digits_lead 8 16 n ltac:(lia) ltac:(change (16 ^ (Z.of_nat 8 + 1)) with 68719476736; lia)) as D. unfold hexU. destruct (hd 0 (Base.digits 8 16 n) <? 10) eqn:E; lia.
  - split; [exact B1|]. split; [exact B2|]. intro H0. unfold fmtu in *. rewrite N by (intro E; rewrite E in B2; now apply B2).
    pose proof (digits_lead 20 10 n ltac:(lia) ltac:(change (10 ^ (Z.of_nat 20 + 1)) with 1000000000000000000000; lia)) as D. lia.
  - intros c [H|H]; apply in_map_iff in H; destruct H as (d & <- & H); apply hexU_upper; [eapply digits_in; [|exact H]; lia|eapply digits_pad_in; exact H].
Qed.
Example C71_formats_example : u32 0xDEADBEEF /\ fmtX 0xBEEF = s2b "BEEF" /\ fmt08X 0xBEEF = s2b "0000BEEF" /\ fmtu 3735928559 = s2b "3735928559" /\ fmtX 0 = s2b "0".
Proof. repeat split; vm_compute; congruence. Qed.

(** C71.  The memory map shows the start and the size of every region as hexadecimal numbers. *)
Theorem C71_map w xml w' i r : reachable w -> api MemorySim_GetMemoryMapXML w = Done xml w' -> nth_error (regions w) i = Some r ->
  exists before start size rest after, xml = before ++ s2b """ start=""0x" ++ start ++ s2b """ length=""0x" ++ size ++ s2b """>" ++ rest ++ s2b "</memory>" ++ after /\
    value_of 16 start (r_base r) /\ start <> [] /\ value_of 16 size (r_size r) /\ size <> [].
Proof.
  intros HR E N. pose proof (MemThms3.xml_value _ _ _ E) as ->. pose proof (reachable_wf _ HR) as WF.
  apply nth_error_split in N as (l1 & l2 & Er & _). assert (N : nth_error (regions w) (length l1) = Some r) by (rewrite Er, nth_error_app2, Nat.sub_diag by lia; reflexivity).
  destruct (fmtX_text (r_base r) (wr_base _ _ _ (WF _ _ N))) as [B1 B2], (fmtX_text (r_size r) (wr_size _ _ _ (WF _ _ N))) as [S1 S2].
  rewrite <- MemThms3.map_text_eq. unfold map_text. rewrite Er, flat_map_app. cbn [flat_map]. set (h := s2b "<?xml version=""1.0""?><!DOCTYPE memory-map PUBLIC ""+//IDN gnu.org//DTD GDB Memory Map V1.0//EN"" ""http://sourceware.org/gdb/gdb-memory-map.dtd""><memory-map>"). set (t := s2b "</memory-map>").
  rewrite MemThms3.map_line_eq. unfold xml_region.
  exists (h ++ flat_map map_line l1 ++ s2b "<memory type=""" ++ s2b (if r_ro r then "flash" else "ram")), (fmtX (r_base r)), (fmtX (r_size r)), (if r_ro r then s2b " <property name=""blocksize"">1</property>" else []), (flat_map map_line l2 ++ t).
  split; [|auto]. rewrite <- !app_assoc. reflexivity.
Qed.

(** C71.  The message about an alias that leads nowhere shows its three numbers, the size in decimal if
    it is below 2^31. *)
Theorem C71_alias_partial args os1 b s r os2 ms f data mem regs w w' nb ns nr : let os := os1 ++ Alias b s r :: os2 in
  heap_sane w -> no_io_faults w -> (forall f data, file_is w f data -> Forall byte data) ->
  spells args os -> complete os -> image_parts w os ms -> uses_dump os f -> file_is w f data -> dump_means data mem regs ->
  fit [] (ms ++ mem) -> Forall (grounded (ms ++ mem)) (aliases os1) -> in_no_part (ms ++ mem) 1 nr ->
  (forall al y, In al (aliases os1) -> ~ leads (ms ++ mem) al 1 nr y) ->
  numeral b nb -> u32 nb -> numeral s ns -> 0 <= ns < 2147483648 -> numeral r nr -> u32 nr ->
  api (CrashDebugCommandLine_Init args) w = Raised busErrorException w' ->
  exists tb tr ts, w_msg w' = s2b "Failed to create alias of 0x" ++ tb ++ s2b " to 0x" ++ tr ++ s2b " of size " ++ ts ++ s2b "." /\
    value_of 16 tb nb /\ value_of 16 tr nr /\ value_of 10 ts ns /\ length tb = 8%nat /\ length tr = 8%nat /\ ts <> [].
Proof.
  intros os HH HN HB HS HC HI HU HF HD Hfit HG HP HL Nb Ub Ns Us Nr Ur HR.
  assert (Us' : u32 ns) by (unfold u32; lia).
  rewrite <- (strtou32_numeral r nr Nr Ur) in HP, HL.
  destruct (C55_nowhere args os1 b s r os2 ms f data mem regs w HH HN HB HS HC HI HU HF HD Hfit HG HP HL) as [(w1 & E & EM)|(w1 & E & _)]; rewrite HR in E; [|discriminate E].
  injection E as <-. rewrite EM. rewrite (strtou32_numeral b nb Nb Ub), (strtou32_numeral s ns Ns Us'), (strtou32_numeral r nr Nr Ur). unfold alias_message, fmtd.
  replace (ns <? 2147483648) with true by lia. destruct (fmt08X_text nb Ub) as [B1 B2], (fmt08X_text nr Ur) as [R1 R2], (fmtu_text ns Us') as [S1 S2].
  exists (fmt08X nb), (fmt08X nr), (fmtu ns). split; [|auto 10]. apply firstn_all2.
  assert (L : (length (fmtu ns) <= 21)%nat). { unfold fmtu. rewrite map_length. clear. assert (G : forall k v, (length (Base.digits k 10 v) <= S k)%nat). { induction k as [|k IH]; intro v; cbn [Base.digits]; [cbn; lia|]. destruct (v <? 10); [cbn; lia|]. rewrite app_length. cbn [length]. specialize (IH (v / 10)). lia. } apply (G 20%nat). }
  rewrite !app_length, B2, R2. cbn [length s2b]. lia.
Qed.

Example C71_map_example : reachable w_ex /\ regions w_ex <> [] /\ exists xml w', api MemorySim_GetMemoryMapXML w_ex = Done xml w'.
Proof. split; [apply w_ex_reachable|]. split; [vm_compute; discriminate|]. eexists _, _. vm_compute. reflexivity. Qed.

(** A command line with an alias of size [size] to 0x70000000, where there is nothing. *)
Definition args_to (size : string) : list (list Z) :=
  argv ["--bin"; "a.bin"; "0x08000000"; "--dump"; "c.dmp"; "--alias"; "0x30000000"; size; "0x70000000"]%string.
Definition opts_to (size : string) : list opt :=
  [Bin (s2b "a.bin") (s2b "0x08000000"); DumpFile (s2b "c.dmp")] ++ [Alias (s2b "0x30000000") (s2b size) (s2b "0x70000000")].
Lemma to_spells size : spells (args_to size) (opts_to size) /\ complete (opts_to size).
Proof.
  split; [unfold args_to, opts_to, argv; cbn [map app]; spells_tac|]. split.
  - exists (Bin (s2b "a.bin") (s2b "0x08000000")). split; [now left|reflexivity].
  - exists (DumpFile (s2b "c.dmp")). split; [right; now left|reflexivity].
Qed.
Lemma to_files : heap_sane (w_dir files_ex) /\ no_io_faults (w_dir files_ex) /\ forall f data, file_is (w_dir files_ex) f data -> Forall byte data.
Proof. split; [apply start_sane|]. split; [intro; reflexivity|exact ex_bytes]. Qed.

(** The hypotheses are met: an alias of 4096 bytes. *)
Example C71_alias_example : let w := w_dir files_ex in let ms := [(0x08000000, image_ex)] in let os := opts_to "4096" in
  (heap_sane w /\ no_io_faults w /\ forall f data, file_is w f data -> Forall byte data) /\
  (spells (args_to "4096") os /\ complete os) /\ image_parts w os ms /\ uses_dump os (s2b "c.dmp") /\ file_is w (s2b "c.dmp") (encode d_ex) /\
  (exists regs, dump_means (encode d_ex) (d_mem d_ex) regs) /\ fit [] (ms ++ d_mem d_ex) /\ in_no_part (ms ++ d_mem d_ex) 1 0x70000000 /\
  numeral (s2b "0x30000000") 0x30000000 /\ numeral (s2b "4096") 4096 /\ numeral (s2b "0x70000000") 0x70000000 /\
  exists w', api (CrashDebugCommandLine_Init (args_to "4096")) w = Raised busErrorException w' /\
    w_msg w' = s2b "Failed to create alias of 0x30000000 to 0x70000000 of size 4096.".
Proof.
  cbv zeta. split; [apply to_files|]. split; [apply to_spells|]. split.
  { right. exists (s2b "a.bin"), (s2b "0x08000000"), image_ex. split.
    - split; [intros o [<-|[<-|[<-|[]]]]; reflexivity|eexists [], _; split; [reflexivity|]; split; reflexivity].
    - split; [vm_compute; reflexivity|]. split; [bytes_tac|]. split; [vm_compute; auto|]. vm_compute. reflexivity. }
  split; [eexists [_], _; split; [reflexivity|]; split; reflexivity|]. split; [vm_compute; reflexivity|].
  split; [eexists; eapply dm_dump; [apply ex_valid|now left]|]. split; [fits|].
  split; [intros p [<-|[<-|[<-|[]]]]; vm_compute; intros [_ X]; now apply X|].
  split; [apply n_hex; [now left|discriminate|value_tac]|]. split; [apply n_decimal; [discriminate|value_tac]|].
  split; [apply n_hex; [now left|discriminate|value_tac]|]. eexists. split; vm_compute; reflexivity.
Qed.

(** C71 fails for larger sizes: the size 4294967295 is shown as -1. *)
Theorem C71_alias_size_refuted : exists args os b r w w',
  (heap_sane w /\ no_io_faults w /\ forall f data, file_is w f data -> Forall byte data) /\
  (spells args os /\ complete os) /\ In (Alias b (s2b "4294967295") r) os /\ numeral (s2b "4294967295") 4294967295 /\
  api (CrashDebugCommandLine_Init args) w = Raised busErrorException w' /\
  w_msg w' = s2b "Failed to create alias of 0x30000000 to 0x70000000 of size -1.".
Proof.
  exists (args_to "4294967295"), (opts_to "4294967295"), (s2b "0x30000000"), (s2b "0x70000000"), (w_dir files_ex).
  eexists. split; [apply to_files|]. split; [apply to_spells|].
  split; [right; right; left; reflexivity|]. split; [apply n_decimal; [discriminate|value_tac]|]. split; vm_compute; reflexivity.
Qed.

Print Assumptions C71_map.
Print Assumptions C71_alias_partial.
Print Assumptions C71_alias_size_refuted.
Print Assumptions C71_formats.
