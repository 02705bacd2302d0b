(** The properties of GDB log loading (C28-C32), stated with the vocabulary of LogSpec.v, DumpSpec.v
    and MemSpec.v. *)
From Coq Require Import String ZArith List Bool Lia ZifyBool ZifyNat.
From Verif Require Import Base World Context MemSim Dump GdbLog BaseLemmas MemSpec MemInv MemOps MemHist2 MemThms DumpSpec DumpThms DumpSafe LogSpec LogFmt LogRef LogThms LogMem MemEx PropDump.
Import ListNotations.
Open Scope Z_scope.

(** ** Concrete logs for the examples *)

Definition ln (s : string) : list Z := s2b s ++ [10].

(** A line of text with its newline. *)
Definition whole_line (l : list Z) : bool :=
  match rev l with c :: body => (c =? 10) && negb (existsb (Z.eqb 10) body) && Nat.leb (length l) 1023 | [] => false end.
Lemma whole_piece l rest : whole_line l = true -> piece l rest.
Proof.
  unfold whole_line. destruct (rev l) as [|c body] eqn:E; [discriminate|]. intro H. apply andb_prop in H as [H H3]. apply andb_prop in H as [H1 H2].
  left. exists (rev body). apply (f_equal (@rev Z)) in E. rewrite rev_involutive in E. cbn in E. replace c with 10 in E by lia. split; [exact E|]. split; [|lia].
  intro Hin. rewrite <- in_rev in Hin. apply negb_true_iff in H2. rewrite <- not_true_iff_false in H2. apply H2. apply existsb_exists. exists 10. split; [exact Hin|apply Z.eqb_refl].
Qed.
Lemma whole_lines ls : forallb whole_line ls = true -> lines (concat ls) ls.
Proof. induction ls as [|l ls IH]; cbn [forallb concat]; intro H; [constructor|]. apply andb_prop in H as [H1 H2]. constructor; [now apply whole_piece|auto]. Qed.

Lemma not_like l : isMemoryLine (cstr l) = false -> ~ like_memory l.
Proof. intros H X. apply like_memory_line in X. congruence. Qed.

Definition log_ex : list (list Z) :=
  [ln "info all-registers";
   ln "r0             0x20000010       536870928";
   ln "msp            0x10007FF0       0x10007ff0";
   ln "s1             1  (raw 0x3f800000)";
   ln "r0             0x00000013       19";
   ln "fpscr          0x3000010        50331664"].

(** A line of four words, one with a symbol, and one at another address. *)
Definition line_a : list Z := ln "0x20000000:  0x00000001 0x00000002 0x00000003 0x00000004".
Definition line_b : list Z := ln "0x20000010 <std::vector<int>::x+4>:  0xDEADBEEF 0x00000006 0x00000007 0x00000008".
Definition line_c : list Z := ln "0x10000000:  0x0000000a 0x0000000B 0x0000000c 0x0000000d".

Ltac a_hex := split; [discriminate|split; [reflexivity|unfold u32; lia]].
Lemma not_digit c t : hex_value c = None -> digits_end (c :: t).
Proof. intros H X. exact (X H). Qed.

Ltac a_word d := 
  match goal with |- word_list (_ :: _) _ => 
    refine (wl_cons _ _ [32] d _ _ _ _ _);
    [repeat constructor; left; reflexivity|discriminate|split; [discriminate|split; [reflexivity|unfold u32; lia]]|] end.

Lemma line_a_ok : memory_line 0x20000000 [1; 2; 3; 4] [10] line_a.
Proof.
  exists (s2b "20000000"), (s2b ":"), (s2b "  0x00000001 0x00000002 0x00000003 0x00000004"). split; [reflexivity|]. split; [reflexivity|].
  split; [split; [discriminate|split; [reflexivity|unfold u32; lia]]|]. split; [left; reflexivity|]. split; [|split; [|split; [|split]]].
  - refine (wl_cons 1 _ [32; 32] (s2b "00000001") _ _ _ _ _); [repeat constructor|discriminate|split; [discriminate|split; [reflexivity|unfold u32; lia]]|].
    a_word (s2b "00000002"). a_word (s2b "00000003"). a_word (s2b "00000004"). constructor.
  - constructor; [right; lia|constructor].
  - discriminate.
  - cbn. lia.
  - apply Forall_forall. intros x Hx. cbn in Hx. lia.
Qed.
Lemma line_b_ok : memory_line 0x20000010 [0xDEADBEEF; 6; 7; 8] [10] line_b.
Proof.
  exists (s2b "20000010"), (s2b " <std::vector<int>::x+4>:"), (s2b "  0xDEADBEEF 0x00000006 0x00000007 0x00000008"). split; [reflexivity|]. split; [reflexivity|].
  split; [split; [discriminate|split; [reflexivity|unfold u32; lia]]|]. split; [right; exists (s2b "std::vector<int>::x+4"); split; reflexivity|]. split; [|split; [|split; [|split]]].
  - refine (wl_cons 0xDEADBEEF _ [32; 32] (s2b "DEADBEEF") _ _ _ _ _); [repeat constructor|discriminate|split; [discriminate|split; [reflexivity|unfold u32; lia]]|].
    a_word (s2b "00000006"). a_word (s2b "00000007"). a_word (s2b "00000008"). constructor.
  - constructor; [right; lia|constructor].
  - discriminate.
  - cbn. lia.
  - apply Forall_forall. intros x Hx. cbn in Hx. lia.
Qed.
Lemma line_c_ok : memory_line 0x10000000 [10; 11; 12; 13] [10] line_c.
Proof.
  exists (s2b "10000000"), (s2b ":"), (s2b "  0x0000000a 0x0000000B 0x0000000c 0x0000000d"). split; [reflexivity|]. split; [reflexivity|].
  split; [split; [discriminate|split; [reflexivity|unfold u32; lia]]|]. split; [left; reflexivity|]. split; [|split; [|split; [|split]]].
  - refine (wl_cons 10 _ [32; 32] (s2b "0000000a") _ _ _ _ _); [repeat constructor|discriminate|split; [discriminate|split; [reflexivity|unfold u32; lia]]|].
    a_word (s2b "0000000B"). a_word (s2b "0000000c"). a_word (s2b "0000000d"). constructor.
  - constructor; [right; lia|constructor].
  - discriminate.
  - cbn. lia.
  - apply Forall_forall. intros x Hx. cbn in Hx. lia.
Qed.

Definition log_mem : list (list Z) := [line_a; ln "x/4xw 0x20000010"; line_b; ln "r1             0x00000005       5"; line_c].
Definition ms_ex : list (Z * list Z) :=
  [(0x20000000, words [1; 2; 3; 4]); (0x20000010, words [0xDEADBEEF; 6; 7; 8]); (0x10000000, words [10; 11; 12; 13])].

Lemma log_mem_shows : log_shows log_mem ms_ex.
Proof.
  apply (ls_memory _ _ _ _ _ _ line_a_ok); [now left|]. apply ls_other; [apply not_like; vm_compute; reflexivity|].
  apply (ls_memory _ _ _ _ _ _ line_b_ok); [now left|]. apply ls_other; [apply not_like; vm_compute; reflexivity|].
  apply (ls_memory _ _ _ _ _ _ line_c_ok); [now left|]. constructor.
Qed.
Lemma ms_no_wrap : no_wrap ms_ex.
Proof.
  split; [unfold ms_ex; cbn; repeat constructor; unfold zlen; cbn; lia|].
  intros before x y after E H. do 3 (destruct before as [|? before]; [injection E as <- <- _ || discriminate E; unfold zlen in H; cbn in *; lia|injection E as _ E]).
  apply (f_equal (@length (Z * list Z))) in E. rewrite app_length in E. cbn in E. lia.
Qed.

(** ** C28: registers *)

(** C28.  After a log has loaded, a register has the value of the last line about it. *)
Theorem C28_listed name data ls w w' before l after t v :
  reachable w -> ctx_sane w -> file_is w name data -> no_io_faults w -> lines data ls -> api (GdbLogParse name) w = Done tt w' ->
  ls = before ++ l :: after -> is_target t -> shows l t v -> (forall l', In l' after -> ~ mentions l' t) ->
  word_at (w_ctx w') t = v.
Proof.
  intros HR HC HF HE HL HD -> Ht HS HA. destruct (reachable_inv _ HR) as (R & HI).
  pose proof (log_registers R name data _ w HI HC HF HE HL) as P. rewrite HD in P. destruct P as (_ & ->). apply lines_shown; auto. now apply ctx_init_len.
Qed.

Example C28_listed_example :
  let l1 := ln "r0             0x20000010       536870928" in let l2 := ln "r0             0x00000013       19" in let l3 := ln "s1             1  (raw 0x3f800000)" in
  lines (concat log_ex) log_ex /\ (exists w', api (GdbLogParse [100]) (w_with (concat log_ex)) = Done tt w') /\
  shows l1 (TInt 0) 0x20000010 /\ shows l2 (TInt 0) 19 /\ shows l3 (TFloat 1) 0x3F800000 /\
  (exists before after, log_ex = before ++ l2 :: after /\ forall l', In l' after -> ~ mentions l' (TInt 0)).
Proof.
  cbv zeta. split; [apply whole_lines; vm_compute; reflexivity|]. split; [eexists; vm_compute; reflexivity|].
  split; [exists (s2b "20000010"), (s2b "       536870928" ++ [10]); split; [reflexivity|]; split; [a_hex|now apply not_digit]|].
  split; [exists (s2b "00000013"), (s2b "       19" ++ [10]); split; [reflexivity|]; split; [a_hex|now apply not_digit]|].
  split; [exists (s2b "1"), (s2b "  "), (s2b "3f800000"), (s2b ")" ++ [10]); split; [reflexivity|]; split; [apply Forall_forall; intros x [<-|[]]; unfold blank; cbn; lia|]; split; [apply Forall_forall; intros x [<-|[<-|[]]]; now left|]; split; [discriminate|]; split; [a_hex|now apply not_digit]|].
  exists [ln "info all-registers"; ln "r0             0x20000010       536870928"; ln "msp            0x10007FF0       0x10007ff0"; ln "s1             1  (raw 0x3f800000)"], [ln "fpscr          0x3000010        50331664"].
  split; [reflexivity|]. intros l' [<-|[]] (rest & E). discriminate E.
Qed.

(** C28.  A register that the log does not mention keeps its value, but MSP and PSP become
    0xBAADBAAD.  The exception PSR never changes. *)
Theorem C28_unlisted name data ls w w' :
  reachable w -> ctx_sane w -> file_is w name data -> no_io_faults w -> lines data ls -> api (GdbLogParse name) w = Done tt w' ->
  (forall t, is_target t -> (forall l, In l ls -> ~ mentions l t) -> word_at (w_ctx w') t = unlisted (w_ctx w) t) /\
  psr_word (w_ctx w') = psr_word (w_ctx w) /\ ctx_sane w'.
Proof.
  intros HR HC HF HE HL HD. destruct (reachable_inv _ HR) as (R & HI).
  pose proof (log_registers R name data _ w HI HC HF HE HL) as P. rewrite HD in P. destruct P as (_ & E). rewrite E. split; [|split].
  - intros t Ht HN. rewrite lines_unmentioned by (auto; now apply ctx_init_len). now apply init_unlisted.
  - unfold psr_word. f_equal. apply (psr_kept (w_ctx w) ls HC).
  - unfold ctx_sane. rewrite E. now apply ctx_lines_len, ctx_init_len.
Qed.

Example C28_unlisted_example :
  let w := w_with (concat log_ex) in
  (forall l, In l log_ex -> ~ mentions l (TInt 18)) /\ (forall l, In l log_ex -> ~ mentions l (TInt 5)) /\
  exists w', api (GdbLogParse [100]) w = Done tt w' /\ word_at (w_ctx w') (TInt 18) = 0xBAADBAAD /\ word_at (w_ctx w') (TInt 17) = 0x10007FF0 /\ word_at (w_ctx w') (TInt 0) = 19.
Proof.
  cbv zeta. split; [intros l [<-|[<-|[<-|[<-|[<-|[<-|[]]]]]]] (rest & E); discriminate E|].
  split; [intros l [<-|[<-|[<-|[<-|[<-|[<-|[]]]]]]] (rest & E); discriminate E|]. eexists. split; [vm_compute; reflexivity|]. vm_compute. auto.
Qed.

(** C28.  A log without memory lines always loads, and leaves memory alone. *)
Theorem C28_loads name data ls w :
  ctx_sane w -> file_is w name data -> no_io_faults w -> lines data ls -> (forall l, In l ls -> ~ like_memory l) ->
  exists w', api (GdbLogParse name) w = Done tt w' /\ w_mem w' = w_mem w /\ w_heap w' = w_heap w.
Proof. apply log_quiet. Qed.

Example C28_loads_example : lines (concat log_ex) log_ex /\ forall l, In l log_ex -> ~ like_memory l.
Proof.
  split; [apply whole_lines; vm_compute; reflexivity|]. intros l [<-|[<-|[<-|[<-|[<-|[<-|[]]]]]]]; apply not_like; vm_compute; reflexivity.
Qed.

(** ** C29: memory *)

(** C29.  A log whose memory lines have four words each (or nothing after the last word) adds
    exactly those words to memory.  Lines that continue one another become one region. *)
Theorem C29_round_trip_partial name data ls ms w :
  reachable w -> ctx_sane w -> file_is w name data -> no_io_faults w -> lines data ls ->
  log_shows ls ms -> no_wrap ms -> fit (regions w) (joined ms) ->
  (exists w', api (GdbLogParse name) w = Done tt w' /\ memory_added w w' (joined ms)) \/
  (exists w', api (GdbLogParse name) w = Raised outOfMemoryException w' /\ 0 < refusals w w').
Proof. intros HR HC HF HE HL HS HN HT. destruct (reachable_inv _ HR) as (R & HI). eapply log_memory; eauto. now apply shows_loads. Qed.

Example C29_round_trip_example :
  lines (concat log_mem) log_mem /\ log_shows log_mem ms_ex /\ no_wrap ms_ex /\ fit (regions (w_with (concat log_mem))) (joined ms_ex) /\
  length (joined ms_ex) = 2%nat /\ outcome_of (api (GdbLogParse [100]) (w_with (concat log_mem))) = Value tt.
Proof.
  split; [apply whole_lines; vm_compute; reflexivity|]. split; [apply log_mem_shows|]. split; [apply ms_no_wrap|].
  split; [|split; vm_compute; reflexivity].
  change (regions (w_with (concat log_mem))) with (regions (w_with [])). fits.
Qed.

(** C29.  Each byte the log shows can then be read at its address. *)
Theorem C29_memory_reads_partial name data ls ms w w' :
  reachable w -> ctx_sane w -> file_is w name data -> no_io_faults w -> lines data ls ->
  log_shows ls ms -> no_wrap ms -> fit (regions w) (joined ms) -> api (GdbLogParse name) w = Done tt w' ->
  forall a bs i b, In (a, bs) ms -> nth_error bs i = Some b -> exists w'', api (MemSim.readN 1 (a + Z.of_nat i)) w' = Done b w''.
Proof. intros HR HC HF HE HL HS HN HT HD. destruct (reachable_inv _ HR) as (R & HI). eapply log_reads; eauto. now apply shows_loads. Qed.

Example C29_memory_reads_example :
  exists w', api (GdbLogParse [100]) (w_with (concat log_mem)) = Done tt w' /\ In (0x20000010, words [0xDEADBEEF; 6; 7; 8]) ms_ex /\
  nth_error (words [0xDEADBEEF; 6; 7; 8]) 1 = Some 0xBE /\ outcome_of (api (MemSim.readN 1 (0x20000010 + 1)) w') = Value 0xBE.
Proof. eexists. split; [vm_compute; reflexivity|]. split; [right; left; reflexivity|]. split; vm_compute; reflexivity. Qed.

(** C29.  Missing from the two theorems above: lines at the very top of the address space.  A line
    that ends with the last byte is taken to be continued by a line at address 0, and loading stops
    with a bus error. *)
Definition line_top : list Z := ln "0xFFFFFFF0: 0x00000001 0x00000002 0x00000003 0x00000004".
Definition line_zero : list Z := ln "0x00000000: 0x00000005 0x00000006 0x00000007 0x00000008".
Lemma line_top_ok : memory_line 0xFFFFFFF0 [1; 2; 3; 4] [10] line_top.
Proof.
  exists (s2b "FFFFFFF0"), (s2b ":"), (s2b " 0x00000001 0x00000002 0x00000003 0x00000004"). split; [reflexivity|]. split; [reflexivity|].
  split; [a_hex|]. split; [left; reflexivity|]. split; [|split; [|split; [|split]]].
  - a_word (s2b "00000001"). a_word (s2b "00000002"). a_word (s2b "00000003"). a_word (s2b "00000004"). constructor.
  - constructor; [right; lia|constructor].
  - discriminate.
  - cbn. lia.
  - apply Forall_forall. intros x Hx. cbn in Hx. lia.
Qed.
Lemma line_zero_ok : memory_line 0 [5; 6; 7; 8] [10] line_zero.
Proof.
  exists (s2b "00000000"), (s2b ":"), (s2b " 0x00000005 0x00000006 0x00000007 0x00000008"). split; [reflexivity|]. split; [reflexivity|].
  split; [a_hex|]. split; [left; reflexivity|]. split; [|split; [|split; [|split]]].
  - a_word (s2b "00000005"). a_word (s2b "00000006"). a_word (s2b "00000007"). a_word (s2b "00000008"). constructor.
  - constructor; [right; lia|constructor].
  - discriminate.
  - cbn. lia.
  - apply Forall_forall. intros x Hx. cbn in Hx. lia.
Qed.
Theorem C29_top_of_memory_refuted : exists w name data ls ms,
  reachable w /\ ctx_sane w /\ file_is w name data /\ no_io_faults w /\ lines data ls /\ log_shows ls ms /\ fit (regions w) (joined ms) /\
  outcome_of (api (GdbLogParse name) w) = Exception_ busErrorException.
Proof.
  pose (ls := [line_top; line_zero]). exists (w_with (concat ls)), [100], (concat ls), ls, [(0xFFFFFFF0, words [1; 2; 3; 4]); (0, words [5; 6; 7; 8])].
  split; [apply with_reachable|]. split; [apply with_ctx|]. split; [apply with_file|]. split; [apply with_io|]. split; [apply whole_lines; vm_compute; reflexivity|].
  split; [apply (ls_memory _ _ _ _ _ _ line_top_ok); [now left|]; apply (ls_memory _ _ _ _ _ _ line_zero_ok); [now left|]; constructor|].
  split; [change (regions (w_with (concat ls))) with (regions (w_with [])); fits|]. vm_compute. reflexivity.
Qed.

(** C29.  Also missing: symbols whose angle brackets do not nest, like the name of a C++ comparison
    operator.  The words of such a line are lost, and the line counts as four zero words. *)
Definition line_operator : list Z := ln "0x20000000 <A::operator>(A const&)+4>: 0x00000001 0x00000002 0x00000003 0x00000004".
Theorem C29_symbol_refuted : exists w name sym words_text w',
  reachable w /\ ctx_sane w /\ no_io_faults w /\
  file_is w name (s2b "0x20000000" ++ s2b " <" ++ sym ++ s2b ">:" ++ words_text ++ [10]) /\ word_list [1; 2; 3; 4] words_text /\
  api (GdbLogParse name) w = Done tt w' /\ forall i, In i [0; 4; 8; 12] -> outcome_of (api (MemSim.readN 4 (0x20000000 + i)) w') = Value 0.
Proof.
  exists (w_with line_operator), [100], (s2b "A::operator>(A const&)+4"), (s2b " 0x00000001 0x00000002 0x00000003 0x00000004"). eexists.
  split; [apply with_reachable|]. split; [apply with_ctx|]. split; [apply with_io|]. split; [apply with_file|].
  split; [a_word (s2b "00000001"); a_word (s2b "00000002"); a_word (s2b "00000003"); a_word (s2b "00000004"); constructor|].
  split; [vm_compute; reflexivity|]. intros i [<-|[<-|[<-|[<-|[]]]]]; vm_compute; reflexivity.
Qed.

(** ** C30: short lines *)

(** C30, the true part.  A memory line with four words, or with one to four words and nothing after
    them, contributes exactly its words.  (A log of one such line; C29 has the general statement.) *)
Theorem C30_exact_partial name w a ws tail l :
  reachable w -> ctx_sane w -> file_is w name l -> no_io_faults w -> lines l [l] ->
  memory_line a ws tail l -> length ws = 4%nat \/ tail = [] -> fit (regions w) [(a, words ws)] ->
  (exists w', api (GdbLogParse name) w = Done tt w' /\ memory_added w w' [(a, words ws)]) \/
  (exists w', api (GdbLogParse name) w = Raised outOfMemoryException w' /\ 0 < refusals w w').
Proof.
  intros HR HC HF HE HL HM HP HT. apply (C29_round_trip_partial name l [l] [(a, words ws)] w); auto.
  - apply (ls_memory _ _ _ _ _ _ HM HP). constructor.
  - split.
    + cbn. constructor; [|constructor]. cbn. rewrite words_zlen. destruct (memory_line_address _ _ _ _ HM) as (_ & _ & L). unfold zlen. lia.
    + intros before x y after E. exfalso. apply (f_equal (@length (Z * list Z))) in E. rewrite app_length in E. cbn in E. lia.
Qed.

(** C30, what happens instead.  In a log of any memory lines, each line of fewer than four words
    with a newline (or blanks) after the last one contributes its words and then a zero word. *)
Theorem C30_effect name data ls ms w :
  reachable w -> ctx_sane w -> file_is w name data -> no_io_faults w -> lines data ls ->
  log_loads ls ms -> no_wrap ms -> fit (regions w) (joined ms) ->
  (exists w', api (GdbLogParse name) w = Done tt w' /\ memory_added w w' (joined ms)) \/
  (exists w', api (GdbLogParse name) w = Raised outOfMemoryException w' /\ 0 < refusals w w').
Proof. intros HR HC HF HE HL HS HN HT. destruct (reachable_inv _ HR) as (R & HI). eapply log_memory; eauto. Qed.

Definition line_short (n : bool) : list Z := s2b "0x20000000: 0x00000001 0x00000002" ++ if n then [10] else [].
Lemma line_short_ok (n : bool) : memory_line 0x20000000 [1; 2] (if n then [10] else []) (line_short n).
Proof.
  exists (s2b "20000000"), (s2b ":"), (s2b " 0x00000001 0x00000002"). split; [reflexivity|]. split; [reflexivity|].
  split; [a_hex|]. split; [left; reflexivity|]. split; [|split; [|split; [|split]]].
  - a_word (s2b "00000001"). a_word (s2b "00000002"). constructor.
  - destruct n; [|constructor]. constructor; [right; lia|constructor].
  - discriminate.
  - cbn. lia.
  - apply Forall_forall. intros x Hx. destruct n; cbn in Hx; lia.
Qed.
Example C30_example :
  memory_line 0x20000000 [1; 2] [] (line_short false) /\ lines (line_short false) [line_short false] /\
  fit (regions (w_with (line_short false))) [(0x20000000, words [1; 2])] /\ outcome_of (api (GdbLogParse [100]) (w_with (line_short false))) = Value tt.
Proof.
  split; [apply (line_short_ok false)|]. split; [|split; [change (regions (w_with (line_short false))) with (regions (w_with [])); fits|vm_compute; reflexivity]].
  rewrite <- (app_nil_r (line_short false)) at 1. constructor; [|constructor]. right. right. split; [|split; [discriminate|split; [cbn; lia|reflexivity]]]. intro H. cbn in H. lia.
Qed.
Example C30_effect_example :
  log_loads [line_short true] [(0x20000000, words [1; 2; 0])] /\ lines (line_short true) [line_short true] /\
  outcome_of (api (GdbLogParse [100]) (w_with (line_short true))) = Value tt.
Proof.
  split; [apply (ll_memory _ _ _ [1; 2] [10] _ (line_short_ok true)); constructor|]. split; [|vm_compute; reflexivity].
  rewrite <- (app_nil_r (line_short true)) at 1. constructor; [|constructor]. now apply whole_piece.
Qed.

(** C30 as stated is false: two words and a newline add twelve bytes, not eight. *)
Theorem C30_short_line_refuted : exists w name a ws l w',
  reachable w /\ ctx_sane w /\ file_is w name l /\ no_io_faults w /\ lines l [l] /\ memory_line a ws [10] l /\ fit (regions w) [(a, words ws)] /\
  api (GdbLogParse name) w = Done tt w' /\ memory_added w w' [(a, words ws ++ [0; 0; 0; 0])] /\ ~ memory_added w w' [(a, words ws)].
Proof.
  exists (w_with (line_short true)), [100], 0x20000000, [1; 2], (line_short true). eexists.
  split; [apply with_reachable|]. split; [apply with_ctx|]. split; [apply with_file|]. split; [apply with_io|].
  split; [rewrite <- (app_nil_r (line_short true)) at 1; constructor; [now apply whole_piece|constructor]|].
  split; [apply (line_short_ok true)|]. split; [change (regions (w_with (line_short true))) with (regions (w_with [])); fits|]. split; [vm_compute; reflexivity|]. split.
  - unfold memory_added. split; [|vm_compute; auto 20]. eexists. split; [vm_compute; reflexivity|]. constructor; [vm_compute; auto 20|constructor].
  - intros ((new & E & F) & _). inversion F as [|r x new' t H1 H2]; subst. inversion H2; subst. vm_compute in E. injection E as <-. destruct H1 as (_ & H1 & _). vm_compute in H1. discriminate H1.
Qed.

(** ** C31: safety *)

(** C31.  For every file contents and every pattern of file and allocation failures, a log either
    loads or raises one of the documented exceptions; no access leaves its buffer or the register
    context, the file is closed again, and nothing but memory, registers, heap and exception state
    changes. *)
Theorem C31_safe_and_total name w :
  reachable w -> ctx_sane w ->
  match api (GdbLogParse name) w with
  | Crashed _ => False
  | Raised c w' =>
      (c = fileException \/ c = busErrorException \/ c = outOfMemoryException) /\ fs_open (w_files w') = fs_open (w_files w) /\ ctx_sane w' /\
      w_err w' = w_err w /\ w_faults w' = w_faults w /\ w_gdb w' = w_gdb w /\ w_con w' = w_con w
  | Done _ w' =>
      fs_open (w_files w') = fs_open (w_files w) /\ ctx_sane w' /\
      w_err w' = w_err w /\ w_faults w' = w_faults w /\ w_gdb w' = w_gdb w /\ w_con w' = w_con w
  end.
Proof.
  intros HR HC. destruct (reachable_inv _ HR) as (R & HI). pose proof (log_safe name w R HI HC) as P.
  destruct (api (GdbLogParse name) w) as [[] w'|c w'|]; [| |exact P].
  - destruct P as (_ & P1 & (P2 & P3 & P4 & P5 & _) & P6 & _). unfold ctx_sane. auto 10.
  - destruct P as (_ & P1 & (P2 & P3 & P4 & P5 & _) & P7 & P6). unfold ctx_sane. split; [exact P7|auto 10].
Qed.

Example C31_example :
  let w := w_with (s2b "0x20000000:" ++ [10; 0; 255] ++ s2b "r0" ++ repeat 32 2000) in reachable w /\ ctx_sane w /\
  exists w', api (GdbLogParse [100]) w = Done tt w'.
Proof. cbv zeta. split; [apply with_reachable|]. split; [apply with_ctx|]. eexists. vm_compute. reflexivity. Qed.

(** C31.  The file exception is raised if the log cannot be opened, without other effects; and it is
    raised only if some file operation fails. *)
Theorem C31_file_exception name w :
  reachable w -> ctx_sane w ->
  (e_fs (w_env w) name = None \/ e_io (w_env w) (fs_calls (w_files w)) = IoFail ->
   exists w', api (GdbLogParse name) w = Raised fileException w' /\ w_mem w' = w_mem w /\ w_heap w' = w_heap w /\ w_ctx w' = w_ctx w) /\
  (outcome_of (api (GdbLogParse name) w) = Exception_ fileException -> e_fs (w_env w) name = None \/ ~ no_io_faults w).
Proof.
  intros HR HC. destruct (reachable_inv _ HR) as (R & HI). split.
  - intro H. destruct (log_missing name w H) as (w' & E & H1 & H2 & H3 & _). eauto.
  - intro H. destruct (e_fs (w_env w) name) as [data|] eqn:HF; [right|now left]. intro HE. destruct (lines_exist data) as (ls & HL).
    pose proof (log_registers R name data ls w HI HC HF HE HL) as P. destruct (api (GdbLogParse name) w) as [[] w'|c w'|]; try discriminate.
    injection H as ->. destruct P as [P|P]; discriminate P.
Qed.

Example C31_file_exception_example :
  let w := w_with [] in e_fs (w_env w) [99] = None /\ outcome_of (api (GdbLogParse [99]) w) = Exception_ fileException.
Proof. vm_compute. auto. Qed.

(** ** C32: the floating-point flag *)

(** C32.  The floating-point flag (bit 0) is set after loading iff it was set before or the log has a
    line about one of s0..s31.  No other bit of the flags changes. *)
Theorem C32_flag name data ls w w' :
  reachable w -> ctx_sane w -> file_is w name data -> no_io_faults w -> lines data ls -> api (GdbLogParse name) w = Done tt w' ->
  (flag_bit (w_ctx w') 0 = true <-> flag_bit (w_ctx w) 0 = true \/ exists l i, In l ls /\ (i < 32)%nat /\ mentions l (TFloat i)) /\
  forall n, 0 < n < 32 -> flag_bit (w_ctx w') n = flag_bit (w_ctx w) n.
Proof.
  intros HR HC HF HE HL HD. destruct (reachable_inv _ HR) as (R & HI).
  pose proof (log_registers R name data _ w HI HC HF HE HL) as P. rewrite HD in P. destruct P as (_ & E). rewrite E. split.
  - rewrite flag_lines by (try lia; now apply ctx_init_len). rewrite flag_init by exact HC. rewrite orb_true_iff. cbn [Z.eqb andb]. rewrite existsb_exists.
    apply or_iff_compat_l. split; [intros (l & Hl & H); apply float_line_spec in H as (i & H); eauto|intros (l & i & Hl & H); exists l; split; [exact Hl|]; apply float_line_spec; eauto].
  - intros n Hn. rewrite flag_lines by (try lia; now apply ctx_init_len). rewrite flag_init by exact HC. replace (n =? 0) with false by lia. apply orb_false_r.
Qed.

Example C32_example :
  let fp := [ln "fpscr          0x3000010        50331664"] in
  (exists w', api (GdbLogParse [100]) (w_with (concat log_ex)) = Done tt w' /\ flag_bit (w_ctx (w_with (concat log_ex))) 0 = false /\ flag_bit (w_ctx w') 0 = true) /\
  (exists w', api (GdbLogParse [100]) (w_with (concat fp)) = Done tt w' /\ flag_bit (w_ctx w') 0 = false /\ word_at (w_ctx w') (TFloat 32) = 0x3000010).
Proof. cbv zeta. split; (eexists; split; [vm_compute; reflexivity|]; vm_compute; auto). Qed.

(** ** C50: file errors while reading *)

(** C50.  A log that is read once without errors but cannot be rewound for the second pass is never
    reported as loaded. *)
Theorem C50_rewind_partial name data ls w :
  reachable w -> ctx_sane w -> file_is w name data -> lines data ls ->
  (forall i, (fs_calls (w_files w) <= i <= fs_calls (w_files w) + S (length ls))%nat -> e_io (w_env w) i = IoOk) ->
  e_io (w_env w) (fs_calls (w_files w) + S (S (length ls))) = IoFail ->
  exists c w', api (GdbLogParse name) w = Raised c w' /\ (c = fileException \/ c = outOfMemoryException).
Proof. intros HR HC HF HL HO HX. destruct (reachable_inv _ HR) as (R & HI). eapply log_rewind; eauto. Qed.

Example C50_rewind_example :
  let data := ln "r0 0x1 1" in let w := w_failing data 3 in
  reachable w /\ ctx_sane w /\ lines data [data] /\ file_is w [100] data /\ e_io (w_env w) 3 = IoFail /\
  outcome_of (api (GdbLogParse [100]) w) = Exception_ fileException.
Proof.
  cbv zeta. split; [apply failing_reachable|]. split; [apply failing_ctx|]. split; [apply (whole_lines [ln "r0 0x1 1"]); repeat constructor; vm_compute; lia|].
  vm_compute. auto.
Qed.

(** C50 fails in general: an error while reading a line of a log is taken for its end, so the rest of
    the log is silently missing from registers and memory. *)
Theorem C50_log_refuted :
  exists data ls w k w', reachable w /\ ctx_sane w /\ file_is w [100] data /\ lines data ls /\ e_io (w_env w) k = IoFail /\
    api (GdbLogParse [100]) w = Done tt w' /\ (fs_calls (w_files w) <= k < fs_calls (w_files w'))%nat /\
    exists l v, In l ls /\ shows l (TInt 0) v /\ word_at (w_ctx w') (TInt 0) <> v.
Proof.
  exists (ln "r0             0x12 18"), [ln "r0             0x12 18"], (w_failing (ln "r0             0x12 18") 1), 1%nat. eexists. split; [apply failing_reachable|]. split; [apply failing_ctx|].
  split; [reflexivity|]. split; [apply (whole_lines [ln "r0             0x12 18"]); repeat constructor; vm_compute; lia|]. split; [reflexivity|]. split; [vm_compute; reflexivity|]. split; [vm_compute; lia|].
  exists (ln "r0             0x12 18"), 18. split; [now left|]. split; [exists (s2b "12"), (s2b " 18" ++ [10]); split; [reflexivity|]; split; [repeat split; vm_compute; congruence|vm_compute; congruence]|vm_compute; discriminate].
Qed.

(** C50.  Whatever file operations fail: if loading a log reports success, the registers are those of
    its first lines up to some point.  Missing: the lines after it are lost, though only if an
    operation failed. *)
Theorem C50_registers_partial name data ls w w' :
  reachable w -> ctx_sane w -> file_is w name data -> lines data ls -> api (GdbLogParse name) w = Done tt w' ->
  exists ls' lost, ls = ls' ++ lost /\ (no_io_faults w -> lost = []) /\
    (forall before l after t v, ls' = before ++ l :: after -> is_target t -> shows l t v -> (forall l', In l' after -> ~ mentions l' t) -> word_at (w_ctx w') t = v) /\
    (forall t, is_target t -> (forall l, In l ls' -> ~ mentions l t) -> word_at (w_ctx w') t = unlisted (w_ctx w) t).
Proof.
  intros HR HC HF HL HD. destruct (reachable_inv _ HR) as (R & HI).
  assert (HO : e_io (w_env w) (fs_calls (w_files w)) <> IoFail) by (intro X; destruct (log_missing name w (or_intror X)) as (w1 & E & _); congruence).
  destruct (log_ref name data ls w HF HO HL) as (p1 & q1 & rw & p2 & q2 & E1 & _ & HX & _ & H). exists p1, q1. split; [exact E1|]. split; [apply HX|].
  pose proof (ref_log_any R p1 rw p2 _ (Inv_exn _ _ noException [] HI) HC eq_refl) as P. unfold post in P.
  assert (E : w_ctx w' = fold_left ctx_line p1 (ctx_init (w_ctx w))).
  { destruct (ref_log p1 rw p2 _) as [[] w1|w1|]; [| |destruct P].
    - destruct P as (_ & _ & C1 & Z1). destruct (H Z1) as (f' & E & _). rewrite HD in E. injection E as ->. exact C1.
    - destruct P as (_ & _ & _ & Z1 & _). assert (Z0 : w_code w1 <> 0) by (destruct Z1 as [Z1|[Z1|Z1]]; rewrite Z1; discriminate). destruct (H Z0) as (f' & E & _). congruence. }
  rewrite E. split.
  - intros before l after t v -> Ht HS HA. apply lines_shown; auto. now apply ctx_init_len.
  - intros t Ht HN. rewrite lines_unmentioned by (auto; now apply ctx_init_len). now apply init_unlisted.
Qed.
Example C50_registers_example :
  let w := w_failing (concat log_ex) 3 in reachable w /\ ctx_sane w /\ lines (concat log_ex) log_ex /\
  exists w', api (GdbLogParse [100]) w = Done tt w' /\ word_at (w_ctx w') (TInt 0) = 0x20000010 /\ word_at (w_ctx w') (TFloat 1) = 0.
Proof.
  cbv zeta. split; [apply failing_reachable|]. split; [apply failing_ctx|]. split; [apply whole_lines; vm_compute; reflexivity|].
  eexists. split; [vm_compute; reflexivity|]. vm_compute. auto.
Qed.

(** C50 fails for the memory of a log, too: an error in the second pass leaves memory that the log
    shows to be something else filled with zeros. *)
Theorem C50_zeros_refuted :
  exists data ls ms w k w', reachable w /\ ctx_sane w /\ file_is w [100] data /\ lines data ls /\ log_shows ls ms /\ no_wrap ms /\ fit (regions w) (joined ms) /\
    e_io (w_env w) k = IoFail /\ api (GdbLogParse [100]) w = Done tt w' /\ (fs_calls (w_files w) <= k < fs_calls (w_files w'))%nat /\
    exists a bs b w'', In (a, bs) ms /\ nth_error bs 0 = Some b /\ b <> 0 /\ api (readN 1 a) w' = Done 0 w''.
Proof.
  exists (concat log_mem), log_mem, ms_ex, (w_failing (concat log_mem) 8), 8%nat. eexists. split; [apply failing_reachable|]. split; [apply failing_ctx|]. split; [reflexivity|].
  split; [apply whole_lines; vm_compute; reflexivity|]. split; [exact log_mem_shows|]. split; [exact ms_no_wrap|].
  split; [change (regions (w_failing (concat log_mem) 8)) with (regions (w_with [])); fits|]. split; [reflexivity|]. split; [vm_compute; reflexivity|]. split; [vm_compute; lia|].
  exists 0x20000000, (words [1; 2; 3; 4]), 1. eexists. split; [now left|]. split; [reflexivity|]. split; [discriminate|]. vm_compute. reflexivity.
Qed.

Print Assumptions C28_listed.
Print Assumptions C28_unlisted.
Print Assumptions C28_loads.
Print Assumptions C29_round_trip_partial.
Print Assumptions C29_memory_reads_partial.
Print Assumptions C29_top_of_memory_refuted.
Print Assumptions C29_symbol_refuted.
Print Assumptions C30_exact_partial.
Print Assumptions C30_effect.
Print Assumptions C30_short_line_refuted.
Print Assumptions C31_safe_and_total.
Print Assumptions C31_file_exception.
Print Assumptions C32_flag.
Print Assumptions C50_rewind_partial.
Print Assumptions C50_log_refuted.
Print Assumptions C50_registers_partial.
Print Assumptions C50_zeros_refuted.
