(** The properties of dump loading (C20-C27), stated with the vocabulary of DumpSpec.v and MemSpec.v. *)
From Coq Require Import String ZArith List Bool Lia ZifyBool ZifyNat.
From Verif Require Import Base World Context MemSim Dump BaseLemmas MemSpec MemInv MemHist2 MemThms DumpSpec DumpThms DumpSafe DumpFault MemEx.
Import ListNotations.
Open Scope Z_scope.

(** ** Concrete dumps and worlds for the examples *)

Definition env_file (name data : list Z) : env :=
  mkEnv (fun _ _ => true) (fun n => if bytes_eqb n name then Some data else None) (fun _ => IoOk) (fun _ => PollNo) (fun _ => RdEof) (fun _ => true).
(** A simulator with one region at 0x08000000 next to a dump file called "d". *)
Definition w_with (data : list Z) : world := after (env_file [100] data) [OCreate 0x08000000 16].
Lemma with_reachable data : reachable (w_with data).
Proof. apply after_reachable. vm_compute. reflexivity. Qed.
Lemma with_file data : file_is (w_with data) [100] data.
Proof. reflexivity. Qed.
Lemma with_io data : no_io_faults (w_with data).
Proof. intro. reflexivity. Qed.
Lemma with_ctx data : ctx_sane (w_with data).
Proof. unfold ctx_sane. vm_compute. reflexivity. Qed.

(** The same with one failing file operation. *)
Definition w_failing (data : list Z) (k : nat) : world :=
  after (mkEnv (fun _ _ => true) (fun n => if bytes_eqb n [100] then Some data else None) (fun n => if Nat.eqb n k then IoFail else IoOk)
           (fun _ => PollNo) (fun _ => RdEof) (fun _ => true)) [OCreate 0x08000000 16].
Lemma failing_reachable data k : reachable (w_failing data k).
Proof. apply after_reachable. vm_compute. reflexivity. Qed.
Lemma failing_file data k : file_is (w_failing data k) [100] data.
Proof. reflexivity. Qed.
Lemma failing_ctx data k : ctx_sane (w_failing data k).
Proof. unfold ctx_sane. vm_compute. reflexivity. Qed.

Definition seq_words (a : Z) (n : nat) : list Z := map (fun i => a + Z.of_nat i) (seq 0 n).
(** A version 3 dump with floating-point registers and two regions, a version 2 dump without, and
    one whose region starts at the address 0xACCE55ED. *)
Definition d_ex : dump :=
  mkDump false 1 (seq_words 0x11110000 19) 0x61000003 (seq_words 0x40000000 33) [(0x20000000, [1; 2; 3; 4; 5]); (0x10000000, [255; 254])].
Definition d_ex2 : dump := mkDump true 6 (seq_words 0x22220000 17) 0x01000000 [] [(0x20000000, [9; 8; 7])].
Definition d_mark : dump := mkDump false 0 (seq_words 0 19) 0 [] [(0xACCE55ED, [1; 2])].

Definition u32b (x : Z) : bool := (0 <=? x) && (x <? 4294967296).
Definition byteb (x : Z) : bool := (0 <=? x) && (x <? 256).
Definition validb (d : dump) : bool :=
  u32b (d_flags d) && forallb u32b (d_regs d) && Nat.eqb (length (d_regs d)) (if d_v2 d then 17 else 19) && u32b (d_psr d) &&
  forallb u32b (d_fp d) && Nat.eqb (length (d_fp d)) (if has_fp d then 33 else 0) &&
  forallb (fun x => u32b (fst x) && u32b (zlen (snd x)) && forallb byteb (snd x)) (d_mem d).
Lemma u32b_ok l : forallb u32b l = true -> Forall u32 l.
Proof. rewrite forallb_forall, Forall_forall. intros H x Hx. specialize (H x Hx). unfold u32b, u32 in *. lia. Qed.
Lemma byteb_ok l : forallb byteb l = true -> Forall byte l.
Proof. rewrite forallb_forall, Forall_forall. intros H x Hx. specialize (H x Hx). unfold byteb, byte in *. lia. Qed.
Lemma validb_ok d : validb d = true -> valid d.
Proof.
  unfold validb, valid. intro H. repeat (apply andb_prop in H as [H ?]).
  split; [unfold u32b, u32 in *; lia|]. split; [split; [now apply u32b_ok|now apply Nat.eqb_eq]|].
  split; [unfold u32b, u32 in *; lia|]. split; [split; [now apply u32b_ok|now apply Nat.eqb_eq]|].
  rewrite Forall_forall. rewrite forallb_forall in H0. intros x Hx. specialize (H0 x Hx).
  repeat (apply andb_prop in H0 as [H0 ?]). unfold valid_region. split; [unfold u32b, u32 in *; lia|]. split; [unfold u32b, u32 in *; lia|now apply byteb_ok].
Qed.

Ltac fits := unfold fit, apart, range_of, range_in; split; [repeat constructor; cbn; lia|split;
  [repeat constructor; cbn; lia|intros r x Hr Hx; cbn in Hx; vm_compute in Hr; repeat destruct Hr as [<-|Hr]; try destruct Hr;
   repeat destruct Hx as [<-|Hx]; try destruct Hx; cbn; lia]].

Lemma ex_valid : valid d_ex /\ valid d_ex2 /\ valid d_mark.
Proof. repeat split; apply validb_ok; vm_compute; reflexivity. Qed.
Lemma ex_fit data : fit (regions (w_with data)) (d_mem d_ex) /\ fit (regions (w_with data)) (d_mem d_ex2) /\ fit (regions (w_with data)) (d_mem d_mark).
Proof.
  change (regions (w_with data)) with (regions (w_with [])). split; [fits|split; fits].
Qed.

(** ** C20 - C22: round trip *)

(** C20.  Loading the binary encoding of a dump (version 3 or 2, with or without floating-point
    registers) whose regions have no address in common with one another or with existing memory
    succeeds and adds exactly its regions and registers; the only alternative is an allocation
    refused on the way. *)
Theorem C20_round_trip d name w :
  reachable w -> file_is w name (encode d) -> no_io_faults w -> ctx_sane w -> valid d -> fit (regions w) (d_mem d) ->
  (exists w', api (CrashCatcherDump_ReadBinary name) w = Done tt w' /\ loaded w w' d) \/
  (exists w', api (CrashCatcherDump_ReadBinary name) w = Raised outOfMemoryException w' /\ 0 < refusals w w').
Proof. intros. now apply (load_dump d Binary name (encode d)). Qed.

Example C20_example :
  let w := w_with (encode d_ex) in
  reachable w /\ file_is w [100] (encode d_ex) /\ no_io_faults w /\ ctx_sane w /\ valid d_ex /\ fit (regions w) (d_mem d_ex) /\
  outcome_of (api (CrashCatcherDump_ReadBinary [100]) w) = Value tt.
Proof.
  cbv zeta. split; [apply with_reachable|]. split; [apply with_file|]. split; [apply with_io|]. split; [apply with_ctx|].
  split; [apply ex_valid|]. split; [apply ex_fit|]. vm_compute. reflexivity.
Qed.

(** C20.  Every byte of every region of the dump can be read back at its address. *)
Theorem C20_memory_reads d name w w' :
  reachable w -> file_is w name (encode d) -> no_io_faults w -> ctx_sane w -> valid d -> fit (regions w) (d_mem d) ->
  api (CrashCatcherDump_ReadBinary name) w = Done tt w' ->
  forall a bs i b, In (a, bs) (d_mem d) -> nth_error bs i = Some b -> exists w'', api (readN 1 (a + Z.of_nat i)) w' = Done b w''.
Proof. intros HR HF HI HC HV Hfit HD. exact (load_bytes_back d Binary name (encode d) w w' HR HF HI HC HV Hfit eq_refl HD). Qed.

Example C20_memory_example :
  In (0x20000000, [1; 2; 3; 4; 5]) (d_mem d_ex) /\ nth_error [1; 2; 3; 4; 5] 3 = Some 4 /\
  exists w', api (CrashCatcherDump_ReadBinary [100]) (w_with (encode d_ex)) = Done tt w' /\
             outcome_of (api (readN 1 0x20000003) w') = Value 4.
Proof. split; [now left|]. split; [reflexivity|]. eexists. split; [vm_compute; reflexivity|]. vm_compute. reflexivity. Qed.

(** Whatever file operations fail: if loading succeeds, the context is that of the dump. *)
Lemma context_after d name w w' :
  reachable w -> ctx_sane w -> valid d -> fit (regions w) (d_mem d) -> file_is w name (encode d) ->
  api (CrashCatcherDump_ReadBinary name) w = Done tt w' -> w_ctx w' = context d (w_ctx w).
Proof.
  intros HR HC HV Hfit HF HD. destruct (read_whole Binary name (encode d) d w w' HR HF (encode_bytes d HV) HC HV eq_refl Hfit HD) as (ms & lost & _ & (_ & E & _) & _). exact E.
Qed.

(** C20.  After loading a version 3 dump every integer register, the flags and the exception PSR
    are those of the dump, also if file operations failed on the way. *)
Theorem C20_registers d name w w' i :
  reachable w -> ctx_sane w -> valid d -> fit (regions w) (d_mem d) -> file_is w name (encode d) ->
  api (CrashCatcherDump_ReadBinary name) w = Done tt w' -> d_v2 d = false -> (i < 19)%nat ->
  reg_word (w_ctx w') i = nth i (d_regs d) 0 /\ of_le (firstn 4 (w_ctx w')) = d_flags d /\ of_le (firstn 4 (skipn 80 (w_ctx w'))) = d_psr d.
Proof.
  intros HR HC HV Hfit HF HD Hv Hi. rewrite (context_after d name w w' HR HC HV Hfit HF HD). pose proof (context_regs d (w_ctx w) HV) as (H1 & _ & H3 & H4 & _).
  split; [apply H1; destruct HV as (_ & (_ & ->) & _); rewrite Hv; exact Hi|]. auto.
Qed.

Example C20_registers_example : d_v2 d_ex = false /\ exists w',
  api (CrashCatcherDump_ReadBinary [100]) (w_with (encode d_ex)) = Done tt w' /\ reg_word (w_ctx w') 18 = 0x11110012.
Proof. split; [reflexivity|]. eexists. split; [vm_compute; reflexivity|]. vm_compute. reflexivity. Qed.

(** C21.  After loading a version 2 dump R0 to xPSR, the flags and the exception PSR are those of the
    dump, and MSP and PSP are 0xBAADBAAD, also if file operations failed on the way. *)
Theorem C21_version_2 d name w w' i :
  reachable w -> ctx_sane w -> valid d -> fit (regions w) (d_mem d) -> file_is w name (encode d) ->
  api (CrashCatcherDump_ReadBinary name) w = Done tt w' -> d_v2 d = true -> (i < 17)%nat ->
  reg_word (w_ctx w') i = nth i (d_regs d) 0 /\
  reg_word (w_ctx w') 17 = 0xBAADBAAD /\ reg_word (w_ctx w') 18 = 0xBAADBAAD /\
  of_le (firstn 4 (w_ctx w')) = d_flags d /\ of_le (firstn 4 (skipn 80 (w_ctx w'))) = d_psr d.
Proof.
  intros HR HC HV Hfit HF HD Hv Hi. rewrite (context_after d name w w' HR HC HV Hfit HF HD). pose proof (context_regs d (w_ctx w) HV) as (H1 & H2 & H3 & H4 & _).
  split; [apply H1; destruct HV as (_ & (_ & ->) & _); rewrite Hv; exact Hi|]. destruct (H2 Hv). auto.
Qed.

(** C21.  Loading the encoding of a version 2 dump adds exactly its registers and memory. *)
Theorem C21_round_trip d name w :
  d_v2 d = true -> reachable w -> file_is w name (encode d) -> no_io_faults w -> ctx_sane w -> valid d -> fit (regions w) (d_mem d) ->
  (exists w', api (CrashCatcherDump_ReadBinary name) w = Done tt w' /\ loaded w w' d) \/
  (exists w', api (CrashCatcherDump_ReadBinary name) w = Raised outOfMemoryException w' /\ 0 < refusals w w').
Proof. intros _. apply C20_round_trip. Qed.

Example C21_example : exists w',
  api (CrashCatcherDump_ReadBinary [100]) (w_with (encode d_ex2)) = Done tt w' /\ d_v2 d_ex2 = true /\
  firstn 4 (encode d_ex2) = [99; 67; 2; 0] /\
  reg_word (w_ctx w') 16 = 0x22220010 /\ reg_word (w_ctx w') 17 = 0xBAADBAAD /\ outcome_of (api (readN 1 0x20000001) w') = Value 8.
Proof. eexists. split; [vm_compute; reflexivity|]. vm_compute. auto. Qed.

(** C22.  If the dump's flags have bit 0 set, its floating-point registers are loaded; if not, the
    floating-point registers keep what they had, and the bytes after the exception PSR are the
    memory regions ([encode] has no floating-point words then, and C20 applies).  This holds also if file
    operations failed on the way. *)
Theorem C22_floating_point d name w w' :
  reachable w -> ctx_sane w -> valid d -> fit (regions w) (d_mem d) -> file_is w name (encode d) ->
  api (CrashCatcherDump_ReadBinary name) w = Done tt w' ->
  (Z.odd (d_flags d) = true -> forall i, (i < 33)%nat -> fp_word (w_ctx w') i = nth i (d_fp d) 0) /\
  (Z.odd (d_flags d) = false -> skipn 84 (w_ctx w') = skipn 84 (w_ctx w) /\ d_fp d = []).
Proof.
  intros HR HC HV Hfit HF HD. rewrite (context_after d name w w' HR HC HV Hfit HF HD). pose proof (context_regs d (w_ctx w) HV) as (_ & _ & _ & _ & H5 & H6).
  split; [exact H5|]. intro H. split; [now apply H6|]. destruct HV as (_ & _ & _ & (_ & L) & _). unfold has_fp in L. rewrite H in L.
  destruct (d_fp d); [reflexivity|discriminate].
Qed.

Example C22_example :
  Z.odd (d_flags d_ex) = true /\ Z.odd (d_flags d_ex2) = false /\
  exists w', api (CrashCatcherDump_ReadBinary [100]) (w_with (encode d_ex)) = Done tt w' /\ fp_word (w_ctx w') 32 = 0x40000020.
Proof. split; [reflexivity|]. split; [reflexivity|]. eexists. split; [vm_compute; reflexivity|]. vm_compute. reflexivity. Qed.

(** ** C23: hex dumps *)

(** C23.  A hex dump that shows the bytes of a binary dump (any digit case, CR and LF anywhere) has
    the same outcome as the binary dump and leaves the same state apart from the file layer,
    whatever the bytes are. *)
Theorem C23_hex_same w bs text name1 name2 :
  reachable w -> no_io_faults w -> ctx_sane w -> renders bs text -> file_is w name1 text -> file_is w name2 bs ->
  same_outcome (api (CrashCatcherDump_ReadHex name1) w) (api (CrashCatcherDump_ReadBinary name2) w).
Proof. apply hex_same. Qed.

Definition digits (x : Z) : list Z := let v := fun n => if n <? 10 then 48 + n else 87 + n in [v (x / 16); v (x mod 16)].
Definition hexed (bs : list Z) : list Z := flat_map (fun x => digits x ++ [13; 10]) bs.
Lemma hexed_renders bs : forallb byteb bs = true -> renders bs (hexed bs).
Proof.
  induction bs as [|x bs IH]; intro H; [constructor|]. cbn [forallb] in H. apply andb_prop in H as [Hx H]. unfold byteb in Hx.
  cbn [hexed flat_map]. unfold digits. cbn [app].
  assert (V : forall n, 0 <= n < 16 -> hex_value (if n <? 10 then 48 + n else 87 + n) = Some n).
  { intros n Hn. unfold hex_value. destruct (n <? 10) eqn:Q.
    - replace ((48 <=? 48 + n) && (48 + n <=? 57)) with true by lia. f_equal. lia.
    - replace ((48 <=? 87 + n) && (87 + n <=? 57)) with false by lia. replace ((97 <=? 87 + n) && (87 + n <=? 102)) with true by lia. f_equal. lia. }
  assert (E : x = 16 * (x / 16) + x mod 16) by (apply Z.div_mod; lia). rewrite E at 1.
  eapply (renders_byte _ _ [] _ _ (x / 16) (x mod 16)); [apply V; lia|constructor|apply V; lia|].
  constructor; [left; reflexivity|]. constructor; [right; reflexivity|]. now apply IH.
Qed.

Example C23_example :
  let bs := encode d_ex in let w := after (mkEnv (fun _ _ => true) (fun n => Some (if bytes_eqb n [1] then hexed bs else bs)) (fun _ => IoOk) (fun _ => PollNo) (fun _ => RdEof) (fun _ => true)) [] in
  reachable w /\ no_io_faults w /\ ctx_sane w /\ renders bs (hexed bs) /\ file_is w [1] (hexed bs) /\ file_is w [2] bs /\
  outcome_of (api (CrashCatcherDump_ReadHex [1]) w) = Value tt.
Proof.
  cbv zeta. split; [apply after_reachable; vm_compute; reflexivity|]. split; [intro; reflexivity|]. split; [vm_compute; reflexivity|].
  split; [apply hexed_renders; vm_compute; reflexivity|]. split; [reflexivity|]. split; [reflexivity|]. vm_compute. reflexivity.
Qed.

(** C23.  In particular the hex rendering of a dump adds exactly its registers and memory. *)
Theorem C23_hex_round_trip d name text w :
  reachable w -> renders (encode d) text -> file_is w name text -> no_io_faults w -> ctx_sane w -> valid d -> fit (regions w) (d_mem d) ->
  (exists w', api (CrashCatcherDump_ReadHex name) w = Done tt w' /\ loaded w w' d) \/
  (exists w', api (CrashCatcherDump_ReadHex name) w = Raised outOfMemoryException w' /\ 0 < refusals w w').
Proof. intros HR HT HF HI HC HV Hfit. apply (load_dump d Hex name text w); auto. now apply renders_units. Qed.

(** ** C24, C25: endings *)

(** C24.  A binary dump cut off anywhere but at a region boundary is rejected with the file-format
    exception (or an allocation was refused before the end was reached).  The one exception, a cut
    right after the start address of a region that starts at 0xACCE55ED, is excluded here; see
    C24_mark_refuted. *)
Theorem C24_truncated_partial d name w t r :
  reachable w -> file_is w name t -> no_io_faults w -> ctx_sane w -> valid d -> fit (regions w) (d_mem d) ->
  encode d = t ++ r -> (forall ms, ~ at_boundary d t ms) -> ~ looks_overflowed d t ->
  (exists w', api (CrashCatcherDump_ReadBinary name) w = Raised fileFormatException w') \/
  (exists w', api (CrashCatcherDump_ReadBinary name) w = Raised outOfMemoryException w' /\ 0 < refusals w w').
Proof. intros. eapply (truncated d Binary name t w t r); eauto. Qed.

Lemma boundary_length d t ms : at_boundary d t ms -> exists n, length t = length (encode (with_mem d (firstn n (d_mem d)))).
Proof. intros ((rest & E) & ->). exists (length ms). rewrite E, firstn_app, Nat.sub_diag, firstn_all, firstn_O, app_nil_r. reflexivity. Qed.

Example C24_example :
  let t := firstn 226 (encode d_ex) in let w := w_with t in
  reachable w /\ file_is w [100] t /\ no_io_faults w /\ ctx_sane w /\ valid d_ex /\ fit (regions w) (d_mem d_ex) /\
  encode d_ex = t ++ skipn 226 (encode d_ex) /\ (forall ms, ~ at_boundary d_ex t ms) /\ ~ looks_overflowed d_ex t /\
  outcome_of (api (CrashCatcherDump_ReadBinary [100]) w) = Exception_ fileFormatException.
Proof.
  cbv zeta. split; [apply with_reachable|]. split; [apply with_file|]. split; [apply with_io|]. split; [apply with_ctx|].
  split; [apply ex_valid|]. split; [apply ex_fit|]. split; [now rewrite firstn_skipn|].
  split; [|split; [|vm_compute; reflexivity]].
  - intros ms H. apply boundary_length in H as (n & H). destruct n as [|[|n]]; vm_compute in H; discriminate H.
  - intros (ms & bs & rest & H & _). destruct ms as [|x [|y [|z ms]]]; discriminate H.
Qed.

(** C24.  A dump cut off at a region boundary loads just the regions before the cut. *)
Theorem C24_boundary d name w t ms :
  reachable w -> file_is w name t -> no_io_faults w -> ctx_sane w -> valid d -> fit (regions w) (d_mem d) -> at_boundary d t ms ->
  (exists w', api (CrashCatcherDump_ReadBinary name) w = Done tt w' /\ loaded w w' (with_mem d ms)) \/
  (exists w', api (CrashCatcherDump_ReadBinary name) w = Raised outOfMemoryException w' /\ 0 < refusals w w').
Proof.
  intros HR HF HI HC HV Hfit ((rest & E) & ->). apply (load_dump (with_mem d ms) Binary name (encode (with_mem d ms)) w); auto.
  - destruct HV as (V1 & V2 & V3 & V4 & V5). rewrite E in V5. apply Forall_app in V5 as [V5 _]. exact (conj V1 (conj V2 (conj V3 (conj V4 V5)))).
  - rewrite E in Hfit. eapply fit_prefix; eauto.
Qed.

Example C24_boundary_example :
  let t := encode (with_mem d_ex [(0x20000000, [1; 2; 3; 4; 5])]) in
  at_boundary d_ex t [(0x20000000, [1; 2; 3; 4; 5])] /\ t = firstn 233 (encode d_ex) /\
  outcome_of (api (CrashCatcherDump_ReadBinary [100]) (w_with t)) = Value tt.
Proof. cbv zeta. split; [split; [eexists; reflexivity|reflexivity]|]. vm_compute. auto. Qed.

(** C24.  Cut after the start address of a region that starts at 0xACCE55ED, the dump is reported as
    a stack overflow and not as a bad file. *)
Theorem C24_mark_refuted : exists d w name t r w',
  reachable w /\ file_is w name t /\ no_io_faults w /\ ctx_sane w /\ valid d /\ fit (regions w) (d_mem d) /\
  encode d = t ++ r /\ r <> [] /\ (forall ms, ~ at_boundary d t ms) /\
  api (CrashCatcherDump_ReadBinary name) w = Raised stackOverflowException w'.
Proof.
  exists d_mark, (w_with (firstn 92 (encode d_mark))), [100], (firstn 92 (encode d_mark)), (skipn 92 (encode d_mark)). eexists.
  split; [apply with_reachable|]. split; [apply with_file|]. split; [apply with_io|]. split; [apply with_ctx|].
  split; [apply ex_valid|]. split; [apply ex_fit|]. split; [now rewrite firstn_skipn|]. split; [vm_compute; discriminate|].
  split; [|vm_compute; reflexivity].
  intros ms H. apply boundary_length in H as (n & H). destruct n as [|n]; vm_compute in H; discriminate H.
Qed.

(** C24.  Only complete dumps are accepted: whatever loads is the encoding of a dump. *)
Theorem C24_accepted_only data name w w' :
  reachable w -> file_is w name data -> Forall byte data -> no_io_faults w -> ctx_sane w ->
  api (CrashCatcherDump_ReadBinary name) w = Done tt w' -> exists d, valid d /\ data = encode d.
Proof.
  intros HR HF HB HI HC HD. unfold CrashCatcherDump_ReadBinary in HD. destruct (read_any Binary name data w HR HF HB HI HC) as [(w1 & d & _ & V & E)|[(w1 & d & X & _)|(w1 & c & X & _)]];
    [|congruence|congruence]. exists d. split; [exact V|]. now apply map_some_inj.
Qed.

(** C25.  The encoding of a dump followed by the word 0xACCE55ED raises the stack-overflow exception,
    with the registers and regions loaded. *)
Theorem C25_overflow d name w :
  reachable w -> file_is w name (encode d ++ overflow_mark) -> no_io_faults w -> ctx_sane w -> valid d -> fit (regions w) (d_mem d) ->
  (exists w', api (CrashCatcherDump_ReadBinary name) w = Raised stackOverflowException w' /\ loaded w w' d) \/
  (exists w', api (CrashCatcherDump_ReadBinary name) w = Raised outOfMemoryException w' /\ 0 < refusals w w').
Proof. intros. now apply (load_overflow d Binary name (encode d ++ overflow_mark)). Qed.

Example C25_example :
  overflow_mark = le 4 0xACCE55ED /\
  let w := w_with (encode d_ex ++ overflow_mark) in file_is w [100] (encode d_ex ++ overflow_mark) /\ fit (regions w) (d_mem d_ex) /\
  outcome_of (api (CrashCatcherDump_ReadBinary [100]) w) = Exception_ stackOverflowException.
Proof. split; [vm_compute; reflexivity|]. cbv zeta. split; [apply with_file|]. split; [apply ex_fit|]. vm_compute. reflexivity. Qed.

(** C25.  No other file raises it. *)
Theorem C25_overflow_only data name w w' :
  reachable w -> file_is w name data -> Forall byte data -> no_io_faults w -> ctx_sane w ->
  api (CrashCatcherDump_ReadBinary name) w = Raised stackOverflowException w' -> exists d, valid d /\ data = encode d ++ overflow_mark.
Proof.
  intros HR HF HB HI HC HD. unfold CrashCatcherDump_ReadBinary in HD. destruct (read_any Binary name data w HR HF HB HI HC) as [(w1 & d & X & _)|[(w1 & d & _ & V & E)|(w1 & c & X & C)]];
    [congruence| |]. { exists d. split; [exact V|]. now apply map_some_inj. }
  rewrite X in HD. injection HD as -> _. destruct C as [C|[C|[C _]]]; discriminate C.
Qed.

(** ** C26: safety *)

(** C26.  For every file contents and every pattern of file and allocation failures, binary and hex
    dumps either load or raise one of the documented exceptions; no access leaves its buffer, every
    file that was opened is closed again, and nothing but memory, registers, heap and exception
    state changes. *)
Theorem C26_safe_and_total k name w :
  reachable w -> ctx_sane w -> (forall data, file_is w name data -> Forall byte data) ->
  match api (CrashCatcherDump_Read k name) w with
  | Crashed _ => False
  | Raised c w' =>
      (c = fileException \/ c = fileFormatException \/ c = stackOverflowException \/ c = busErrorException \/ c = outOfMemoryException) /\
      fs_open (w_files w') = fs_open (w_files w) /\ ctx_sane w' /\
      w_err w' = w_err w /\ w_faults w' = w_faults w /\ w_gdb w' = w_gdb w /\ w_con w' = w_con w
  | Done _ w' =>
      fs_open (w_files w') = fs_open (w_files w) /\ ctx_sane w' /\
      w_err w' = w_err w /\ w_faults w' = w_faults w /\ w_gdb w' = w_gdb w /\ w_con w' = w_con w
  end.
Proof.
  intros HR HC HB. destruct (reachable_inv _ HR) as (R & HI). pose proof (read_safe k name w R HI HC HB) as P.
  destruct (api (CrashCatcherDump_Read k name) w) as [[] w'|c w'|]; [| |exact P].
  - destruct P as (_ & P1 & (P2 & P3 & P4 & P5 & _) & _ & P6). auto 10.
  - destruct P as (_ & P1 & (P2 & P3 & P4 & P5 & _) & P7 & P6). unfold dump_errors, raised in P7. split; [exact P7|auto 10].
Qed.

Example C26_example :
  let bad := mkEnv (fun i _ => negb (Nat.eqb i 5)) (fun _ => Some (encode d_ex)) (fun i => if Nat.eqb i 30 then IoShort 1 else IoOk) (fun _ => PollNo) (fun _ => RdEof) (fun _ => true) in
  let w := after bad [OCreate 0x08000000 16] in
  reachable w /\ ctx_sane w /\ outcome_of (api (CrashCatcherDump_ReadBinary [100]) w) = Exception_ outOfMemoryException /\
  outcome_of (api (CrashCatcherDump_ReadHex [100]) w) = Exception_ fileFormatException /\
  outcome_of (api (CrashCatcherDump_ReadHex [101]) (w_with [])) = Exception_ fileException.
Proof. cbv zeta. split; [apply after_reachable; vm_compute; reflexivity|]. split; [vm_compute; reflexivity|]. vm_compute. auto. Qed.

(** C26.  The file exception means exactly that the file could not be opened; then neither memory nor
    registers have changed. *)
Theorem C26_missing_file k name w :
  reachable w -> ctx_sane w -> (forall data, file_is w name data -> Forall byte data) ->
  (outcome_of (api (CrashCatcherDump_Read k name) w) = Exception_ fileException <->
   e_fs (w_env w) name = None \/ e_io (w_env w) (fs_calls (w_files w)) = IoFail) /\
  (forall w', api (CrashCatcherDump_Read k name) w = Raised fileException w' -> w_mem w' = w_mem w /\ w_heap w' = w_heap w /\ w_ctx w' = w_ctx w).
Proof.
  intros HR HC HB. destruct (reachable_inv _ HR) as (R & HI).
  assert (D : cannot_open w name \/ ~ cannot_open w name).
  { unfold cannot_open. destruct (e_fs _ _); [|tauto]. destruct (e_io _ _); [|tauto|]; right; intros [X|X]; discriminate. }
  destruct D as [D|D].
  - destruct (read_missing k name w D) as (w' & -> & H1 & H2 & H3). split; [split; [intros _; exact D|reflexivity]|].
    intros w1 E. injection E as <-. auto.
  - pose proof (read_not_missing k name w R HI HC HB D) as P. split; [split; [intro X; destruct (P X)|intro X; destruct (D X)]|].
    intros w' E. rewrite E in P. destruct (P eq_refl).
Qed.

(** ** C27: malformed hex *)

(** C27.  A hex dump with a character, other than CR, LF and an unpaired last one, that is not a hex
    digit never loads.  Which exception it raises depends on what comes before it: a bus error or
    an allocation failure if the regions before it already cause one. *)
Theorem C27_malformed_partial w name text :
  reachable w -> file_is w name text -> Forall byte text -> no_io_faults w -> ctx_sane w -> malformed text ->
  exists w' c, api (CrashCatcherDump_ReadHex name) w = Raised c w' /\
    (c = fileFormatException \/ c = busErrorException \/ c = outOfMemoryException /\ 0 < refusals w w').
Proof. apply malformed_rejected. Qed.

Example C27_example :
  let text := hexed (encode d_ex) ++ [71; 48] in
  malformed text /\ forallb byteb text = true /\ outcome_of (api (CrashCatcherDump_ReadHex [100]) (w_with text)) = Exception_ fileFormatException.
Proof. cbv zeta. split; [exists 486%nat, 71; vm_compute; repeat split; lia|]. vm_compute. auto. Qed.

(** C27.  If everything before the malformed pair of characters is right, the exception is the
    file-format exception. *)
Theorem C27_malformed_after d name pre rest w t r c1 c2 more :
  reachable w -> file_is w name (pre ++ rest) -> no_io_faults w -> ctx_sane w -> valid d -> fit (regions w) (d_mem d) ->
  encode d = t ++ r -> renders t pre -> significant rest = c1 :: c2 :: more -> hex_value c1 = None \/ hex_value c2 = None ->
  (exists w', api (CrashCatcherDump_ReadHex name) w = Raised fileFormatException w') \/
  (exists w', api (CrashCatcherDump_ReadHex name) w = Raised outOfMemoryException w' /\ 0 < refusals w w').
Proof. apply malformed_after. Qed.

Example C27_after_example :
  let t := firstn 100 (encode d_ex) in let text := hexed t ++ [48; 13; 120; 48; 48] in
  encode d_ex = t ++ skipn 100 (encode d_ex) /\ renders t (hexed t) /\ significant [48; 13; 120; 48; 48] = [48; 120; 48; 48] /\ hex_value 120 = None /\
  outcome_of (api (CrashCatcherDump_ReadHex [100]) (w_with text)) = Exception_ fileFormatException.
Proof.
  cbv zeta. split; [now rewrite firstn_skipn|]. split; [apply hexed_renders; vm_compute; reflexivity|]. split; [reflexivity|]. split; [reflexivity|].
  vm_compute. reflexivity.
Qed.

(** C27.  An unpaired last character is accepted even if it is not a hex digit. *)
Theorem C27_last_character_refuted : exists w name text c w',
  reachable w /\ file_is w name (text ++ [c]) /\ no_io_faults w /\ ctx_sane w /\ hex_value c = None /\ ~ newline c /\
  api (CrashCatcherDump_ReadHex name) w = Done tt w'.
Proof.
  exists (w_with (hexed (encode d_ex) ++ [90])), [100], (hexed (encode d_ex)), 90. eexists.
  split; [apply with_reachable|]. split; [apply with_file|]. split; [apply with_io|]. split; [apply with_ctx|]. split; [reflexivity|].
  split; [unfold newline; lia|]. vm_compute. reflexivity.
Qed.

(** ** C50: file errors while reading *)

(** C50 fails for dumps: if reading the descriptor of the next region fails, the dump is taken to end
    there and reported as loaded although the file has further regions. *)
Theorem C50_dump_refuted :
  exists d w k w', reachable w /\ ctx_sane w /\ valid d /\ fit (regions w) (d_mem d) /\ file_is w [100] (encode d) /\
    e_io (w_env w) k = IoFail /\ api (CrashCatcherDump_ReadBinary [100]) w = Done tt w' /\
    (fs_calls (w_files w) <= k < fs_calls (w_files w'))%nat /\ (length (regions w') < length (regions w) + length (d_mem d))%nat.
Proof.
  exists d_ex, (w_failing (encode d_ex) 12), 12%nat. eexists. split; [apply failing_reachable|]. split; [apply failing_ctx|]. split; [apply ex_valid|].
  split; [change (regions (w_failing (encode d_ex) 12)) with (regions (w_with [])); apply ex_fit|]. split; [apply failing_file|].
  split; [reflexivity|]. split; [vm_compute; reflexivity|]. vm_compute. lia.
Qed.

(** C50.  Whatever file operations fail: if loading a dump reports success, all its registers were
    read, each loaded region is complete, and the loaded regions are the first ones of the file.
    Missing: regions may be lost, but only if an operation failed. *)
Theorem C50_dump_partial d name w w' :
  reachable w -> ctx_sane w -> valid d -> fit (regions w) (d_mem d) -> file_is w name (encode d) ->
  api (CrashCatcherDump_ReadBinary name) w = Done tt w' ->
  exists ms lost, d_mem d = ms ++ lost /\ loaded w w' (with_mem d ms) /\ (lost = [] \/ fault_between w w').
Proof. intros HR HC HV Hfit HF HD. apply (read_whole Binary name (encode d) d w w' HR HF (encode_bytes d HV) HC HV eq_refl Hfit HD). Qed.
Lemma renders_bytes bs text : renders bs text -> Forall byte text.
Proof.
  assert (X : forall c v, hex_value c = Some v -> byte c) by (intros c v H; unfold byte; destruct (Z_lt_le_dec c 0); [|destruct (Z_lt_le_dec c 256); [lia|]]; unfold hex_value in H;
    replace ((48 <=? c) && (c <=? 57)) with false in H by lia; replace ((97 <=? c) && (c <=? 102)) with false in H by lia; replace ((65 <=? c) && (c <=? 70)) with false in H by lia; discriminate).
  assert (N : forall c, newline c -> byte c) by (intros c [->| ->]; unfold byte; lia).
  induction 1 as [|? ? ? H ? IH|? ? ? ? ? ? ? H1 H2 H3 ? IH]; [constructor|constructor; auto|]. constructor; [eauto|]. apply Forall_app. split; [eapply Forall_impl; [|eassumption]; auto|]. constructor; [eauto|exact IH].
Qed.
Theorem C50_hex_partial d name text w w' :
  reachable w -> ctx_sane w -> valid d -> fit (regions w) (d_mem d) -> renders (encode d) text -> file_is w name text ->
  api (CrashCatcherDump_ReadHex name) w = Done tt w' ->
  exists ms lost, d_mem d = ms ++ lost /\ loaded w w' (with_mem d ms) /\ (lost = [] \/ fault_between w w').
Proof. intros HR HC HV Hfit HE HF HD. apply (read_whole Hex name text d w w' HR HF (renders_bytes _ _ HE) HC HV (proj1 (renders_units _ _ HE)) Hfit HD). Qed.

(** C50, for files of any contents.  A binary file that is reported as loaded starts with a whole
    dump, which is what is loaded, and ends there unless a file operation failed. *)
Theorem C50_any_file name data w w' :
  reachable w -> ctx_sane w -> Forall byte data -> file_is w name data -> api (CrashCatcherDump_ReadBinary name) w = Done tt w' ->
  exists d rest, valid d /\ data = encode d ++ rest /\ (fit (regions w) (d_mem d) -> loaded w w' d) /\ (rest = [] \/ fault_between w w').
Proof.
  intros HR HC HB HF HD. destruct (read_done Binary name data w w' HR HF HB HC HD) as (cut & rest & d & -> & V & U & L & X). change (map Some cut = map Some (encode d)) in U. apply map_some_inj in U. subst cut. exists d, rest. auto.
Qed.
Example C50_dump_example :
  let w := w_failing (encode d_ex) 12 in reachable w /\ ctx_sane w /\ file_is w [100] (encode d_ex) /\ fit (regions w) (d_mem d_ex) /\
  exists w' x y, api (CrashCatcherDump_ReadBinary [100]) w = Done tt w' /\ d_mem d_ex = [x; y] /\ loaded w w' (with_mem d_ex [x]) /\ fault_between w w'.
Proof.
  cbv zeta. split; [apply failing_reachable|]. split; [apply failing_ctx|]. split; [apply failing_file|]. split; [change (regions (w_failing (encode d_ex) 12)) with (regions (w_with [])); apply ex_fit|].
  eexists _, _, _. split; [vm_compute; reflexivity|]. split; [reflexivity|]. split; [|exists 12%nat; split; [vm_compute; lia|discriminate]].
  split; [|vm_compute; repeat split; reflexivity]. eexists [_]. split; [vm_compute; reflexivity|]. constructor; [vm_compute; repeat split; reflexivity|constructor].
Qed.

Print Assumptions C20_round_trip.
Print Assumptions C20_memory_reads.
Print Assumptions C20_registers.
Print Assumptions C21_version_2.
Print Assumptions C21_round_trip.
Print Assumptions C22_floating_point.
Print Assumptions C23_hex_same.
Print Assumptions C23_hex_round_trip.
Print Assumptions C24_truncated_partial.
Print Assumptions C24_boundary.
Print Assumptions C24_mark_refuted.
Print Assumptions C24_accepted_only.
Print Assumptions C25_overflow.
Print Assumptions C25_overflow_only.
Print Assumptions C26_safe_and_total.
Print Assumptions C26_missing_file.
Print Assumptions C27_malformed_partial.
Print Assumptions C27_malformed_after.
Print Assumptions C27_last_character_refuted.
Print Assumptions C50_dump_refuted.
Print Assumptions C50_dump_partial.
Print Assumptions C50_hex_partial.
Print Assumptions C50_any_file.
