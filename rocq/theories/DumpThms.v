(** Theorems about loading dump files. *)
From Coq Require Import String ZArith List Bool Lia ZifyBool ZifyNat Permutation.
From Verif Require Import Base World Context MemSim Dump BaseLemmas MemSpec Sat MemFair MemLemmas MemInv MemOps MemHist2 MemThms DumpSpec DumpRef DumpLemmas DumpConv.
Import ListNotations.
Open Scope Z_scope.
Open Scope m_scope.

(** ** The outer function *)

Lemma read_ref k name data w :
  file_is w name data -> no_io_faults w -> ctx_sane w ->
  match ref_dump (units k data) (set_exn w noException []) with
  | Ret _ w' => w_code w' = 0 ->
      exists f', api (CrashCatcherDump_Read k name) w = Done tt (set_files w' f') /\ fs_open f' = fs_open (w_files w)
  | Exc w' => exists f', api (CrashCatcherDump_Read k name) w = Raised (w_code w') (set_files w' f') /\ fs_open f' = fs_open (w_files w)
  | Ub u => api (CrashCatcherDump_Read k name) w = Crashed u
  end.
Proof.
  intros HF HE HC. set (w0 := set_exn w noException []).
  set (h := fs_next (w_files w)). set (F := fs_open (w_files w)).
  set (f0 := mkFiles ((h, mkFile data 0) :: F) (S h) (S (fs_calls (w_files w))) (name :: fs_opened (w_files w))).
  assert (EO : openDump name w0 = Ret h (set_files w0 f0)).
  { unfold openDump, fopen, bind, next_io. cbn [w_files w_env set_files w0 set_exn fs_calls fs_open fs_next fs_opened]. rewrite HE, HF. reflexivity. }
  assert (HD := dump_follows k h F (length data) (w_env w) HE (units k data) w0 f0).
  assert (H1 : fine (w_env w) w0) by (split; [reflexivity|]; split; [exact HC|]; exact (Z.le_refl 0)).
  assert (H2 : at_ k h F (length data) (units k data) f0).
  { exists data. split; [|reflexivity]. exists data, 0%nat. split; [reflexivity|]. auto. }
  specialize (HD H1 H2). unfold api, CrashCatcherDump_Read, try_. fold w0.
  unfold bind, lift, setl, getl. cbn [fst snd]. change (openDump name w0) with (openDump name (set_exn w0 noException [])) in EO. rewrite EO. cbn [fst snd].
  assert (CL : forall w1 f1 us, at_ k h F (length data) us f1 ->
    exists f2, fclose h (set_files w1 f1) = Ret tt (set_files w1 f2) /\ fs_open f2 = F).
  { intros w1 f1 us (rest & (dd & pos & Ho & _) & _). unfold fclose, bind, get_file. cbn [w_files set_files]. rewrite Ho. cbn [lookup_file].
    rewrite Nat.eqb_refl. cbn [w_files set_files]. rewrite Ho. cbn [remove_file]. rewrite Nat.eqb_refl. eexists. split; [reflexivity|]. reflexivity. }
  destruct (ref_dump (units k data) w0) as [[u us'] w'|w'|u].
  - destruct HD as (_ & Hw' & f1 & -> & Ha). intro C. unfold destructObject. cbn [fst snd].
    destruct (CL w' f1 us' Ha) as (f2 & -> & HO). cbn [fst snd w_code set_files]. rewrite C. cbn [Z.eqb]. eexists. split; [reflexivity|exact HO].
  - destruct HD as ((Hw' & C) & f1 & -> & us' & Ha). cbn [fst snd w_code set_files]. destruct (w_code w' =? 0) eqn:Q; [lia|].
    unfold destructObject. destruct (CL w' f1 us' Ha) as (f2 & -> & HO). unfold rethrow, throw. cbn [w_code set_files w_msg]. rewrite Z.max_id.
    exists f2. split; [|exact HO]. cbn [w_code set_exn]. destruct w'. reflexivity.
  - now rewrite HD.
Qed.

(** Only a refused allocation makes it raise out-of-memory. *)
Lemma sat_fread h n : sat fair (fread h n).
Proof. intro w. unfold fread, next_io, get_file, put_file, bind, ret. cbn [w_files set_files]. destruct (lookup_file _ _); [|exact I]. now apply fair_same. Qed.
Lemma sat_get_file h : sat fair (get_file h).
Proof. intro w. unfold get_file. destruct (lookup_file _ _); [apply fair_pre|exact I]. Qed.
Lemma sat_fopen n : sat fair (fopen n).
Proof. intro w. unfold fopen, next_io, bind. cbn [w_files set_files w_env]. destruct (e_io (w_env w) (fs_calls (w_files w))); destruct (e_fs (w_env w) n); now apply fair_same. Qed.
Lemma sat_fclose n : sat fair (fclose n).
Proof. intro w. unfold fclose, get_file, bind. destruct (lookup_file _ _); [now apply fair_same|exact I]. Qed.
Lemma sat_ctx_put o bs : sat fair (ctx_put o bs).
Proof. intro w. unfold ctx_put. destruct (_ && _); [now apply fair_same|exact I]. Qed.
Lemma sat_ctx_word o : sat fair (ctx_word o).
Proof. intro w. unfold ctx_word. destruct (_ && _); [apply fair_pre|exact I]. Qed.
#[export] Hint Resolve sat_fread sat_get_file sat_fopen sat_fclose sat_ctx_put sat_ctx_word : fair.

Lemma sat_skip h : forall fuel, sat fair (skipNewLines fuel h).
Proof. induction fuel; cbn [skipNewLines]; fair_tac. Qed.
#[export] Hint Resolve sat_skip : fair.
Lemma sat_store_dest d i bs : sat fair (store_dest d i bs).
Proof. destruct d; cbn [store_dest]; fair_tac. Qed.
#[export] Hint Resolve sat_store_dest : fair.
Lemma sat_hex h d n : forall acc, sat fair (hexRead_loop h d n acc).
Proof. induction n; intro acc; cbn [hexRead_loop]; unfold readNextCharacterSkippingNewLines; fair_tac. Qed.
#[export] Hint Resolve sat_hex : fair.
Lemma sat_doRead k h d n : sat fair (doRead k h d n).
Proof. destruct k; cbn [doRead]; unfold binaryRead, hexRead; fair_tac. Qed.
#[export] Hint Resolve sat_doRead : fair.
Lemma sat_loadBytes k h : forall fuel a c, sat fair (loadRegionBytes fuel k h a c).
Proof. induction fuel; intros a c; cbn [loadRegionBytes]; unfold write8; fair_tac. Qed.
#[export] Hint Resolve sat_loadBytes : fair.
Lemma sat_next k h : sat fair (readNextMemoryRegion k h).
Proof. unfold readNextMemoryRegion, createAndLoadMemoryRegion. fair_tac. Qed.
#[export] Hint Resolve sat_next : fair.
Lemma sat_regions k h : forall fuel, sat fair (regionLoop fuel k h).
Proof. induction fuel; cbn [regionLoop]; fair_tac. Qed.
#[export] Hint Resolve sat_regions : fair.
Lemma sat_read k name : sat fair (CrashCatcherDump_Read k name).
Proof.
  unfold CrashCatcherDump_Read, openDump, readDump, destructObject, validateDumpSignature, readFlags, readIntegerRegisters, readFloatingPointRegisters, readMemoryRegions.
  fair_tac.
Qed.

(** ** Loading a dump *)

Definition oom k name w : Prop :=
  exists w', api (CrashCatcherDump_Read k name) w = Raised outOfMemoryException w' /\ 0 < refusals w w'.

Lemma load_stream d k name data w R us :
  Inv R w -> file_is w name data -> no_io_faults w -> ctx_sane w -> valid d -> fit (regions w) (d_mem d) ->
  units k data = map Some (encode d) ++ us ->
  (exists w', Inv R w' /\ w_code w' = 0 /\ zlen (w_ctx w') = 216 /\
     (forall f, fs_open f = fs_open (w_files w) -> forall c m, loaded w (set_files (set_exn w' c m) f) d) /\
     grew (set_ctx (set_exn w noException []) (context d (w_ctx w))) w' (d_mem d) /\
     ref_dump (units k data) (set_exn w noException []) = ref_all us w') \/
  oom k name w.
Proof.
  intros HI HF HE HC HV Hfit HU. pose proof (read_ref k name data w HF HE HC) as P. rewrite HU in *.
  assert (ED : ref_dump (map Some (encode d) ++ us) (set_exn w noException []) =
               ref_all (map Some (flat_map enc_region (d_mem d)) ++ us) (set_ctx (set_exn w noException []) (context d (w_ctx w)))).
  { unfold encode. rewrite map_app, <- app_assoc. apply (head_run d _ (set_exn w noException [])); assumption. }
  destruct (regions_run R us (d_mem d) (set_ctx (set_exn w noException []) (context d (w_ctx w)))) as [(w' & E & I' & G & C)|(w' & E & F)];
    [apply Inv_ctx; now apply Inv_exn|apply HV|exact Hfit|reflexivity| |].
  - left. exists w'. split; [exact I'|]. split; [exact C|].
    pose proof G as (G1 & (G2 & G3 & G4 & G5 & G6 & G7 & G8) & G9 & G10). cbn [w_ctx set_ctx set_exn] in *.
    split; [|split; [|split; [exact G|rewrite ED; exact E]]].
    + rewrite G3. apply context_length; assumption.
    + intros f Hf c m. split; [exact G1|]. cbn [w_ctx w_files w_mem w_err w_faults w_gdb w_con w_env set_files set_exn]. repeat split; auto.
  - right. destruct F as (_ & _ & C). rewrite ED, E in P. destruct P as (f' & P & _). rewrite C in P. eexists. split; [exact P|].
    eapply fair_api; [apply sat_read|exact P].
Qed.

Lemma load_dump d k name data w :
  reachable w -> file_is w name data -> no_io_faults w -> ctx_sane w -> valid d -> fit (regions w) (d_mem d) ->
  units k data = map Some (encode d) ->
  (exists w', api (CrashCatcherDump_Read k name) w = Done tt w' /\ loaded w w' d) \/ oom k name w.
Proof.
  intros HR HF HE HC HV Hfit HU. destruct (reachable_inv _ HR) as (R & HI).
  destruct (load_stream d k name data w R []) as [(w' & I' & C & L & HL & G & E)|H]; auto; [now rewrite app_nil_r|].
  left. pose proof (read_ref k name data w HF HE HC) as P. rewrite E in P. cbn in P. destruct (P C) as (f' & P' & Ho).
  eexists. split; [exact P'|]. specialize (HL f' Ho (w_code w') (w_msg w')). destruct w'; exact HL.
Qed.

Lemma load_overflow d k name data w :
  reachable w -> file_is w name data -> no_io_faults w -> ctx_sane w -> valid d -> fit (regions w) (d_mem d) ->
  units k data = map Some (encode d ++ overflow_mark) ->
  (exists w', api (CrashCatcherDump_Read k name) w = Raised stackOverflowException w' /\ loaded w w' d) \/ oom k name w.
Proof.
  intros HR HF HE HC HV Hfit HU. destruct (reachable_inv _ HR) as (R & HI).
  destruct (load_stream d k name data w R (map Some overflow_mark)) as [(w' & I' & C & L & HL & G & E)|H]; auto; [now rewrite <- map_app|].
  left. pose proof (read_ref k name data w HF HE HC) as P. rewrite E in P.
  destruct (header_short R overflow_mark w' I' C) as (w2 & c & E2 & _); [discriminate|cbn; lia|].
  rewrite (all_exc _ _ _ E2) in P. destruct P as (f' & P' & Ho).
  unfold ref_region, bind at 1 in E2. rewrite read_short in E2 by (cbn; lia). cbn in E2. injection E2 as <-. cbn [w_code set_exn] in P'. rewrite C in P'.
  eexists. split; [exact P'|]. now apply HL.
Qed.

(** Every byte of the dump can be read back. *)
Lemma ordpairs_nth {A} (P : A -> A -> Prop) l : ForallOrdPairs P l -> forall i j x y, (i < j)%nat -> nth_error l i = Some x -> nth_error l j = Some y -> P x y.
Proof.
  induction 1 as [|a l HF HO IH]; intros i j x y L E1 E2; [destruct i; discriminate|].
  destruct j as [|j]; [lia|]. destruct i as [|i]; cbn in *.
  - injection E1 as <-. rewrite Forall_forall in HF. apply HF. now apply nth_error_In in E2.
  - apply (IH i j); auto; lia.
Qed.

Lemma forall2_nth {A B} (P : A -> B -> Prop) l m : Forall2 P l m -> forall i x, nth_error l i = Some x -> exists y, nth_error m i = Some y /\ P x y.
Proof.
  induction 1 as [|a b l m H H2 IH]; intros i x E; [destruct i; discriminate|]. destruct i as [|i]; cbn in *; [injection E as <-; eauto|eauto].
Qed.

Lemma forall2_length {A B} (P : A -> B -> Prop) l m : Forall2 P l m -> length l = length m.
Proof. induction 1; cbn; congruence. Qed.

Lemma added_bytes R w w' ms :
  Inv R w' -> (exists new, regions w' = regions w ++ new /\ Forall2 is_ram new ms) -> Forall valid_region ms -> fit (regions w) ms ->
  forall a bs i b, In (a, bs) ms -> nth_error bs i = Some b ->
  exists w'', api (readN 1 (a + Z.of_nat i)) w' = Done b w''.
Proof.
  intros HI (new & En & HN) HV (F1 & F2 & F3) a bs i b Hin Hb.
  assert (HV' : valid_region (a, bs)) by (rewrite Forall_forall in HV; auto). destruct HV' as (V1 & V2 & V3). cbn in V1, V2, V3.
  rewrite Forall_forall in F1. specialize (F1 _ Hin). cbn in F1.
  destruct (In_nth_error _ _ Hin) as (j & Hj).
  assert (Hr : exists r, nth_error new j = Some r /\ is_ram r (a, bs)).
  { assert (L : (j < length new)%nat) by (rewrite (forall2_length _ _ _ HN); apply nth_error_Some; congruence).
    destruct (nth_error new j) as [r|] eqn:E; [|apply nth_error_None in E; lia]. destruct (forall2_nth _ _ _ HN _ _ E) as (y & Ey & P).
    rewrite Hj in Ey. injection Ey as <-. eauto. }
  destruct Hr as (r & Er & (B1 & B2 & B3 & B4 & B5 & B6 & B7)). cbn [fst snd] in *.
  assert (Li : (i < length bs)%nat) by (apply nth_error_Some; congruence).
  assert (Enr : nth_error (regions w') (length (regions w) + j) = Some r).
  { rewrite En, nth_error_app2 by lia. replace (length (regions w) + j - length (regions w))%nat with j by lia. exact Er. }
  assert (HS : serves (regions w') (a + Z.of_nat i) 1 (length (regions w) + j) (Z.of_nat i)).
  { exists (length (regions w) + j)%nat, r. split; [|rewrite B3; split; [reflexivity|lia]]. split; [exact Enr|]. split.
    - unfold covers, zlen in *. lia.
    - intros i' r' Hlt E' [C1 C2]. rewrite En in E'. destruct (Nat.lt_ge_cases i' (length (regions w))) as [Lw|Lw].
      + rewrite nth_error_app1 in E' by exact Lw. apply nth_error_In in E'. specialize (F3 r' _ E' Hin). unfold apart, range_of, range_in, zlen in *. cbn in *. lia.
      + rewrite nth_error_app2 in E' by exact Lw. destruct (forall2_nth _ _ _ HN _ _ E') as (y & Ey & (D1 & D2 & _)).
        pose proof (ordpairs_nth _ _ F2 (i' - length (regions w)) j y (a, bs)) as X. unfold apart, range_in, zlen in *. cbn [fst snd] in *.
        assert (Y : (i' - length (regions w) < j)%nat) by lia. specialize (X Y Ey Hj). lia. }
  assert (Ha : u32 (a + Z.of_nat i)) by (unfold u32, zlen in *; lia).
  destruct (api_read1 _ w' _ _ r (proj1 HI) Ha HS Enr) as (b' & w'' & E1 & E2).
  rewrite Nat2Z.id, B4, Hb in E1. injection E1 as <-. eauto.
Qed.

Lemma loaded_bytes R w w' d :
  Inv R w' -> loaded w w' d -> valid d -> fit (regions w) (d_mem d) ->
  forall a bs i b, In (a, bs) (d_mem d) -> nth_error bs i = Some b ->
  exists w'', api (readN 1 (a + Z.of_nat i)) w' = Done b w''.
Proof. intros HI (H & _) HV HF. apply (added_bytes R w w' (d_mem d)); auto. apply HV. Qed.

Lemma load_bytes_back d k name data w w' :
  reachable w -> file_is w name data -> no_io_faults w -> ctx_sane w -> valid d -> fit (regions w) (d_mem d) ->
  units k data = map Some (encode d) -> api (CrashCatcherDump_Read k name) w = Done tt w' ->
  forall a bs i b, In (a, bs) (d_mem d) -> nth_error bs i = Some b -> exists w'', api (readN 1 (a + Z.of_nat i)) w' = Done b w''.
Proof.
  intros HR HF HE HC HV Hfit HU HD. destruct (reachable_inv _ HR) as (R & HI).
  destruct (load_stream d k name data w R []) as [(w1 & I' & C & L & HL & G & E)|(w1 & E & _)]; auto; [now rewrite app_nil_r| |congruence].
  pose proof (read_ref k name data w HF HE HC) as P. rewrite E in P. cbn in P. destruct (P C) as (f' & P' & Ho).
  rewrite P' in HD. injection HD as <-. apply (loaded_bytes R w); auto.
  specialize (HL f' Ho (w_code w1) (w_msg w1)). destruct w1; exact HL.
Qed.

(** ** Registers *)

Lemma words_at l i rest : (i < length l)%nat -> Forall u32 l -> of_le (firstn 4 (skipn (4 * i) (words l ++ rest))) = nth i l 0.
Proof.
  revert i. induction l as [|x l IH]; intros i L H; [cbn in L; lia|]. inversion H as [|? ? H1 H2]; subst.
  unfold words in *. cbn [flat_map]. rewrite <- app_assoc. destruct i as [|i].
  - change (firstn 4 (skipn (4 * 0) (le 4 x ++ flat_map (le 4) l ++ rest))) with (le 4 x). rewrite W_of_le4, W_id by exact H1. reflexivity.
  - replace (4 * S i)%nat with (4 + 4 * i)%nat by lia. change (skipn (4 + 4 * i) (le 4 x ++ flat_map (le 4) l ++ rest)) with (skipn (4 * i) (flat_map (le 4) l ++ rest)).
    cbn [nth]. apply IH; [cbn in L; lia|exact H2].
Qed.

Lemma skipn_exact {A} n k (l m : list A) : length l = n -> skipn (n + k) (l ++ m) = skipn k m.
Proof. intros <-. rewrite skipn_app, skipn_all2 by lia. cbn. f_equal. lia. Qed.

Lemma context_regs d old : valid d ->
  (forall i, (i < length (d_regs d))%nat -> reg_word (context d old) i = nth i (d_regs d) 0) /\
  (d_v2 d = true -> reg_word (context d old) 17 = 3131947693 /\ reg_word (context d old) 18 = 3131947693) /\
  of_le (firstn 4 (context d old)) = d_flags d /\ of_le (firstn 4 (skipn 80 (context d old))) = d_psr d /\
  (has_fp d = true -> forall i, (i < 33)%nat -> fp_word (context d old) i = nth i (d_fp d) 0) /\
  (has_fp d = false -> skipn 84 (context d old) = skipn 84 old).
Proof.
  intros (V1 & (V2 & L2) & V3 & (V4 & L4) & _). unfold context.
  set (sp := if d_v2 d then _ else []). assert (Ls : (length (words (d_regs d)) + length sp = 76)%nat)
    by (rewrite words_length, L2; unfold sp; destruct (d_v2 d); reflexivity).
  split; [|split; [|split; [|split; [|split]]]].
  - intros i Hi. unfold reg_word. rewrite skipn_exact by apply le_length. now apply words_at.
  - intro Hv. unfold reg_word. rewrite !skipn_exact by apply le_length. unfold sp in *. rewrite Hv in *.
    assert (L : length (words (d_regs d)) = 68%nat) by (rewrite words_length, L2; reflexivity).
    change (4 * 17)%nat with (68 + 0)%nat. change (4 * 18)%nat with (68 + 4)%nat. rewrite !skipn_exact by exact L. split; reflexivity.
  - rewrite <- (W_id (d_flags d)) at 2 by exact V1. rewrite <- W_of_le4. reflexivity.
  - rewrite <- (W_id (d_psr d)) at 2 by exact V3. rewrite <- W_of_le4.
    change 80%nat with (4 + 76)%nat. rewrite skipn_exact by apply le_length.
    change 76%nat with (76 + 0)%nat. rewrite (app_assoc (words _)). rewrite skipn_exact by (rewrite app_length; exact Ls). reflexivity.
  - intros Hf i Hi. rewrite Hf in *. unfold fp_word.
    replace (84 + 4 * i)%nat with (4 + (76 + (4 + 4 * i)))%nat by lia. rewrite skipn_exact by apply le_length.
    rewrite (app_assoc (words _) sp). rewrite skipn_exact by (rewrite app_length; exact Ls). rewrite skipn_exact by apply le_length.
    rewrite <- (app_nil_r (words (d_fp d))). apply words_at; [lia|exact V4].
  - intro Hf. rewrite Hf. change 84%nat with (4 + (76 + (4 + 0)))%nat at 1. rewrite skipn_exact by apply le_length.
    rewrite (app_assoc (words _) sp). rewrite skipn_exact by (rewrite app_length; exact Ls). rewrite skipn_exact by apply le_length. reflexivity.
Qed.

(** ** Arbitrary input *)

Lemma hex_value_range c x : hex_value c = Some x -> 0 <= x < 16.
Proof.
  unfold hex_value. destruct ((48 <=? c) && (c <=? 57)) eqn:A; [intro H; injection H as H; lia|].
  destruct ((97 <=? c) && (c <=? 102)) eqn:B; [intro H; injection H as H; lia|].
  destruct ((65 <=? c) && (c <=? 70)) eqn:C; [intro H; injection H as H; lia|]. intro H. discriminate H.
Qed.

Lemma pairs_bytes l : bytes_ok (pairs l).
Proof.
  assert (forall n l, (length l <= n)%nat -> bytes_ok (pairs l)) as H.
  { induction n as [|n IH]; intros [|a [|b t]] L; cbn in L; try constructor; try lia.
    - destruct (hex_value a) eqn:Ha; [|exact I]. destruct (hex_value b) eqn:Hb; [|exact I]. apply hex_value_range in Ha, Hb. unfold byte. lia.
    - apply IH. lia. }
  eauto.
Qed.

Lemma units_bytes k data : Forall byte data -> bytes_ok (units k data).
Proof.
  intro H. destruct k; cbn [units]; [|apply pairs_bytes]. unfold bytes_ok. now apply Forall_map.
Qed.

Lemma read_any k name data w :
  reachable w -> file_is w name data -> Forall byte data -> no_io_faults w -> ctx_sane w ->
  (exists w' d, api (CrashCatcherDump_Read k name) w = Done tt w' /\ valid d /\ units k data = map Some (encode d)) \/
  (exists w' d, api (CrashCatcherDump_Read k name) w = Raised stackOverflowException w' /\ valid d /\ units k data = map Some (encode d ++ overflow_mark)) \/
  (exists w' c, api (CrashCatcherDump_Read k name) w = Raised c w' /\
     (c = fileFormatException \/ c = busErrorException \/ c = outOfMemoryException /\ 0 < refusals w w')).
Proof.
  intros HR HF HB HE HC. destruct (reachable_inv _ HR) as (R & HI). pose proof (read_ref k name data w HF HE HC) as P.
  pose proof (dump_cases R (units k data) (set_exn w noException []) (units_bytes k data HB) (Inv_exn _ _ _ _ HI) HC eq_refl) as Q.
  destruct (ref_dump (units k data) (set_exn w noException [])) as [[u us'] w'|w'|u]; [| |destruct Q].
  - destruct Q as ((d & V & E) & _ & _ & _ & _ & C). destruct (P C) as (f' & P' & _). left. eauto 10.
  - destruct P as (f' & P' & _). destruct Q as (_ & _ & _ & [((d & V & E) & C)|C]).
    + right. left. rewrite C in P'. eauto 10.
    + right. right. exists (set_files w' f'), (w_code w'). split; [exact P'|]. destruct C as [C|[C|C]]; auto. right. right. split; [exact C|].
      rewrite C in P'. eapply fair_api; [apply sat_read|exact P'].
Qed.

Lemma map_some_inj {A} (l m : list A) : map Some l = map Some m -> l = m.
Proof. revert m. induction l as [|a l IH]; intros [|b m] H; try discriminate; [reflexivity|]. injection H as <- H. f_equal. auto. Qed.

(** ** Hex dumps *)

Lemma significant_gap gap t : Forall newline gap -> significant (gap ++ t) = significant t.
Proof.
  induction 1 as [|c gap H HG IH]; [reflexivity|]. cbn [app]. unfold significant in *. cbn [filter].
  replace ((c =? 13) || (c =? 10)) with true by (unfold newline in H; lia). exact IH.
Qed.

Lemma significant_hex c x t : hex_value c = Some x -> significant (c :: t) = c :: significant t.
Proof.
  intro H. unfold significant. cbn [filter]. destruct ((c =? 13) || (c =? 10)) eqn:Q; [|reflexivity].
  assert (X : c = 13 \/ c = 10) by lia. destruct X; subst; discriminate H.
Qed.

Lemma renders_units bs text : renders bs text -> units Hex text = map Some bs /\ Forall byte bs.
Proof.
  cbn [units]. induction 1 as [|bs c text H HR [IH1 IH2]|bs hi gap lo text x y H1 HG H2 HR [IH1 IH2]].
  - split; [reflexivity|constructor].
  - split; [|exact IH2]. change (c :: text) with ([c] ++ text). rewrite significant_gap by (constructor; [exact H|constructor]). exact IH1.
  - rewrite (significant_hex _ _ _ H1), significant_gap, (significant_hex _ _ _ H2) by exact HG. cbn [pairs map]. rewrite H1, H2, IH1.
    split; [reflexivity|]. constructor; [|exact IH2]. apply hex_value_range in H1, H2. unfold byte. lia.
Qed.

Lemma hex_same w bs text name1 name2 :
  reachable w -> no_io_faults w -> ctx_sane w -> renders bs text -> file_is w name1 text -> file_is w name2 bs ->
  same_outcome (api (CrashCatcherDump_ReadHex name1) w) (api (CrashCatcherDump_ReadBinary name2) w).
Proof.
  intros HR HE HC HRe HF1 HF2. destruct (renders_units _ _ HRe) as (HU & HB). destruct (reachable_inv _ HR) as (R & HI).
  pose proof (read_ref Hex name1 text w HF1 HE HC) as P1. pose proof (read_ref Binary name2 bs w HF2 HE HC) as P2.
  rewrite HU in P1. cbn [units] in P2. unfold CrashCatcherDump_ReadHex, CrashCatcherDump_ReadBinary.
  pose proof (dump_cases R (map Some bs) (set_exn w noException []) (units_bytes Binary bs HB) (Inv_exn _ _ _ _ HI) HC eq_refl) as Q.
  destruct (ref_dump (map Some bs) (set_exn w noException [])) as [[u us'] w'|w'|u]; [| |destruct Q].
  - destruct Q as (_ & _ & _ & _ & _ & C). destruct (P1 C) as (f1 & -> & _). destruct (P2 C) as (f2 & -> & _). split; [reflexivity|].
    exists f2. destruct w'; reflexivity.
  - destruct P1 as (f1 & -> & _). destruct P2 as (f2 & -> & _). split; [reflexivity|]. exists f2. destruct w'; reflexivity.
Qed.

(** ** Malformed hex dumps *)

Lemma pairs_none l i c : nth_error l i = Some c -> hex_value c = None -> (i < 2 * (length l / 2))%nat -> In None (pairs l).
Proof.
  assert (forall n l i, (length l <= n)%nat -> nth_error l i = Some c -> hex_value c = None -> (i < 2 * (length l / 2))%nat -> In None (pairs l)) as H; [|eauto].
  induction n as [|n IH]; intros [|a [|b t]] j L E1 E2 Hlt; cbn [length] in *; try (destruct j; discriminate); try lia.
  cbn [pairs]. destruct j as [|[|j]]; cbn [nth_error] in E1.
    + injection E1 as ->. rewrite E2. now left.
    + injection E1 as ->. rewrite E2. destruct (hex_value a); now left.
    + right. apply (IH t j); auto; try lia.
Qed.

Lemma map_some_none {A} (l : list A) : ~ In None (map Some l).
Proof. intro H. apply in_map_iff in H as (x & E & _). discriminate. Qed.

Lemma malformed_rejected w name text :
  reachable w -> file_is w name text -> Forall byte text -> no_io_faults w -> ctx_sane w -> malformed text ->
  exists w' c, api (CrashCatcherDump_ReadHex name) w = Raised c w' /\
    (c = fileFormatException \/ c = busErrorException \/ c = outOfMemoryException /\ 0 < refusals w w').
Proof.
  intros HR HF HB HE HC (i & c & E1 & E2 & E3).
  assert (X : In None (units Hex text)) by (cbn [units]; eapply pairs_none; eauto).
  destruct (read_any Hex name text w HR HF HB HE HC) as [(w' & d & _ & _ & E)|[(w' & d & _ & _ & E)|H]]; [| |exact H];
    rewrite E in X; destruct (map_some_none _ X).
Qed.

(** ** Truncated dumps *)

Lemma prefix_split {A} (t r a b : list A) : t ++ r = a ++ b ->
  (exists x, t ++ x = a /\ x <> []) \/ (exists t', t = a ++ t' /\ t' ++ r = b).
Proof.
  revert a. induction t as [|y t IH]; intros [|z a] H; cbn in H.
  - right. exists []. auto.
  - left. exists (z :: a). split; [reflexivity|discriminate].
  - right. exists (y :: t). auto.
  - injection H as <- H. destruct (IH _ H) as [(x & <- & Hx)|(t' & -> & <-)]; [left; exists x; auto|right; exists t'; auto].
Qed.

Lemma prefix_regions t : forall ms r, t ++ r = flat_map enc_region ms ->
  exists m1 m2 t', ms = m1 ++ m2 /\ t = flat_map enc_region m1 ++ t' /\
    (t' = [] \/ exists x m3 r', m2 = x :: m3 /\ t' ++ r' = enc_region x /\ t' <> [] /\ r' <> []).
Proof.
  intros ms. revert t. induction ms as [|x ms IH]; intros t r H; cbn [flat_map] in H.
  - apply app_eq_nil in H as [-> ->]. exists [], [], []. auto.
  - destruct (prefix_split _ _ _ _ H) as [(y & E & Hy)|(t' & -> & E)].
    + destruct t as [|z t]; [exists [], (x :: ms), []; auto|]. exists [], (x :: ms), (z :: t). split; [reflexivity|]. split; [reflexivity|].
      right. exists x, ms, y. repeat split; auto. discriminate.
    + destruct (IH _ _ E) as (m1 & m2 & t2 & -> & -> & P). exists (x :: m1), m2, t2. cbn [flat_map app]. rewrite <- app_assoc. auto.
Qed.

Lemma head_prefix d d' us : valid d -> valid d' -> forall t r, enc_head d = t ++ r -> t = enc_head d' ++ us -> r = [].
Proof.
  intros V V' t r E ->. pose proof V as (V1 & (_ & L1) & V2 & (_ & L2) & _). pose proof V' as (V1' & (_ & L1') & V2' & (_ & L2') & _).
  assert (Ev : d_v2 d = d_v2 d').
  { unfold enc_head in E. destruct (d_v2 d), (d_v2 d'); try reflexivity; cbn in E; discriminate E. }
  assert (Ef : d_flags d = d_flags d').
  { unfold enc_head in E. rewrite Ev in E. assert (X : le 4 (d_flags d) = le 4 (d_flags d')).
    { apply (f_equal (fun l => firstn 4 (skipn 4 l))) in E. destruct (d_v2 d'); exact E. }
    apply (f_equal of_le) in X. rewrite !W_of_le4, !W_id in X by assumption. exact X. }
  apply (f_equal (@length _)) in E. unfold enc_head, has_fp in *. rewrite Ef in *. rewrite Ev in *. rewrite !app_length, !le_length, !words_length in E.
  rewrite L1, L1', L2, L2' in E. destruct r; [reflexivity|]. cbn [length] in E. lia.
Qed.

Lemma fit_prefix rs m1 m2 : fit rs (m1 ++ m2) -> fit rs m1.
Proof.
  intros (H1 & H2 & H3). apply Forall_app in H1 as [H1 _]. split; [exact H1|]. split; [|intros r x Hr Hx; apply H3; [exact Hr|apply in_or_app; auto]].
  clear H1 H3. induction m1 as [|x m1 IH]; [constructor|]. inversion H2 as [|? ? A B]; subst. apply Forall_app in A as [A _]. constructor; auto.
Qed.

Lemma fit_next rs m1 x m3 new : fit rs (m1 ++ x :: m3) -> Forall2 is_ram new m1 -> 
  fst x + zlen (snd x) <= 4294967296 /\ forall r, In r (rs ++ new) -> apart (range_of r) (range_in x).
Proof.
  intros (H1 & H2 & H3) HN. split; [rewrite Forall_forall in H1; apply H1, in_or_app; right; now left|].
  intros r Hr. apply in_app_or in Hr as [Hr|Hr]; [apply H3; [exact Hr|apply in_or_app; right; now left]|].
  destruct (In_nth_error _ _ Hr) as (i & Ei). destruct (forall2_nth _ _ _ HN _ _ Ei) as (y & Ey & (D1 & D2 & _)).
  assert (Li : (i < length m1)%nat) by (apply nth_error_Some; congruence).
  pose proof (ordpairs_nth _ _ H2 i (length m1) y x Li) as X. rewrite nth_error_app1, nth_error_app2, Nat.sub_diag in X by lia.
  specialize (X Ey eq_refl). unfold apart, range_of, range_in in *. rewrite D1, D2. exact X.
Qed.

Definition cut_off (k : kind) name w : Prop :=
  (exists w', api (CrashCatcherDump_Read k name) w = Raised fileFormatException w') \/ oom k name w.

Lemma encode_bytes d : valid d -> Forall byte (encode d).
Proof.
  intro HV. assert (HW : forall l, Forall byte (words l)).
  { unfold words. induction l; cbn [flat_map]; [constructor|]. apply Forall_app; split; [apply le_bytes|assumption]. }
  unfold encode, enc_head. rewrite !Forall_app. split; [split; [|split; [|split; [apply le_bytes|split; [apply HW|split; [apply le_bytes|apply HW]]]]]|].
  - repeat constructor; unfold byte; lia.
  - destruct (d_v2 d); repeat constructor; unfold byte; lia.
  - destruct HV as (_ & _ & _ & _ & HV). clear - HV. induction HV as [|x l (V1 & V2 & V3) H IH]; [constructor|]. cbn [flat_map].
    apply Forall_app; split; [|exact IH]. unfold enc_region. rewrite !Forall_app. auto using le_bytes.
Qed.

(** A header that is a prefix of a stream of bytes followed by something else. *)
Lemma stream_prefix (t h : list Z) us us' : stops us -> map Some t ++ us = map Some h ++ us' -> exists x, t = h ++ x.
Proof.
  intro Hu. revert h. induction t as [|a t IH]; intros [|b h] H; cbn [map app] in H.
  - exists []. reflexivity.
  - exfalso. rewrite H in Hu. exact Hu.
  - exists (a :: t). reflexivity.
  - injection H as <- H. destruct (IH _ H) as (x & ->). exists x. reflexivity.
Qed.

Lemma head_cut d t r us w :
  valid d -> enc_head d = t ++ r -> r <> [] -> stops us -> bytes_ok us -> zlen (w_ctx w) = 216 -> w_code w = 0 ->
  exists w', ref_dump (map Some t ++ us) w = Exc w' /\ head_fail w w'.
Proof.
  intros HV E Hr Hus HB HC Hc.
  assert (BO : bytes_ok (map Some t ++ us)).
  { apply Forall_app. split; [|exact HB]. apply Forall_map.
    pose proof (encode_bytes d HV) as B. unfold encode in B. rewrite E in B. apply Forall_app in B as [B _]. now apply Forall_app in B. }
  destruct (head_cases _ w BO HC Hc) as [(d' & us' & V' & _ & E')|H]; [|exact H].
  exfalso. apply Hr. destruct (stream_prefix t (enc_head d') us us' Hus E') as (x & Ex). eapply (head_prefix d d'); eauto.
Qed.

Lemma truncated d k name data w t r :
  reachable w -> file_is w name data -> no_io_faults w -> ctx_sane w -> valid d -> fit (regions w) (d_mem d) ->
  encode d = t ++ r -> units k data = map Some t ->
  (forall ms, ~ at_boundary d t ms) -> ~ looks_overflowed d t -> cut_off k name w.
Proof.
  intros HR HF HE HC HV Hfit Et HU NB NL. destruct (reachable_inv _ HR) as (R & HI).
  pose proof (read_ref k name data w HF HE HC) as P. unfold encode in Et. symmetry in Et.
  destruct (prefix_split _ _ _ _ Et) as [(x & Ex & Hx)|(t1 & -> & E1)].
  - left. destruct (head_cut d t x [] (set_exn w noException []) HV (eq_sym Ex) Hx I (Forall_nil _) HC eq_refl) as (w' & E' & c & m & -> & L).
    rewrite app_nil_r in E'. rewrite HU, E' in P. destruct P as (f' & P & _). eexists. exact P.
  - destruct (prefix_regions _ _ _ E1) as (m1 & m2 & t2 & EM & -> & PT).
    assert (HU1 : units k data = map Some (encode (with_mem d m1)) ++ map Some t2).
    { rewrite HU. unfold encode. cbn [with_mem d_mem]. rewrite !map_app, <- !app_assoc. reflexivity. }
    assert (HV1 : valid (with_mem d m1)).
    { apply valid_with; [exact HV|]. destruct HV as (_ & _ & _ & _ & HV). rewrite EM in HV. now apply Forall_app in HV. }
    destruct (load_stream (with_mem d m1) k name data w R (map Some t2) HI HF HE HC HV1) as [(w' & I' & C & L & HL & G & E)|H];
      [rewrite EM in Hfit; now apply fit_prefix in Hfit|exact HU1| |now right].
    destruct PT as [->|(x & m3 & r' & -> & Ex & Ht & Hr)].
    { exfalso. apply (NB m1). split; [eauto|]. unfold encode. cbn [with_mem d_mem]. now rewrite app_nil_r. }
    rewrite E in P.
    assert (Vx : valid_region x) by (destruct HV as (_ & _ & _ & _ & HV); rewrite EM in HV; apply Forall_app in HV as [_ HV]; now inversion HV).
    rewrite EM in Hfit. destruct G as ((new & En & HN) & _). cbn [with_mem d_mem] in HN.
    destruct (fit_next _ _ _ _ _ Hfit HN) as (F1 & F2). change (regions (set_ctx (set_exn w noException []) _)) with (regions w) in En. rewrite <- En in F2.
    destruct (Nat.lt_ge_cases (length t2) 8) as [L8|L8].
    + destruct (header_short R t2 w' I' C Ht L8) as (w2 & c & E2 & (_ & _ & C2) & Ec). rewrite (all_exc _ _ _ E2) in P. destruct P as (f' & P & _).
      rewrite C2, Ec in P. destruct (Nat.eqb (length t2) 4 && (of_le t2 =? STACK_SENTINEL)) eqn:Q; [|left; eauto].
      exfalso. apply NL. apply andb_true_iff in Q as [Q1 Q2]. apply Nat.eqb_eq in Q1. apply Z.eqb_eq in Q2.
      destruct x as [a bs]. unfold enc_region in Ex. cbn [fst snd] in Ex.
      assert (Et2 : t2 = le 4 a).
      { apply (f_equal (firstn 4)) in Ex. rewrite firstn_app, Q1, Nat.sub_diag, firstn_O, app_nil_r, firstn_all2 in Ex by lia. rewrite Ex. reflexivity. }
      destruct Vx as (Va & _). cbn in Va. subst t2. rewrite W_of_le4, W_id in Q2 by exact Va. subst a.
      exists m1, bs, m3. split; [exact EM|]. unfold encode. cbn [with_mem d_mem]. rewrite <- app_assoc. reflexivity.
    + destruct x as [a bs]. destruct Vx as (Va & Vb & Vc). cbn [fst snd] in *. unfold enc_region in Ex. cbn [fst snd] in Ex.
      rewrite app_assoc in Ex. destruct (prefix_split _ _ _ _ Ex) as [(y & Ey & Hy)|(t3 & -> & E3)].
      { exfalso. apply (f_equal (@length _)) in Ey. rewrite !app_length, !le_length in Ey. destruct y; [congruence|cbn in Ey; lia]. }
      assert (B3 : Forall byte t3) by (rewrite <- E3 in Vc; now apply Forall_app in Vc).
      destruct (region_short [] R a (zlen bs) t3 w' I I' Va Vb B3) as (w2 & c & E2 & (_ & _ & C2) & Ec).
      * rewrite <- E3. unfold zlen. rewrite app_length. destruct r'; [congruence|cbn; lia].
      * exact F1.
      * exact F2.
      * rewrite app_nil_r in E2. rewrite <- app_assoc in P. rewrite (all_exc _ _ _ E2) in P. destruct P as (f' & P & _). rewrite C2 in P.
        destruct Ec as [-> | ->]; [left; eauto|]. right. eexists. split; [exact P|]. eapply fair_api; [apply sat_read|exact P].
Qed.

(** A hex dump that is right up to its first malformed byte. *)
Lemma malformed_at d name text w t r us :
  reachable w -> file_is w name text -> no_io_faults w -> ctx_sane w -> valid d -> fit (regions w) (d_mem d) ->
  encode d = t ++ r -> units Hex text = map Some t ++ None :: us -> cut_off Hex name w.
Proof.
  intros HR HF HE HC HV Hfit Et HU. destruct (reachable_inv _ HR) as (R & HI).
  pose proof (read_ref Hex name text w HF HE HC) as P. unfold encode in Et. symmetry in Et.
  assert (BO : bytes_ok (None :: us)).
  { pose proof (pairs_bytes (significant text)) as B. change (pairs (significant text)) with (units Hex text) in B. rewrite HU in B.
    now apply bytes_ok_split in B. }
  destruct (prefix_split _ _ _ _ Et) as [(x & Ex & Hx)|(t1 & -> & E1)].
  - left. destruct (head_cut d t x (None :: us) (set_exn w noException []) HV (eq_sym Ex) Hx I BO HC eq_refl) as (w' & E' & c & m & -> & L).
    rewrite HU, E' in P. destruct P as (f' & P & _). eexists. exact P.
  - destruct (prefix_regions _ _ _ E1) as (m1 & m2 & t2 & EM & -> & PT).
    assert (HU1 : units Hex text = map Some (encode (with_mem d m1)) ++ map Some t2 ++ None :: us).
    { rewrite HU. unfold encode. cbn [with_mem d_mem]. rewrite !map_app, <- !app_assoc. reflexivity. }
    assert (HV1 : valid (with_mem d m1)).
    { apply valid_with; [exact HV|]. destruct HV as (_ & _ & _ & _ & HV). rewrite EM in HV. now apply Forall_app in HV. }
    destruct (load_stream (with_mem d m1) Hex name text w R (map Some t2 ++ None :: us) HI HF HE HC HV1) as [(w' & I' & C & L & HL & G & E)|H];
      [rewrite EM in Hfit; now apply fit_prefix in Hfit|exact HU1| |now right].
    rewrite E in P. destruct (Nat.lt_ge_cases (length t2) 8) as [L8|L8].
    + destruct (header_bad R t2 us w' I' C L8) as (w2 & E2 & (_ & _ & C2)). rewrite (all_exc _ _ _ E2) in P. destruct P as (f' & P & _).
      rewrite C2 in P. left. eauto.
    + destruct PT as [->|(x & m3 & r' & -> & Ex & Ht & Hr)]; [cbn in L8; lia|].
      assert (Vx : valid_region x) by (destruct HV as (_ & _ & _ & _ & HV); rewrite EM in HV; apply Forall_app in HV as [_ HV]; now inversion HV).
      rewrite EM in Hfit. destruct G as ((new & En & HN) & _). cbn [with_mem d_mem] in HN.
      destruct (fit_next _ _ _ _ _ Hfit HN) as (F1 & F2). change (regions (set_ctx (set_exn w noException []) _)) with (regions w) in En. rewrite <- En in F2.
      destruct x as [a bs]. destruct Vx as (Va & Vb & Vc). cbn [fst snd] in *. unfold enc_region in Ex. cbn [fst snd] in Ex.
      rewrite app_assoc in Ex. destruct (prefix_split _ _ _ _ Ex) as [(y & Ey & Hy)|(t3 & -> & E3)].
      { exfalso. apply (f_equal (@length _)) in Ey. rewrite !app_length, !le_length in Ey. destruct y; [congruence|cbn in Ey; lia]. }
      assert (B3 : Forall byte t3) by (rewrite <- E3 in Vc; now apply Forall_app in Vc).
      destruct (region_short (None :: us) R a (zlen bs) t3 w' I I' Va Vb B3) as (w2 & c & E2 & (_ & _ & C2) & Ec).
      * rewrite <- E3. unfold zlen. rewrite app_length. destruct r'; [congruence|cbn; lia].
      * exact F1.
      * exact F2.
      * rewrite <- (app_assoc (le 4 a)) in P. rewrite (all_exc _ _ _ E2) in P. destruct P as (f' & P & _). rewrite C2 in P.
        destruct Ec as [-> | ->]; [left; eauto|]. right. eexists. split; [exact P|]. eapply fair_api; [apply sat_read|exact P].
Qed.

(** A malformed pair of characters after a correct start. *)
Lemma pairs_app_even l m : Nat.even (length l) = true -> pairs (l ++ m) = pairs l ++ pairs m.
Proof.
  assert (forall n l, (length l <= n)%nat -> Nat.even (length l) = true -> pairs (l ++ m) = pairs l ++ pairs m) as H; [|eauto].
  clear. induction n as [|n IH]; intros [|a [|b l]] L E; cbn [length] in *; try reflexivity; try lia; try discriminate E.
  cbn [app pairs]. rewrite IH by (auto; lia). destruct (hex_value a), (hex_value b); reflexivity.
Qed.

Lemma renders_even bs text : renders bs text -> Nat.even (length (significant text)) = true.
Proof.
  induction 1 as [|bs c text H HR IH|bs hi gap lo text x y H1 HG H2 HR IH]; [reflexivity| |].
  - change (c :: text) with ([c] ++ text). rewrite significant_gap by (constructor; [exact H|constructor]). exact IH.
  - rewrite (significant_hex _ _ _ H1), significant_gap, (significant_hex _ _ _ H2) by exact HG. exact IH.
Qed.

Lemma malformed_after d name pre rest w t r c1 c2 more :
  reachable w -> file_is w name (pre ++ rest) -> no_io_faults w -> ctx_sane w -> valid d -> fit (regions w) (d_mem d) ->
  encode d = t ++ r -> renders t pre -> significant rest = c1 :: c2 :: more -> hex_value c1 = None \/ hex_value c2 = None -> cut_off Hex name w.
Proof.
  intros HR HF HE HC HV Hfit Et HRe HS Hx. eapply (malformed_at d name _ w t r (pairs more)); eauto. cbn [units].
  unfold significant in *. rewrite filter_app. pose proof (renders_even _ _ HRe) as Ev. unfold significant in Ev. rewrite pairs_app_even by exact Ev.
  destruct (renders_units _ _ HRe) as (HU & _). cbn [units] in HU. unfold significant in HU. rewrite HU, HS. cbn [pairs].
  destruct Hx as [->|E]; [reflexivity|rewrite E]. destruct (hex_value c1); reflexivity.
Qed.
