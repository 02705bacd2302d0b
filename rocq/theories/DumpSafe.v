(** Loading a dump is safe and total for every file and every pattern of file and allocation failures. *)
From Coq Require Import String ZArith List Bool Lia ZifyBool ZifyNat Permutation.
From Verif Require Import Base World Context MemSim Dump BaseLemmas MemSpec Sat MemFair MemLemmas MemInv MemOps MemHist2 MemThms DumpSpec DumpRef DumpLemmas DumpConv DumpThms.
Import ListNotations.
Open Scope Z_scope.
Open Scope m_scope.

(** Everything but memory, heap, files, exception and registers. *)
Definition rest_same (w w' : world) : Prop :=
  w_err w' = w_err w /\ w_faults w' = w_faults w /\ w_gdb w' = w_gdb w /\ w_con w' = w_con w /\ w_env w' = w_env w.
Lemma rest_refl w : rest_same w w.
Proof. repeat split. Qed.
Lemma rest_trans a b c : rest_same a b -> rest_same b c -> rest_same a c.
Proof. unfold rest_same. intuition congruence. Qed.
Lemma frame_rest w w' : frame w w' -> rest_same w w'.
Proof. unfold frame, rest_same. tauto. Qed.

Section Safe.
Variable R : list nat.
Variable w0 : world.
Variable k : kind.
Variable h : nat.
Variable F : list (nat * file).
Variable data : list Z.
Hypothesis HB : Forall byte data.

Definition base (w : world) : Prop := Inv R w /\ zlen (w_ctx w) = 216 /\ rest_same w0 w.
(** The file is open with [n] bytes to go, and nothing has been raised. *)
Definition ok (n : nat) (w : world) : Prop :=
  base w /\ w_code w = 0 /\ exists pos, fs_open (w_files w) = (h, mkFile data pos) :: F /\ (length data - pos)%nat = n.
Definition raised (c : Z) : Prop :=
  c = fileFormatException \/ c = stackOverflowException \/ c = busErrorException \/ c = outOfMemoryException.
Definition bad (w : world) : Prop :=
  base w /\ raised (w_code w) /\ exists f, fs_open (w_files w) = (h, f) :: F.

Definition safe {A} (n : nat) (m : M world A) (Q : A -> nat -> Prop) : Prop :=
  forall w, ok n w -> post m w (fun a w' => exists n', ok n' w' /\ (n' <= n)%nat /\ Q a n') bad.

Lemma safe_ret A n (a : A) (Q : A -> nat -> Prop) : Q a n -> safe n (ret a) Q.
Proof. intros H w Hw. exists n. auto. Qed.
Lemma safe_bind A B n (m : M world A) (g : A -> M world B) P Q :
  safe n m P -> (forall a n', (n' <= n)%nat -> P a n' -> safe n' (g a) Q) -> safe n (bind m g) Q.
Proof.
  intros H1 H2 w Hw. specialize (H1 w Hw). unfold post, bind in *. destruct (m w) as [a w1|w1|]; auto.
  destruct H1 as (n1 & Hw1 & L1 & HP). specialize (H2 a n1 L1 HP w1 Hw1). unfold post in H2.
  destruct (g a w1) as [b w2|w2|]; auto. destruct H2 as (n2 & Hw2 & L2 & HQ). exists n2. split; [exact Hw2|]. split; [lia|exact HQ].
Qed.
Lemma safe_weaken A n (m : M world A) (P Q : A -> nat -> Prop) : safe n m P -> (forall a n', (n' <= n)%nat -> P a n' -> Q a n') -> safe n m Q.
Proof.
  intros H1 H2 w Hw. specialize (H1 w Hw). unfold post in *. destruct (m w) as [a w1|w1|]; auto. destruct H1 as (n1 & A1 & A2 & A3). exists n1. auto.
Qed.
Lemma ok_bad n w c m : ok n w -> raised c -> bad (set_exn w (Z.max c (w_code w)) m).
Proof.
  intros ((H1 & H2 & H3) & H4 & pos & H5 & _) Hc. split; [split; [now apply Inv_exn|split; [exact H2|exact H3]]|].
  split; [|exists (mkFile data pos); exact H5].
  cbn [w_code set_exn]. rewrite H4. unfold raised in *. destruct Hc as [->|[->|[->| ->]]]; cbn; auto.
Qed.
Lemma safe_throw A n c (Q : A -> nat -> Prop) : raised c -> safe n (throw c) Q.
Proof. intros Hc w Hw. unfold post, throw. eapply ok_bad; eauto. Qed.
Lemma safe_throw_msg A n c s (Q : A -> nat -> Prop) : raised c -> safe n (throw_msg c s) Q.
Proof. intros Hc w Hw. unfold post, throw_msg, throw. apply (ok_bad n (set_exn w (w_code w) (firstn 1023 s))); [exact Hw|exact Hc]. Qed.

Lemma base_files w f : base w -> base (set_files w f).
Proof. destruct w. exact (fun H => H). Qed.

Lemma safe_get A n (g : file -> M world A) Q : (forall f, f_data f = data -> safe n (g f) Q) -> safe n (bind (get_file h) g) Q.
Proof.
  intros Hg w Hw. pose proof Hw as (_ & _ & pos & Ho & _). unfold post, bind, get_file. rewrite Ho. cbn [lookup_file]. rewrite Nat.eqb_refl.
  apply Hg; auto.
Qed.

Lemma Forall_firstn' {A} (P : A -> Prop) n l : Forall P l -> Forall P (firstn n l).
Proof. intro H. rewrite <- (firstn_skipn n l) in H. now apply Forall_app in H. Qed.
Lemma Forall_skipn' {A} (P : A -> Prop) n l : Forall P l -> Forall P (skipn n l).
Proof. intro H. rewrite <- (firstn_skipn n l) in H. now apply Forall_app in H. Qed.

Lemma safe_fread n c : safe n (fread h c) (fun bs n' => (length bs <= c)%nat /\ (n' + length bs <= n)%nat /\ Forall byte bs).
Proof.
  intros w (Hb & Hc & pos & Ho & Hn). unfold post, fread, bind, next_io, get_file, put_file, ret. cbn [w_files set_files fs_open]. rewrite Ho.
  cbn [lookup_file]. rewrite Nat.eqb_refl. cbn [f_data f_pos w_files set_files fs_open fs_next fs_calls fs_opened].
  rewrite ?Ho. cbn [update_file]. rewrite Nat.eqb_refl.
  set (j := match e_io _ _ with IoOk => _ | _ => _ end). assert (Hj : (j <= c)%nat) by (unfold j; destruct (e_io _ _); lia).
  set (bs := firstn j (skipn pos data)). assert (Lb : length bs = Nat.min j (length data - pos)) by (unfold bs; rewrite firstn_length, skipn_length; lia).
  exists (length data - (pos + length bs))%nat. split; [|split; [lia|split; [lia|split; [lia|]]]].
  - split; [destruct w; exact Hb|]. split; [exact Hc|]. eexists. cbn [w_files set_files fs_open]. split; reflexivity.
  - unfold bs. apply Forall_firstn', Forall_skipn', HB.
Qed.

Lemma safe_skip : forall fuel n, (n < fuel)%nat -> safe n (skipNewLines fuel h) (fun c n' => c <> None -> (n' < n)%nat).
Proof.
  induction fuel as [|fuel IH]; intros n L; [lia|]. cbn [skipNewLines]. eapply safe_bind; [apply safe_fread|].
  intros [|c t] n' L' (L1 & L2 & _); [apply safe_ret; congruence|]. cbn [length] in *.
  destruct (_ || _); [|apply safe_ret; lia]. eapply safe_weaken; [apply IH; lia|]. cbn beta. intros a n2 L3 H4 H5. specialize (H4 H5). lia.
Qed.

Lemma ok_le n w : ok n w -> (n <= length data)%nat.
Proof. intros (_ & _ & pos & _ & <-). lia. Qed.

Lemma safe_char n : safe n (readNextCharacterSkippingNewLines h) (fun c n' => c <> None -> (n' < n)%nat).
Proof.
  intros w Hw. pose proof (ok_le _ _ Hw) as L. revert w Hw. change (safe n (readNextCharacterSkippingNewLines h) (fun c n' => c <> None -> (n' < n)%nat)).
  unfold readNextCharacterSkippingNewLines. apply safe_get. intros f ->. apply safe_skip. lia.
Qed.

Definition room_at (d : dest) (c : nat) : Prop := match d with Local => True | Ctx off => 0 <= off /\ off + Z.of_nat c <= 216 end.

Lemma safe_store n d i bs c : room_at d c -> 0 <= i -> i + zlen bs <= Z.of_nat c -> safe n (store_dest d i bs) (fun _ n' => n' = n).
Proof.
  intros Hr Hi Hl. destruct d as [|off]; cbn [store_dest room_at] in *; [now apply safe_ret|].
  intros w (Hb & Hc & Ho). destruct Hb as (B1 & B2 & B3). unfold post. rewrite put_ok by lia. exists n. split; [|auto].
  split; [|split; [exact Hc|exact Ho]]. split; [now apply Inv_ctx|]. split; [|exact B3].
  cbn [w_ctx set_ctx]. rewrite splice_zlen by lia. exact B2.
Qed.

Lemma hexRead_range x y : 0 <= x < 16 -> 0 <= y < 16 -> byte (16 * x + y).
Proof. unfold byte. lia. Qed.

Lemma safe_hex d c : room_at d c -> forall j n acc, (length acc + j <= c)%nat -> Forall byte acc ->
  safe n (hexRead_loop h d j acc) (fun bs n' => (length acc <= length bs <= length acc + j)%nat /\ (n' + length bs <= n + length acc)%nat /\ Forall byte bs).
Proof.
  intro Hr. induction j as [|j IH]; intros n acc L HA; cbn [hexRead_loop]; [apply safe_ret; split; [lia|split; [lia|exact HA]]|].
  eapply safe_bind; [apply safe_char|]. intros [hi|] n1 L1 H1; cbn beta iota; [|apply safe_ret; split; [lia|split; [lia|exact HA]]].
  assert (N1 : (n1 < n)%nat) by (apply H1; discriminate).
  eapply safe_bind; [apply safe_char|]. intros [lo|] n2 L2 H2; cbn beta iota; [|apply safe_ret; split; [lia|split; [lia|exact HA]]].
  rewrite !nibble_hex. destruct (hex_value hi) as [x|] eqn:X; [|apply safe_throw; unfold raised; auto]. destruct (hex_value lo) as [y|] eqn:Y; [|apply safe_throw; unfold raised; auto].
  eapply safe_bind; [apply (safe_store n2 d (zlen acc) [16 * x + y] c Hr); unfold zlen; cbn [length]; lia|].
  intros _ n3 _ ->. cbn beta. eapply safe_weaken.
  - apply IH; [rewrite app_length; cbn; lia|]. apply Forall_app. split; [exact HA|]. constructor; [|constructor].
    apply hex_value_range in X, Y. now apply hexRead_range.
  - cbn beta. intros bs n4 L4 (A1 & A2 & A3). rewrite app_length in *. cbn [length] in *. split; [lia|]. split; [lia|exact A3].
Qed.

Lemma safe_read d n c : room_at d c ->
  safe n (doRead k h d c) (fun bs n' => (length bs <= c)%nat /\ (n' + length bs <= n)%nat /\ Forall byte bs).
Proof.
  intro Hr. destruct k; cbn [doRead].
  - unfold binaryRead. eapply safe_bind; [apply safe_fread|]. intros bs n1 L1 (A1 & A2 & A3).
    eapply safe_bind; [apply (safe_store n1 d 0 bs c Hr); unfold zlen; lia|]. intros _ n2 _ ->. apply safe_ret. auto.
  - unfold hexRead. eapply safe_weaken; [apply (safe_hex d c Hr); [cbn; lia|constructor]|]. cbn [length]. intros bs n1 L1 (A1 & A2 & A3). split; [lia|]. split; [lia|exact A3].
Qed.

Definition anyway {A} : A -> nat -> Prop := fun _ _ => True.

Ltac raise := apply safe_throw_msg; unfold raised; auto.

Lemma safe_signature n : safe n (validateDumpSignature k h) anyway.
Proof.
  unfold validateDumpSignature. eapply safe_bind; [apply safe_read; exact I|]. intros bs n1 L1 _.
  destruct (negb _); [raise|]. destruct (bytes_eqb _ _); [now apply safe_ret|]. destruct (bytes_eqb _ _); [now apply safe_ret|raise].
Qed.
Lemma safe_flags n : safe n (readFlags k h) anyway.
Proof.
  unfold readFlags. eapply safe_bind; [apply safe_read; unfold room_at, OFF_FLAGS; lia|]. intros bs n1 L1 _. destruct (negb _); [raise|now apply safe_ret].
Qed.
Lemma safe_ctx_put n off bs : 0 <= off -> off + zlen bs <= 216 -> safe n (ctx_put off bs) anyway.
Proof.
  intros H1 H2. eapply safe_weaken; [|intros; exact I].
  pose proof (safe_store n (Ctx off) 0 bs (length bs)) as X. cbn [store_dest] in X. rewrite Z.add_0_r in X.
  apply X; unfold room_at, zlen in *; lia.
Qed.
Lemma safe_integer n v2 : safe n (readIntegerRegisters k h v2) anyway.
Proof.
  unfold readIntegerRegisters. cbv zeta. eapply safe_bind with (P := anyway).
  { destruct v2; [|now apply safe_ret]. eapply safe_bind; [apply safe_ctx_put; cbn; lia|]. intros. apply safe_ctx_put; cbn; lia. }
  intros _ n1 L1 _. eapply safe_bind; [apply safe_read; unfold room_at, OFF_R; destruct v2; lia|]. intros bs n2 L2 _. destruct (negb _); [raise|].
  eapply safe_bind; [apply safe_read; unfold room_at, OFF_PSR; lia|]. intros bs2 n3 L3 _. destruct (negb _); [raise|now apply safe_ret].
Qed.
Lemma safe_fp n : safe n (readFloatingPointRegisters k h) anyway.
Proof.
  unfold readFloatingPointRegisters. eapply safe_bind with (P := anyway).
  { intros w Hw. unfold post, ctx_word. pose proof Hw as ((_ & C & _) & _). replace (_ && _) with true by (unfold OFF_FLAGS; lia). exists n. unfold anyway. auto. }
  intros fl n1 L1 _. destruct (_ =? 0); [now apply safe_ret|].
  eapply safe_bind; [apply safe_read; unfold room_at, OFF_FPR; lia|]. intros bs n2 L2 _. destruct (negb _); [raise|now apply safe_ret].
Qed.

Lemma safe_write8 n a b : u32 a -> safe n (write8 a b) (fun _ n' => n' = n).
Proof.
  intros Ha w (Hb & Hc & pos & Ho & Hn). destruct Hb as (B1 & B2 & B3). pose proof (write8_post R a b w B1 Ha) as P. unfold post in *.
  destruct (write8 a b w) as [[] w1|w1|]; [| |exact P].
  - destruct P as (I1 & Fr & C1). exists n. split; [|auto]. pose proof (frame_rest _ _ Fr) as RS. destruct Fr as (Ff & Fc & _).
    split; [split; [exact I1|split; [congruence|eapply rest_trans; eauto]]|]. split; [congruence|]. exists pos. split; [congruence|exact Hn].
  - destruct P as (I1 & Fr & C1). pose proof (frame_rest _ _ Fr) as RS. destruct Fr as (Ff & Fc & _).
    split; [split; [exact I1|split; [congruence|eapply rest_trans; eauto]]|]. split; [rewrite C1, Hc; unfold raised; cbn; auto|]. exists (mkFile data pos). congruence.
Qed.

Lemma safe_bytes : forall fuel n a count, u32 a -> (n < fuel)%nat -> safe n (loadRegionBytes fuel k h a count) anyway.
Proof.
  induction fuel as [|fuel IH]; intros n a count Ha L; [lia|]. cbn [loadRegionBytes]. destruct (count <=? 0); [now apply safe_ret|].
  eapply safe_bind; [apply safe_read; exact I|]. intros [|b [|b2 t]] n1 L1 (A1 & A2 & _); cbn [length] in *; [apply safe_throw; unfold raised; auto| |lia].
  eapply safe_bind; [apply safe_write8; exact Ha|]. intros _ n2 _ ->. apply IH; [apply W_range|lia].
Qed.

Lemma safe_create n b s : u32 b -> u32 s -> safe n (MemorySim_CreateRegion b s) (fun _ n' => n' = n).
Proof.
  intros Hb0 Hs w (Hb & Hc & pos & Ho & Hn). destruct Hb as (B1 & B2 & B3). pose proof (CreateRegion_post b s R w B1 Hb0 Hs) as P. unfold post in *.
  destruct (MemorySim_CreateRegion b s w) as [[] w1|w1|]; [| |exact P].
  - destruct P as (I1 & Fr & _ & C1 & _). exists n. split; [|auto]. pose proof (frame_rest _ _ Fr) as RS. destruct Fr as (Ff & Fc & _).
    split; [split; [exact I1|split; [congruence|eapply rest_trans; eauto]]|]. split; [congruence|]. exists pos. split; [congruence|exact Hn].
  - destruct P as (I1 & Fr & _ & C1 & _). pose proof (frame_rest _ _ Fr) as RS. destruct Fr as (Ff & Fc & _).
    split; [split; [exact I1|split; [congruence|eapply rest_trans; eauto]]|]. split; [rewrite C1; unfold raised; auto|]. exists (mkFile data pos). congruence.
Qed.

Lemma of_le4_u32 bs : length bs = 4%nat -> Forall byte bs -> u32 (of_le bs).
Proof. intros L B. apply (word_of bs L B). Qed.

Lemma safe_region n : safe n (readNextMemoryRegion k h) (fun eof n' => eof = false -> (n' < n)%nat).
Proof.
  unfold readNextMemoryRegion. eapply safe_bind; [apply safe_read; exact I|]. intros bs n1 L1 (A1 & A2 & A3).
  destruct (_ && _); [raise|]. destruct (Nat.eqb _ _); [apply safe_ret; discriminate|]. destruct (Nat.eqb_spec (length bs) 8) as [L8|]; cbn [negb]; [|raise].
  cbv zeta. set (start := of_le (firstn 4 bs)). set (end_ := of_le (skipn 4 bs)).
  assert (Hs : u32 start) by (apply of_le4_u32; [rewrite firstn_length; lia|now apply Forall_firstn']).
  eapply safe_bind with (P := fun _ n' => (n' <= n1)%nat); [|intros; apply safe_ret; lia].
  assert (X : safe n1 (createAndLoadMemoryRegion k h start end_) anyway).
  { unfold createAndLoadMemoryRegion. cbv zeta. eapply safe_bind; [apply safe_create; [exact Hs|apply W_range]|]. intros _ n2 _ ->.
    intros w Hw. pose proof (ok_le _ _ Hw) as L. revert w Hw. apply safe_get. intros f ->. apply safe_bytes; [exact Hs|lia]. }
  intros w Hw. assert (Hw' : ok n1 (set_exn w noException [])).
  { destruct Hw as (Hb & _ & Ho). split; [|split; [reflexivity|exact Ho]]. destruct w; exact Hb. }
  specialize (X _ Hw'). unfold post in *. rewrite try0_eq. destruct (createAndLoadMemoryRegion _ _ _ _ _) as [[] w1|w1|]; [| |exact X].
  - destruct X as (n2 & Hw1 & L2 & _). pose proof Hw1 as (_ & C1 & _). rewrite C1. cbn [Z.eqb]. exists n2. auto.
  - destruct X as (B1 & B2 & B3). destruct (w_code w1 =? 0) eqn:Q; [unfold raised in B2; destruct B2 as [->|[->|[->| ->]]] in Q; cbn in Q; discriminate|].
    unfold bind, getExceptionCode, throw_msg, throw. split; [destruct w1; exact B1|]. cbn [w_code set_exn w_files]. rewrite Z.max_id. auto.
Qed.

Lemma safe_regions : forall fuel n, (n < fuel)%nat -> safe n (regionLoop fuel k h) anyway.
Proof.
  induction fuel as [|fuel IH]; intros n L; [lia|]. cbn [regionLoop]. eapply safe_bind; [apply safe_region|]. cbn beta. intros [|] n1 L1 H; [now apply safe_ret|].
  apply IH. specialize (H eq_refl). lia.
Qed.

Lemma safe_dump n : safe n (readDump k h) anyway.
Proof.
  unfold readDump. eapply safe_bind; [apply safe_signature|]. intros v2 n1 _ _. eapply safe_bind; [apply safe_flags|]. intros _ n2 _ _.
  eapply safe_bind; [apply safe_integer|]. intros _ n3 _ _. eapply safe_bind; [apply safe_fp|]. intros _ n4 _ _.
  unfold readMemoryRegions. intros w Hw. pose proof (ok_le _ _ Hw) as L. revert w Hw. apply safe_get. intros f ->. apply safe_regions. lia.
Qed.
End Safe.

Definition dump_errors (c : Z) : Prop := c = fileException \/ raised c.

(** The file does not exist, or opening it fails. *)
Definition cannot_open (w : world) (name : list Z) : Prop :=
  e_fs (w_env w) name = None \/ e_io (w_env w) (fs_calls (w_files w)) = IoFail.

Lemma read_missing k name w : cannot_open w name ->
  exists w', api (CrashCatcherDump_Read k name) w = Raised fileException w' /\ w_mem w' = w_mem w /\ w_heap w' = w_heap w /\ w_ctx w' = w_ctx w.
Proof.
  intro H. unfold api, CrashCatcherDump_Read, try_, bind, lift, setl, getl. cbn [fst snd]. set (w0 := set_exn w noException []).
  change (set_exn w0 noException []) with w0.
  assert (EO : exists f0 m, openDump name w0 = Exc (set_exn (set_files w0 f0) fileException m)).
  { unfold openDump, fopen, bind, next_io, w0. cbn [w_files w_env set_files set_exn fs_calls fs_open fs_next fs_opened].
    destruct H as [H|H]; rewrite H; [destruct (e_io _ _)|]; eexists _, _; reflexivity. }
  destruct EO as (f0 & m & EO). rewrite EO. cbn [fst snd w_code set_exn]. change (fileException =? 0) with false. cbv iota. unfold destructObject, ret, rethrow, throw.
  cbn [w_code set_exn]. eexists. split; [reflexivity|]. auto.
Qed.

Lemma read_not_missing k name w R :
  Inv R w -> ctx_sane w -> (forall data, file_is w name data -> Forall byte data) -> ~ cannot_open w name ->
  outcome_of (api (CrashCatcherDump_Read k name) w) <> Exception_ fileException.
Proof.
  intros HI HC HB HN. unfold api, CrashCatcherDump_Read. set (w0 := set_exn w noException []).
  assert (I0 : Inv R w0) by now apply Inv_exn.
  unfold bind at 1, try_. change (set_exn w0 noException []) with w0.
  assert (EO : exists data f0, file_is w name data /\ openDump name w0 = Ret (fs_next (w_files w)) (set_files w0 f0) /\
                  fs_open f0 = (fs_next (w_files w), mkFile data 0) :: fs_open (w_files w)).
  { unfold openDump, fopen, bind, next_io, file_is, w0, cannot_open in *. cbn [w_files w_env set_files set_exn fs_calls fs_open fs_next fs_opened].
    destruct (e_fs (w_env w) name) as [data|]; [|tauto]. destruct (e_io (w_env w) _); [| tauto |]; eexists _, _; split; try reflexivity; split; reflexivity. }
  unfold bind, lift, setl, getl. cbn [fst snd].
  destruct EO as (data & f0 & HF & EO & Ho).
  rewrite EO. cbn [fst snd]. set (h := fs_next (w_files w)) in *.
  assert (OK : ok R w h (fs_open (w_files w)) data (length data - 0) (set_files w0 f0)).
  { split; [split; [|split]|split; [reflexivity|]].
    - destruct w; exact I0.
    - exact HC.
    - repeat split.
    - exists 0%nat. cbn [w_files set_files]. auto. }
  pose proof (safe_dump R w k h (fs_open (w_files w)) data (HB _ HF) _ _ OK) as P. unfold post in P.
  assert (CL : forall w1 f1, fs_open (w_files w1) = (h, f1) :: fs_open (w_files w) -> exists f2, fclose h w1 = Ret tt (set_files w1 f2)).
  { intros w1 f1 Ho1. unfold fclose, bind, get_file. rewrite Ho1. cbn [lookup_file]. rewrite Nat.eqb_refl. eexists. reflexivity. }
  destruct (readDump k h (set_files w0 f0)) as [[] w1|w1|]; [| |destruct P].
  - destruct P as (n & (_ & C1 & pos & Ho1 & _) & _). cbn [fst snd]. destruct (CL w1 _ Ho1) as (f2 & E2).
    unfold destructObject. rewrite E2. cbn [fst snd]. cbn [w_code set_files]. rewrite C1. cbn [Z.eqb]. unfold ret. discriminate.
  - destruct P as (_ & C1 & f1 & Ho1). cbn [fst snd]. destruct (CL w1 _ Ho1) as (f2 & E2).
    destruct (w_code w1 =? 0) eqn:Q; [unfold raised in C1; destruct C1 as [X|[X|[X|X]]]; rewrite X in Q; discriminate|].
    unfold destructObject. rewrite E2. unfold rethrow, throw. cbn [w_code set_files set_exn outcome_of]. rewrite Z.max_id.
    intro X. injection X as X. unfold raised in C1. rewrite X in C1. destruct C1 as [C1|[C1|[C1|C1]]]; discriminate.
Qed.

Lemma read_safe k name w R :
  Inv R w -> ctx_sane w -> (forall data, file_is w name data -> Forall byte data) ->
  match api (CrashCatcherDump_Read k name) w with
  | Done _ w' => Inv R w' /\ ctx_sane w' /\ rest_same w w' /\ w_code w' = 0 /\ fs_open (w_files w') = fs_open (w_files w)
  | Raised c w' => Inv R w' /\ ctx_sane w' /\ rest_same w w' /\ dump_errors c /\ fs_open (w_files w') = fs_open (w_files w)
  | Crashed _ => False
  end.
Proof.
  intros HI HC HB. unfold api, CrashCatcherDump_Read. set (w0 := set_exn w noException []).
  assert (I0 : Inv R w0) by now apply Inv_exn.
  unfold bind at 1, try_. change (set_exn w0 noException []) with w0.
  assert (EO : (exists data f0, file_is w name data /\ openDump name w0 = Ret (fs_next (w_files w)) (set_files w0 f0) /\
                  fs_open f0 = (fs_next (w_files w), mkFile data 0) :: fs_open (w_files w)) \/
               (exists f0 m, openDump name w0 = Exc (set_exn (set_files w0 f0) fileException m) /\ fs_open f0 = fs_open (w_files w))).
  { unfold openDump, fopen, bind, next_io, file_is, w0. cbn [w_files w_env set_files set_exn fs_calls fs_open fs_next fs_opened].
    destruct (e_fs (w_env w) name) as [data|].
    - destruct (e_io (w_env w) _).
      + left. eexists _, _. split; [reflexivity|]. split; [reflexivity|]. reflexivity.
      + right. eexists _, _. split; [reflexivity|]. reflexivity.
      + left. eexists _, _. split; [reflexivity|]. split; [reflexivity|]. reflexivity.
    - right. destruct (e_io (w_env w) _); (eexists _, _; split; reflexivity). }
  unfold bind, lift, setl, getl. cbn [fst snd].
  destruct EO as [(data & f0 & HF & EO & Ho)|(f0 & m & EO & Ho)].
  - rewrite EO. cbn [fst snd]. set (h := fs_next (w_files w)) in *.
    assert (OK : ok R w h (fs_open (w_files w)) data (length data - 0) (set_files w0 f0)).
    { split; [split; [|split]|split; [reflexivity|]].
      - destruct w; exact I0.
      - exact HC.
      - repeat split.
      - exists 0%nat. cbn [w_files set_files]. auto. }
    pose proof (safe_dump R w k h (fs_open (w_files w)) data (HB _ HF) _ _ OK) as P. unfold post in P.
    assert (CL : forall w1 f1, fs_open (w_files w1) = (h, f1) :: fs_open (w_files w) ->
      exists f2, fclose h w1 = Ret tt (set_files w1 f2) /\ fs_open f2 = fs_open (w_files w)).
    { intros w1 f1 Ho1. unfold fclose, bind, get_file. rewrite Ho1. cbn [lookup_file].
      rewrite Nat.eqb_refl. rewrite Ho1. cbn [remove_file]. rewrite Nat.eqb_refl. eexists. split; [reflexivity|]. reflexivity. }
    destruct (readDump k h (set_files w0 f0)) as [[] w1|w1|]; [| |exact P].
    + destruct P as (n & ((B1 & B2 & B3) & C1 & pos & Ho1 & _) & _). cbn [fst snd]. destruct (CL w1 _ Ho1) as (f2 & E2 & Ho2).
      unfold destructObject. rewrite E2. cbn [fst snd]. cbn [w_code set_files]. rewrite C1. cbn [Z.eqb]. unfold ret.
      split; [destruct w1; exact B1|]. split; [exact B2|]. split; [exact B3|]. split; [exact C1|exact Ho2].
    + destruct P as ((B1 & B2 & B3) & C1 & f1 & Ho1). cbn [fst snd]. destruct (CL w1 _ Ho1) as (f2 & E2 & Ho2).
      destruct (w_code w1 =? 0) eqn:Q; [unfold raised in C1; destruct C1 as [X|[X|[X|X]]]; rewrite X in Q; discriminate|].
      unfold destructObject. rewrite E2. unfold rethrow, throw. cbn [w_code set_files set_exn]. rewrite Z.max_id.
      split; [destruct w1; exact B1|]. split; [exact B2|]. split; [exact B3|]. split; [right; exact C1|exact Ho2].
  - rewrite EO. cbn [fst snd w_code set_exn]. change (fileException =? 0) with false. cbv iota. unfold destructObject, ret, rethrow, throw.
    cbn [w_code set_exn]. split; [destruct w; exact I0|]. split; [exact HC|]. split; [repeat split|]. split; [now left|exact Ho].
Qed.
