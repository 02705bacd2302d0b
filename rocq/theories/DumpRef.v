(** The dump reader, with the file replaced by the list of bytes it yields: a reference program that
    both the binary and the hex reader follow when no file operation fails. *)
From Coq Require Import String ZArith List Bool Lia ZifyBool ZifyNat.
From Verif Require Import Base World Context MemSim Dump BaseLemmas MemSpec MemLemmas DumpSpec.
Import ListNotations.
Open Scope Z_scope.
Open Scope m_scope.

(** ** Computations that do not depend on the file layer *)

Definition omap {A} (f : world -> world) (o : outcome world A) : outcome world A :=
  match o with Ret a w => Ret a (f w) | Exc w => Exc (f w) | Ub u => Ub u end.

Definition indep {A} (m : M world A) : Prop := forall w f, m (set_files w f) = omap (fun w' => set_files w' f) (m w).

Lemma indep_ret A (a : A) : indep (ret a).
Proof. intros w f. reflexivity. Qed.
Lemma indep_bind A B (m : M world A) (g : A -> M world B) : indep m -> (forall a, indep (g a)) -> indep (bind m g).
Proof. intros H1 H2 w f. unfold bind. rewrite H1. destruct (m w); cbn; [apply H2|reflexivity|reflexivity]. Qed.
Lemma indep_ub A u : indep (fail_ub u : M world A).
Proof. intros w f. reflexivity. Qed.

Lemma set_files_exn w f c m : set_exn (set_files w f) c m = set_files (set_exn w c m) f.
Proof. reflexivity. Qed.

Lemma indep_create b s : indep (MemorySim_CreateRegion b s).
Proof.
  intros w f. rewrite !CreateRegion_eq. cbv zeta. unfold alloc_ok. cbn [w_heap w_env set_files].
  destruct (e_malloc _ _ _); cbn [negb]; [|reflexivity]. destruct (e_malloc _ _ _); reflexivity.
Qed.

Lemma indep_write8 a v : indep (write8 a v).
Proof.
  unfold write8, writeN. apply indep_bind.
  - intros w f. rewrite !getDataPointer_eq. cbv zeta. cbn [w_mem set_files].
    destruct (find_from _ _ _ _) as [[j a']|]; [|reflexivity]. destruct (nth_error _ _); [|reflexivity].
    destruct (_ && _); [reflexivity|]. destruct (_ && _); [reflexivity|]. destruct (scan_wps _ _ _ _ _ _) as [h [|]]; [reflexivity|].
    destruct (_ <=? _); reflexivity.
  - intros p w f. unfold store_ptr, bind, get_region. cbn [w_mem set_files]. destruct (nth_error _ _); [|reflexivity].
    destruct (_ && _); reflexivity.
Qed.

Lemma indep_ctx_put off bs : indep (ctx_put off bs).
Proof. intros w f. unfold ctx_put. cbn [w_ctx set_files]. destruct (_ && _); reflexivity. Qed.
Lemma indep_store d i bs : indep (store_dest d i bs).
Proof. destruct d; [apply indep_ret|apply indep_ctx_put]. Qed.

(** ** The units of a stream *)

Fixpoint pairs (l : list Z) : list (option Z) :=
  match l with
  | hi :: lo :: t =>
      match hex_value hi, hex_value lo with
      | Some x, Some y => Some (16 * x + y)
      | _, _ => None
      end :: pairs t
  | _ => []
  end.

Definition units (k : kind) (l : list Z) : list (option Z) :=
  match k with Binary => map Some l | Hex => pairs (significant l) end.

Lemma nibble_hex c : nibbleDigitToVal c = hex_value c.
Proof. unfold nibbleDigitToVal, hex_value. repeat (destruct (_ && _); [f_equal; lia|]). reflexivity. Qed.

Lemma pairs_length l : (length (pairs l) <= length l)%nat.
Proof.
  assert (forall n l, (length l <= n)%nat -> (length (pairs l) <= length l)%nat) as H.
  { induction n as [|n IH]; intros [|a [|b t]] L; cbn in *; try lia. specialize (IH t). lia. }
  eauto.
Qed.
Lemma significant_length l : (length (significant l) <= length l)%nat.
Proof. unfold significant. induction l; cbn; [lia|]. destruct (negb _); cbn; lia. Qed.
Lemma units_length k l : (length (units k l) <= length l)%nat.
Proof. destruct k; cbn; [rewrite map_length; lia|]. pose proof (pairs_length (significant l)). pose proof (significant_length l). lia. Qed.

(** ** The reference program *)

Notation stream := (list (option Z)).

(** The bytes before the first malformed unit, and whether there is none. *)
Fixpoint scan (us : stream) : list Z * bool :=
  match us with
  | [] => ([], true)
  | Some b :: t => let (bs, ok) := scan t in (b :: bs, ok)
  | None :: _ => ([], false)
  end.

Definition ref_read (d : dest) (n : nat) (us : stream) : M world (list Z * stream) :=
  let (bs, ok) := scan (firstn n us) in
  store_dest d 0 bs ;;;
  if ok then ret (bs, skipn n us) else throw fileFormatException.

Definition too_short (s : string) : M world (unit * stream) := throw_msg fileFormatException (s2b s).

Definition ref_signature (us : stream) : M world (bool * stream) :=
  p <- ref_read Local 4 us;;
  let (sig, us1) := p in
  if negb (Nat.eqb (length sig) 4)
  then throw_msg fileFormatException (s2b "The dump file was too short to contain the 4-byte signature.")
  else if bytes_eqb sig [SIGNATURE_BYTE0; SIGNATURE_BYTE1; VERSION_MAJOR; VERSION_MINOR] then ret (false, us1)
  else if bytes_eqb sig [SIGNATURE_BYTE0; SIGNATURE_BYTE1; 2; 0] then ret (true, us1)
  else throw_msg fileFormatException (s2b "The dump file didn't start with the expected 4-byte signature.").

Definition ref_flags (us : stream) : M world (unit * stream) :=
  p <- ref_read (Ctx OFF_FLAGS) 4 us;;
  if negb (Nat.eqb (length (fst p)) 4) then too_short "The dump file was too short to contain the flags."
  else ret (tt, snd p).

Definition ref_integer (v2 : bool) (us : stream) : M world (unit * stream) :=
  let size := if v2 then 68%nat else 76%nat in
  (if v2 then ctx_put (OFF_R MSP) (le 4 DEFAULT_SP_VALUE) ;;; ctx_put (OFF_R PSP) (le 4 DEFAULT_SP_VALUE)
   else ret tt) ;;;
  p <- ref_read (Ctx (OFF_R 0)) size us;;
  if negb (Nat.eqb (length (fst p)) size)
  then too_short "The dump file was too short to contain the integer registers."
  else
    q <- ref_read (Ctx OFF_PSR) 4 (snd p);;
    if negb (Nat.eqb (length (fst q)) 4)
    then too_short "The dump file was too short to contain the exception PSR."
    else ret (tt, snd q).

Definition ref_fp (us : stream) : M world (unit * stream) :=
  flags <- ctx_word OFF_FLAGS;;
  if Z.land flags CRASH_CATCHER_FLAGS_FLOATING_POINT =? 0 then ret (tt, us)
  else
    p <- ref_read (Ctx (OFF_FPR 0)) 132 us;;
    if negb (Nat.eqb (length (fst p)) 132)
    then too_short "The dump file was too short to contain the floating point registers."
    else ret (tt, snd p).

Fixpoint ref_bytes (us : stream) (a count : Z) : M world (unit * stream) :=
  if count <=? 0 then ret (tt, us)
  else match us with
       | Some b :: t => write8 a b ;;; ref_bytes t (W (a + 1)) (count - 1)
       | _ => throw fileFormatException
       end.

Definition ref_region (us : stream) : M world (bool * stream) :=
  p <- ref_read Local 8 us;;
  let (bs, us1) := p in
  if Nat.eqb (length bs) 4 && (of_le bs =? STACK_SENTINEL)
  then throw_msg stackOverflowException
         (s2b "The dump file ended with an indication that CrashCatcher detected a stack overflow.")
  else if Nat.eqb (length bs) 0 then ret (true, us1)
  else if negb (Nat.eqb (length bs) 8)
  then throw_msg fileFormatException (s2b "The dump file contained a truncated memory region header.")
  else
    let start := of_le (firstn 4 bs) in
    let end_ := of_le (skipn 4 bs) in
    us2 <- try_ us1
      (q <- lift (MemorySim_CreateRegion start (W (end_ - start)) ;;; ref_bytes us1 start (W (end_ - start)));;
       setl (snd q))
      (fun _ =>
         c <- getExceptionCode;;
         throw_msg c (s2b "The dump file failed to load RAM memory region at 0x" ++ fmt08X start ++
                      s2b " - 0x" ++ fmt08X end_ ++ s2b "."));;
    ret (false, us2).

Fixpoint ref_regions (fuel : nat) (us : stream) : M world (unit * stream) :=
  match fuel with
  | O => fail_ub UbFuel
  | S f =>
      p <- ref_region us;;
      if fst p : bool then ret (tt, snd p) else ref_regions f (snd p)
  end.

Definition ref_dump (us : stream) : M world (unit * stream) :=
  p <- ref_signature us;;
  q <- ref_flags (snd p);;
  r <- ref_integer (fst p) (snd q);;
  s <- ref_fp (snd r);;
  ref_regions (S (length (snd s))) (snd s).

(** ** Reading from a list *)

Lemma scan_length us : (length (fst (scan us)) <= length us)%nat.
Proof. induction us as [|[b|] us IH]; cbn; try lia. destruct (scan us); cbn in *; lia. Qed.
Lemma scan_some l : scan (map Some l) = (l, true).
Proof. induction l as [|b l IH]; cbn; [reflexivity|]. now rewrite IH. Qed.
Lemma firstn_map' {A B} (g : A -> B) n l : firstn n (map g l) = map g (firstn n l).
Proof. revert l. induction n; intros [|x l]; cbn; congruence. Qed.
Lemma skipn_map' {A B} (g : A -> B) n l : skipn n (map g l) = map g (skipn n l).
Proof. revert l. induction n; intros [|x l]; cbn; auto. Qed.
Lemma scan_true us bs : scan us = (bs, true) -> us = map Some bs.
Proof.
  revert bs. induction us as [|[b|] us IH]; intros bs H; cbn in H; [|destruct (scan us) as [c ok]|]; try discriminate; injection H as <-; subst; cbn; [reflexivity|].
  now rewrite (IH c).
Qed.

(** A successful read returns the next bytes. *)
Lemma read_inv d n us w bs us' w' :
  ref_read d n us w = Ret (bs, us') w' -> us = map Some bs ++ us' /\ (length bs = n \/ us' = []) /\ (length bs <= n)%nat /\ store_dest d 0 bs w = Ret tt w'.
Proof.
  unfold ref_read. destruct (scan (firstn n us)) as [c ok] eqn:S. unfold bind. destruct (store_dest d 0 c w) as [[] w1|w1|] eqn:Q; try discriminate.
  destruct ok; [|discriminate]. intro H. injection H as <- <- <-. apply scan_true in S.
  assert (L : length c = length (firstn n us)) by (rewrite S, map_length; reflexivity). rewrite firstn_length in L.
  split; [rewrite <- S; symmetry; apply firstn_skipn|]. split; [|split; [lia|exact Q]].
  destruct (Nat.le_ge_cases n (length us)); [left; lia|right; apply skipn_all2; lia].
Qed.

Lemma ref_bytes_inv us : forall a count w u us' w', ref_bytes us a count w = Ret (u, us') w' ->
  exists bs, us = map Some bs ++ us' /\ Z.of_nat (length bs) = Z.max 0 count.
Proof.
  induction us as [|[b|] us IH]; intros a count w u us' w'; cbn [ref_bytes]; destruct (count <=? 0) eqn:Q; intro H; try discriminate H.
  - injection H as <- <- <-. exists []. split; [reflexivity|cbn; lia].
  - injection H as <- <- <-. exists []. split; [reflexivity|cbn; lia].
  - unfold bind in H. destruct (write8 a b w); try discriminate. apply IH in H as (bs & -> & L). exists (b :: bs). split; [reflexivity|]. cbn [length]. lia.
  - injection H as <- <- <-. exists []. split; [reflexivity|cbn; lia].
Qed.

(** Each region uses up at least eight units. *)
Lemma region_consumes us w us' w' : ref_region us w = Ret (false, us') w' -> (length us' < length us)%nat.
Proof.
  unfold ref_region, bind at 1. destruct (ref_read Local 8 us w) as [[bs us1] w1|w1|] eqn:R; try discriminate.
  apply read_inv in R as (-> & _ & L & _). destruct (_ && _); [discriminate|]. destruct (Nat.eqb _ _); [discriminate|].
  destruct (Nat.eqb_spec (length bs) 8) as [L8|]; cbn [negb]; [|discriminate]. cbv zeta. unfold bind, try_, lift, setl, ret. cbn [fst snd].
  destruct (MemorySim_CreateRegion _ _ _) as [u0 w0|w0|]; [| |discriminate].
  - destruct (ref_bytes _ _ _ w0) as [[u1 us2] w2|w2|] eqn:RB; [| |discriminate].
    + apply ref_bytes_inv in RB as (c & -> & _). cbn [snd fst]. destruct (w_code w2 =? 0); [|discriminate]. intro H. injection H as <- _.
      rewrite !app_length, !map_length. lia.
    + cbn [snd fst]. destruct (w_code w2 =? 0); [|discriminate]. intro H. injection H as <- _. rewrite app_length, map_length. lia.
  - cbn [snd fst]. destruct (w_code w0 =? 0); [|discriminate]. intro H. injection H as <- _. rewrite app_length, map_length. lia.
Qed.

(** ** The reader follows it *)

Section Follow.
Variable k : kind.
Variable h : nat.
Variable F : list (nat * file).
Variable N : nat.
Variable E : env.
Hypothesis HE : forall n, e_io E n = IoOk.

(** The file is open, [N] bytes long, and the text from its position on is [rest]. *)
Definition at_text (rest : list Z) (f : files) : Prop :=
  exists data pos, fs_open f = (h, mkFile data pos) :: F /\ length data = N /\ skipn pos data = rest.
Definition at_ (us : stream) (f : files) : Prop := exists rest, at_text rest f /\ units k rest = us.

Lemma at_length us f : at_ us f -> (length us <= N)%nat.
Proof.
  intros (rest & (data & pos & _ & L & <-) & <-). pose proof (units_length k (skipn pos data)).
  rewrite skipn_length in *. lia.
Qed.

Definition fine (w : world) : Prop := w_env w = E /\ zlen (w_ctx w) = 216 /\ 0 <= w_code w.

Definition failed (w : world) : Prop := fine w /\ 0 < w_code w.
Lemma fail_intro w e m : fine w -> 0 < e -> failed (set_exn w e m).
Proof. clear HE N. intros (H1 & H2 & H3) He. split; [|exact He]. split; [exact H1|]. split; [exact H2|]. cbn. lia. Qed.
Lemma fail_throw w e m : fine w -> 0 < e -> failed (set_exn w (Z.max e (w_code w)) m).
Proof. clear HE N. intros H He. apply fail_intro; [exact H|lia]. Qed.

Definition follows {A} (m : M world A) (us : stream) (r : M world (A * stream)) : Prop :=
  forall w f, fine w -> at_ us f ->
  match r w with
  | Ret (a, us') w' => (length us' <= length us)%nat /\ fine w' /\
                       exists f', m (set_files w f) = Ret a (set_files w' f') /\ at_ us' f'
  | Exc w' => failed w' /\ exists f', m (set_files w f) = Exc (set_files w' f') /\ exists us', at_ us' f'
  | Ub u => m (set_files w f) = Ub u
  end.

Lemma follows_bind A B (m : M world A) us r (g : A -> M world B) q :
  follows m us r -> (forall a us', (length us' <= length us)%nat -> follows (g a) us' (q (a, us'))) ->
  follows (bind m g) us (bind r q).
Proof.
  intros H1 H2 w f Hw Hf. unfold bind. specialize (H1 w f Hw Hf). destruct (r w) as [[a us1] w1|w1|u].
  - destruct H1 as (L & Hw1 & f1 & -> & Hf1). specialize (H2 a us1 L w1 f1 Hw1 Hf1).
    destruct (q (a, us1) w1) as [[b us2] w2|w2|u]; [|exact H2|exact H2].
    destruct H2 as (L2 & Hw2 & f2 & -> & Hf2). split; [lia|]. eauto.
  - destruct H1 as (Hw1 & f1 & -> & Hf1). eauto.
  - now rewrite H1.
Qed.

Lemma follows_ret A (a : A) us : follows (ret a) us (ret (a, us)).
Proof. intros w f Hw Hf. cbn. split; [lia|]. split; [exact Hw|]. eauto. Qed.
Lemma follows_throw A e us : 0 < e -> follows (throw e : M world A) us (throw e : M world (A * stream)).
Proof. intros He w f Hw Hf. cbn. split; [now apply fail_throw|]. eexists. split; [reflexivity|eauto]. Qed.
Lemma follows_throw_msg A e s us : 0 < e -> follows (throw_msg e s : M world A) us (throw_msg e s : M world (A * stream)).
Proof.
  intros He w f Hw Hf. unfold throw_msg. change (set_exn (set_files w f) (w_code (set_files w f)) (firstn 1023 s)) with
    (set_files (set_exn w (w_code w) (firstn 1023 s)) f). apply (follows_throw A e us He); [|exact Hf]. destruct Hw as (H1 & H2 & H3). repeat split; auto.
Qed.

(** A computation that leaves the file alone. *)
Lemma follows_indep A B (m : M world A) (g : A -> M world B) us q :
  indep m -> (forall w, fine w -> match m w with Ret _ w' => fine w' | Exc w' => failed w' | Ub _ => True end) ->
  (forall a, follows (g a) us (q a)) -> follows (bind m g) us (bind m q).
Proof.
  intros HI HF Hg w f Hw Hf. unfold bind. rewrite HI. specialize (HF w Hw). destruct (m w) as [a w1|w1|u]; cbn [omap].
  - apply (Hg a w1 f HF Hf).
  - split; [exact HF|]. eauto.
  - reflexivity.
Qed.

(** Reading characters. *)
Lemma fread_text n rest w f :
  fine w -> at_text rest f ->
  exists f', fread h n (set_files w f) = Ret (firstn n rest) (set_files w f') /\ at_text (skipn n rest) f'.
Proof.
  intros (HwE & _) (data & pos & Ho & L & <-). unfold fread, bind, next_io, get_file, put_file, ret. cbn [w_files w_env set_files fs_open fs_calls fs_next fs_opened].
  rewrite Ho. cbn [lookup_file]. rewrite Nat.eqb_refl. rewrite HwE, HE. cbn [update_file w_files set_files fs_open f_data f_pos fs_calls fs_next fs_opened]. rewrite Nat.eqb_refl.
  eexists. split; [reflexivity|]. exists data, (pos + length (firstn n (skipn pos data)))%nat. cbn [fs_open]. split; [reflexivity|].
  split; [exact L|]. rewrite firstn_length, !skipn_length, BaseLemmas.skipn_skipn.
  destruct (Nat.le_ge_cases n (length data - pos)).
  - f_equal. lia.
  - rewrite !skipn_all2 by lia. reflexivity.
Qed.

Lemma get_text rest w f : at_text rest f -> exists fl, get_file h (set_files w f) = Ret fl (set_files w f) /\ length (f_data fl) = N.
Proof.
  intros (data & pos & Ho & L & _). unfold get_file. cbn [w_files set_files]. rewrite Ho. cbn [lookup_file]. rewrite Nat.eqb_refl. eauto.
Qed.

Lemma skip_text : forall fuel rest w f,
  (length rest < fuel)%nat -> fine w -> at_text rest f ->
  exists f' rest', skipNewLines fuel h (set_files w f) = Ret (hd_error (significant rest)) (set_files w f') /\
                   at_text rest' f' /\ significant rest' = tl (significant rest).
Proof.
  induction fuel as [|fuel IH]; intros rest w f L Hw Hf; [lia|]. cbn [skipNewLines]. unfold bind.
  destruct (fread_text 1 rest w f Hw Hf) as (f1 & -> & H1). destruct rest as [|c t]; cbn [firstn].
  - eexists _, _. split; [reflexivity|]. split; [exact H1|reflexivity].
  - cbn [skipn] in H1. unfold significant. cbn [filter]. fold (significant t).
    destruct ((c =? 13) || (c =? 10)) eqn:C; cbn [negb].
    + cbn in L. apply IH; [lia|exact Hw|exact H1].
    + eexists _, _. split; [reflexivity|]. split; [exact H1|reflexivity].
Qed.

Lemma char_text rest w f :
  fine w -> at_text rest f ->
  exists f' rest', readNextCharacterSkippingNewLines h (set_files w f) = Ret (hd_error (significant rest)) (set_files w f') /\
                   at_text rest' f' /\ significant rest' = tl (significant rest).
Proof.
  intros Hw Hf. unfold readNextCharacterSkippingNewLines, bind. destruct (get_text rest w f Hf) as (fl & -> & L).
  apply skip_text; [|exact Hw|exact Hf]. destruct Hf as (data & pos & _ & L' & <-). rewrite skipn_length. lia.
Qed.

(** Where the bytes of a read go is large enough. *)
Definition room (d : dest) (n : Z) : Prop :=
  match d with Local => True | Ctx off => 0 <= off /\ off + n <= 216 end.

Lemma ctx_put_ok off bs w : 0 <= off -> off + zlen bs <= zlen (w_ctx w) -> ctx_put off bs w = Ret tt (set_ctx w (splice (w_ctx w) off bs)).
Proof. clear HE N. intros H1 H2. unfold ctx_put. destruct (_ && _) eqn:Q; [reflexivity|lia]. Qed.

Lemma store_ok d i bs n w : room d n -> fine w -> 0 <= i -> i + zlen bs <= n ->
  exists c, store_dest d i bs w = Ret tt (set_ctx w c) /\ fine (set_ctx w c).
Proof. clear HE N.
  intros Hr Hw Hi Hn. destruct d as [|off]; cbn [store_dest room] in *.
  - exists (w_ctx w). split; [destruct w; reflexivity|]. destruct w; exact Hw.
  - destruct Hw as (H1 & H2 & H3). rewrite ctx_put_ok by lia. eexists. split; [reflexivity|]. split; [exact H1|].
    cbn [w_ctx set_ctx w_code]. rewrite splice_zlen by lia. auto.
Qed.

Lemma store_nil d i n w : room d n -> fine w -> 0 <= i <= n -> store_dest d i [] w = Ret tt w.
Proof. clear HE N.
  intros Hr (H1 & H2 & _) Hi. destruct d as [|off]; cbn [store_dest room] in *; [reflexivity|].
  rewrite ctx_put_ok by (rewrite ?zlen_nil; lia). rewrite splice_nil. destruct w; reflexivity.
Qed.

Lemma store_cons d i b bs n w : room d n -> fine w -> 0 <= i -> i + 1 + zlen bs <= n ->
  store_dest d i (b :: bs) w = bind (store_dest d i [b]) (fun _ => store_dest d (i + 1) bs) w.
Proof. clear HE N.
  intros Hr [H1 H2] Hi Hn. pose proof (zlen_nonneg bs). destruct d as [|off]; cbn [store_dest room] in *; [reflexivity|].
  unfold bind. rewrite !ctx_put_ok by (rewrite ?zlen_cons, ?zlen_nil; lia).
  rewrite ctx_put_ok.
  - cbn [w_ctx set_ctx]. change (b :: bs) with ([b] ++ bs).
    replace (off + (i + 1)) with (off + i + zlen [b]) by (rewrite zlen_cons, zlen_nil; lia).
    rewrite <- splice_app by (rewrite ?zlen_cons, ?zlen_nil; lia). destruct w; reflexivity.
  - lia.
  - cbn [w_ctx set_ctx]. rewrite splice_zlen by (rewrite ?zlen_cons, ?zlen_nil; lia). lia.
Qed.

Definition hexref (d : dest) (n : nat) (acc : list Z) (us : stream) : M world (list Z * stream) :=
  let (bs, ok) := scan (firstn n us) in
  store_dest d (zlen acc) bs ;;;
  if ok then ret (acc ++ bs, skipn n us) else throw fileFormatException.

Lemma hex_follows (Hk : k = Hex) d : forall n acc us tot,
  room d tot -> zlen acc + Z.of_nat n <= tot -> follows (hexRead_loop h d n acc) us (hexref d n acc us).
Proof.
  induction n as [|n IH]; intros acc us tot Hr Hn w f Hw Hf.
  - cbn [hexRead_loop]. unfold hexref. cbn [firstn scan]. unfold bind. pose proof (zlen_nonneg acc).
    rewrite (store_nil d _ tot) by (auto; lia). cbn [ret skipn]. rewrite app_nil_r. split; [lia|]. split; [exact Hw|]. eauto.
  - cbn [hexRead_loop]. unfold bind. pose proof (zlen_nonneg acc).
    destruct Hf as (rest & Ht & Hu). rewrite Hk in Hu. cbn [units] in Hu.
    destruct (char_text rest w f Hw Ht) as (f1 & rest1 & -> & Ht1 & S1).
    destruct (significant rest) as [|hi [|lo t]] eqn:S0; cbn [hd_error tl] in *.
    + subst us. unfold hexref. cbn [pairs firstn scan]. unfold bind. rewrite (store_nil d _ tot) by (auto; lia).
      cbn [ret skipn]. rewrite app_nil_r. split; [lia|]. split; [exact Hw|]. exists f1. split; [reflexivity|]. exists rest1.
      split; [exact Ht1|]. rewrite Hk. cbn [units]. now rewrite S1.
    + subst us. unfold hexref. cbn [pairs firstn scan]. unfold bind. rewrite (store_nil d _ tot) by (auto; lia).
      cbn [ret skipn]. rewrite app_nil_r. split; [cbn; lia|]. split; [exact Hw|].
      destruct (char_text rest1 w f1 Hw Ht1) as (f2 & rest2 & -> & Ht2 & S2). rewrite S1 in S2. cbn in S2. rewrite S1.
      cbn [hd_error]. exists f2. split; [reflexivity|]. exists rest2. split; [exact Ht2|]. rewrite Hk. cbn [units]. now rewrite S2.
    + destruct (char_text rest1 w f1 Hw Ht1) as (f2 & rest2 & -> & Ht2 & S2). rewrite S1 in S2. cbn [tl] in S2.
      rewrite S1. cbn [hd_error]. cbn [pairs] in Hu. rewrite !nibble_hex. subst us. unfold hexref. cbn [firstn skipn].
      destruct (hex_value hi) as [x|], (hex_value lo) as [y|];
        [|cbn [scan]; unfold bind, throw; rewrite (store_nil d _ tot) by (auto; lia);
          (split; [now apply fail_throw|]); exists f2;
          (split; [reflexivity|]); exists (pairs (significant rest2)), rest2; (split; [exact Ht2|now rewrite Hk])..].
      cbn [scan]. specialize (IH (acc ++ [16 * x + y]) (pairs t) tot Hr).
      assert (Hn' : zlen (acc ++ [16 * x + y]) + Z.of_nat n <= tot) by (rewrite zlen_app, zlen_cons, zlen_nil; lia).
      specialize (IH Hn'). unfold hexref in IH. pose proof (scan_length (firstn n (pairs t))) as SL. rewrite firstn_length in SL.
      destruct (scan (firstn n (pairs t))) as [bs ok]. cbn [fst] in SL.
      destruct (store_ok d (zlen acc) [16 * x + y] tot w Hr Hw) as (c & Ec & Hc); [lia|rewrite zlen_cons, zlen_nil; lia|].
      specialize (IH (set_ctx w c) f2 Hc). 
      assert (Hf2 : at_ (pairs t) f2) by (exists rest2; split; [exact Ht2|rewrite Hk; cbn [units]; now rewrite S2]).
      specialize (IH Hf2).
      assert (Ew : store_dest d (zlen acc) [16 * x + y] (set_files w f2) = Ret tt (set_files (set_ctx w c) f2)).
      { rewrite indep_store, Ec. reflexivity. }
      unfold bind in *. rewrite Ew. rewrite (store_cons d _ _ _ tot) by (auto; unfold zlen in *; lia). unfold bind. rewrite Ec.
      rewrite zlen_app, zlen_cons, zlen_nil in IH. replace (zlen acc + (1 + 0)) with (zlen acc + 1) in IH by lia.
      destruct (store_dest d (zlen acc + 1) bs (set_ctx w c)) as [[] w3|w3|u]; [|exact IH|exact IH].
      destruct ok; [|exact IH]. cbn [ret] in *. rewrite <- app_assoc in IH. cbn [app length] in *.
      destruct IH as (L & R). split; [lia|exact R].
Qed.

Lemma read_follows d n us : room d (Z.of_nat n) -> follows (doRead k h d n) us (ref_read d n us).
Proof.
  intro Hr. assert (HB : k = Binary \/ k = Hex) by (destruct k; auto). destruct HB as [Hk|Hk].
  - intros w f Hw (rest & Ht & Hu). rewrite Hk in *. cbn [doRead units] in *. subst us. unfold ref_read, binaryRead.
    rewrite firstn_map', scan_some, skipn_map'. unfold bind at 1. unfold bind at 1.
    destruct (store_ok d 0 (firstn n rest) (Z.of_nat n) w Hr Hw) as (c & Ec & Hc); [lia|unfold zlen; rewrite firstn_length; lia|].
    rewrite Ec. cbn [ret]. split; [rewrite !map_length, skipn_length; lia|]. split; [exact Hc|].
    destruct (fread_text n rest w f Hw Ht) as (f1 & -> & H1). exists f1. split.
    + unfold bind. rewrite indep_store, Ec. reflexivity.
    + exists (skipn n rest). split; [exact H1|]. rewrite Hk. reflexivity.
  - rewrite Hk. cbn [doRead]. unfold hexRead. apply (hex_follows Hk d n [] us (Z.of_nat n) Hr). rewrite zlen_nil. lia.
Qed.

(** The reader functions. *)
Lemma signature_follows us : follows (validateDumpSignature k h) us (ref_signature us).
Proof.
  unfold validateDumpSignature, ref_signature. apply follows_bind; [apply read_follows; exact I|]. intros sig us1 _.
  cbv beta iota. destruct (negb _); [apply follows_throw_msg; reflexivity|]. destruct (bytes_eqb _ _); [apply follows_ret|].
  destruct (bytes_eqb _ _); [apply follows_ret|apply follows_throw_msg; reflexivity].
Qed.

Lemma flags_follows us : follows (readFlags k h) us (ref_flags us).
Proof.
  unfold readFlags, ref_flags. apply follows_bind; [apply read_follows; cbn; unfold OFF_FLAGS; lia|]. intros bs us1 _. cbn [fst snd].
  destruct (negb _); [apply follows_throw_msg; reflexivity|apply follows_ret].
Qed.

Lemma fine_ctx_put off bs w : fine w -> match ctx_put off bs w with Ret _ w' => fine w' | Exc w' => failed w' | Ub _ => True end.
Proof. clear HE N.
  intros (H1 & H2 & H3). unfold ctx_put. destruct (_ && _) eqn:Q; [|exact I]. split; [exact H1|]. cbn [w_ctx set_ctx w_code].
  rewrite splice_zlen by lia. auto.
Qed.

Lemma integer_follows v2 us : follows (readIntegerRegisters k h v2) us (ref_integer v2 us).
Proof.
  unfold readIntegerRegisters, ref_integer. cbv zeta. apply follows_indep.
  - destruct v2; [|apply indep_ret]. apply indep_bind; [apply indep_ctx_put|]. intro. apply indep_ctx_put.
  - intros w Hw. destruct v2; [|exact Hw]. unfold bind. pose proof (fine_ctx_put (OFF_R MSP) (le 4 DEFAULT_SP_VALUE) w Hw) as H.
    destruct (ctx_put _ _ w) as [u w1|w1|]; [|exact H|exact I]. apply fine_ctx_put. exact H.
  - intros _. apply follows_bind; [apply read_follows; destruct v2; cbn; unfold OFF_R; lia|]. intros bs us1 _. cbn [fst snd].
    destruct (negb _); [apply follows_throw_msg; reflexivity|]. apply follows_bind; [apply read_follows; cbn; unfold OFF_PSR; lia|].
    intros bs2 us2 _. cbn [fst snd]. destruct (negb _); [apply follows_throw_msg; reflexivity|apply follows_ret].
Qed.

Lemma fp_follows us : follows (readFloatingPointRegisters k h) us (ref_fp us).
Proof.
  unfold readFloatingPointRegisters, ref_fp. apply follows_indep.
  - intros w f. unfold ctx_word. cbn [w_ctx set_files]. destruct (_ && _); reflexivity.
  - intros w Hw. unfold ctx_word. destruct (_ && _); [exact Hw|exact I].
  - intro fl. destruct (_ =? _); [apply follows_ret|]. apply follows_bind; [apply read_follows; cbn; unfold OFF_FPR; lia|].
    intros bs us1 _. cbn [fst snd]. destruct (negb _); [apply follows_throw_msg; reflexivity|apply follows_ret].
Qed.

Lemma fine_write8 a v w : fine w -> match write8 a v w with Ret _ w' => fine w' | Exc w' => failed w' | Ub _ => True end.
Proof. clear HE N.
  intro Hw. unfold write8, writeN, bind. rewrite getDataPointer_eq. cbv zeta. destruct (find_from _ _ _ _) as [[j a']|]; [|now apply fail_throw].
  destruct (nth_error _ _); [|exact I]. destruct (_ && _); [now apply fail_throw|]. destruct (_ && _); [exact I|].
  destruct (scan_wps _ _ _ _ _ _) as [hh [|]]; [apply (fail_throw (set_hits (set_regions w (regions w)) hh)); [exact Hw|reflexivity]|]. destruct (_ <=? _); [|exact I].
  unfold store_ptr, bind, get_region. destruct (nth_error _ _); [|exact I]. destruct (_ && _); [exact Hw|exact I].
Qed.

Lemma fine_create b s w : fine w -> match MemorySim_CreateRegion b s w with Ret _ w' => fine w' | Exc w' => failed w' | Ub _ => True end.
Proof. clear HE N.
  intro Hw. rewrite CreateRegion_eq. cbv zeta. destruct (alloc_ok w 0 _); cbn [negb]; [|now apply fail_intro]. destruct (alloc_ok w 1 _); [|now apply fail_intro]. destruct Hw as (H1 & H2 & H3). repeat split; auto; cbn; lia.
Qed.

Lemma bytes_follows : forall us fuel a count,
  (length us + 1 < fuel)%nat -> follows (loadRegionBytes fuel k h a count) us (ref_bytes us a count).
Proof.
  induction us as [|u us IH]; intros fuel a count L; (destruct fuel as [|fuel]; [lia|]); cbn [loadRegionBytes].
  - intros w f Hw Hf. cbn [ref_bytes]. destruct (count <=? 0); [now apply follows_ret|].
    unfold bind. pose proof (read_follows Local 1 [] I w f Hw Hf) as H. unfold ref_read in H. cbn in H.
    destruct H as (_ & _ & f1 & -> & H1). cbn. split; [now apply fail_throw|]. exists f1. split; [reflexivity|]. eauto.
  - intros w f Hw Hf. cbn [ref_bytes]. destruct (count <=? 0); [now apply follows_ret|].
    pose proof (read_follows Local 1 (u :: us) I w f Hw Hf) as H. unfold ref_read in H. cbn [firstn scan skipn] in H.
    unfold bind. destruct u as [b|]; cbn in H.
    + destruct H as (_ & _ & f1 & -> & H1). rewrite indep_write8. pose proof (fine_write8 a b w Hw) as HF.
      destruct (write8 a b w) as [u w1|w1|u]; cbn [omap]; [|eauto|reflexivity].
      assert (L' : (length us + 1 < fuel)%nat) by (cbn in L; lia). specialize (IH fuel (W (a + 1)) (count - 1) L' w1 f1 HF H1).
      destruct (ref_bytes us (W (a + 1)) (count - 1) w1) as [[x us2] w2|w2|]; [|exact IH|exact IH].
      destruct IH as (L2 & IH). cbn [length]. split; [lia|exact IH].
    + destruct H as (_ & f1 & -> & H1). split; [now apply fail_throw|]. exists f1. split; [reflexivity|exact H1].
Qed.

Lemma region_follows us : follows (readNextMemoryRegion k h) us (ref_region us).
Proof.
  unfold readNextMemoryRegion, ref_region. apply follows_bind; [apply read_follows; exact I|]. intros bs us1 _. cbv beta iota.
  destruct (_ && _); [apply follows_throw_msg; reflexivity|]. destruct (Nat.eqb _ _); [apply follows_ret|]. destruct (negb _); [apply follows_throw_msg; reflexivity|].
  cbv zeta. set (start := of_le (firstn 4 bs)). set (end_ := of_le (skipn 4 bs)).
  assert (HB : follows (createAndLoadMemoryRegion k h start end_) us1
                 (MemorySim_CreateRegion start (W (end_ - start)) ;;; ref_bytes us1 start (W (end_ - start)))).
  { unfold createAndLoadMemoryRegion. cbv zeta. apply follows_indep; [apply indep_create|apply fine_create|]. intros _ w f Hw Hf.
    destruct Hf as (rest & Ht & Hu). unfold bind. destruct (get_text rest w f Ht) as (fl & -> & L).
    assert (Hf : at_ us1 f) by (exists rest; auto). apply bytes_follows; [|exact Hw|exact Hf]. apply at_length in Hf. lia. }
  intros w f Hw Hf. assert (Hw0 : fine (set_exn w noException [])) by (destruct Hw as (H1 & H2 & H3); exact (conj H1 (conj H2 (Z.le_refl 0)))).
  specialize (HB (set_exn w noException []) f Hw0 Hf).
  unfold bind, try0, try_, lift, setl, ret, getExceptionCode, throw_msg, throw. cbn [snd fst]. rewrite set_files_exn.
  unfold bind in HB. destruct (MemorySim_CreateRegion _ _ _) as [u0 w0|w0|u0].
  - destruct (ref_bytes _ _ _ w0) as [[u1 us2] w1|w1|u1].
    + destruct HB as (L & Hw1 & f1 & -> & H1). cbn [snd fst w_code set_files]. destruct (w_code w1 =? 0) eqn:Q.
      * split; [exact L|]. split; [exact Hw1|]. eauto.
      * split; [apply (fail_intro w1); [exact Hw1|cbn [w_code set_exn]; destruct Hw1 as (_ & _ & X); lia]|]. eexists. split; [reflexivity|eauto].
    + destruct HB as ((Hw1 & C1) & f1 & -> & H1). cbn [snd fst w_code set_files]. destruct (w_code w1 =? 0) eqn:Q; [lia|].
      split; [apply (fail_intro w1); [exact Hw1|cbn [w_code set_exn]; lia]|]. eexists. split; [reflexivity|exact H1].
    + now rewrite HB.
  - destruct HB as ((Hw1 & C1) & f1 & -> & H1). cbn [snd fst w_code set_files]. destruct (w_code w0 =? 0) eqn:Q; [lia|].
    split; [apply (fail_intro w0); [exact Hw1|cbn [w_code set_exn]; lia]|]. eexists. split; [reflexivity|exact H1].
  - now rewrite HB.
Qed.

Lemma regions_follows : forall n us fuel fuel',
  (length us < n)%nat -> (length us < fuel)%nat -> (length us < fuel')%nat -> follows (regionLoop fuel k h) us (ref_regions fuel' us).
Proof.
  induction n as [|n IH]; intros us fuel fuel' L0 L L'; [lia|]. destruct fuel as [|fuel]; [lia|]. destruct fuel' as [|fuel']; [lia|].
  cbn [regionLoop ref_regions]. intros w f Hw Hf. pose proof (region_follows us w f Hw Hf) as H. unfold bind.
  pose proof (region_consumes us w) as HC.
  destruct (ref_region us w) as [[[|] us1] w1|w1|u]; cbn [fst snd].
  - destruct H as (L1 & Hw1 & f1 & -> & H1). split; [exact L1|]. split; [exact Hw1|]. eauto.
  - destruct H as (L1 & Hw1 & f1 & -> & H1). specialize (HC _ _ eq_refl).
    assert (X : follows (regionLoop fuel k h) us1 (ref_regions fuel' us1)) by (apply IH; lia). specialize (X w1 f1 Hw1 H1).
    destruct (ref_regions fuel' us1 w1) as [[x us2] w2|w2|]; [|exact X|exact X]. destruct X as (L2 & X). split; [lia|exact X].
  - destruct H as (Hw1 & f1 & -> & H1). eauto.
  - now rewrite H.
Qed.

Lemma dump_follows us : follows (readDump k h) us (ref_dump us).
Proof.
  unfold readDump, ref_dump. apply follows_bind; [apply signature_follows|]. intros v2 us1 _. cbn [fst snd].
  apply follows_bind; [apply flags_follows|]. intros [] us2 _. cbn [fst snd].
  apply follows_bind; [apply integer_follows|]. intros [] us3 _. cbn [fst snd].
  apply follows_bind; [apply fp_follows|]. intros [] us4 _. cbn [fst snd].
  unfold readMemoryRegions. intros w f Hw Hf. pose proof (at_length us4 f Hf) as L. destruct Hf as (rest & Ht & Hu).
  unfold bind. destruct (get_text rest w f Ht) as (fl & -> & L').
  eapply regions_follows; [apply Nat.lt_succ_diag_r|lia|lia|exact Hw|]. exists rest. auto.
Qed.
End Follow.
