(** Start-up is total, and a failing start-up leaves nothing behind. *)
From Coq Require Import String ZArith List Bool Lia ZifyBool ZifyNat Permutation.
From Verif Require Import Base World Context MemSim Dump GdbLog Elf CmdLine BaseLemmas MemSpec Sat MemLemmas MemInv MemOps MemOps3 DumpSpec DumpLemmas DumpThms DumpSafe ElfSpec ElfThms ElfClean LogSpec LogThms CmdSpec Closed CmdThms.
Import ListNotations.
Open Scope Z_scope.
Open Scope m_scope.

(** ** Reading a whole file *)

Definition opened (w : world) (h : nat) (f : file) (F : list (nat * file)) : Prop := fs_open (w_files w) = (h, f) :: F.

Lemma files_files w f g : set_files (set_files w f) g = set_files w g.
Proof. reflexivity. Qed.

Definition some_fault (w : world) : Prop := exists k, e_io (w_env w) k <> IoOk.

Lemma size_run h data pos F w : opened w h (mkFile data pos) F ->
  match GetFileSize h w with
  | Ret n w' => n = zlen data /\ exists f', w' = set_files w f' /\ fs_open f' = (h, mkFile data 0) :: F /\ fs_opened f' = fs_opened (w_files w)
  | Exc w' => some_fault w /\ exists f' p m, w' = set_exn (set_files w f') (Z.max fileException (w_code w)) m /\ fs_open f' = (h, mkFile data p) :: F /\ fs_opened f' = fs_opened (w_files w)
  | Ub _ => False
  end.
Proof.
  unfold opened. intro H. unfold GetFileSize, fseek_end, ftell, fseek_start, bind, next_io, get_file, put_file, ret, throw, some_fault.
  cbn [w_files set_files fs_open fs_calls fs_opened fs_next w_env]. rewrite H. cbn [lookup_file]. rewrite Nat.eqb_refl.
  destruct (e_io (w_env w) (fs_calls (w_files w))) eqn:E1; cbn [negb w_files set_files fs_open fs_calls fs_opened fs_next w_env f_data f_pos].
  2:{ split; [exists (fs_calls (w_files w)); now rewrite E1|]. exists (mkFiles ((h, mkFile data pos) :: F) (fs_next (w_files w)) (S (fs_calls (w_files w))) (fs_opened (w_files w))), pos, (w_msg w). split; [reflexivity|]. split; reflexivity. }
  all: rewrite ?H; cbn [update_file]; rewrite Nat.eqb_refl; cbn [lookup_file]; rewrite Nat.eqb_refl;
    destruct (e_io (w_env w) (S (fs_calls (w_files w)))) eqn:E2; cbn [negb w_files set_files fs_open fs_calls fs_opened fs_next w_env f_data f_pos lookup_file update_file]; rewrite ?Nat.eqb_refl.
  2,5: split; [exists (S (fs_calls (w_files w))); now rewrite E2|]; exists (mkFiles ((h, mkFile data (length data)) :: F) (fs_next (w_files w)) (S (S (fs_calls (w_files w)))) (fs_opened (w_files w))), (length data), (w_msg w); split; [reflexivity|]; split; reflexivity.
  all: destruct (e_io (w_env w) (S (S (fs_calls (w_files w))))) eqn:E3; cbn [negb w_files set_files fs_open fs_calls fs_opened fs_next w_env f_data f_pos lookup_file update_file]; rewrite ?Nat.eqb_refl.
  2,5,8,11: split; [exists (S (S (fs_calls (w_files w)))); now rewrite E3|]; exists (mkFiles ((h, mkFile data (length data)) :: F) (fs_next (w_files w)) (S (S (S (fs_calls (w_files w))))) (fs_opened (w_files w))), (length data), (w_msg w); split; [reflexivity|]; split; reflexivity.
  all: split; [reflexivity|]; eexists; split; [reflexivity|]; split; reflexivity.
Qed.

Lemma read_run h data F w : opened w h (mkFile data 0) F -> exists bs f',
  fread h (Z.to_nat (zlen data)) w = Ret bs (set_files w f') /\ (exists p, fs_open f' = (h, mkFile data p) :: F) /\ fs_opened f' = fs_opened (w_files w) /\
  (bs = data \/ zlen bs <> zlen data /\ some_fault w).
Proof.
  unfold opened. intro H. unfold fread, bind, next_io, get_file, put_file, ret, some_fault.
  cbn [w_files set_files fs_open fs_calls fs_opened fs_next w_env]. rewrite H. cbn [lookup_file]. rewrite Nat.eqb_refl.
  cbn [w_files set_files fs_open fs_calls fs_opened fs_next w_env f_data f_pos update_file]. rewrite ?Nat.eqb_refl, ?H. cbn [update_file]. rewrite ?Nat.eqb_refl.
  eexists _, _. split; [reflexivity|]. split; [eexists; reflexivity|]. split; [reflexivity|]. cbn [skipn].
  replace (Z.to_nat (zlen data)) with (length data) by (unfold zlen; lia).
  destruct (e_io (w_env w) (fs_calls (w_files w))) eqn:E.
  - left. apply firstn_all.
  - destruct data as [|x data]; [left; reflexivity|right]. cbn [firstn]. split; [unfold zlen; cbn [length]; lia|]. exists (fs_calls (w_files w)). congruence.
  - destruct (Nat.le_gt_cases (length data) n) as [L|L].
    + left. rewrite Nat.min_r by exact L. apply firstn_all.
    + right. rewrite Nat.min_l by lia. split; [unfold zlen; rewrite firstn_length; lia|]. exists (fs_calls (w_files w)). congruence.
Qed.

Lemma close_run h f F w : opened w h f F -> exists f', fclose h w = Ret tt (set_files w f') /\ fs_open f' = F /\ fs_opened f' = fs_opened (w_files w).
Proof.
  unfold opened. intro H. unfold fclose, bind, get_file. rewrite H. cbn [lookup_file]. rewrite Nat.eqb_refl. rewrite H. cbn [remove_file]. rewrite Nat.eqb_refl.
  eexists. split; [reflexivity|]. split; reflexivity.
Qed.

Lemma open_run name w :
  (exists data f', file_is w name data /\ fopen name w = Ret (Some (fs_next (w_files w))) (set_files w f') /\
     fs_open f' = (fs_next (w_files w), mkFile data 0) :: fs_open (w_files w) /\ fs_opened f' = name :: fs_opened (w_files w)) \/
  (cannot_open w name /\ exists f', fopen name w = Ret None (set_files w f') /\ fs_open f' = fs_open (w_files w) /\ fs_opened f' = name :: fs_opened (w_files w)).
Proof.
  unfold fopen, bind, next_io, file_is, cannot_open. cbn [w_files set_files fs_open fs_calls fs_opened fs_next w_env].
  destruct (e_fs (w_env w) name) as [data|].
  - destruct (e_io (w_env w) _) eqn:E.
    + left. eexists _, _. split; [reflexivity|]. split; [reflexivity|]. split; reflexivity.
    + right. split; [now right|]. eexists. split; [reflexivity|]. split; reflexivity.
    + left. eexists _, _. split; [reflexivity|]. split; [reflexivity|]. split; reflexivity.
  - right. split; [now left|]. destruct (e_io (w_env w) _); (eexists; split; [reflexivity|]; split; reflexivity).
Qed.

(** Only files, heap and exception differ; the file table is as before. *)
Definition quiet (w w' : world) : Prop :=
  w_mem w' = w_mem w /\ w_ctx w' = w_ctx w /\ rest_same w w' /\ fs_open (w_files w') = fs_open (w_files w).

Lemma data_safe name R w : Inv R w ->
  match loadFileData name w with
  | Ret (b, data) w' => file_is w name data /\ Inv (b :: R) w' /\ quiet w w' /\ w_code w' = 0 /\ fs_opened (w_files w') = name :: fs_opened (w_files w) /\ refusals w w' = 0
  | Exc w' => Inv R w' /\ quiet w w' /\ fs_opened (w_files w') = name :: fs_opened (w_files w) /\
      (w_code w' = fileException /\ (cannot_open w name \/ some_fault w) \/ w_code w' = outOfMemoryException /\ refusals w w' = 1)
  | Ub _ => False
  end.
Proof.
  intros [Hwf Hh]. unfold loadFileData, bind at 1, try_. set (w0 := set_exn w noException []).
  unfold bind at 1, lift at 1. cbn [fst snd].
  destruct (open_run name w0) as [(data & f0 & HF & -> & O0 & P0)|(HN & f0 & -> & O0 & P0)].
  2:{ unfold lift at 1. cbn [fst snd]. destruct (throws_msg (A := unit) fileException (s2b "Failed to open """ ++ name ++ s2b """.") (set_files w0 f0)) as (m & ->).
      cbn [fst snd w_code set_exn]. change (w_code (set_files w0 f0)) with 0. change (Z.max fileException 0 =? 0) with false. cbv iota.
      unfold bind, free_opt, ret, rethrow, throw. cbn [l_buf l_file w_code w_msg set_exn].
      split; [split; [exact Hwf|exact Hh]|]. split; [split; [reflexivity|split; [reflexivity|split; [repeat split|exact O0]]]|]. split; [exact P0|].
      left. split; [reflexivity|]. left. exact HN. }
  unfold bind at 1, setl at 1. cbn [fst snd]. unfold bind at 1, lift at 1. cbn [fst snd]. set (h := fs_next (w_files w0)) in *.
  unfold try_msg at 1, bind at 1, try_ at 1, bind at 1, lift at 1. cbn [fst snd].
  change (set_exn (set_files w0 f0) noException []) with (set_files w0 f0).
  pose proof (size_run h data 0 (fs_open (w_files w)) (set_files w0 f0)) as PS. unfold opened in PS. cbn [w_files set_files] in PS. specialize (PS O0).
  destruct (GetFileSize h (set_files w0 f0)) as [n w1|w1|]; [| |destruct PS].
  2:{ destruct PS as (SF & f1 & p & m & -> & O1 & P1). cbn [fst snd w_code set_exn set_files]. change (w_code w0) with 0. change (Z.max fileException 0 =? 0) with false. cbv iota.
      unfold bind at 1, getExceptionCode at 1. cbn [w_code set_exn].
      set (wx := set_exn _ (Z.max fileException 0) m).
      destruct (throws_msg (A := Z) (Z.max fileException 0) (s2b "Failed to get file size of """ ++ name ++ s2b """.") wx) as (m' & ->). unfold wx.
      cbn [fst snd w_code set_exn]. rewrite Z.max_id. change (Z.max fileException 0 =? 0) with false. cbv iota. cbn [l_buf l_file free_opt].
      unfold bind at 1, ret at 1. unfold bind at 1.
      destruct (close_run h (mkFile data p) (fs_open (w_files w)) (set_exn (set_exn (set_files (set_files w0 f0) f1) (Z.max fileException 0) m) (Z.max fileException 0) m')) as (f2 & -> & O2 & P2); [exact O1|].
      unfold rethrow, throw. cbn [w_code set_exn set_files w_msg].
      split; [split; [exact Hwf|exact Hh]|]. split; [split; [reflexivity|split; [reflexivity|split; [repeat split|exact O2]]]|]. split; [cbn [w_files set_exn set_files]; rewrite P2; cbn [w_files set_exn set_files]; rewrite P1; exact P0|].
      left. split; [reflexivity|]. right. exact SF. }
  destruct PS as (-> & f1 & -> & O1 & P1). unfold setl at 1. cbn [fst snd]. change (w_code (set_files (set_files w0 f0) f1)) with 0. cbn [Z.eqb]. unfold ret at 1. rewrite files_files.
  unfold bind at 1, lift at 1. cbn [fst snd]. unfold malloc. cbn [w_env w_heap set_files].
  destruct (e_malloc (w_env w0) (h_calls (w_heap w0)) (zlen data)) eqn:EM.
  2:{ unfold lift at 1. cbn [fst snd]. set (wx := set_heap _ _).
      destruct (throws_msg (A := unit) outOfMemoryException (s2b "Failed to allocate " ++ fmtu (zlen data) ++ s2b " bytes for reading """ ++ name ++ s2b """.") wx) as (m & ->). unfold wx.
      cbn [fst snd w_code set_exn]. match goal with |- context[w_code (set_heap ?a ?b)] => change (w_code (set_heap a b)) with 0 end.
      change (Z.max outOfMemoryException 0 =? 0) with false. cbv iota. cbn [l_buf l_file free_opt]. unfold bind at 1, ret at 1. unfold bind at 1.
      match goal with |- context[fclose h ?v] => destruct (close_run h (mkFile data 0) (fs_open (w_files w)) v) as (f2 & -> & O2 & P2); [exact O1|] end.
      unfold rethrow, throw. cbn [w_code set_exn set_files w_msg].
      split; [split; [exact Hwf|]|]. { cbn [w_heap w_mem set_heap set_files set_exn]. eapply hp_calls; [exact Hh|reflexivity|]. cbn. lia. }
      split; [split; [reflexivity|split; [reflexivity|split; [repeat split|exact O2]]]|]. split; [cbn [w_files set_exn set_files set_heap] in *; rewrite P2, P1; exact P0|].
      right. split; [reflexivity|]. unfold refusals; try unfold wb; unfold w0; cbn [w_heap set_heap set_files set_exn h_calls h_next]; lia. }
  unfold bind at 1, setl at 1. cbn [fst snd]. unfold bind at 1, lift at 1. cbn [fst snd].
  match goal with |- context[fread h ?n ?v] => destruct (read_run h data (fs_open (w_files w)) v O1) as (bs & f2 & -> & (p & O2) & P2 & HB) end.
  cbn [fst snd]. set (wb := set_files (set_heap (set_files w0 f1) _) f2).
  assert (HH : hp (w_heap wb) (h_next (w_heap w) :: blocks (w_mem w) ++ R)) by (apply hp_malloc; exact Hh).
  destruct HB as [->|[HB SF]].
  - rewrite Z.eqb_refl. cbn [negb]. unfold bind at 1, setl at 1. cbn [fst snd]. unfold lift at 1. cbn [fst snd].
    destruct (close_run h (mkFile data p) (fs_open (w_files w)) wb O2) as (f3 & -> & O3 & P3). cbn [fst snd].
    change (w_code (set_files wb f3)) with 0. cbn [Z.eqb l_buf l_data]. unfold ret.
    split; [exact HF|]. split; [split; [exact Hwf|]|]. { cbn [w_heap set_files]. eapply hp_perm; [exact HH|]. apply (Permutation_middle (blocks (w_mem w)) R). }
    split; [split; [reflexivity|split; [reflexivity|split; [repeat split|exact O3]]]|]. split; [reflexivity|]. split; [unfold wb in *; cbn [w_files set_exn set_files set_heap] in *; rewrite P3, P2, P1; exact P0|].
    unfold refusals; try unfold wb; unfold w0; cbn [w_heap set_heap set_files set_exn h_calls h_next]; lia.
  - replace (zlen bs =? zlen data) with false by lia. cbn [negb]. unfold lift at 1. cbn [fst snd].
    destruct (throws_msg (A := unit) fileException (s2b "Failed to read """ ++ name ++ s2b """.") wb) as (m & ->).
    cbn [fst snd w_code set_exn]. change (w_code wb) with 0. change (Z.max fileException 0 =? 0) with false. cbv iota. cbn [l_buf l_file free_opt].
    set (wy := set_exn wb (Z.max fileException 0) m). unfold bind at 1.
    destruct (free_hp (h_next (w_heap w)) (blocks (w_mem w) ++ R) wy HH) as (h3 & E3 & H3 & N3 & C3). change (w_heap w0) with (w_heap w). rewrite E3.
    unfold bind at 1. match goal with |- context[fclose h ?v] => destruct (close_run h (mkFile data p) (fs_open (w_files w)) v O2) as (f3 & -> & O3 & P3) end.
    unfold rethrow, throw. cbn [w_code set_exn set_files w_msg set_heap].
    split; [split; [exact Hwf|exact H3]|].
    split; [split; [reflexivity|split; [reflexivity|split; [repeat split|exact O3]]]|]. split; [unfold wy, wb in *; cbn [w_files set_exn set_files set_heap] in *; rewrite P3, P2, P1; exact P0|].
    left. split; [reflexivity|]. right. exact SF.
Qed.

(** ** The image *)

Lemma rethrow_eq A w : (rethrow : M world A) w = Exc w.
Proof. unfold rethrow, throw. rewrite Z.max_id. destruct w; reflexivity. Qed.

Lemma data_clear name w : loadFileData name (set_exn w noException []) = loadFileData name w.
Proof. reflexivity. Qed.

Definition load_with (X : list Z -> M world unit) (name : list Z) : M world unit :=
  try_ None
    ((d <- lift (loadFileData name);;
      setl (Some (fst d)) ;;;
      lift (X (snd d))) ;;;
     b <- getl;;
     lift (free_opt b))
    (fun b => free_opt b ;;; rethrow) ;;;
  ret tt.

Lemma image_elf c f : cl_elf c = Some f -> loadImageFile c = load_with ElfLoad_FromMemory f.
Proof. intro H. unfold loadImageFile. rewrite H. reflexivity. Qed.
Lemma image_bin c f : cl_elf c = None -> cl_bin c = Some f -> loadImageFile c = load_with (loadBinFile (cl_base c)) f.
Proof. intros H1 H2. unfold loadImageFile. rewrite H1, H2. reflexivity. Qed.

Lemma Inv_free b R w : Inv (b :: R) w -> exists h', free b w = Ret tt (set_heap w h') /\ Inv R (set_heap w h') /\ h_next h' = h_next (w_heap w) /\ h_calls h' = h_calls (w_heap w).
Proof.
  intros [H1 H2]. destruct (free_hp b (blocks (w_mem w) ++ R) w) as (h' & E & H & N & C).
  - eapply hp_perm; [exact H2|]. symmetry. apply Permutation_middle.
  - exists h'. split; [exact E|]. split; [split; [exact H1|exact H]|auto].
Qed.

Lemma load_with_run X name w : load_with X name w =
  match loadFileData name w with
  | Ret (b, data) w1 =>
      match X data w1 with
      | Ret _ w2 => match free b w2 with
                    | Ret _ w3 => if w_code w3 =? 0 then Ret tt w3 else (free b ;;; rethrow) w3
                    | Exc w3 => if w_code w3 =? 0 then Ret tt w3 else (free b ;;; rethrow) w3
                    | Ub u => Ub u
                    end
      | Exc w2 => if w_code w2 =? 0 then Ret tt w2 else (free b ;;; rethrow) w2
      | Ub u => Ub u
      end
  | Exc w1 => if w_code w1 =? 0 then Ret tt w1 else Exc w1
  | Ub u => Ub u
  end.
Proof.
  unfold load_with. unfold bind at 1, try_. unfold bind at 1. unfold bind at 1. unfold lift at 1. cbn [fst snd]. rewrite data_clear.
  destruct (loadFileData name w) as [[b data] w1|w1|]; [| |reflexivity].
  - cbn [fst snd]. unfold bind at 1, setl at 1. cbn [fst snd]. unfold lift at 1. cbn [fst snd]. destruct (X data w1) as [[] w2|w2|]; [| |reflexivity].
    + unfold bind at 1, getl at 1. cbn [fst snd]. unfold lift at 1. cbn [fst snd free_opt]. destruct (free b w2) as [[] w3|w3|]; [| |reflexivity]; cbn [fst snd];
        (destruct (w_code w3 =? 0); [reflexivity|]); unfold bind; cbn [free_opt]; (destruct (free b w3); [now rewrite !rethrow_eq|reflexivity|reflexivity]).
    + cbn [fst snd]. destruct (w_code w2 =? 0); [reflexivity|]. cbn [free_opt]. unfold bind. destruct (free b w2); [now rewrite !rethrow_eq|reflexivity|reflexivity].
  - cbn [fst snd]. destruct (w_code w1 =? 0); [reflexivity|]. cbn [free_opt]. unfold bind, ret. now rewrite rethrow_eq.
Qed.

(** What [load_with] does when the loader behaves. *)
Lemma load_with_eq X name R w :
  Inv R w ->
  (forall b data w1, file_is w name data -> Inv (b :: R) w1 -> w_mem w1 = w_mem w -> w_ctx w1 = w_ctx w -> rest_same w w1 -> w_code w1 = 0 ->
     match X data w1 with
     | Ret _ w2 => Inv (b :: R) w2 /\ w_code w2 = 0
     | Exc w2 => Inv (b :: R) w2 /\ w_code w2 <> 0
     | Ub _ => False
     end) ->
  match loadFileData name w with
  | Ret (b, data) w1 =>
      match X data w1 with
      | Ret _ w2 => exists h', load_with X name w = Ret tt (set_heap w2 h') /\ Inv R (set_heap w2 h') /\ h_next h' = h_next (w_heap w2) /\ h_calls h' = h_calls (w_heap w2)
      | Exc w2 => exists h', load_with X name w = Exc (set_heap w2 h') /\ Inv R (set_heap w2 h') /\ h_next h' = h_next (w_heap w2) /\ h_calls h' = h_calls (w_heap w2)
      | Ub _ => False
      end
  | Exc w1 => load_with X name w = Exc w1
  | Ub _ => False
  end.
Proof.
  intros HI HX. rewrite load_with_run. pose proof (data_safe name R w HI) as P. destruct (loadFileData name w) as [[b data] w1|w1|]; [| |exact P].
  2:{ destruct P as (_ & _ & _ & C). destruct (w_code w1 =? 0) eqn:Q; [destruct C as [(C & _)|(C & _)]; rewrite C in Q; discriminate|reflexivity]. }
  destruct P as (HF & I1 & (M1 & X1 & R1 & _) & C1 & _). specialize (HX b data w1 HF I1 M1 X1 R1 C1). destruct (X data w1) as [[] w2|w2|]; [| |exact HX].
  - destruct HX as (I2 & C2). destruct (Inv_free _ _ _ I2) as (h' & -> & I3 & N). cbn [w_code set_heap]. rewrite C2. cbn [Z.eqb]. eauto.
  - destruct HX as (I2 & C2). replace (w_code w2 =? 0) with false by lia. unfold bind.
    destruct (Inv_free _ _ _ I2) as (h' & -> & I3 & N). rewrite rethrow_eq. eauto.
Qed.

(** The codes that start-up raises. *)
Definition init_code (c : Z) : Prop :=
  c = fileException \/ c = outOfMemoryException \/ c = busErrorException \/ c = elfFormatException \/ c = fileFormatException \/ c = stackOverflowException.
Lemma init_code_nonzero c : init_code c -> c <> 0 /\ c <> invalidArgumentException.
Proof. unfold init_code. intros [->|[->|[->|[->|[->| ->]]]]]; split; discriminate. Qed.
Lemma elf_init c : elf_code c -> init_code c.
Proof. unfold elf_code, init_code. tauto. Qed.

Lemma bin_safe base data R w : Inv R w -> regions w = [] -> u32 base -> Forall byte data ->
  match loadBinFile base data w with
  | Ret _ w' => Inv R w' /\ frame w w' /\ w_code w' = 0
  | Exc w' => Inv R w' /\ frame w w' /\ elf_code (w_code w')
  | Ub _ => False
  end.
Proof.
  intros HI HR HU HB. unfold loadBinFile. rewrite try0_eq. set (w0 := set_exn w noException []).
  change (MemorySim_CreateRegion base (W (zlen data));;; MemorySim_LoadFromFlashImage base data (W (zlen data));;; MemorySim_MakeRegionReadOnly base) with (rom_region base data (W (zlen data))).
  assert (I0 : Inv R w0) by now apply Inv_exn. pose proof (W_range (zlen data)) as WR.
  assert (WL : W (zlen data) <= zlen data) by (unfold W, zlen; lia).
  assert (NC : forall r, In r (regions w0) -> ~ covers r base 1) by (change (regions w0) with (regions w); rewrite HR; contradiction).
  pose proof (rom_clean R w0 base data (W (zlen data)) I0 HU WR HB WL NC) as P. unfold post in P.
  destruct (rom_region base data (W (zlen data)) w0) as [[] w1|w1|]; [| |exact P].
  - destruct P as (I1 & F1 & C1 & _). rewrite C1. cbn [Z.eqb]. split; [exact I1|]. split; [exact F1|exact C1].
  - destruct P as (I1 & F1 & C1). destruct (init_code_nonzero _ (elf_init _ C1)) as [NZ _]. replace (w_code w1 =? 0) with false by lia.
    unfold bind, getExceptionCode. match goal with |- context[throw_msg ?c ?m w1] => destruct (throws_msg (A := unit) c m w1) as (m' & ->) end.
    cbn [w_code set_exn]. rewrite Z.max_id. split; [now apply Inv_exn|]. split; [exact F1|exact C1].
Qed.

Lemma strtou32_u32 b : u32 (strtou32 b).
Proof. unfold strtou32. apply W_range. Qed.

(** Memory, registers and the rest of the world under a loading step. *)
Definition step_ok (R : list nat) (w w' : world) : Prop :=
  Inv R w' /\ rest_same w w' /\ fs_open (w_files w') = fs_open (w_files w).

Lemma image_safe os f R w : Inv R w -> regions w = [] -> files_fine w os -> uses_image os f ->
  match loadImageFile (settings os) w with
  | Ret _ w' => step_ok R w w' /\ w_ctx w' = w_ctx w /\ w_code w' = 0
  | Exc w' => step_ok R w w' /\ w_ctx w' = w_ctx w /\ init_code (w_code w')
  | Ub _ => False
  end.
Proof.
  intros HI HR [FB FE] HU.
  assert (K : forall X, (forall b data w1, file_is w f data -> Inv (b :: R) w1 -> regions w1 = [] -> 
                 match X data w1 with
                 | Ret _ w2 => Inv (b :: R) w2 /\ frame w1 w2 /\ w_code w2 = 0
                 | Exc w2 => Inv (b :: R) w2 /\ frame w1 w2 /\ elf_code (w_code w2)
                 | Ub _ => False
                 end) ->
          match load_with X f w with
          | Ret _ w' => step_ok R w w' /\ w_ctx w' = w_ctx w /\ w_code w' = 0
          | Exc w' => step_ok R w w' /\ w_ctx w' = w_ctx w /\ init_code (w_code w')
          | Ub _ => False
          end).
  { intros X HX.
    assert (HX' : forall b data w1, file_is w f data -> Inv (b :: R) w1 -> w_mem w1 = w_mem w -> w_ctx w1 = w_ctx w -> rest_same w w1 -> w_code w1 = 0 ->
       match X data w1 with Ret _ w2 => Inv (b :: R) w2 /\ w_code w2 = 0 | Exc w2 => Inv (b :: R) w2 /\ w_code w2 <> 0 | Ub _ => False end).
    { intros b data w1 HF I1 M1 _ _ _. assert (R1 : regions w1 = []) by (now rewrite M1). specialize (HX b data w1 HF I1 R1).
      destruct (X data w1); try tauto. destruct HX as (A & _ & B). split; [exact A|]. apply init_code_nonzero, elf_init, B. }
    pose proof (load_with_eq X f R w HI HX') as P. pose proof (data_safe f R w HI) as D. destruct (loadFileData f w) as [[b data] w1|w1|]; [| |destruct P].
    - destruct D as (HF & I1 & (M1 & X1 & S1 & O1) & C1 & _). assert (R1 : regions w1 = []) by (now rewrite M1). specialize (HX b data w1 HF I1 R1).
      destruct (X data w1) as [[] w2|w2|]; [| |destruct P]; destruct P as (h' & -> & I3 & _); destruct HX as (_ & F2 & C2);
        (split; [split; [exact I3|]; split; [eapply rest_trans; [exact S1|]; apply (frame_rest w1 w2 F2)|]|split]; [|destruct F2 as (_ & F2 & _); cbn [w_ctx set_heap]; congruence|]).
      + destruct F2 as (F2 & _). cbn [w_files set_heap]. rewrite F2. exact O1.
      + exact C2.
      + destruct F2 as (F2 & _). cbn [w_files set_heap]. rewrite F2. exact O1.
      + apply elf_init, C2.
    - rewrite P. destruct D as (I1 & (M1 & X1 & S1 & O1) & _ & C). split; [split; [exact I1|split; [exact S1|exact O1]]|]. split; [exact X1|].
      unfold init_code. destruct C as [(-> & _)|(-> & _)]; auto. }
  destruct (image_cases os f HU) as [(U & E)|(a & U & E1 & E2 & E3)].
  - rewrite (image_elf _ _ E). apply K. intros b data w1 HF I1 R1. destruct (FE f data U HF) as (Z1 & Z2 & Z3).
    apply (elf_clean (b :: R) data w1 I1 R1 (FB _ _ HF) Z1 Z2 Z3).
  - rewrite (image_bin _ _ E1 E2), E3. apply K. intros b data w1 HF I1 R1. apply (bin_safe _ data (b :: R) w1 I1 R1 (strtou32_u32 a) (FB _ _ HF)).
Qed.

(** ** The dump *)

Lemma type_run name w :
  (exists data t f', file_is w name data /\ getFileType name w = Ret t (set_files w f') /\ fs_open f' = fs_open (w_files w) /\ fs_opened f' = name :: fs_opened (w_files w) /\
     (no_io_faults w -> (t = CRASH_CATCHER_BIN /\ looks_binary data) \/ (t = CRASH_CATCHER_HEX /\ looks_hex data) \/ (t = GDB_LOG /\ ~ looks_binary data /\ ~ looks_hex data))) \/
  (cannot_open w name /\ exists f' m, getFileType name w = Exc (set_exn (set_files w f') (Z.max fileException (w_code w)) m) /\ fs_open f' = fs_open (w_files w) /\ fs_opened f' = name :: fs_opened (w_files w)).
Proof.
  remember (getFileType name w) as o eqn:Eo. unfold getFileType, bind at 1 in Eo. destruct (open_run name w) as [(data & f0 & HF & E0 & O0 & P0)|(HN & f0 & E0 & O0 & P0)]; rewrite E0 in Eo.
  2:{ right. split; [exact HN|]. subst o. destruct (throws_msg (A := dump_type) fileException (s2b "Failed to open """ ++ name ++ s2b """.") (set_files w f0)) as (m & ->).
      exists f0, m. auto. }
  left. set (h := fs_next (w_files w)) in *. unfold bind at 1 in Eo.
  assert (RD : exists bs f1 p, fread h 4 (set_files w f0) = Ret bs (set_files w f1) /\ fs_open f1 = (h, mkFile data p) :: fs_open (w_files w) /\ fs_opened f1 = name :: fs_opened (w_files w) /\
                               (no_io_faults w -> bs = firstn 4 data)).
  { unfold fread, bind, next_io, get_file, put_file, ret. cbn [w_files set_files fs_open fs_calls fs_opened fs_next w_env]. rewrite O0. cbn [lookup_file]. rewrite Nat.eqb_refl.
    cbn [w_files set_files fs_open fs_calls fs_opened fs_next w_env f_data f_pos]. rewrite ?O0. cbn [update_file]. rewrite Nat.eqb_refl.
    eexists _, _, _. split; [reflexivity|]. split; [reflexivity|]. split; [exact P0|]. intro NF. rewrite (NF _). reflexivity. }
  destruct RD as (bs & f1 & p & E1 & O1 & P1 & HB). rewrite E1 in Eo. unfold bind at 1 in Eo. destruct (close_run h (mkFile data p) (fs_open (w_files w)) (set_files w f1) O1) as (f2 & E2 & O2 & P2).
  rewrite E2 in Eo. cbv zeta in Eo. rewrite files_files in Eo. subst o.
  exists data.
  assert (B : no_io_faults w -> (hasBinaryCrashCatcherSignature (firstn 4 (bs ++ [0; 0; 0; 0])) = true <-> looks_binary data)).
  { intro NF. rewrite (HB NF). unfold hasBinaryCrashCatcherSignature, looks_binary, starts_with. rewrite bytes_eqb_spec. change (s2b "cC") with [99; 67]. change [SIGNATURE_BYTE0; SIGNATURE_BYTE1] with [99; 67].
    destruct data as [|a [|b [|c [|d data]]]]; cbn [firstn app]; (split; [intro E; try discriminate; injection E as -> ->; eexists; reflexivity|intros (r & E); try discriminate; injection E as -> -> _; reflexivity]). }
  assert (X : no_io_faults w -> (hasHexCrashCatcherSignature (firstn 4 (bs ++ [0; 0; 0; 0])) = true <-> looks_hex data)).
  { intro NF. rewrite (HB NF). unfold hasHexCrashCatcherSignature, looks_hex, starts_with. rewrite bytes_eqb_spec. change (s2b "6343") with [54; 51; 52; 51].
    match goal with |- context[_ = ?l <-> _] => change l with [54; 51; 52; 51] end.
    destruct data as [|a [|b [|c [|d data]]]]; cbn [firstn app]; (split; [intro E; try discriminate; injection E as -> -> -> ->; eexists; reflexivity|intros (r & E); try discriminate; injection E as -> -> -> -> _; reflexivity]). }
  destruct (hasBinaryCrashCatcherSignature _) eqn:EB; [|destruct (hasHexCrashCatcherSignature _) eqn:EH].
  - exists CRASH_CATCHER_BIN, f2. split; [exact HF|]. split; [reflexivity|]. split; [exact O2|]. split; [cbn [w_files set_files] in P2; congruence|]. intro NF. left. split; [reflexivity|]. now apply B.
  - exists CRASH_CATCHER_HEX, f2. split; [exact HF|]. split; [reflexivity|]. split; [exact O2|]. split; [cbn [w_files set_files] in P2; congruence|]. intro NF. right. left. split; [reflexivity|]. now apply X.
  - exists GDB_LOG, f2. split; [exact HF|]. split; [reflexivity|]. split; [exact O2|]. split; [cbn [w_files set_files] in P2; congruence|]. intro NF. right. right. split; [reflexivity|].
    split; intro L; [apply B in L|apply X in L]; auto; discriminate.
Qed.

Lemma read_clear k name w : CrashCatcherDump_Read k name (set_exn w noException []) = CrashCatcherDump_Read k name w.
Proof. reflexivity. Qed.
Lemma log_clear name w : GdbLogParse name (set_exn w noException []) = GdbLogParse name w.
Proof. reflexivity. Qed.

Lemma Inv_files R w f : Inv R w -> Inv R (set_files w f).
Proof. intro H. destruct w; exact H. Qed.

Lemma dump_safe os f R w : Inv R w -> ctx_sane w -> w_code w = 0 -> (forall f data, file_is w f data -> Forall byte data) -> uses_dump os f ->
  match loadDumpFile (settings os) w with
  | Ret _ w' => step_ok R w w' /\ ctx_sane w' /\ w_code w' = 0
  | Exc w' => step_ok R w w' /\ init_code (w_code w')
  | Ub _ => False
  end.
Proof.
  intros HI HC H0 HB HU. unfold loadDumpFile. rewrite (set_dump _ _ HU). unfold bind.
  destruct (type_run f w) as [(data & t & f' & HF & -> & O & _)|(_ & f' & m & -> & O & _)].
  2:{ split; [split; [now apply Inv_exn, Inv_files|]; split; [repeat split|exact O]|]. cbn [w_code set_exn]. rewrite H0. now left. }
  assert (I1 : Inv R (set_files w f')) by now apply Inv_files.
  assert (RD : forall k, match CrashCatcherDump_Read k f (set_files w f') with
                         | Ret _ w' => step_ok R w w' /\ ctx_sane w' /\ w_code w' = 0
                         | Exc w' => step_ok R w w' /\ init_code (w_code w')
                         | Ub _ => False
                         end).
  { intro k. pose proof (read_safe k f (set_files w f') R I1 HC (HB f)) as P. unfold api in P. rewrite read_clear in P.
    destruct (CrashCatcherDump_Read k f (set_files w f')) as [[] w1|w1|]; [| |exact P]; destruct P as (P1 & P2 & P3 & P4 & P5).
    - split; [split; [exact P1|]; split; [exact P3|]; rewrite P5; exact O|]. auto.
    - split; [split; [exact P1|]; split; [exact P3|]; rewrite P5; exact O|]. unfold dump_errors, raised in P4. unfold init_code. tauto. }
  destruct t; [|apply RD|apply RD].
  pose proof (log_safe f (set_files w f') R I1 HC) as P. unfold api in P. rewrite log_clear in P.
  destruct (GdbLogParse f (set_files w f')) as [[] w1|w1|]; [| |exact P]; destruct P as (P1 & P2 & P3 & P4 & P5).
  - split; [split; [exact P1|]; split; [exact P3|]; rewrite P4; exact O|]. auto.
  - split; [split; [exact P1|]; split; [exact P3|]; rewrite P5; exact O|]. unfold log_code in P4. unfold init_code. tauto.
Qed.

(** ** Aliases *)

(** The blocks are accounted for, and aliases refer to regions. *)
Definition winv (R : list nat) (w : world) : Prop :=
  hp (w_heap w) (blocks (w_mem w) ++ R) /\ forall r j, In r (regions w) -> r_redir r = Some j -> (j < length (regions w))%nat.

Lemma Inv_winv R w : Inv R w -> winv R w.
Proof.
  intros [Hwf Hh]. split; [exact Hh|]. intros r j Hr Hj. destruct (In_nth_error _ _ Hr) as (i & Hi).
  destruct (wr_redir _ _ _ (Hwf i r Hi) j Hj) as (t & Ht & _). apply nth_error_Some. congruence.
Qed.

Lemma find_range rs a n j a' : forall s, find_from s rs a n = Some (j, a') ->
  (exists r, In r rs /\ r_redir r = Some j) \/ (s <= j < s + length rs)%nat.
Proof.
  induction rs as [|r rs IH]; intros s H; cbn [find_from] in H; [discriminate|]. destruct (hit r a n).
  - destruct (r_redir r) as [i|] eqn:E; injection H as <- <-; [left; exists r; split; [now left|exact E]|right; cbn [length]; lia].
  - apply IH in H as [(x & Hx & E)|H]; [left; exists x; split; [now right|exact E]|right; cbn [length]; lia].
Qed.

Lemma alias_safe R w base redirect size : winv R w ->
  match MemorySim_CreateAlias base redirect size w with
  | Ret _ w' => winv R w' /\ frame w w' /\ w_code w' = 0
  | Exc w' => winv R w' /\ frame w w' /\ (w_code w' = busErrorException \/ w_code w' = outOfMemoryException)
  | Ub _ => False
  end.
Proof.
  intros [Hh Hr]. rewrite CreateAlias_eq. cbv zeta. destruct (alloc_ok w 0 SIZEOF_REGION); cbn [negb].
  2:{ split; [split; [|exact Hr]|]. { eapply hp_calls; [exact Hh|reflexivity|]. cbn. lia. } split; [repeat split|now right]. }
  destruct (find_from 0 (regions w) redirect 1) as [[j a']|] eqn:F.
  2:{ split; [split; [|exact Hr]|]. { eapply hp_calls; [exact Hh|reflexivity|]. cbn. lia. } split; [repeat split|now left]. }
  assert (L : (j < length (regions w))%nat).
  { apply find_range in F as [(r & H1 & H2)|H]; [now apply (Hr r)|lia]. }
  destruct (nth_error (regions w) j) as [t|] eqn:N; [|apply nth_error_None in N; lia].
  destruct (alloc_ok w 1 size); cbn [negb].
  2:{ split; [split; [|exact Hr]|]. { eapply hp_calls; [exact Hh|reflexivity|]. cbn. lia. } split; [repeat split|now right]. }
  split; [split|split; [repeat split|reflexivity]].
  - destr_world w. cbn in Hh |- *. eapply hp_perm.
    { eapply (hp_malloc (mkHeap (nxt :: live) (S nxt) calls szs)). eapply (hp_malloc (mkHeap live nxt calls szs)). exact Hh. }
    cbn. rewrite blocks_app. cbn. reflexivity.
  - destr_world w. cbn in Hr, L |- *. intros r i Hi E. rewrite app_length. cbn [length]. apply in_app_or in Hi as [Hi|[<-|[]]]; [specialize (Hr r i Hi E); lia|].
    cbn in E. injection E as <-. lia.
Qed.

Lemma winv_exn R w c m : winv R w -> winv R (set_exn w c m).
Proof. intro H. destruct w; exact H. Qed.

Lemma alias_option_safe R w b s r : winv R w ->
  match createAliasOption b s r w with
  | Ret _ w' => winv R w' /\ frame w w' /\ w_code w' = 0
  | Exc w' => winv R w' /\ frame w w' /\ (w_code w' = busErrorException \/ w_code w' = outOfMemoryException)
  | Ub _ => False
  end.
Proof.
  intro HI. unfold createAliasOption. cbv zeta. rewrite try0_eq.
  pose proof (alias_safe R (set_exn w noException []) (strtou32 b) (strtou32 r) (strtou32 s) (winv_exn _ _ _ _ HI)) as P.
  destruct (MemorySim_CreateAlias _ _ _ _) as [[] w1|w1|]; [| |exact P].
  - destruct P as (P1 & P2 & P3). rewrite P3. cbn [Z.eqb]. split; [exact P1|]. split; [exact P2|exact P3].
  - destruct P as (P1 & P2 & P3). replace (w_code w1 =? 0) with false by (destruct P3 as [P3|P3]; rewrite P3; reflexivity).
    unfold bind, getExceptionCode. match goal with |- context[throw_msg ?c ?m w1] => destruct (throws_msg (A := unit) c m w1) as (m' & ->) end.
    cbn [w_code set_exn]. rewrite Z.max_id. split; [now apply winv_exn|]. split; [exact P2|exact P3].
Qed.

Lemma aliases_safe R os : forall w, winv R w -> w_code w = 0 ->
  match make_aliases os w with
  | Ret _ w' => winv R w' /\ frame w w' /\ w_code w' = 0
  | Exc w' => winv R w' /\ frame w w' /\ (w_code w' = busErrorException \/ w_code w' = outOfMemoryException)
  | Ub _ => False
  end.
Proof.
  induction os as [|o os IH]; intros w HI H0; [unfold make_aliases, ret; split; [exact HI|]; split; [apply frame_refl|exact H0]|].
  destruct o as [| | |ob osz ord]; cbn [make_aliases]; try (now apply IH). unfold bind.
  pose proof (alias_option_safe R w ob osz ord HI) as P. destruct (createAliasOption _ _ _ w) as [[] w1|w1|]; [|exact P|exact P].
  destruct P as (P1 & P2 & P3). specialize (IH w1 P1 P3). destruct (make_aliases os w1) as [[] w2|w2|]; [| |exact IH];
    destruct IH as (Q1 & Q2 & Q3); (split; [exact Q1|]; split; [eapply frame_trans; eauto|exact Q3]).
Qed.

(** ** All stages *)

Lemma stages_safe os R w : complete os -> Inv R w -> regions w = [] -> ctx_sane w -> files_fine w os ->
  match stages os w with
  | Ret _ w' => winv R w' /\ rest_same w w' /\ fs_open (w_files w') = fs_open (w_files w) /\ w_code w' = 0
  | Exc w' => winv R w' /\ rest_same w w' /\ fs_open (w_files w') = fs_open (w_files w) /\ init_code (w_code w')
  | Ub _ => False
  end.
Proof.
  intros HC HI HR HX HF. destruct (complete_uses _ HC) as ((f & HU) & d & HD). rewrite stages_eq.
  pose proof (image_safe os f R w HI HR HF HU) as P. destruct (loadImageFile (settings os) w) as [[] w1|w1|]; [| |exact P].
  2:{ destruct P as ((P1 & P2 & P3) & _ & P4). split; [now apply Inv_winv|]. auto. }
  destruct P as ((P1 & P2 & P3) & P4 & P5).
  assert (HB : forall f data, file_is w1 f data -> Forall byte data).
  { intros g data. unfold file_is. destruct P2 as (_ & _ & _ & _ & ->). apply (proj1 HF). }
  assert (HX1 : ctx_sane w1) by (unfold ctx_sane; rewrite P4; exact HX).
  pose proof (dump_safe os d R w1 P1 HX1 P5 HB HD) as Q. destruct (loadDumpFile (settings os) w1) as [[] w2|w2|]; [| |exact Q].
  2:{ destruct Q as ((Q1 & Q2 & Q3) & Q4). split; [now apply Inv_winv|]. split; [eapply rest_trans; eauto|]. split; [congruence|exact Q4]. }
  destruct Q as ((Q1 & Q2 & Q3) & Q4 & Q5). pose proof (aliases_safe R os w2 (Inv_winv _ _ Q1) Q5) as A.
  destruct (make_aliases os w2) as [[] w3|w3|]; [| |exact A]; destruct A as (A1 & A2 & A3).
  - split; [exact A1|]. split; [eapply rest_trans; [exact P2|]; eapply rest_trans; [exact Q2|]; now apply frame_rest|]. split; [destruct A2 as (A2 & _); congruence|exact A3].
  - split; [exact A1|]. split; [eapply rest_trans; [exact P2|]; eapply rest_trans; [exact Q2|]; now apply frame_rest|]. split; [destruct A2 as (A2 & _); congruence|].
    unfold init_code. destruct A3 as [->| ->]; auto.
Qed.

(** ** Failing *)


Lemma uninit_hp R w : hp (w_heap w) (blocks (w_mem w) ++ R) -> exists h,
  MemorySim_Uninit w = Ret tt (set_mem (set_heap w h) (mkMem [] None (m_hits (w_mem w)))) /\ hp h R.
Proof.
  intro Hh. unfold MemorySim_Uninit, getw. unfold bind at 1. unfold bind at 1.
  assert (P : hp (w_heap w) (flat_map rblocks (regions w) ++ olist (option_map fst (m_xml (w_mem w))) ++ R)).
  { eapply hp_perm; [exact Hh|]. unfold blocks. rewrite !app_assoc. apply Permutation_app_tail, Permutation_app_comm. }
  apply freeRegions_hp in P as (h1 & E1 & H1). rewrite E1. unfold bind at 1.
  destruct (free_opt_hp _ _ (set_heap w h1) H1) as (h2 & E2 & H2 & _). rewrite E2. exists h2. split; [destruct w; reflexivity|exact H2].
Qed.

Lemma failing_true R w : winv R w -> exists h,
  failing true w = Exc (set_mem (set_heap (set_err w (usage :: banner :: error_line (w_msg w) :: w_err w)) h) (mkMem [] None (m_hits (w_mem w)))) /\ hp h R.
Proof.
  intros [Hh _]. set (w1 := set_err w (usage :: banner :: error_line (w_msg w) :: w_err w)).
  destruct (uninit_hp R w1 Hh) as (h & E & H). exists h. split; [|exact H].
  transitivity ((MemorySim_Uninit ;;; rethrow : M world (cl * bool)) w1); [reflexivity|]. unfold bind. rewrite E, rethrow_eq. reflexivity.
Qed.

Lemma failing_false_eq w : failing false w = Exc (set_err w (usage :: banner :: error_line (w_msg w) :: w_err w)).
Proof. transitivity ((rethrow : M world (cl * bool)) (set_err w (usage :: banner :: error_line (w_msg w) :: w_err w))); [reflexivity|]. apply rethrow_eq. Qed.
