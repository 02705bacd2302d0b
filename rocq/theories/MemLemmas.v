(** Lemmas about MemSim.v: closed forms of the operations, well-formedness and its preservation. *)
From Coq Require Import String ZArith List Bool Lia ZifyBool ZifyNat Permutation.
From Verif Require Import Base World MemSim BaseLemmas MemSpec.
Import ListNotations.
Open Scope Z_scope.

Ltac destr_world w :=
  destruct w as [[?rs ?xml ?hits] [?live ?nxt ?calls ?szs] ?fs ?code ?msg ?ctx ?err ?fl ?gdb ?con ?env].

Ltac mred :=
  cbv [free free_opt is_live rethrow throw throw_msg ret bind fail_ub modw getw getExceptionCode clearExceptionCode
       freeNewRegion option_map fst snd]; cbn.

Definition set_regions (w : world) (rs : list region) : world :=
  set_mem w (mkMem rs (m_xml (w_mem w)) (m_hits (w_mem w))).
Definition set_hits (w : world) (h : Z) : world :=
  set_mem w (mkMem (m_regions (w_mem w)) (m_xml (w_mem w)) h).

(** ** Allocation *)

Definition alloc_ok (w : world) (k : nat) (size : Z) : bool :=
  e_malloc (w_env w) (h_calls (w_heap w) + k) size.

(** ** Closed forms *)

Definition new_region (w : world) (base size : Z) : region :=
  mkR base size None 0 (zeros size) [] 0 None false (h_next (w_heap w)) (S (h_next (w_heap w))) None.

Lemma CreateRegion_eq base size w :
  MemorySim_CreateRegion base size w =
  let h := w_heap w in
  if negb (alloc_ok w 0 SIZEOF_REGION)
  then Exc (set_exn (set_heap w (mkHeap (h_live h) (h_next h) (S (h_calls h)) (h_sizes h))) outOfMemoryException [])
  else if negb (alloc_ok w 1 size)
  then Exc (set_exn (set_heap w (mkHeap (h_live h) (S (h_next h)) (S (S (h_calls h))) ((h_next h, SIZEOF_REGION) :: h_sizes h))) outOfMemoryException [])
  else Ret tt (set_exn (set_regions (set_heap w (mkHeap (S (h_next h) :: h_next h :: h_live h) (S (S (h_next h))) (S (S (h_calls h))) ((S (h_next h), size) :: (h_next h, SIZEOF_REGION) :: h_sizes h)))
                                    (regions w ++ [new_region w base size])) 0 []).
Proof.
  destr_world w. unfold MemorySim_CreateRegion, alloc_ok, new_region.
  cbv [bind lift try_ throwingZeroedMalloc malloc setl set_exn set_heap w_heap w_env fst snd h_calls h_next h_live h_sizes
       m_regions w_mem].
  rewrite Nat.add_0_r, Nat.add_1_r.
  destruct (e_malloc env calls SIZEOF_REGION) eqn:E1; cbn; [|reflexivity].
  destruct (e_malloc env (S calls) size) eqn:E2; cbn.
  - reflexivity.
  - mred. rewrite Nat.eqb_refl. cbn. reflexivity.
Qed.

Definition new_alias (w : world) (base redirect size : Z) (j : nat) (t : region) : region :=
  let maxSize := W (r_size t - (redirect - r_base t)) in
  mkR base (if maxSize <? size then maxSize else size) (Some j) redirect (zeros size) [] 0 None (r_ro t)
      (h_next (w_heap w)) (S (h_next (w_heap w))) None.

Lemma CreateAlias_eq base redirect size w :
  MemorySim_CreateAlias base redirect size w =
  let h := w_heap w in
  if negb (alloc_ok w 0 SIZEOF_REGION)
  then Exc (set_exn (set_heap w (mkHeap (h_live h) (h_next h) (S (h_calls h)) (h_sizes h))) outOfMemoryException [])
  else match find_from 0 (regions w) redirect 1 with
       | None => Exc (set_exn (set_heap w (mkHeap (h_live h) (S (h_next h)) (S (h_calls h)) ((h_next h, SIZEOF_REGION) :: h_sizes h))) busErrorException [])
       | Some (j, _) =>
         match nth_error (regions w) j with
         | None => Ub UbRegion
         | Some t =>
           if negb (alloc_ok w 1 size)
           then Exc (set_exn (set_heap w (mkHeap (h_live h) (S (h_next h)) (S (S (h_calls h))) ((h_next h, SIZEOF_REGION) :: h_sizes h))) outOfMemoryException [])
           else Ret tt (set_exn (set_regions (set_heap w (mkHeap (S (h_next h) :: h_next h :: h_live h) (S (S (h_next h))) (S (S (h_calls h))) ((S (h_next h), size) :: (h_next h, SIZEOF_REGION) :: h_sizes h)))
                                    (regions w ++ [new_alias w base redirect size j t])) 0 [])
         end
       end.
Proof.
  destr_world w. unfold MemorySim_CreateAlias, alloc_ok, new_alias.
  cbv [bind lift try_ throwingZeroedMalloc malloc setl set_exn set_heap w_heap w_env fst snd h_calls h_next h_live h_sizes
       m_regions w_mem findMatchingRegion get_region].
  rewrite Nat.add_0_r, Nat.add_1_r.
  destruct (e_malloc env calls SIZEOF_REGION) eqn:E1; cbn; [|reflexivity].
  destruct (find_from 0 rs redirect 1) as [[j a']|] eqn:F; cbn.
  - destruct (nth_error rs j) as [t|] eqn:N; cbn; [|reflexivity].
    destruct (e_malloc env (S calls) size) eqn:E2; cbn; [reflexivity|].
    mred. rewrite Nat.eqb_refl. cbn. reflexivity.
  - mred. rewrite Nat.eqb_refl. cbn. reflexivity.
Qed.

Lemma MakeRO_eq base w :
  MemorySim_MakeRegionReadOnly base w =
  let h := w_heap w in
  match find_from 0 (regions w) base 1 with
  | None => Exc (set_exn w (Z.max busErrorException (w_code w)) (w_msg w))
  | Some (j, _) =>
    match nth_error (regions w) j with
    | None => Ub UbRegion
    | Some t =>
      if negb (alloc_ok w 0 (r_size t / 2 * 4))
      then Exc (set_exn (set_regions (set_heap w (mkHeap (h_live h) (h_next h) (S (h_calls h)) (h_sizes h)))
                          (upd_nth j (fun r => with_ro r true) (regions w)))
                        (Z.max outOfMemoryException (w_code w)) (w_msg w))
      else Ret tt (set_regions (set_heap w (mkHeap (h_next h :: h_live h) (S (h_next h)) (S (h_calls h)) ((h_next h, r_size t / 2 * 4) :: h_sizes h)))
                     (upd_nth j (fun r => with_rc (with_ro r true) (Some (h_next h, zeros (r_size t / 2)))) (regions w)))
    end
  end.
Proof.
  destr_world w. unfold MemorySim_MakeRegionReadOnly, allocateReadCountArrayForReadOnlyRegion, alloc_ok.
  cbv [bind throwingZeroedMalloc malloc set_exn set_heap w_heap w_env fst snd h_calls h_next h_live h_sizes
       m_regions w_mem findMatchingRegion get_region upd_region modw throw].
  rewrite Nat.add_0_r.
  destruct (find_from 0 rs base 1) as [[j a']|] eqn:F; cbn; [|reflexivity].
  destruct (nth_error rs j) as [t|] eqn:N; cbn; [|reflexivity].
  rewrite nth_error_upd_nth, Nat.eqb_refl, N. cbn.
  destruct (e_malloc env calls (r_size t / 2 * 4)) eqn:E2; cbn; [|reflexivity].
  unfold set_regions; cbn. rewrite upd_nth_upd_nth. reflexivity.
Qed.

(** Offset of a redirected address in a region's storage. *)
Definition roff (r : region) (a' : Z) : Z := W (a' - r_base r).

(** State after the read-count part of an access. *)
Definition bump (rs : list region) (j : nat) (r : region) (k : Z) : list region :=
  match r_rc r with
  | None => rs
  | Some (b, c) => upd_nth j (fun r => with_rc r (Some (b, upd_nth (Z.to_nat k) (fun x => W (x + 1)) c))) rs
  end.

(** The index test of the read-count part. *)
Definition rc_fits (r : region) (k : Z) : bool :=
  match r_rc r with
  | None => true
  | Some (_, c) => (0 <=? k) && (k <? zlen c)
  end.

Lemma getDataPointer_eq a n type chk w :
  getDataPointer a n type chk w =
  match find_from 0 (regions w) a n with
  | None => Exc (set_exn w (Z.max busErrorException (w_code w)) (w_msg w))
  | Some (j, a') =>
    match nth_error (regions w) j with
    | None => Ub UbRegion
    | Some r =>
      let off := roff r a' in
      if (type =? WRITING) && r_ro r then Exc (set_exn w (Z.max busErrorException (w_code w)) (w_msg w))
      else
        let counting := (type =? READING) && (n =? 2) in
        if counting && negb (rc_fits r (off / 2)) then Ub UbReadCounts
        else
          let w1 := set_regions w (if counting then bump (regions w) j r (off / 2) else regions w) in
          let (h, brk) := if chk then scan_wps (r_wps r) a' (W (a' + n)) n type (m_hits (w_mem w))
                          else (m_hits (w_mem w), false) in
          let w2 := set_hits w1 h in
          if brk then Exc (set_exn w2 (Z.max hardwareBreakpointException (w_code w)) (w_msg w))
          else if off <=? zlen (r_data r) then Ret (j, off) w2 else Ub UbData
    end
  end.
Proof.
  destr_world w. unfold getDataPointer, roff, set_hits, set_regions.
  cbv [bind set_exn w_heap w_env fst snd ret fail_ub
       m_regions w_mem findMatchingRegion get_region upd_region modw throw set_mem m_hits m_xml w_code w_msg].
  destruct (find_from 0 rs a n) as [[j a']|] eqn:F; [|reflexivity].
  destruct (nth_error rs j) as [r|] eqn:N; [|reflexivity].
  destruct ((type =? WRITING) && r_ro r); [reflexivity|].
  assert (Hc : checkForBreakWatchPoint r a' n type = fun w =>
     let (h, brk) := scan_wps (r_wps r) a' (W (a' + n)) n type (m_hits (w_mem w)) in
     if brk then throw hardwareBreakpointException (set_hits w h) else Ret tt (set_hits w h)) by reflexivity.
  destruct ((type =? READING) && (n =? 2)).
  - cbn [andb]. unfold incReadCount, rc_fits, bump.
    cbv [bind get_region m_regions w_mem]. rewrite N.
    destruct (r_rc r) as [[b c]|].
    + destruct ((0 <=? W (a' - r_base r) / 2) && (W (a' - r_base r) / 2 <? zlen c)); cbn [negb]; [|reflexivity].
      cbv [upd_region modw]. destruct chk.
      * rewrite Hc. cbn. destruct (scan_wps _ _ _ _ _ _) as [h brk]. destruct brk; [reflexivity|]; destruct (_ <=? zlen (r_data r)); reflexivity.
      * cbn. destruct (_ <=? zlen (r_data r)); reflexivity.
    + cbn [negb]. cbv [ret]. destruct chk.
      * rewrite Hc. cbn. destruct (scan_wps _ _ _ _ _ _) as [h brk]. destruct brk; [reflexivity|]; destruct (_ <=? zlen (r_data r)); reflexivity.
      * cbn. destruct (_ <=? zlen (r_data r)); reflexivity.
  - cbn [andb]. destruct chk.
    + rewrite Hc. cbn. destruct (scan_wps _ _ _ _ _ _) as [h brk]. destruct brk; [reflexivity|]; destruct (_ <=? zlen (r_data r)); reflexivity.
    + cbn. destruct (_ <=? zlen (r_data r)); reflexivity.
Qed.
