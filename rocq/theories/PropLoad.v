(** Property C14, continued: exactly what a load stores, in every state. *)
From Coq Require Import ZArith List Bool Lia ZifyBool ZifyNat.
From Verif Require Import Base World MemSim BaseLemmas MemSpec LoadSpec MemInv MemOps MemOps3 MemThms MemHits LoadThms MemEx.
Import ListNotations.
Open Scope Z_scope.

(** C14.  An image can be cut into pieces in exactly one way, and the pieces end to end are the image. *)
Theorem C14_pieces a bs : u32 a -> exists ps, pieces a bs ps /\ (forall ps', pieces a bs ps' -> ps' = ps) /\ concat (map snd ps) = bs.
Proof.
  intro Ha. destruct (pieces_exist (length bs) a bs eq_refl Ha) as (ps & P). exists ps.
  split; [exact P|]. split; [intros ps' P'; exact (pieces_unique _ _ _ P _ P')|exact (pieces_concat _ _ _ P)].
Qed.

(** C14.  Loading in any state the simulator can be in, whatever regions and aliases it has and however
    they overlap.  The pieces of the image are stored one after the other, each in the storage that
    serves the whole of it.  The load succeeds if all are served.  It fails with a bus error at the
    first piece that is not, and then exactly the pieces before it are stored.  Nothing else changes:
    no other byte of storage, no setting of a region, no hit, no memory map and no allocation. *)
Theorem C14_exact w a src n ps :
  reachable w -> u32 a -> 0 <= n <= zlen src -> Forall byte src -> pieces a (firstn (Z.to_nat n) src) ps ->
  (exists w' qs, api (MemorySim_LoadFromFlashImage a src n) w = Done tt w' /\ Forall2 (placed (regions w)) ps qs /\ stored w w' qs /\
     Forall2 same_settings (regions w) (regions w') /\ m_hits (w_mem w') = m_hits (w_mem w) /\ m_xml (w_mem w') = m_xml (w_mem w) /\
     w_heap w' = w_heap w /\ frame w w') \/
  (exists w' ps1 p ps2 qs, api (MemorySim_LoadFromFlashImage a src n) w = Raised busErrorException w' /\
     ps = ps1 ++ p :: ps2 /\ Forall2 (placed (regions w)) ps1 qs /\ unplaced (regions w) p /\ stored w w' qs /\
     Forall2 same_settings (regions w) (regions w') /\ m_hits (w_mem w') = m_hits (w_mem w) /\ m_xml (w_mem w') = m_xml (w_mem w) /\
     w_heap w' = w_heap w /\ frame w w').
Proof.
  intros HR Ha Hn HB HP. pose proof (load_exact w a src n ps HR Ha Hn HB HP) as L.
  assert (SS : forall w', data_only w w' -> Forall2 same_settings (regions w) (regions w')).
  { intros w' (D & _). eapply Forall2_impl; [|exact D]. intros r r' (d & -> & E). repeat split. cbn. auto. }
  destruct (api _ w) as [[] w'|e w'|]; [left|right|destruct L].
  - destruct L as (D & F & qs & Q1 & Q2). exists w', qs. pose proof (SS _ D). destruct D as (_ & D1 & D2 & D3). auto 10.
  - destruct L as (-> & D & F & ps1 & p & ps2 & qs & Q0 & Q1 & Q2 & Q3). exists w', ps1, p, ps2, qs. pose proof (SS _ D).
    destruct D as (_ & D1 & D2 & D3). auto 12.
Qed.

(** Non-vacuity: two regions overlap, so that of an image of seven bytes the word goes to one of them
    and the bytes to the other. *)
Definition w_overlap : world := after env0 [OCreate 0x104 4; OCreate 0x100 16].
Example C14_exact_example : reachable w_overlap /\ pieces 0x101 [1; 2; 3; 4; 5; 6; 7] [(0x101, [1; 2; 3; 4]); (0x105, [5]); (0x106, [6]); (0x107, [7])] /\
  exists w', api (MemorySim_LoadFromFlashImage 0x101 [1; 2; 3; 4; 5; 6; 7] 7) w_overlap = Done tt w' /\
  map r_data (regions w') = [[0; 5; 6; 7]; [0; 1; 2; 3; 4; 0; 0; 0; 0; 0; 0; 0; 0; 0; 0; 0]] /\
  Forall2 (placed (regions w_overlap)) [(0x101, [1; 2; 3; 4]); (0x105, [5]); (0x106, [6]); (0x107, [7])]
    [(1%nat, 1, [1; 2; 3; 4]); (0%nat, 1, [5]); (0%nat, 2, [6]); (0%nat, 3, [7])].
Proof.
  split; [apply after_reachable; vm_compute; reflexivity|].
  split; [apply pc_word; [discriminate|]; repeat (apply pc_byte; [cbn; lia|]); apply pc_end|].
  eexists. split; [vm_compute; reflexivity|]. split; [vm_compute; reflexivity|].
  repeat (apply Forall2_cons; [cbn [placed fst snd]; split; [reflexivity|apply find_serve_spec; vm_compute; reflexivity]|]). apply Forall2_nil.
Qed.
(** An image that runs past the end of its region: the word before the end is stored. *)
Example C14_exact_fail_example : exists w w', reachable w /\ api (MemorySim_LoadFromFlashImage 0x100 [1; 2; 3; 4; 5; 6; 7; 8; 9] 9) w = Raised busErrorException w' /\
  map r_data (regions w') = [[1; 2; 3; 4; 0; 0]].
Proof. exists (after env0 [OCreate 0x100 6]). eexists. split; [apply after_reachable; vm_compute; reflexivity|]. split; vm_compute; reflexivity. Qed.

Print Assumptions C14_pieces.
Print Assumptions C14_exact.
