(** Property C13, continued: what happens in every state. *)
From Coq Require Import ZArith List Bool Lia ZifyBool ZifyNat.
From Verif Require Import Base World MemSim BaseLemmas MemSpec LoadSpec FlashSpec MemInv MemOps MemThms LoadThms FlashThms MemEx.
Import ListNotations.
Open Scope Z_scope.

(** C13.  Creating regions from a flash image in any state the simulator can be in, whatever regions and
    aliases it has and however they overlap the image.  Either exactly two regions are added.  Then the
    pieces of the image (see C14) are stored, each in the storage that serves the whole of it once the
    region at 0 is there; what serves address 0 becomes read-only, and no other protection changes; and
    the second new region is the RAM that the image asks for.  Or an allocation was refused; then no
    region is added, moved, resized or removed, and watchpoints and hits are as before.  Nothing else
    can happen.  Missing: that the first new region holds the image and is the one that becomes
    read-only, which fails if an older region overlaps it ([C13_overlap_refuted]); and that a failure
    restores bytes of such an older region ([C13_failure_refuted]). *)
Theorem C13_every_state_partial w src size ps :
  reachable w -> u32 size -> Forall byte src -> 4 <= size <= zlen src -> pieces 0 (firstn (Z.to_nat size) src) ps ->
  (exists w' old flash ram new qs p k, api (MemorySim_CreateRegionsFromFlashImage src size) w = Done tt w' /\
     regions w' = old ++ [flash; ram] /\ blank_region new 0 size /\
     Forall2 (placed (regions w ++ [new])) ps qs /\ serves (regions w ++ [new]) 0 1 p k /\
     Forall2 same_place (regions w ++ [new]) (old ++ [flash]) /\
     (forall j k, storage (old ++ [flash]) j k = cell_after qs j k (storage (regions w ++ [new]) j k)) /\
     (forall j r, nth_error (old ++ [flash]) j = Some r -> (r_ro r = true <-> j = p \/ exists r0, nth_error (regions w) j = Some r0 /\ r_ro r0 = true)) /\
     blank_region ram (of_le (firstn 4 src) / 268435456 * 268435456) (of_le (firstn 4 src) mod 268435456) /\
     m_hits (w_mem w') = m_hits (w_mem w) /\ m_xml (w_mem w') = m_xml (w_mem w)) \/
  (exists w', api (MemorySim_CreateRegionsFromFlashImage src size) w = Raised outOfMemoryException w' /\ 0 < refusals w w' /\
     Forall2 same_place (regions w) (regions w') /\ m_hits (w_mem w') = m_hits (w_mem w) /\ m_xml (w_mem w') = m_xml (w_mem w)).
Proof.
  intros HR Hs Hb Hl HP. pose proof (flash_every w src size ps HR Hs Hb Hl HP) as F. destruct (api _ w) as [[] w'|c w'|]; [left|right|destruct F].
  - destruct F as (old & flash & ram & new & qs & p & k & F). exists w', old, flash, ram, new, qs, p, k. split; [reflexivity|exact F].
  - destruct F as (-> & F). exists w'. split; [reflexivity|exact F].
Qed.

(** Non-vacuity: an older region covers the middle of the image.  Of seven bytes the word at 0 goes to
    the new region, and two of the bytes to the older one. *)
Definition w_middle : world := after env0 [OCreate 4 2].
Example C13_every_state_example : reachable w_middle /\
  pieces 0 [16; 0; 0; 32; 5; 6; 7] [(0, [16; 0; 0; 32]); (4, [5]); (5, [6]); (6, [7])] /\
  exists w', api (MemorySim_CreateRegionsFromFlashImage [16; 0; 0; 32; 5; 6; 7] 7) w_middle = Done tt w' /\
  map (fun r => (r_base r, r_size r, r_ro r)) (regions w') = [(4, 2, false); (0, 7, true); (0x20000000, 16, false)] /\
  map r_data (firstn 2 (regions w')) = [[5; 6]; [16; 0; 0; 32; 0; 0; 7]].
Proof.
  split; [apply after_reachable; vm_compute; reflexivity|]. split; [apply pc_word; [discriminate|]; repeat (apply pc_byte; [cbn; lia|]); apply pc_end|].
  eexists. split; [vm_compute; reflexivity|]. split; vm_compute; reflexivity.
Qed.

(** C13 fails after a refused allocation too: the bytes of the older region that the image covers are
    those of the image. *)
Theorem C13_failure_refuted : exists w src w', reachable w /\ Forall byte src /\
  api (MemorySim_CreateRegionsFromFlashImage src (zlen src)) w = Raised outOfMemoryException w' /\ w_mem w' <> w_mem w /\
  outcome_of (api (readN 1 4) w) = Value 0 /\ outcome_of (api (readN 1 4) w') = Value 5.
Proof.
  exists (after (env_fail 4) [OCreate 4 2]), [16; 0; 0; 32; 5; 6; 7]. eexists.
  split; [apply after_reachable; vm_compute; reflexivity|]. split; [repeat constructor; unfold byte; lia|].
  split; [vm_compute; reflexivity|]. split; [vm_compute; discriminate|]. split; vm_compute; reflexivity.
Qed.

Print Assumptions C13_every_state_partial.
Print Assumptions C13_failure_refuted.
