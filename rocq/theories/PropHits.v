(** Property C18, continued: how many hits can be on record. *)
From Coq Require Import ZArith List Bool Lia ZifyBool ZifyNat.
From Verif Require Import Base World MemSim MemSpec HitSpec MemThms MemHits HitBound MemEx.
Import ListNotations.
Open Scope Z_scope.

(** C18.  After any history of calls on a new simulator, the number of hits the query returns is at
    least zero and at most the number of accesses times the number of requests for a break/watchpoint.
    So the [int] that counts them stays within its range for every history in which that product is
    below 2^31, and the model's counter, an integer without bounds, is the C one. *)
Theorem C18_in_range ops w w' :
  fresh w -> heap_sane w -> Forall op_args ops -> all_along (fun w o => direct_alias (regions w) o) ops w -> run ops w = Some w' ->
  exists h w1, api MemorySim_WasWatchpointEncountered w' = Done h w1 /\ 0 <= h <= accesses ops * sets ops.
Proof. apply hits_bound_fresh. Qed.

(** Non-vacuity, and the bound is attained: two watchpoints over one word, three accesses, six hits. *)
Example C18_in_range_example :
  let ops := [OCreate 0x10000000 16; OSet 0x10000000 4 3; OSet 0x10000000 8 3; ORead 4 0x10000000; OWrite 4 0x10000000 7; ORead 1 0x10000003] in
  fresh (w_start env0) /\ heap_sane (w_start env0) /\ Forall op_args ops /\ all_along (fun w o => direct_alias (regions w) o) ops (w_start env0) /\
  accesses ops * sets ops = 6 /\
  exists w' w1, run ops (w_start env0) = Some w' /\ api MemorySim_WasWatchpointEncountered w' = Done 6 w1.
Proof.
  cbv zeta. split; [reflexivity|]. split; [apply start_sane|].
  split; [repeat (apply Forall_cons; [cbn; unfold width, u32; lia|]); constructor|].
  split; [cbn [all_along direct_alias]; repeat (split; [exact I|]; intros ? _); exact I|].
  split; [reflexivity|]. eexists _, _. split; vm_compute; reflexivity.
Qed.

Print Assumptions C18_in_range.
