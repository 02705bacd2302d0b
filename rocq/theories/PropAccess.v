(** Theorems about the six access functions of the memory interface by name (properties C01, C03, C04
    and C10).  PropMem.v states them for an access of [n] bytes; here each function of the interface
    appears itself, so that the width belonging to each name is part of the claim. *)
From Coq Require Import String ZArith List Bool Lia ZifyBool ZifyNat.
From Verif Require Import Base World MemSim BaseLemmas MemSpec MemEx PropMem.
Import ListNotations.
Open Scope Z_scope.
Open Scope m_scope.

(** C01.  After a successful write the read function of the same width returns the value, reduced to
    32, 16 or 8 bits; a 16-bit read may be stopped by a breakpoint instead. *)
Theorem C01_functions w a v u w' : reachable w -> u32 a ->
  (api (write32 a v) w = Done u w' -> exists w'', api (read32 a) w' = Done (v mod 2 ^ 32) w'') /\
  (api (write16 a v) w = Done u w' -> exists w'', api (read16 a) w' = Done (v mod 2 ^ 16) w'' \/
     api (read16 a) w' = Raised hardwareBreakpointException w'') /\
  (api (write8 a v) w = Done u w' -> exists w'', api (read8 a) w' = Done (v mod 2 ^ 8) w'').
Proof.
  intros HR Ha.
  assert (K : forall n, width n -> api (writeN n a v) w = Done u w' -> exists w'', api (readN n a) w' = Done (v mod 2 ^ (8 * n)) w'' \/
    (n = 2 /\ api (readN n a) w' = Raised hardwareBreakpointException w'')).
  { intros n Hn E. apply (C01_read_after_write w n a v u w' [] w' HR Hn Ha E); [constructor|exact I|reflexivity]. }
  unfold read32, read16, read8, write32, write16, write8, width in *.
  split; [|split]; intro E.
  - destruct (K 4 ltac:(auto) E) as (w'' & [H|[H _]]); [eauto|lia].
  - destruct (K 2 ltac:(auto) E) as (w'' & [H|[_ H]]); eauto.
  - destruct (K 1 ltac:(auto) E) as (w'' & [H|[H _]]); [eauto|lia].
Qed.

Example C01_functions_example : reachable w_ex /\
  outcome_of (api (write32 0x20000000 0x1122334455 ;;; read32 0x20000000) w_ex) = Value 0x22334455 /\
  outcome_of (api (write16 0x20000002 0x12345 ;;; read16 0x20000002) w_ex) = Value 0x2345 /\
  outcome_of (api (write8 0x20000003 0x101 ;;; read8 0x20000003) w_ex) = Value 1.
Proof. split; [exact w_ex_reachable|]. split; [|split]; vm_compute; reflexivity. Qed.

(** [n]-byte accesses at [a] by the functions [rd] and [wr] end as the map says: a write succeeds
    exactly when one writable region contains all [n] bytes, a read when one region does, and both
    raise a bus error and change nothing otherwise.  A 16-bit read may be stopped by a breakpoint. *)
Definition follows_map (n : Z) (rd : Z -> M world Z) (wr : Z -> Z -> M world unit) (a : Z) (w : world) : Prop :=
  (writable (regions w) a n -> forall v, exists w', api (wr a v) w = Done tt w') /\
  (~ writable (regions w) a n -> forall v, api (wr a v) w = Raised busErrorException (set_exn w busErrorException [])) /\
  ((exists r, In r (regions w) /\ covers r a n) -> exists w',
     (exists v, 0 <= v < 2 ^ (8 * n) /\ api (rd a) w = Done v w') \/
     (n = 2 /\ api (rd a) w = Raised hardwareBreakpointException w')) /\
  (~ (exists r, In r (regions w) /\ covers r a n) -> api (rd a) w = Raised busErrorException (set_exn w busErrorException [])).

(** C03.  The functions for 32, 16 and 8 bits access four, two and one bytes. *)
Theorem C03_functions w a : reachable w -> u32 a ->
  follows_map 4 read32 write32 a w /\ follows_map 2 read16 write16 a w /\ follows_map 1 read8 write8 a w.
Proof.
  intros HR Ha. assert (K : forall n, width n -> follows_map n (readN n) (writeN n) a w).
  { intros n Hn. destruct (C03_read_mapped w n a HR Hn Ha) as (R1 & R2).
    split; [intros H v; now apply C03_write_mapped|]. split; [intros H v; now apply C03_write_mapped|]. now split. }
  unfold width in K. split; [|split]; apply K; auto.
Qed.

(** The last three bytes of the region at 0x10000000: a word does not fit, a half-word does. *)
Example C03_functions_example : reachable w_ex /\
  outcome_of (api (write32 0x1000000D 1) w_ex) = Exception_ busErrorException /\ outcome_of (api (write16 0x1000000D 1) w_ex) = Value tt /\
  outcome_of (api (read32 0x1000000D) w_ex) = Exception_ busErrorException /\ outcome_of (api (read8 0x1000000F) w_ex) = Value 0.
Proof. split; [exact w_ex_reachable|]. vm_compute. auto. Qed.

(** C04.  When regions do not overlap, a successful 32- or 16-bit read returns the little-endian
    combination of the byte reads, all of which succeed. *)
Theorem C04_functions_read w a v w' : reachable w -> non_overlapping (regions w) -> u32 a ->
  (a + 4 <= 4294967296 -> api (read32 a) w = Done v w' -> exists b0 b1 b2 b3 w0 w1 w2 w3,
     api (read8 a) w = Done b0 w0 /\ api (read8 (a + 1)) w = Done b1 w1 /\
     api (read8 (a + 2)) w = Done b2 w2 /\ api (read8 (a + 3)) w = Done b3 w3 /\
     v = b0 + 2 ^ 8 * b1 + 2 ^ 16 * b2 + 2 ^ 24 * b3) /\
  (a + 2 <= 4294967296 -> api (read16 a) w = Done v w' -> exists b0 b1 w0 w1,
     api (read8 a) w = Done b0 w0 /\ api (read8 (a + 1)) w = Done b1 w1 /\ v = b0 + 2 ^ 8 * b1).
Proof.
  intros HR HN Ha. unfold read32, read16, read8. split; intros Hb E.
  - destruct (C04_read_bytes w 4 a v w' HR HN ltac:(unfold width; auto) Ha Hb E) as (bs & L & V & B).
    unfold zlen in L. destruct bs as [|b0 [|b1 [|b2 [|b3 [|]]]]]; cbn [length] in L; try lia.
    destruct (B 0%nat b0 eq_refl) as (w0 & H0). destruct (B 1%nat b1 eq_refl) as (w1 & H1).
    destruct (B 2%nat b2 eq_refl) as (w2 & H2). destruct (B 3%nat b3 eq_refl) as (w3 & H3).
    change (a + Z.of_nat 0) with (a + 0) in H0. rewrite Z.add_0_r in H0.
    exists b0, b1, b2, b3, w0, w1, w2, w3. auto.
  - destruct (C04_read_bytes w 2 a v w' HR HN ltac:(unfold width; auto) Ha Hb E) as (bs & L & V & B).
    unfold zlen in L. destruct bs as [|b0 [|b1 [|]]]; cbn [length] in L; try lia.
    destruct (B 0%nat b0 eq_refl) as (w0 & H0). destruct (B 1%nat b1 eq_refl) as (w1 & H1).
    change (a + Z.of_nat 0) with (a + 0) in H0. rewrite Z.add_0_r in H0.
    exists b0, b1, w0, w1. split; [exact H0|]. split; [exact H1|]. unfold combined in V. cbn [nth] in V. lia.
Qed.

Example C04_functions_read_example : reachable w_ex /\ non_overlapping (regions w_ex) /\
  outcome_of (api (read32 0) w_ex) = Value 0x04030201 /\ outcome_of (api (read8 3) w_ex) = Value 4.
Proof. split; [exact w_ex_reachable|]. split; [exact w_ex_non_overlapping|]. vm_compute. auto. Qed.

(** C04.  When regions do not overlap, a successful 32- or 16-bit write has the effect on memory of
    writing its bytes one after the other, least significant first, all of which succeeds. *)
Theorem C04_functions_write w a v u w' : reachable w -> non_overlapping (regions w) -> u32 a ->
  (a + 4 <= 4294967296 -> api (write32 a v) w = Done u w' -> exists u1 u2 u3 u4 w1 w2 w3 w4,
     api (write8 a (v mod 2 ^ 8)) w = Done u1 w1 /\ api (write8 (a + 1) (v / 2 ^ 8 mod 2 ^ 8)) w1 = Done u2 w2 /\
     api (write8 (a + 2) (v / 2 ^ 16 mod 2 ^ 8)) w2 = Done u3 w3 /\ api (write8 (a + 3) (v / 2 ^ 24 mod 2 ^ 8)) w3 = Done u4 w4 /\
     regions w4 = regions w') /\
  (a + 2 <= 4294967296 -> api (write16 a v) w = Done u w' -> exists u1 u2 w1 w2,
     api (write8 a (v mod 2 ^ 8)) w = Done u1 w1 /\ api (write8 (a + 1) (v / 2 ^ 8 mod 2 ^ 8)) w1 = Done u2 w2 /\
     regions w2 = regions w').
Proof.
  intros HR HN Ha. unfold write32, write16, write8. split; intros Hb E.
  - destruct (C04_write_bytes w 4 a v u w' HR HN ltac:(unfold width; auto) Ha Hb E) as (w4 & B & S).
    change (Z.to_nat 4) with 4%nat in B. unfold separated in B. cbn [firstn write_each] in B.
    destruct (api (writeN 1 a _) w) as [u1 w1| |] eqn:E1; try discriminate B.
    destruct (api (writeN 1 (a + 1) _) w1) as [u2 w2| |] eqn:E2; try discriminate B.
    replace (a + 1 + 1) with (a + 2) in B by lia. replace (a + 2 + 1) with (a + 3) in B by lia.
    destruct (api (writeN 1 (a + 2) _) w2) as [u3 w3| |] eqn:E3; try discriminate B.
    destruct (api (writeN 1 (a + 3) _) w3) as [u4 w5| |] eqn:E4; try discriminate B.
    injection B as ->. exists u1, u2, u3, u4, w1, w2, w3, w4. auto.
  - destruct (C04_write_bytes w 2 a v u w' HR HN ltac:(unfold width; auto) Ha Hb E) as (w2 & B & S).
    change (Z.to_nat 2) with 2%nat in B. unfold separated in B. cbn [firstn write_each] in B.
    destruct (api (writeN 1 a _) w) as [u1 w1| |] eqn:E1; try discriminate B.
    destruct (api (writeN 1 (a + 1) _) w1) as [u2 w3| |] eqn:E2; try discriminate B.
    injection B as ->. exists u1, u2, w1, w2. auto.
Qed.

Example C04_functions_write_example : reachable w_ex /\ non_overlapping (regions w_ex) /\
  outcome_of (api (write32 0x20000000 0xAABBCCDD ;;; read8 0x20000003) w_ex) = Value 0xAA.
Proof. split; [exact w_ex_reachable|]. split; [exact w_ex_non_overlapping|]. vm_compute. reflexivity. Qed.

(** The call creates a region or an alias. *)
Definition creates (o : op) : Prop := (exists b s, o = OCreate b s) \/ (exists b r s, o = OAlias b r s).

Lemma creations ops : forall w w', reachable w -> Forall op_args ops -> all_along (fun w o => direct_alias (regions w) o) ops w ->
  Forall creates ops -> run ops w = Some w' ->
  reachable w' /\ (exists x, regions w' = regions w ++ x) /\ m_hits (w_mem w') = m_hits (w_mem w).
Proof.
  induction ops as [|o t IH]; intros w w' HR HA HD HC E; cbn [run] in E.
  - injection E as <-. split; [exact HR|]. split; [exists []; now rewrite app_nil_r|reflexivity].
  - inversion HA as [|? ? A1 A2]; subst. inversion HC as [|? ? C1 C2]; subst. destruct HD as (D1 & D2).
    destruct (step o w) as [w1|] eqn:ES; [|discriminate E].
    destruct (C10_create_appends w o w1 HR A1 D1 C1 ES) as (HX & HH).
    destruct (IH w1 w' (reach_step w o w1 HR A1 D1 ES) A2 (D2 w1 eq_refl) C2 E) as (R' & (x & X) & H').
    split; [exact R'|]. split; [|congruence].
    destruct HX as [HX|(y & HX)]; rewrite X, HX; [eauto|]. exists (y :: x). now rewrite <- app_assoc.
Qed.

(** C10.  However many regions and aliases are created, successfully or not, and wherever they lie,
    each access function ends as before at every address where a region contained the access: with
    the same value or the same exception. *)
Theorem C10_undisturbed w ops w' a :
  reachable w -> Forall op_args ops -> all_along (fun w o => direct_alias (regions w) o) ops w -> Forall creates ops -> run ops w = Some w' -> u32 a ->
  ((exists r, In r (regions w) /\ covers r a 4) -> outcome_of (api (read32 a) w') = outcome_of (api (read32 a) w) /\
     forall v, outcome_of (api (write32 a v) w') = outcome_of (api (write32 a v) w)) /\
  ((exists r, In r (regions w) /\ covers r a 2) -> outcome_of (api (read16 a) w') = outcome_of (api (read16 a) w) /\
     forall v, outcome_of (api (write16 a v) w') = outcome_of (api (write16 a v) w)) /\
  ((exists r, In r (regions w) /\ covers r a 1) -> outcome_of (api (read8 a) w') = outcome_of (api (read8 a) w) /\
     forall v, outcome_of (api (write8 a v) w') = outcome_of (api (write8 a v) w)).
Proof.
  intros HR HA HD HC E Ha. destruct (creations ops w w' HR HA HD HC E) as (R' & X & H').
  split; [|split]; intro HM; apply C10_prefix_access; auto; unfold width; auto.
Qed.

(** A region and an alias over the RAM at 0x10000000, and one more region. *)
Example C10_undisturbed_example : let ops := [OCreate 0x10000000 16; OAlias 0x10000000 0 8; OCreate 0x50000000 4] in
  reachable w_ex /\ Forall op_args ops /\ all_along (fun w o => direct_alias (regions w) o) ops w_ex /\ Forall creates ops /\
  (exists w', run ops w_ex = Some w' /\ length (regions w') = 7%nat) /\
  (exists r, In r (regions w_ex) /\ covers r 0x10000000 4) /\ outcome_of (api (read32 0x10000000) w_ex) = Value 0x11223344.
Proof.
  cbv zeta. split; [exact w_ex_reachable|]. split; [apply ops_argsb_ok; vm_compute; reflexivity|].
  split; [eapply (all_alongb_ok (fun w o => direct_aliasb (regions w) o)); [intros w o H; now apply direct_aliasb_ok|vm_compute; reflexivity]|].
  split; [unfold creates; repeat (apply Forall_cons; [eauto 6|]); constructor|].
  split; [eexists; split; vm_compute; reflexivity|].
  split; [apply mapped_ex; eexists; vm_compute; reflexivity|vm_compute; reflexivity].
Qed.

Print Assumptions C01_functions.
Print Assumptions C03_functions.
Print Assumptions C04_functions_read.
Print Assumptions C04_functions_write.
Print Assumptions C10_undisturbed.
