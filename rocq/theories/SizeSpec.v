(** Specification vocabulary for property C82: the sizes of the blocks of storage that the program asks for
    and what it keeps in them. *)
From Coq Require Import ZArith List Bool.
From Verif Require Import Base World MemSim MemSpec.
Import ListNotations.
Open Scope Z_scope.

(** The latest request that handed out block [b] was for [n] bytes. *)
Definition asked (w : world) (b : nat) (n : Z) : Prop :=
  find (fun p => Nat.eqb (fst p) b) (h_sizes (w_heap w)) = Some (b, n).

(** Block [b] has room for [n] bytes, if there are any. *)
Definition room (w : world) (b : nat) (n : Z) : Prop := 0 < n -> exists m, asked w b m /\ n <= m.

(** Bytes taken by the structure of a region - five pointers and eight 32-bit members, MemorySim.c 97-112 -
    by a watchpoint - three 32-bit members, MemorySim.c 90-95 - and by a read counter, on a 64-bit host. *)
Definition region_bytes : Z := 5 * 8 + 8 * 4.
Definition watchpoint_bytes : Z := 3 * 4.
Definition counter_bytes : Z := 4.

(** Everything the simulator keeps in blocks has room there: the structure and the contents of every region,
    its read counters, its breakpoints and watchpoints, and the memory map with its terminating NUL. *)
Record all_fits (w : world) : Prop := {
  fits_structure : forall r, In r (regions w) -> room w (r_bself r) region_bytes;
  fits_contents : forall r, In r (regions w) -> room w (r_bdata r) (zlen (r_data r));
  fits_counters : forall r b c, In r (regions w) -> r_rc r = Some (b, c) -> room w b (counter_bytes * zlen c);
  fits_watchpoints : forall r, In r (regions w) -> r_wps r <> [] ->
    exists b, r_bwp r = Some b /\ room w b (watchpoint_bytes * zlen (r_wps r));
  fits_map : forall b t, m_xml (w_mem w) = Some (b, t) -> room w b (zlen t + 1) }.

(** The blocks the simulator keeps things in. *)
Inductive in_use (w : world) : nat -> Prop :=
| use_structure r : In r (regions w) -> in_use w (r_bself r)
| use_contents r : In r (regions w) -> in_use w (r_bdata r)
| use_counters r b c : In r (regions w) -> r_rc r = Some (b, c) -> in_use w b
| use_watchpoints r b : In r (regions w) -> r_bwp r = Some b -> in_use w b
| use_map b t : m_xml (w_mem w) = Some (b, t) -> in_use w b.
