(** Specification for C81: the calls a debug monitor makes. *)
From Coq Require Import ZArith List.
From Verif Require Import Base World MemSpec PlatSpec.
Import ListNotations.
Open Scope Z_scope.

(** Started in [w], monitor [m] makes call [q] in state [x], at some point. *)
Inductive makes : monitor -> world -> pcall -> world -> Prop :=
| makes_now p k h w : makes (MCall p k h) w p w
| makes_returned p k h w v w' q x : api (pcall_run p) w = Done v w' -> makes (k v) w' q x -> makes (MCall p k h) w q x
| makes_raised p k h w c w' q x : api (pcall_run p) w = Raised c w' -> makes (h c) w' q x -> makes (MCall p k h) w q x.

(** The monitor makes at most [n] calls, whatever their results. *)
Fixpoint calls_within (m : monitor) (n : Z) : Prop :=
  match m with
  | MDone | MRaise _ => True
  | MCall _ k h => 0 < n /\ (forall v, calls_within (k v) (n - 1)) /\ (forall c, calls_within (h c) (n - 1))
  end.
