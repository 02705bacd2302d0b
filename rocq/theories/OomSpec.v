(** Specification vocabulary for refused allocations. *)
From Coq Require Import ZArith List Bool.
From Verif Require Import Base World MemSpec PlatSpec.
Import ListNotations.
Open Scope Z_scope.

(** [refusals w w'] (MemSpec.v) is the number of requests refused between two states. *)

(** The allocator refused the last request made before [w'], which was made after [w]. *)
Definition last_refused (w w' : world) : Prop :=
  exists k n, (h_calls (w_heap w) <= k)%nat /\ h_calls (w_heap w') = S k /\ e_malloc (w_env w) k n = false.

(** A call from [w] reports exactly the refused allocations: if it returns none was refused; if it raises
    out of memory one was, the last; if it raises something else none was. *)
Definition reports_refusals {A} (w : world) (r : result A) : Prop :=
  match r with
  | Done _ w' => refusals w w' = 0
  | Raised c w' => if c =? outOfMemoryException then refusals w w' = 1 /\ last_refused w w' else refusals w w' = 0
  | Crashed _ => True
  end.

(** A monitor that does not keep the shortage to itself: it raises out of memory again whenever a call
    raises it, and never on its own. *)
Fixpoint passes_on (m : monitor) : Prop :=
  match m with
  | MDone => True
  | MRaise c => c <> outOfMemoryException
  | MCall p k h => (forall v, passes_on (k v)) /\ h outOfMemoryException = MRaise outOfMemoryException /\
                   (forall c, c <> outOfMemoryException -> passes_on (h c))
  end.
