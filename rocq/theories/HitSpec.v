(** What the accesses of a history add to the count of watchpoint hits. *)
From Coq Require Import ZArith List Bool.
From Verif Require Import Base World MemSim MemSpec.
Import ListNotations.
Open Scope Z_scope.

(** The part of a list of break/watchpoints before the first breakpoint that stops a 16-bit read. *)
Fixpoint up_to_break (l : list wp) (a n : Z) : list wp :=
  match l with
  | [] => []
  | x :: t => if (n =? 2) && (wp_type x =? WATCHPOINT_BREAKPOINT) && caught x a n then [] else x :: up_to_break t a n
  end.

(** The call is neither a memory access nor a query of the hits. *)
Definition no_access (o : op) : Prop :=
  match o with ORead _ _ | OWrite _ _ _ | OHits => False | _ => True end.

(** How many hits a call adds, given the regions it finds.  A read counts the watchpoints for reading
    that contain it, but none beyond a breakpoint that stops it; a write counts the watchpoints for
    writing that contain it, unless the memory is read-only; no other call counts any, nor does an
    access to unmapped addresses. *)
Inductive scores (rs : list region) : op -> Z -> Prop :=
| sc_read n a j k r :
    serves rs a n j k -> nth_error rs j = Some r ->
    scores rs (ORead n a) (caught_count (up_to_break (r_wps r) (r_base r + k) n) (r_base r + k) n READING)
| sc_read_off n a : (forall j k, ~ serves rs a n j k) -> scores rs (ORead n a) 0
| sc_write n a v j k r :
    serves rs a n j k -> nth_error rs j = Some r -> r_ro r = false ->
    scores rs (OWrite n a v) (caught_count (r_wps r) (r_base r + k) n WRITING)
| sc_write_off n a v : ~ writable rs a n -> scores rs (OWrite n a v) 0
| sc_other o : no_access o -> scores rs o 0.

(** [hits_due w h ops n]: if [h] hits are on record in [w], then [n] are after the calls [ops]. *)
Inductive hits_due : world -> Z -> list op -> Z -> Prop :=
| hd_nil w h : hits_due w h [] h
| hd_query w h w' ops n : step OHits w = Some w' -> hits_due w' 0 ops n -> hits_due w h (OHits :: ops) n
| hd_call w h o d w' ops n :
    scores (regions w) o d -> step o w = Some w' -> hits_due w' (h + d) ops n -> hits_due w h (o :: ops) n.

(** How many calls of a history access memory, and how many ask for a break/watchpoint. *)
Definition is_access (o : op) : bool := match o with ORead _ _ | OWrite _ _ _ => true | _ => false end.
Definition is_set (o : op) : bool := match o with OSet _ _ _ => true | _ => false end.
Fixpoint accesses (ops : list op) : Z := match ops with [] => 0 | o :: t => (if is_access o then 1 else 0) + accesses t end.
Fixpoint sets (ops : list op) : Z := match ops with [] => 0 | o :: t => (if is_set o then 1 else 0) + sets t end.
