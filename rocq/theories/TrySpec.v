(** What exceptions are meant to do, for the programs of TryCatch.v: no global code, no handler chain. *)
From Coq Require Import ZArith List Bool.
From Verif Require Import Base World TryCatch.
Import ListNotations.
Open Scope Z_scope.

(** How a statement ends. *)
Inductive ending := Normal | Raises (e : Z) | Returns.

Definition after_call (o : ending) : ending := match o with Returns => Normal | _ => o end.

(** [ideal cur s st o cur' st']: run in the state [st] while the exception [cur] is being handled (0: none),
    [s] ends as [o] in the state [st'], and then [cur'] is being handled.
    - A throw raises its code; within a handler, a code lower than that of the exception being handled
      is raised as the latter ("escalating exceptions").
    - A rethrow raises the exception being handled.  Clearing finishes its handling.
    - The handler of a try block runs iff the body raises an exception, which it then handles; what was
      handled before is handled again afterwards. *)
Inductive ideal {S : Type} : Z -> stmt S -> S -> ending -> Z -> S -> Prop :=
| i_do cur f st : ideal cur (Do f) st Normal cur (f st)
| i_throw cur e st : ideal cur (Throw e) st (Raises (Z.max e cur)) cur st
| i_throw_msg cur e t st : ideal cur (ThrowMsg e t) st (Raises (Z.max e cur)) cur st
| i_rethrow cur st : cur <> 0 -> ideal cur Rethrow st (Raises cur) cur st
| i_clear cur st : ideal cur Clear st Normal 0 st
| i_seq cur s t st cur1 st1 o cur2 st2 :
    ideal cur s st Normal cur1 st1 -> ideal cur1 t st1 o cur2 st2 -> ideal cur (Seq s t) st o cur2 st2
| i_seq_ends cur s t st o cur1 st1 : ideal cur s st o cur1 st1 -> o <> Normal -> ideal cur (Seq s t) st o cur1 st1
| i_if cur (c : S -> bool) s t st o cur1 st1 : ideal cur (if c st then s else t) st o cur1 st1 -> ideal cur (If c s t) st o cur1 st1
| i_while_end cur (c : S -> bool) s st : c st = false -> ideal cur (While c s) st Normal cur st
| i_while cur (c : S -> bool) s st cur1 st1 o cur2 st2 : c st = true ->
    ideal cur s st Normal cur1 st1 -> ideal cur1 (While c s) st1 o cur2 st2 -> ideal cur (While c s) st o cur2 st2
| i_while_ends cur (c : S -> bool) s st o cur1 st1 : c st = true ->
    ideal cur s st o cur1 st1 -> o <> Normal -> ideal cur (While c s) st o cur1 st1
| i_call cur s st o cur1 st1 : ideal cur s st o cur1 st1 -> ideal cur (Call s) st (after_call o) cur1 st1
| i_return cur st : ideal cur Return st Returns cur st
| i_try_fine cur b h st o cur1 st1 :
    ideal 0 b st o cur1 st1 -> (o = Normal \/ o = Returns) -> ideal cur (Try b h) st o cur st1
| i_try_caught cur b h st e cur1 st1 o cur2 st2 :
    ideal 0 b st (Raises e) cur1 st1 -> ideal e h st1 o cur2 st2 -> ideal cur (Try b h) st o cur st2.

(** ** Proper use of the macros *)

(** No exception is being handled, or one is and the handler has not cleared it. *)
Inductive status := Clean | Handling.

(** [proper r a s b]: started in status [a], [s] uses the macros properly and ends in status [b] if it
    ends normally, and in status [r] if it returns ([None]: it must not return).
    - Codes thrown are positive.
    - A rethrow is in a handler that has not cleared the exception.
    - A try block is not started while an exception is being handled.
    - A try block's body does not return from the function around it.
    - A handler that ends normally or returns has cleared the exception. *)
Inductive proper {S : Type} : option status -> status -> stmt S -> status -> Prop :=
| p_do r a f : proper r a (Do f) a
| p_throw r a e b : 0 < e -> proper r a (Throw e) b
| p_throw_msg r a e t b : 0 < e -> proper r a (ThrowMsg e t) b
| p_rethrow r b : proper r Handling Rethrow b
| p_clear r a : proper r a Clear Clean
| p_seq r a s b t c : proper r a s b -> proper r b t c -> proper r a (Seq s t) c
| p_if r a c s t b : proper r a s b -> proper r a t b -> proper r a (If c s t) b
| p_while r a c s : proper r a s a -> proper r a (While c s) a
| p_call r a s b : proper (Some b) a s b -> proper r a (Call s) b
| p_return a b : proper (Some a) a Return b
| p_try r b h : proper None Clean b Clean ->
    proper (match r with Some Clean => r | _ => None end) Handling h Clean -> proper r Clean (Try b h) Clean.

(** A weaker condition: no body of a try block returns from the function around it. *)
Fixpoint returns {S} (s : stmt S) : bool :=
  match s with
  | Seq s t | If _ s t | Try s t => returns s || returns t
  | While _ s => returns s
  | Return => true
  | _ => false
  end.
Fixpoint contained {S} (s : stmt S) : bool :=
  match s with
  | Seq s t | If _ s t => contained s && contained t
  | While _ s | Call s => contained s
  | Try b h => negb (returns b) && contained b && contained h
  | _ => true
  end.

(** What a run of the machine comes to: it finishes in a state, or stops with an exception that nothing
    catches. *)
Definition finishes {S} (s : stmt S) (st st' : S) : Prop := exists x, steps (boot s st) x /\ step x = Finished x /\ m_state x = st'.
Definition stops_with {S} (s : stmt S) (st : S) (e : Z) (st' : S) : Prop :=
  exists x y, steps (boot s st) x /\ step x = NoHandler y /\ m_code y = e /\ m_state y = st'.

(** ** The codes *)

(** The codes that the program itself adds to mri's, as offsets from mri's largest one (the table in
    include/try_catch.h). *)
Definition own_codes : list (Z * Z) :=
  [(outOfMemoryException, 3); (busErrorException, 4); (hardwareBreakpointException, 9); (fileException, 12);
   (elfFormatException, 14); (fileFormatException, 15); (stackOverflowException, 16)].
