(** The exception macros of include/try_catch.h and the globals of libcommon/src/try_catch.c, as a
    machine with an explicit chain of handler structures, setjmp and longjmp.

    Programs are built from the macros and from ordinary statements on a state of any type [S].
    Simplified: an [ExceptionHandler] and its [jmp_buf] are one record in a store that only grows (in C
    they are local variables of the block the __try opens); a jmp_buf is the rest of the program from
    the setjmp on; a handler whose block is no longer active is recognised by that rest no longer being
    part of what is still to run. *)
From Coq Require Import ZArith List.
From Verif Require Import Base World.
Import ListNotations.
Open Scope Z_scope.

Section Machine.
Variable S : Type.

(** Programs.  [Do], [If] and [While] are ordinary C; [Call] is a function call, [Return] leaves the
    innermost called function.  [Throw], [ThrowMsg], [Rethrow]: try_catch.h 84-105.  [Clear]:
    clearExceptionCode, 129-132.  [Try body handler]: 64-82. *)
Inductive stmt :=
| Do (f : S -> S)
| Throw (e : Z)
| ThrowMsg (e : Z) (msg : list Z)
| Rethrow
| Clear
| Seq (s t : stmt)
| If (c : S -> bool) (s t : stmt)
| While (c : S -> bool) (s : stmt)
| Call (s : stmt)
| Return
| Try (body handler : stmt).

(** What remains to run: a statement; the end of a __try block, which takes its handler structure from
    the chain (try_catch.h 79-80); the test "if (g_exceptionCode)" with its block (82); the end of a
    function. *)
Inductive item :=
| IStmt (s : stmt)
| IPop (id : nat)
| ICatch (handler : stmt)
| IRet.

(** try_catch.h 47-51: pPrevious and what setjmp saved. *)
Record handler := mkHandler { h_prev : option nat; h_jump : list item }.

(** The machine: what remains, g_pExceptionHandlers, the handler structures, g_exceptionCode,
    g_exceptionMessage (libcommon/src/try_catch.c 16-18) and the program's own state. *)
Record machine := mkM {
  m_rest : list item;
  m_top : option nat;
  m_store : list handler;
  m_code : Z;
  m_text : list Z;
  m_state : S }.

Inductive next :=
| Next (x : machine)
| Finished (x : machine)          (* nothing remains *)
| NoHandler (x : machine)         (* __debugbreak and exit(-1): try_catch.h 87-91 *)
| Dangling.                       (* undefined: longjmp to, or use of, a block that is gone *)

(** [id]'s block is active iff its end is still to come. *)
Definition active (id : nat) (k : list item) : bool :=
  existsb (fun i => match i with IPop j => Nat.eqb id j | _ => false end) k.

(** return: drops what remains of the function. *)
Fixpoint leave (k : list item) : list item :=
  match k with
  | [] => []
  | IRet :: k' => k'
  | _ :: k' => leave k'
  end.

(** try_catch.h 84-97, with setExceptionCode (124-127).  [k] is what remains after the throw. *)
Definition do_throw (k : list item) (x : machine) (e : Z) (text : list Z) : next :=
  let code := if m_code x <? e then e else m_code x in
  match m_top x with
  | None => NoHandler (mkM k (m_top x) (m_store x) code text (m_state x))
  | Some id =>
      match nth_error (m_store x) id with
      | None => Dangling
      | Some h => if active id k then Next (mkM (h_jump h) (m_top x) (m_store x) code text (m_state x)) else Dangling
      end
  end.

Definition step (x : machine) : next :=
  match m_rest x with
  | [] => Finished x
  | i :: k =>
      let go k' := Next (mkM k' (m_top x) (m_store x) (m_code x) (m_text x) (m_state x)) in
      match i with
      | IStmt (Do f) => Next (mkM k (m_top x) (m_store x) (m_code x) (m_text x) (f (m_state x)))
      | IStmt (Throw e) => do_throw k x e (m_text x)
      | IStmt (ThrowMsg e t) => do_throw k x e (firstn 1023 t)   (* try_catch.h 99-103 *)
      | IStmt Rethrow => do_throw k x (m_code x) (m_text x)
      | IStmt Clear => Next (mkM k (m_top x) (m_store x) noException (m_text x) (m_state x))
      | IStmt (Seq s t) => go (IStmt s :: IStmt t :: k)
      | IStmt (If c s t) => go (IStmt (if c (m_state x) then s else t) :: k)
      | IStmt (While c s) => if c (m_state x) then go (IStmt s :: IStmt (While c s) :: k) else go k
      | IStmt (Call s) => go (IStmt s :: IRet :: k)
      | IStmt Return => go (leave k)
      | IStmt (Try b h) =>
          (* try_catch.h 64-77 *)
          let id := length (m_store x) in
          let after := IPop id :: ICatch h :: k in
          Next (mkM (IStmt b :: after) (Some id) (m_store x ++ [mkHandler (m_top x) after]) noException [] (m_state x))
      | IPop id =>
          match nth_error (m_store x) id with
          | None => Dangling
          | Some h => Next (mkM k (h_prev h) (m_store x) (m_code x) (m_text x) (m_state x))
          end
      | ICatch h => if m_code x =? 0 then go k else go (IStmt h :: k)
      | IRet => go k
      end
  end.

(** Any number of steps. *)
Inductive steps : machine -> machine -> Prop :=
| steps_refl x : steps x x
| steps_next x y z : step x = Next y -> steps y z -> steps x z.

(** The start of a program: no handlers, no exception. *)
Definition boot (s : stmt) (st : S) : machine := mkM [IStmt s] None [] noException [] st.

End Machine.
Arguments Do {S}. Arguments Throw {S}. Arguments ThrowMsg {S}. Arguments Rethrow {S}. Arguments Clear {S}. Arguments Seq {S}.
Arguments If {S}. Arguments While {S}. Arguments Call {S}. Arguments Return {S}. Arguments Try {S}.
Arguments IStmt {S}. Arguments IPop {S}. Arguments ICatch {S}. Arguments IRet {S}.
Arguments mkHandler {S}. Arguments h_prev {S}. Arguments h_jump {S}.
Arguments mkM {S}. Arguments m_rest {S}. Arguments m_top {S}. Arguments m_store {S}. Arguments m_code {S}. Arguments m_text {S}. Arguments m_state {S}.
Arguments Next {S}. Arguments Finished {S}. Arguments NoHandler {S}. Arguments Dangling {S}.
Arguments active {S}. Arguments leave {S}. Arguments do_throw {S}. Arguments step {S}. Arguments steps {S}. Arguments boot {S}.
