(** Specification vocabulary for the communication channel on Windows. *)
From Coq Require Import ZArith List Bool.
From Verif Require Import Base World MemSpec PlatSpec CommWin.
Import ListNotations.
Open Scope Z_scope.

(** The calls on the channel, as on POSIX (PlatSpec). *)
Definition wcall_run (c : ccall) : M world (list Z) :=
  match c with
  | CHasData => num Z.b2z win_hasReceiveData
  | CReceive => num (fun x => x) win_receiveChar
  | CSend ch => nothing (win_sendChar ch)
  | CConnected => num Z.b2z win_isGdbConnected
  end.
Fixpoint wrun (cs : list ccall) (w : world) : option world :=
  match cs with
  | [] => Some w
  | c :: t => match api (wcall_run c) w with Done _ w' => wrun t w' | Raised _ w' => wrun t w' | Crashed _ => None end
  end.
(** The bytes given to calls to send that returned. *)
Fixpoint wsent (cs : list ccall) (w : world) : list Z :=
  match cs with
  | [] => []
  | c :: t =>
      match api (wcall_run c) w with
      | Done _ w' => (match c with CSend ch => [ch mod 256] | _ => [] end) ++ wsent t w'
      | Raised _ w' => wsent t w'
      | Crashed _ => []
      end
  end.
(** The results of calls to receive that returned. *)
Fixpoint wgot (cs : list ccall) (w : world) : list Z :=
  match cs with
  | [] => []
  | c :: t =>
      match api (wcall_run c) w with
      | Done x w' => (match c with CReceive => x | _ => [] end) ++ wgot t w'
      | Raised _ w' => wgot t w'
      | Crashed _ => []
      end
  end.

(** The bytes of the input that reads number [k], [k+1], ... ([n] of them) find. *)
Definition input_bytes (e : env) (k n : nat) : list Z :=
  flat_map (fun i => match e_read e i with RdByte b => [b] | _ => [] end) (seq k n).
(** The first [n] reads after state [w] find a byte of the input. *)
Definition byte_found (w : world) (n : nat) : Prop :=
  exists i b, (i < n)%nat /\ e_read (w_env w) (c_reads (w_con w) + i) = RdByte b.
(** The first [n] reads after state [w] do not all fail (a read at the end of the input does not fail). *)
Definition read_returned (w : world) (n : nat) : Prop :=
  exists i, (i < n)%nat /\ e_read (w_env w) (c_reads (w_con w) + i) <> RdErr.
(** Bytes as values of a signed char. *)
Definition chars (l : list Z) : list Z := map (fun b => if b <? 128 then b else b - 256) l.
