(** Specification vocabulary for the channel to GDB during a session. *)
From Coq Require Import ZArith List Bool.
From Verif Require Import Base World MemSpec PlatSpec.
Import ListNotations.
Open Scope Z_scope.

(** The bytes given to the calls to send that returned, in a sequence of calls of the platform layer. *)
Fixpoint session_sent (ps : list pcall) (w : world) : list Z :=
  match ps with
  | [] => []
  | p :: t =>
      match api (pcall_run p) w with
      | Done _ w' => (match p with PSend ch => [ch mod 256] | _ => [] end) ++ session_sent t w'
      | Raised _ w' => session_sent t w'
      | Crashed _ => []
      end
  end.
(** The results of the calls to receive that returned. *)
Fixpoint session_got (ps : list pcall) (w : world) : list Z :=
  match ps with
  | [] => []
  | p :: t =>
      match api (pcall_run p) w with
      | Done x w' => (match p with PReceive => x | _ => [] end) ++ session_got t w'
      | Raised _ w' => session_got t w'
      | Crashed _ => []
      end
  end.
(** How many calls to receive there are. *)
Definition session_reads (ps : list pcall) : nat := length (filter (fun p => match p with PReceive => true | _ => false end) ps).
