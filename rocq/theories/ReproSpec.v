(** Specification vocabulary for runs of the program that are given the same inputs. *)
From Coq Require Import ZArith List Bool.
From Verif Require Import Base World MemSpec.
Import ListNotations.
Open Scope Z_scope.

(** From [w1] and from [w2] on the surroundings do the same: the files named on the command line have the
    same contents, the same allocations are refused, the same file operations fail, and the terminal
    delivers the same.  Everything else may differ: other files, what memory was used before and is still
    in use, earlier errors, earlier output, whatever an earlier session left in memory and registers. *)
Definition same_inputs (args : list (list Z)) (w1 w2 : world) : Prop :=
  (forall f, In f args -> e_fs (w_env w1) f = e_fs (w_env w2) f) /\
  (forall k n, e_malloc (w_env w1) (h_calls (w_heap w1) + k)%nat n = e_malloc (w_env w2) (h_calls (w_heap w2) + k)%nat n) /\
  (forall k, e_io (w_env w1) (fs_calls (w_files w1) + k)%nat = e_io (w_env w2) (fs_calls (w_files w2) + k)%nat) /\
  (forall k, e_poll (w_env w1) (c_polls (w_con w1) + k)%nat = e_poll (w_env w2) (c_polls (w_con w2) + k)%nat) /\
  (forall k, e_read (w_env w1) (c_reads (w_con w1) + k)%nat = e_read (w_env w2) (c_reads (w_con w2) + k)%nat) /\
  (forall k, e_write (w_env w1) (c_writes (w_con w1) + k)%nat = e_write (w_env w2) (c_writes (w_con w2) + k)%nat).

(** Between [w1] and [w1'] the same was printed (to stderr, and to the debugger's console) and the same
    bytes were sent as between [w2] and [w2']. *)
Definition same_output (w1 w1' w2 w2' : world) : Prop :=
  (exists d, w_err w1' = d ++ w_err w1 /\ w_err w2' = d ++ w_err w2) /\
  (exists d, w_gdb w1' = d ++ w_gdb w1 /\ w_gdb w2' = d ++ w_gdb w2) /\
  (exists d, c_out (w_con w1') = c_out (w_con w1) ++ d /\ c_out (w_con w2') = c_out (w_con w2) ++ d).

(** Both calls gave the same result and the same output. *)
Definition same_result {A} (w1 w2 : world) (r1 r2 : result A) : Prop :=
  match r1, r2 with
  | Done a w1', Done b w2' => a = b /\ same_output w1 w1' w2 w2'
  | Raised c w1', Raised d w2' => c = d /\ same_output w1 w1' w2 w2'
  | Crashed u, Crashed v => u = v
  | _, _ => False
  end.
