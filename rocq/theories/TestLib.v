(** A small harness for running the repository's unit tests on the model (CppUTest's CHECK macros,
    __try_and_catch and the failure injection of libmocks). *)
From Coq Require Import String ZArith List Bool.
From Verif Require Import Base World MemSim MemSpec MemEx.
Import ListNotations.
Open Scope Z_scope.

(** A statement of a test: [None] if a check fails. *)
Definition tstep := world -> option world.

Fixpoint run_steps (l : list tstep) (w : world) : option world :=
  match l with
  | [] => Some w
  | s :: t => match s w with Some w' => run_steps t w' | None => None end
  end.

(** The call returns. *)
Definition ok {A} (m : M world A) : tstep :=
  fun w => match api m w with Done _ w' => Some w' | _ => None end.

(** CHECK_EQUAL on the value of a call. *)
Definition gives (m : M world Z) (v : Z) : tstep :=
  fun w => match api m w with Done x w' => if x =? v then Some w' else None | _ => None end.
Definition zero (m : M world Z) : tstep := gives m 0.
Definition nonzero (m : M world Z) : tstep :=
  fun w => match api m w with Done x w' => if x =? 0 then None else Some w' | _ => None end.

(** __try_and_catch and validateExceptionThrown. *)
Definition throws {A} (m : M world A) (c : Z) : tstep :=
  fun w => match api m w with Raised x w' => if x =? c then Some (set_exn w' noException []) else None | _ => None end.

(** STRCMP_EQUAL *)
Definition text (m : M world (list Z)) (s : string) : tstep :=
  fun w => match api m w with Done x w' => if bytes_eqb x (s2b s) then Some w' else None | _ => None end.

(** The 32-bit word at a host address (region and offset). *)
Definition points (m : M world (nat * Z)) (v : Z) : tstep :=
  fun w => match api m w with
           | Done (i, off) w' =>
               match nth_error (m_regions (w_mem w')) i with
               | Some r => if of_le (firstn 4 (skipn (Z.to_nat off) (r_data r))) =? v then Some w' else None
               | None => None
               end
           | _ => None
           end.
Definition same (m1 m2 : M world (nat * Z)) : tstep :=
  fun w => match api m1 w with
           | Done (i, x) w' => match api m2 w' with
                               | Done (j, y) w'' => if Nat.eqb i j && (x =? y) then Some w'' else None
                               | _ => None
                               end
           | _ => None
           end.

Definition set_env (w : world) (e : env) : world :=
  mkW (w_mem w) (w_heap w) (w_files w) (w_code w) (w_msg w) (w_ctx w) (w_err w) (w_faults w) (w_gdb w) (w_con w) e.

(** MallocFailureInject_FailAllocation(n): the n-th allocation from now on fails. *)
Definition fail_alloc (n : nat) : tstep :=
  fun w => let e := w_env w in let k := h_calls (w_heap w) in
           Some (set_env w (mkEnv (fun i _ => negb (Nat.eqb (S i) (k + n))) (e_fs e) (e_io e) (e_poll e) (e_read e) (e_write e))).

(** __try_and_catch and checks of the code and of getExceptionMessage. *)
Definition throws_msg {A} (m : M world A) (c : Z) (msg : string) : tstep :=
  fun w => match api m w with
           | Raised x w' => if (x =? c) && bytes_eqb (w_msg w') (s2b msg) then Some (set_exn w' noException []) else None
           | _ => None
           end.

Definition set_io (w : world) (io : nat -> io_fault) : world :=
  let e := w_env w in set_env w (mkEnv (e_malloc e) (e_fs e) io (e_poll e) (e_read e) (e_write e)).

(** freadFail(-1): after the file is opened, nothing can be read. *)
Definition fail_reads : tstep :=
  fun w => let k := fs_calls (w_files w) in Some (set_io w (fun i => if Nat.leb i k then IoOk else IoFail)).

(** The I/O call that follows the next [n] ones fails. *)
Definition fail_io (n : nat) : tstep :=
  fun w => let k := fs_calls (w_files w) in Some (set_io w (fun i => if Nat.eqb i (k + n) then IoFail else IoOk)).

(** The file that a test creates. *)
Definition test_file : list Z := s2b "test".
Definition one_file (data : list Z) (name : list Z) : option (list Z) := if bytes_eqb name test_file then Some data else None.

(** The words of the register context: flags, R, exceptionPSR, FPR (checkRegisters). *)
Definition registers_are (l : list Z) : tstep :=
  fun w => if bytes_eqb (w_ctx w) (flat_map (le 4) l) then Some w else None.
(** initRegisterContext of DumpBaseTest.h. *)
Definition deadbeef : list Z := 0 :: repeat 0xDEADBEEF 19 ++ repeat 0 34.

(** A test passes: all its statements do, the exception code is clear at the end, and after teardown
    (Uninit) no allocation and no open file is left. *)
Definition passes_from (w0 : world) (l : list tstep) : Prop :=
  match run_steps l w0 with
  | Some w => match api MemorySim_Uninit w with
              | Done _ w' => (w_code w =? 0) && match h_live (w_heap w'), fs_open (w_files w') with [], [] => true | _, _ => false end
              | _ => false
              end
  | None => false
  end = true.
Definition passes (l : list tstep) : Prop := passes_from (w_start env0) l.

(** The same with a file and initial registers. *)
Definition passes_with (data : list Z) (regs : list Z) (l : list tstep) : Prop :=
  passes_from (set_ctx (w_start (mkEnv (fun _ _ => true) (one_file data) (fun _ => IoOk) (fun _ => PollNo) (fun _ => RdEof) (fun _ => true)))
                       (flat_map (le 4) regs)) l.
