(** The machine: state, outcomes, allocation, files, and the try/catch macros. *)
From Coq Require Import ZArith List Bool.
From Verif Require Import Base.
Import ListNotations.
Open Scope Z_scope.

(** ** Outcomes *)

(** Ways in which the C program would have undefined behaviour or abort. *)
Inductive ub : Type :=
| UbData        (** access outside a region's [pData] block *)
| UbReadCounts  (** access outside (or through a NULL) [pReadCounts] array *)
| UbBlob        (** read past the end of an image buffer *)
| UbFree        (** free of a block that is not live *)
| UbRegion      (** use of a region pointer that is not in the list *)
| UbHandle      (** use of a FILE* that is not open *)
| UbContext     (** access outside the register context *)
| AbAssert      (** a failed [assert] *)
| UbOverflow    (** overflow of a signed integer *)
| UbFuel.       (** artefact: the model's loop bound was too small (proved unreachable) *)

(** [Ret]: normal completion; [Exc]: a longjmp to the innermost handler is in flight. *)
Inductive outcome (S A : Type) : Type :=
| Ret (a : A) (s : S)
| Exc (s : S)
| Ub (u : ub).
Arguments Ret {S A}. Arguments Exc {S A}. Arguments Ub {S A}.

Definition M (S A : Type) := S -> outcome S A.

Definition ret {S A} (a : A) : M S A := fun s => Ret a s.
Definition bind {S A B} (m : M S A) (f : A -> M S B) : M S B :=
  fun s => match m s with
           | Ret a s' => f a s'
           | Exc s' => Exc s'
           | Ub u => Ub u
           end.
Definition fail_ub {S A} (u : ub) : M S A := fun _ => Ub u.

Declare Scope m_scope.
Delimit Scope m_scope with m.
Notation "x <- m ;; k" := (bind m (fun x => k))
  (at level 61, m at next level, right associativity) : m_scope.
Notation "m ;;; k" := (bind m (fun _ => k)) (at level 61, right associativity) : m_scope.
Open Scope m_scope.

(** ** Exception codes.  include/try_catch.h 23-38.  The mri codes are not in /repo; only that
    they are positive and at most mriMaxException is used by the code. *)
Definition noException := 0.
Definition invalidArgumentException := 1.
Definition bufferOverrunException := 2.
Definition mriMaxException := 16.
Definition outOfMemoryException := mriMaxException + 3.
Definition busErrorException := mriMaxException + 4.
Definition hardwareBreakpointException := mriMaxException + 9.
Definition fileException := mriMaxException + 12.
Definition elfFormatException := mriMaxException + 14.
Definition fileFormatException := mriMaxException + 15.
Definition stackOverflowException := mriMaxException + 16.

(** ** The memory simulator object (MemorySim.c 92-124) *)

(** struct Watchpoint, MemorySim.c 92-98.  [wp_type] is the enum's 32-bit pattern, unsigned. *)
Record wp := mkWp { wp_type : Z; wp_start : Z; wp_end : Z }.

(** struct MemoryRegion, MemorySim.c 100-115.  [r_redir] is [pRedirect]/[isAlias]: the index of the
    target in the list.  [r_data] is the contents of the [pData] block, so its length is the
    allocated size.  [r_wps] are the first [watchpointCount] entries of [pWatchpoints].
    [r_rc] is [pReadCounts] (block and contents).  [r_bself], [r_bdata], [r_bwp] name the heap
    blocks of the structure, [pData] and [pWatchpoints].  The [readCounts] field is never read
    and is omitted. *)
Record region := mkR {
  r_base : Z; r_size : Z;
  r_redir : option nat; r_raddr : Z;
  r_data : list Z;
  r_wps : list wp; r_wpalloc : Z;
  r_rc : option (nat * list Z);
  r_ro : bool;
  r_bself : nat; r_bdata : nat; r_bwp : option nat }.

(** struct MemorySim, MemorySim.c 117-124.  The linked list is a list in link order. *)
Record mem := mkMem { m_regions : list region; m_xml : option (nat * list Z); m_hits : Z }.

(** ** Heap accounting: live blocks and the number of allocation calls so far. *)
Record heap := mkHeap { h_live : list nat; h_next : nat; h_calls : nat;
                        h_sizes : list (nat * Z) (* every block handed out, with the size asked for, latest first *) }.

(** ** Files *)
Record file := mkFile { f_data : list Z; f_pos : nat }.
Record files := mkFiles { fs_open : list (nat * file); fs_next : nat; fs_calls : nat;
                          fs_opened : list (list Z) (* names passed to fopen, latest first *) }.

(** Injected fault for one I/O call. *)
Inductive io_fault := IoOk | IoFail | IoShort (n : nat).

(** Console events (MockDefaults.c): result of select() and of read(). *)
Inductive poll := PollErr | PollNo | PollYes.
Inductive rd := RdErr | RdEof | RdByte (b : Z).

(** The environment: everything the program cannot control. *)
Record env := mkEnv {
  e_malloc : nat -> Z -> bool;          (* does the k-th allocation, of this size, succeed? *)
  e_fs : list Z -> option (list Z);     (* the file system *)
  e_io : nat -> io_fault;               (* fault of the k-th I/O call *)
  e_poll : nat -> poll; e_read : nat -> rd; e_write : nat -> bool }.

(** Console and StandardIComm state (StandardIComm.c 31-35). *)
Record con := mkCon { c_polls : nat; c_reads : nat; c_writes : nat; c_connected : bool; c_out : list Z }.

(** Text sent to the GDB console by mriPlatform.c. *)
Inductive gdbout := GStr (s : list Z) | GHex (v : Z).

Record world := mkW {
  w_mem : mem;
  w_heap : heap;
  w_files : files;
  w_code : Z;              (* g_exceptionCode *)
  w_msg : list Z;          (* g_exceptionMessage *)
  w_ctx : list Z;          (* RegisterContext as its bytes *)
  w_err : list (list Z);   (* stderr, latest first *)
  w_faults : Z;            (* g_memoryFaultEncountered *)
  w_gdb : list gdbout;     (* GDB console output, latest first *)
  w_con : con;
  w_env : env }.

Definition set_mem (w : world) (x : mem) : world :=
  mkW x (w_heap w) (w_files w) (w_code w) (w_msg w) (w_ctx w) (w_err w) (w_faults w) (w_gdb w) (w_con w) (w_env w).
Definition set_heap (w : world) (x : heap) : world :=
  mkW (w_mem w) x (w_files w) (w_code w) (w_msg w) (w_ctx w) (w_err w) (w_faults w) (w_gdb w) (w_con w) (w_env w).
Definition set_files (w : world) (x : files) : world :=
  mkW (w_mem w) (w_heap w) x (w_code w) (w_msg w) (w_ctx w) (w_err w) (w_faults w) (w_gdb w) (w_con w) (w_env w).
Definition set_exn (w : world) (c : Z) (m : list Z) : world :=
  mkW (w_mem w) (w_heap w) (w_files w) c m (w_ctx w) (w_err w) (w_faults w) (w_gdb w) (w_con w) (w_env w).
Definition set_ctx (w : world) (x : list Z) : world :=
  mkW (w_mem w) (w_heap w) (w_files w) (w_code w) (w_msg w) x (w_err w) (w_faults w) (w_gdb w) (w_con w) (w_env w).
Definition set_err (w : world) (x : list (list Z)) : world :=
  mkW (w_mem w) (w_heap w) (w_files w) (w_code w) (w_msg w) (w_ctx w) x (w_faults w) (w_gdb w) (w_con w) (w_env w).
Definition set_faults (w : world) (x : Z) : world :=
  mkW (w_mem w) (w_heap w) (w_files w) (w_code w) (w_msg w) (w_ctx w) (w_err w) x (w_gdb w) (w_con w) (w_env w).
Definition set_gdb (w : world) (x : list gdbout) : world :=
  mkW (w_mem w) (w_heap w) (w_files w) (w_code w) (w_msg w) (w_ctx w) (w_err w) (w_faults w) x (w_con w) (w_env w).
Definition set_con (w : world) (x : con) : world :=
  mkW (w_mem w) (w_heap w) (w_files w) (w_code w) (w_msg w) (w_ctx w) (w_err w) (w_faults w) (w_gdb w) x (w_env w).

(** ** Local variables: a computation that also owns locals of type [L]. *)
Definition lift {L A} (m : M world A) : M (L * world) A :=
  fun s => match m (snd s) with
           | Ret a w' => Ret a (fst s, w')
           | Exc w' => Exc (fst s, w')
           | Ub u => Ub u
           end.
Definition setl {L} (l : L) : M (L * world) unit := fun s => Ret tt (l, snd s).
Definition getl {L} : M (L * world) L := fun s => Ret (fst s) s.

Definition getw : M world world := fun w => Ret w w.
Definition modw (f : world -> world) : M world unit := fun w => Ret tt (f w).

(** ** Exceptions *)

(** include/try_catch.h 124-127: setExceptionCode keeps the larger of the two codes; then longjmp
    (84-97).  Simplification: a throw with no handler installed (debugbreak, exit) is just [Exc]. *)
Definition throw {A} (e : Z) : M world A :=
  fun w => Exc (set_exn w (Z.max e (w_code w)) (w_msg w)).

(** include/try_catch.h 99-103: snprintf into the 1024-byte message, then throw. *)
Definition throw_msg {A} (e : Z) (msg : list Z) : M world A :=
  fun w => throw e (set_exn w (w_code w) (firstn 1023 msg)).

(** include/try_catch.h 105: __rethrow. *)
Definition rethrow {A} : M world A := fun w => throw (w_code w) w.

(** getExceptionCode: include/try_catch.h 114-117. *)
Definition getExceptionCode : M world Z := fun w => Ret (w_code w) w.

(** clearExceptionCode: include/try_catch.h 129-132. *)
Definition clearExceptionCode : M world unit := fun w => Ret tt (set_exn w noException (w_msg w)).

(** include/try_catch.h 64-82: __try clears the code and the message and runs the body; whether the
    body ended normally or by longjmp, the __catch block runs iff the code is non-zero.  Returns
    the final local variables. *)
Definition try_ {L} (l0 : L) (body : M (L * world) unit) (handler : L -> M world L) : M world L :=
  fun w =>
    match body (l0, set_exn w noException []) with
    | Ret _ (l, w1) => if w_code w1 =? 0 then Ret l w1 else handler l w1
    | Exc (l, w1) => if w_code w1 =? 0 then Ret l w1 else handler l w1
    | Ub u => Ub u
    end.

(** A try block without local variables. *)
Definition try0 (body : M world unit) (handler : M world unit) : M world unit :=
  try_ tt (lift body) (fun _ => handler).

(** ** Heap *)

(** malloc: [None] is NULL.  Contents are kept by the owner; the size asked for is recorded. *)
Definition malloc (size : Z) : M world (option nat) :=
  fun w =>
    let h := w_heap w in
    if e_malloc (w_env w) (h_calls h) size
    then Ret (Some (h_next h)) (set_heap w (mkHeap (h_next h :: h_live h) (S (h_next h)) (S (h_calls h)) ((h_next h, size) :: h_sizes h)))
    else Ret None (set_heap w (mkHeap (h_live h) (h_next h) (S (h_calls h)) (h_sizes h))).

Fixpoint remove1 (b : nat) (l : list nat) : list nat :=
  match l with
  | [] => []
  | x :: t => if Nat.eqb b x then t else x :: remove1 b t
  end.

Definition is_live (b : nat) (h : heap) : bool := existsb (Nat.eqb b) (h_live h).

(** free of a non-NULL pointer. *)
Definition free (b : nat) : M world unit :=
  fun w =>
    let h := w_heap w in
    if is_live b h
    then Ret tt (set_heap w (mkHeap (remove1 b (h_live h)) (h_next h) (h_calls h) (h_sizes h)))
    else Ub UbFree.

(** free(p) where p may be NULL. *)
Definition free_opt (b : option nat) : M world unit :=
  match b with Some x => free x | None => ret tt end.

(** realloc: on failure the old block stays. *)
Definition realloc (b : option nat) (size : Z) : M world (option nat) :=
  p <- malloc size;;
  match p with
  | None => ret None
  | Some n => free_opt b ;;; ret (Some n)
  end.

(** ** Files *)

Definition next_io : M world io_fault :=
  fun w =>
    let f := w_files w in
    Ret (e_io (w_env w) (fs_calls f))
        (set_files w (mkFiles (fs_open f) (fs_next f) (S (fs_calls f)) (fs_opened f))).

Definition fopen (name : list Z) : M world (option nat) :=
  fault <- next_io;;
  fun w =>
    let f := w_files w in
    let f1 := mkFiles (fs_open f) (fs_next f) (fs_calls f) (name :: fs_opened f) in
    match fault, e_fs (w_env w) name with
    | IoFail, _ => Ret None (set_files w f1)
    | _, None => Ret None (set_files w f1)
    | _, Some d => Ret (Some (fs_next f))
                       (set_files w (mkFiles ((fs_next f, mkFile d 0) :: fs_open f) (S (fs_next f)) (fs_calls f)
                                             (name :: fs_opened f)))
    end.

Fixpoint lookup_file (h : nat) (l : list (nat * file)) : option file :=
  match l with
  | [] => None
  | (k, f) :: t => if Nat.eqb h k then Some f else lookup_file h t
  end.

Fixpoint update_file (h : nat) (f' : file) (l : list (nat * file)) : list (nat * file) :=
  match l with
  | [] => []
  | (k, f) :: t => if Nat.eqb h k then (k, f') :: t else (k, f) :: update_file h f' t
  end.

Fixpoint remove_file (h : nat) (l : list (nat * file)) : list (nat * file) :=
  match l with
  | [] => []
  | (k, f) :: t => if Nat.eqb h k then t else (k, f) :: remove_file h t
  end.

Definition get_file (h : nat) : M world file :=
  fun w => match lookup_file h (fs_open (w_files w)) with
           | Some f => Ret f w
           | None => Ub UbHandle
           end.

Definition put_file (h : nat) (f : file) : M world unit :=
  fun w => let fs := w_files w in
           Ret tt (set_files w (mkFiles (update_file h f (fs_open fs)) (fs_next fs) (fs_calls fs) (fs_opened fs))).

Definition fclose (h : nat) : M world unit :=
  get_file h ;;;
  fun w => let fs := w_files w in
           Ret tt (set_files w (mkFiles (remove_file h (fs_open fs)) (fs_next fs) (fs_calls fs) (fs_opened fs))).

(** fread(buf, 1, n, h): the bytes read (the count is their number). *)
Definition fread (h : nat) (n : nat) : M world (list Z) :=
  fault <- next_io;;
  f <- get_file h;;
  let k := match fault with IoOk => n | IoFail => O | IoShort m => Nat.min m n end in
  let bs := firstn k (skipn (f_pos f) (f_data f)) in
  put_file h (mkFile (f_data f) (f_pos f + length bs)) ;;;
  ret bs.

(** fseek(h, 0, SEEK_END) / fseek(h, 0, SEEK_SET): true on success. *)
Definition fseek_end (h : nat) : M world bool :=
  fault <- next_io;;
  f <- get_file h;;
  match fault with
  | IoFail => ret false
  | _ => put_file h (mkFile (f_data f) (length (f_data f))) ;;; ret true
  end.
Definition fseek_start (h : nat) : M world bool :=
  fault <- next_io;;
  f <- get_file h;;
  match fault with
  | IoFail => ret false
  | _ => put_file h (mkFile (f_data f) 0) ;;; ret true
  end.
(** ftell: [None] is -1. *)
Definition ftell (h : nat) : M world (option Z) :=
  fault <- next_io;;
  f <- get_file h;;
  match fault with
  | IoFail => ret None
  | _ => ret (Some (Z.of_nat (f_pos f)))
  end.

(** Bytes of the next line: at most [n], up to and including a newline. *)
Fixpoint take_line (n : nat) (l : list Z) : list Z :=
  match n, l with
  | S k, c :: t => if c =? 10 then [c] else c :: take_line k t
  | _, _ => []
  end.

(** fgets(buf, n, h): [None] is NULL.  A read error is modelled as NULL. *)
Definition fgets (h : nat) (n : nat) : M world (option (list Z)) :=
  fault <- next_io;;
  f <- get_file h;;
  match fault with
  | IoFail => ret None
  | _ =>
      let bs := take_line (n - 1) (skipn (f_pos f) (f_data f)) in
      match bs with
      | [] => ret None
      | _ => put_file h (mkFile (f_data f) (f_pos f + length bs)) ;;; ret (Some bs)
      end
  end.

(** The C string held in a buffer that starts with the bytes [bs] and then a NUL. *)
Fixpoint cstr (bs : list Z) : list Z :=
  match bs with
  | [] => []
  | c :: t => if c =? 0 then [] else c :: cstr t
  end.

(** fprintf(stderr, ...) *)
Definition eprintf (s : list Z) : M world unit := modw (fun w => set_err w (s :: w_err w)).
