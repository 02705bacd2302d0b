(** Specification vocabulary for the test doubles: histories of calls and what the next call must do.
    From Mocks.v it uses only the names of the calls, not the state or the functions. *)
From Coq Require Import ZArith List.
From Verif Require Import Base DumpSpec Mocks.
Import ListNotations.
Open Scope Z_scope.

(** ** Failing allocations *)

(** After this history the next allocation is the one that was asked to fail: the last request counts
    from 1, was not withdrawn, and is followed by one allocation fewer. *)
Definition asked_to_fail (h : list malloc_call) : Prop :=
  exists before n after, h = before ++ FailAllocation n :: after /\ Forall (eq Allocate) after /\ n = zlen after + 1.

(** ** Failing file functions *)

(** The function that a request is about. *)
Definition about (c : file_call) : option file_fn :=
  match c with
  | FopenSetReturn _ | FopenRestore => Some F_fopen
  | FcloseIgnore | FcloseRestore => Some F_fclose
  | FseekSetReturn _ | FseekSetCallsBeforeFailure _ | FseekRestore => Some F_fseek
  | FtellFail _ | FtellRestore => Some F_ftell
  | FwriteFail _ | FwriteRestore => Some F_fwrite
  | FreadFail _ | FreadToFail _ | FreadRestore => Some F_fread
  | FgetsSetData _ | FgetsRestore => Some F_fgets
  | Call _ _ => None
  end.

(** The history has no request about [f] (calls, also of [f], and other requests are allowed). *)
Definition no_request (f : file_fn) (h : list file_call) : Prop := Forall (fun c => about c <> Some f) h.

(** The history has [k] calls of [f]. *)
Inductive calls (f : file_fn) : list file_call -> nat -> Prop :=
| c_nil : calls f [] 0
| c_call size h k : calls f h k -> calls f (Call f size :: h) (S k)
| c_other c h k : (forall size, c <> Call f size) -> calls f h k -> calls f (c :: h) k.

(** The request that ends the others for [f]. *)
Definition restore (f : file_fn) : file_call :=
  match f with
  | F_fopen => FopenRestore | F_fclose => FcloseRestore | F_fseek => FseekRestore | F_ftell => FtellRestore
  | F_fwrite => FwriteRestore | F_fread => FreadRestore | F_fgets => FgetsRestore
  end.

(** The request that [f] return [v] (fclose always returns 0). *)
Inductive request : file_fn -> Z -> file_call -> Prop :=
| r_fopen v : request F_fopen v (FopenSetReturn v)
| r_fclose : request F_fclose 0 FcloseIgnore
| r_ftell v : request F_ftell v (FtellFail v)
| r_fwrite v : request F_fwrite v (FwriteFail v)
| r_fread v : request F_fread v (FreadFail v).

(** The buffer of [size] bytes holds the line as a C string, cut if necessary. *)
Definition holds_line (line : list Z) (size : Z) (buffer : list Z) : Prop :=
  zlen buffer = size /\ exists n rest, buffer = firstn n line ++ 0 :: rest /\ (Z.of_nat n = size - 1 \/ (zlen line <= Z.of_nat n < size)).

(** ** Watching printf *)

(** What has been printed since the hook was set: the streams and texts, in order. *)
Definition printed := list (stream * list Z).
Definition prints (ps : printed) : list spy_call := map (fun p => Print (fst p) (snd p)) ps.
Definition to_terminal (ps : printed) : Prop := Forall (fun p => fst p <> Other) ps.

(** The same place, or 4, 8, 12 ... places before it. *)
Definition in_step (p q : nat) : Prop := exists j, p = (q + 4 * j)%nat.
(** The latest text for stream [f] at such a place; [None] if there is none. *)
Definition latest (ps : printed) (f : stream) (p : nat) (o : option (list Z)) : Prop :=
  match o with
  | Some t => exists q, in_step p q /\ nth_error ps q = Some (f, t) /\
                forall q' t', in_step p q' -> (q < q')%nat -> nth_error ps q' <> Some (f, t')
  | None => forall q t, in_step p q -> nth_error ps q <> Some (f, t)
  end.

(** ** The mock console and communication channel *)

(** Requests about reading, and the number of reads. *)
Definition read_request (c : console_call) : Prop :=
  match c with ReadException _ | ReadBuffer _ | UninitConsole => True | _ => False end.
Definition reads (h : list console_call) : nat := length (filter (fun c => match c with Read => true | _ => false end) h).
(** Requests about writing, and what was written. *)
Definition write_request (c : console_call) : Prop :=
  match c with WriteException _ | CaptureSize _ | UninitConsole => True | _ => False end.
Definition written (h : list console_call) : list Z := flat_map (fun c => match c with Write ch => [ch mod 256] | _ => [] end) h.

Definition receive_request (c : comm_call) : Prop :=
  match c with InitReceive _ _ | InitChecksummed _ _ | UninitComm => True | _ => False end.
Definition received (h : list comm_call) : nat := length (filter (fun c => match c with Receive => true | _ => false end) h).
Definition transmit_request (c : comm_call) : Prop := match c with InitTransmit _ | UninitComm => True | _ => False end.
Definition sent (h : list comm_call) : list Z := flat_map (fun c => match c with Send ch => [ch mod 256] | _ => [] end) h.

(** A string: bytes other than zero. *)
Definition text (l : list Z) : Prop := Forall (fun c => byte c /\ c <> 0) l.
(** The characters of a string up to a zero byte. *)
Inductive up_to_zero : list Z -> list Z -> Prop :=
| u_none l : ~ In 0 l -> up_to_zero l l
| u_zero l rest : ~ In 0 l -> up_to_zero (l ++ 0 :: rest) l.
(** A byte as a signed char. *)
Definition signed_char (b c : Z) : Prop := (0 <= b < 128 /\ c = b) \/ (128 <= b < 256 /\ c = b - 256).

(** ** Data for the mock communication channel *)

(** No zero byte, '$' or '#'. *)
Definition plain (l : list Z) : Prop := Forall (fun c => byte c /\ c <> 0 /\ c <> 36 /\ c <> 35) l.
Definition sum (l : list Z) : Z := fold_right Z.add 0 l.
(** Two lower-case hexadecimal digits for the lowest byte of [n]. *)
Definition two_digits (n : Z) (t : list Z) : Prop :=
  exists a b, t = [a; b] /\ hex_value a = Some (n mod 256 / 16) /\ hex_value b = Some (n mod 256 mod 16) /\ ~ (65 <= a <= 70) /\ ~ (65 <= b <= 70).
(** The data, a sequence of "$body#" with other characters around, and the same with checksums. *)
Inductive with_checksums : list Z -> list Z -> Prop :=
| w_end noise : plain noise -> with_checksums noise noise
| w_packet noise body digits d t : plain noise -> plain body -> two_digits (sum body) digits -> with_checksums d t ->
    with_checksums (noise ++ 36 :: body ++ 35 :: d) (noise ++ 36 :: body ++ 35 :: digits ++ t).
