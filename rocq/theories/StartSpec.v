(** Specification vocabulary for start-up failures, files that are no dumps, and images that do not fit. *)
From Coq Require Import ZArith List Bool.
From Verif Require Import Base World MemSpec DumpSpec LogSpec CmdSpec.
Import ListNotations.
Open Scope Z_scope.

(** What start-up printed: the error line with the message [m], the banner and the usage. *)
Definition printed (w w' : world) (m : list Z) : Prop := w_err w' = usage :: banner :: error_line m :: w_err w.
(** The image is an ELF executable. *)
Definition elf_used (os : list opt) : Prop := exists f, uses_elf os f.
(** The dump is a hex dump / a GDB log. *)
Definition dump_hex (w : world) (os : list opt) : Prop := exists f data, uses_dump os f /\ file_is w f data /\ looks_hex data.
Definition dump_log (w : world) (os : list opt) : Prop :=
  exists f data, uses_dump os f /\ file_is w f data /\ ~ looks_binary data /\ ~ looks_hex data.

(** A dump in binary. *)
Definition whole_binary (data : list Z) : Prop := exists d, valid d /\ data = encode d.
(** A dump in hex; one more character may follow. *)
Definition whole_hex (data : list Z) : Prop :=
  exists d text more, valid d /\ data = text ++ more /\ renders (encode d) text /\ (length (significant more) <= 1)%nat.
(** A text in which no line is about a register or memory. *)
Definition says_nothing (data : list Z) : Prop :=
  forall ls l, lines data ls -> In l ls -> ~ like_memory l /\ forall t, is_target t -> ~ mentions l t.
(** The registers of which nothing is known: zeros, and 0xBAADBAAD for the two stack pointers. *)
Definition unknown_registers (ctx : list Z) : Prop :=
  (forall t, is_target t -> word_at ctx t = match t with TInt 17 | TInt 18 => 0xBAADBAAD | _ => 0 end) /\
  psr_word ctx = 0 /\ flag_bit ctx 0 = false.
