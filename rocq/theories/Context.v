(** The register context: include/mriPlatform.h 20-87, as its 216 bytes (54 little-endian words).
    [flags] is at offset 0, [R] at 4, [exceptionPSR] at 80, [FPR] at 84. *)
From Coq Require Import ZArith List Bool.
From Verif Require Import Base World.
Import ListNotations.
Open Scope Z_scope.
Open Scope m_scope.

Definition TOTAL_REG_COUNT := 19.
Definition TOTAL_FPREG_COUNT := 33.
Definition MSP := 17.
Definition PSP := 18.
Definition DEFAULT_SP_VALUE := 3131947693. (* 0xBAADBAAD *)
(** CrashCatcher.h (submodule not in /repo). *)
Definition CRASH_CATCHER_FLAGS_FLOATING_POINT := 1.

Definition OFF_FLAGS := 0.
Definition OFF_R (i : Z) := 4 + 4 * i.
Definition OFF_PSR := 80.
Definition OFF_FPR (i : Z) := 84 + 4 * i.
Definition SIZEOF_CONTEXT := 216.

(** Store bytes at an offset of the context. *)
Definition ctx_put (off : Z) (bs : list Z) : M world unit :=
  fun w => if (0 <=? off) && (off + zlen bs <=? zlen (w_ctx w))
           then Ret tt (set_ctx w (splice (w_ctx w) off bs))
           else Ub UbContext.

(** Load a word from the context. *)
Definition ctx_word (off : Z) : M world Z :=
  fun w => if (0 <=? off) && (off + 4 <=? zlen (w_ctx w))
           then Ret (of_le (slice (w_ctx w) off 4)) w
           else Ub UbContext.

(** The value of the word at an offset of a context. *)
Definition ctx_at (ctx : list Z) (off : Z) : Z := of_le (slice ctx off 4).
