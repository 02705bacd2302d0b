(** Regions made from a flash image, in every state: specification. *)
From Coq Require Import ZArith List Bool.
From Verif Require Import Base World MemSim MemSpec.
Import ListNotations.
Open Scope Z_scope.

(** A region of zeros that can be written and is watched by nobody. *)
Definition blank_region (r : region) (base size : Z) : Prop :=
  r_base r = base /\ r_size r = size /\ r_redir r = None /\ r_data r = repeat 0 (Z.to_nat size) /\
  r_ro r = false /\ r_wps r = [] /\ r_rc r = None.

(** The two regions agree on everything but their bytes, protection and read counters. *)
Definition same_place (r r' : region) : Prop :=
  r_base r' = r_base r /\ r_size r' = r_size r /\ r_redir r' = r_redir r /\ r_raddr r' = r_raddr r /\
  r_wps r' = r_wps r /\ zlen (r_data r') = zlen (r_data r).
