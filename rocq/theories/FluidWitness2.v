(** Objects used in the examples and refutations of FluidProps.v. *)
From Coq Require Import QArith.
From Verif Require Import MassModel FluidModel FluidSpec FluidProofs FluidWitness FluidProofs2.
Open Scope nat_scope.

(** Example: three connections; 0 fixes 20 % water, 1 fixes 30 % ammonia; 2 brings
    in ethanol as starting value: the rest of 50 % is ethanol. *)
Definition ex_fluid : fstate :=
  set_dict 2 [("ethanol"%string, 1%Q)]
    (set_fluid 1 "ammonia" (Some (3 # 10)%Q) (set_fluid 0 "water" (Some (2 # 10)%Q) (new_conns 9))).
