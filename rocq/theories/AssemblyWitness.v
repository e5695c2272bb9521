(** Objects used in the examples and refutations of AssemblyProps.v. *)
From Coq Require Import QArith.
From Verif Require Import Base AssemblyModel AssemblySpec AssemblyProofs.
Open Scope nat_scope.
Open Scope list_scope.

(* Two components (2 + 1 equations), one connection, one bus, one user equation. *)
Definition ex_o (n : nat) (res : list Q) (jac : list ((nat * nat) * Q)) := {| eo_num := n; eo_res := res; eo_jac := jac |}.
Definition ex_n :=
  {| sn_comps := [ex_o 2 [1; 2]%Q [((0, 0), 10%Q); ((1, 3), 11%Q)]; ex_o 0 [] []; ex_o 1 [3]%Q [((0, 1), 12%Q)]];
     sn_conns := [ex_o 1 [4]%Q [((0, 2), 13%Q)]];
     sn_busses := [ex_o 1 [5]%Q []];
     sn_udes := [ex_o 1 [6]%Q [((0, 0), 14%Q)]] |}.
(** The residual of an equation whose quantities are all specified is
    overwritten by that of the next object: a violated specification (residual
    5) leaves no trace in the residual vector. *)
Definition lost :=
  {| sn_comps := [ex_o 1 [5]%Q []; ex_o 1 [0]%Q [((0, 0), 1%Q)]]; sn_conns := []; sn_busses := []; sn_udes := [] |}.
