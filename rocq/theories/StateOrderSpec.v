(** The same connections in another order. *)
From Coq Require Import QArith Permutation.
From Verif Require Import Base StateModel StateSpec StateUnitsSpec.
Open Scope string_scope.
Open Scope list_scope.

(** Nothing can be seen that differs between two connections. *)
Record alike (c c' : conn) : Prop := {
  a_c : forall k, n_c c k = n_c c' k; a_r : n_r c = n_r c'; a_state : n_state c = n_state c'; a_phase : n_phase c = n_phase c';
  a_good : n_good c = n_good c'; a_known : n_known c = n_known c'; a_fluid : n_fluid c = n_fluid c'; a_off : n_off c = n_off c';
  a_solved : n_solved c = n_solved c'; a_eqs : n_eqs c = n_eqs c' }.
(** No connection of a network refers to another one. *)
Definition no_references (net : dict conn) : Prop := forall l c k, dget l net = Some c -> In k ref_keys -> r_set (n_r c k) = false.
(** Two calculations raise, or both end with the same connections, each in its order. *)
Definition permuted (r r' : res (dict conn)) : Prop :=
  match r, r' with Ok n, Ok n' => Permutation n n' | Err _, Err _ => True | _, _ => False end.
