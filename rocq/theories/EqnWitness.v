(** Objects used in the examples and refutations of EqnProps.v. *)
From Coq Require Import Reals List String Bool Arith Lra Lia.
From Verif Require Import Base EqnModel EqnSpec EqnProofs EqnProofs2 EqnProofs3 EqnProofs4.
Import ListNotations.
Open Scope R_scope.

(** A merge of 1 kg/s air-like (0.25/0.75) and 3 kg/s pure oxygen. *)
Definition ex_c (n : nat) : conn := Conn n n n ["O2"%string; "N2"%string].
Definition ex_merge : env := fun q =>
  match q with
  | QM 0 => 1 | QM 1 => 3 | QM 2 => 4
  | QF 0 f => if String.eqb f "O2" then 1/4 else 3/4
  | QF 1 f => if String.eqb f "O2" then 1 else 0
  | QF 2 f => if String.eqb f "O2" then 13/16 else 3/16
  | _ => 0 end.
(** Three fluids, one of them specified at all ports: two equations announced,
    three residuals. *)
Definition ex_c3 (n : nat) : conn := Conn n n n ["N2"%string; "O2"%string; "Ar"%string].
