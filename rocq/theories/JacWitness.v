(** Concrete networks for the statements about Jacobian rows. *)
From Coq Require Import Reals List String Bool.
From Verif Require Import EqnModel JacModel.
Import ListNotations.
Open Scope R_scope.

(** First mass fraction of a composition. *)
Definition first_x (x : comp) : R := match x with (_, y) :: _ => y | [] => 0 end.
(** Properties that depend on the composition. *)
Definition wP : props :=
  {| pT := fun _ p _ x => 300 + p + first_x x; pTs := fun _ _ _ => 300; pv := fun _ _ _ x => 1 + first_x x;
     pvisc := fun _ _ _ _ => 1; pis := fun _ _ h _ x => h + first_x x; phT := fun _ _ T x => T * (1 + first_x x);
     phQ := fun _ _ _ _ => 1; pref := fun _ x => 10 * first_x x; pdff := fun _ _ _ => 1 |}.
Definition wi : conn := Conn 0 0 0 ["a"%string].
Definition wo : conn := Conn 1 0 1 ["a"%string].
Definition wi2 : conn := Conn 2 1 2 ["a"%string].
Definition wo2 : conn := Conn 3 1 3 ["a"%string].
Definition we : env := fun q => match q with QP 0 => 2 | QH 0 => 3 | QF _ _ => 1 / 2 | _ => 1 end.
Definition we2 : env := fun q => match q with QP 0 | QP 1 => 11 | QF _ _ => 1 / 2 | _ => 1 end.
Definition all_unknown (_ : qty) : bool := true.
Definition nothing_skipped (_ : qty) : bool := false.
Definition ds0 (_ : nat) : R := 1 / 1000.
