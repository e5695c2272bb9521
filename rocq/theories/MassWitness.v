(** Objects used in the examples and refutations of MassProps.v. *)
From Coq Require Import QArith.
From Verif Require Import MassModel MassSpec MassProofs.
Open Scope nat_scope.

(** Example: three connections in one branch, the second specified with 5 kg/s,
    and a second branch without specification. *)
Definition ex_mass : mstate := {|
  ms_heap := fun a => {| mc_set := Nat.eqb a 11; mc_val := if Nat.eqb a 11 then 5 else 1 |};
  ms_of := fun c => 10 + c; ms_tmp := fun _ => None |}.
Definition ex_work (h : nat -> mcont) : (nat -> mcont) + pyerr :=
  inl (fun a => if mc_set (h a) then h a else {| mc_set := false; mc_val := 7 |}).
