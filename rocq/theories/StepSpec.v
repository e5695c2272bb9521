(** What a Newton step is to achieve. *)
From Verif Require Import StepModel UpdateSpec.
Open Scope Q_scope.

(** [K] is a right inverse of the matrix [J] of [n] rows and columns. *)
Definition right_inverse (n : nat) (J K : nat -> nat -> Q) : Prop :=
  forall i j, (i < n)%nat -> (j < n)%nat -> sumn n (fun k => J i k * K k j) == if Nat.eqb i j then 1 else 0.
(** numpy.linalg.inv returns an inverse or raises. *)
Definition inverts (inv : nat -> (nat -> nat -> Q) -> option (nat -> nat -> Q)) : Prop :=
  forall n J K, inv n J = Some K -> right_inverse n J K.

Definition uvar_eqb (x y : uvar) : bool :=
  match x, y with
  | UM a, UM b => Nat.eqb a b | UP a, UP b => Nat.eqb a b | UH a, UH b => Nat.eqb a b
  | UF a f, UF b g => Nat.eqb a b && String.eqb f g
  | UC a, UC b => Nat.eqb a b | _, _ => false
  end.
(** The column of an unknown. *)
Fixpoint column (vars : list (uvar * nat)) (x : uvar) : option nat :=
  match vars with [] => None | (y, j) :: l => if uvar_eqb x y then Some j else column l x end.
Definition num (x : uvar) (s : vstate) : Q := match value x s with Some q => q | None => 0 end.

(** A linear equation: coefficients of quantities and a constant. *)
Definition lin (terms : list (uvar * Q)) (c : Q) (s : vstate) : Q :=
  c + fold_right Qplus 0 (map (fun t => snd t * num (fst t) s) terms).
(** Its row of the Jacobian. *)
Definition coef (vars : list (uvar * nat)) (terms : list (uvar * Q)) (j : nat) : Q :=
  fold_right Qplus 0 (map (fun t => match column vars (fst t) with Some k => if Nat.eqb k j then snd t else 0 | None => 0 end) terms).
(** The unknowns: distinct, with columns below [n]. *)
Definition unknowns_ok (n : nat) (vars : list (uvar * nat)) : Prop :=
  NoDup (map fst vars) /\ Forall (fun e => (snd e < n)%nat) vars.
(** No limit applies to the step of [x]: mass flows and enthalpies, and pressures that do not
    fall by more than half. *)
Definition full_step (inc : list Q) (vars : list (uvar * nat)) (s : vstate) (x : uvar) : Prop :=
  match x with
  | UM _ | UH _ => True
  | UP c => forall j, column vars x = Some j -> 0 < v_p s c /\ - (1#2) * v_p s c <= nth j inc 0
  | _ => False
  end.
Definition flows_and_enthalpies (terms : list (uvar * Q)) : Prop :=
  Forall (fun t => match fst t with UM _ | UH _ => True | _ => False end) terms.

(** Balance of the mass flows, as sums *)
Definition qsum (l : list Q) : Q := fold_right Qplus 0 l.
Definition balanced (ins outs : list nat) (s : vstate) : Prop := qsum (map (v_m s) ins) == qsum (map (v_m s) outs).
