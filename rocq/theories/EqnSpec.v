(** Vocabulary of the statements about equations and Jacobian rows: what a
    partial derivative is, what a row of the Jacobian is after the assignments
    of a routine, and physical totals over ports. *)
From Coq Require Import Reals List String Bool Arith.
From Verif Require Import Base EqnModel.
Import ListNotations.
Open Scope R_scope.

(** The state in which only container [q] has been changed to [t]. *)
Definition upd (e : env) (q : qty) (t : R) : env :=
  fun q' => if qty_eqb q' q then t else e q'.

(** [d] is the partial derivative of [f] with respect to container [q] in state
    [e] (limit of difference quotients). *)
Definition partial_is (f : env -> R) (e : env) (q : qty) (d : R) : Prop :=
  derivable_pt_lim (fun t => f (upd e q t)) (e q) d.

(** Matrix entry of a row: columns without assignment stay zero
    (networks/network.py 2020, 2398-2402). *)
Definition entry (ws : list write) (q : qty) : R :=
  match run_writes empty_row ws q with Some v => v | None => 0 end.

(** The row is the gradient: for every unknown of the network the entry is the
    partial derivative of the residual. *)
Definition row_is_gradient (isv : qty -> bool) (f : env -> R) (ws : list write)
  (e : env) : Prop :=
  forall q, isv q = true -> partial_is f e q (entry ws q).

(** The same for the unknowns the increment filter lets through. *)
Definition row_is_gradient_filtered (isv filt : qty -> bool) (f : env -> R)
  (ws : list write) (e : env) : Prop :=
  forall q, isv q = true -> filt q = false -> partial_is f e q (entry ws q).

(** Every entry assigned is the partial derivative for its column. *)
Definition entries_correct (f : env -> R) (ws : list write) (e : env) : Prop :=
  forall q v, run_writes empty_row ws q = Some v -> partial_is f e q v.

(** Only columns of unknowns are assigned. *)
Definition only_unknowns (isv : qty -> bool) (ws : list write) : Prop :=
  forall q v, In (q, v) ws -> isv q = true.

Definition rsum (l : list R) : R := fold_right Rplus 0 l.

Definition mass_total (e : env) (l : list conn) : R := rsum (map (vm e) l).
Definition enthalpy_total (e : env) (l : list conn) : R :=
  rsum (map (fun c => vm e c * vh e c) l).
Definition species_total (e : env) (f : string) (l : list conn) : R :=
  rsum (map (fun c => vx e c f * vm e c) l).

(** All residuals of a vector equation vanish. *)
Definition all_zero (l : list R) : Prop := Forall (fun r => r = 0) l.

(** The mass fractions of the listed fluids add up to one. *)
Definition normalised (e : env) (fl : list string) (c : conn) : Prop :=
  rsum (map (vx e c) fl) = 1.

(** Row of a constraint after the iterations 0..n, the routine being run with
    the iteration counter and the state of each iteration on the same
    dictionary. *)
Fixpoint row_after (routine : nat -> env -> list write) (states : nat -> env)
  (n : nat) : row :=
  match n with
  | O => run_writes empty_row (routine O (states O))
  | S k => run_writes (row_after routine states k) (routine (S k) (states (S k)))
  end.
