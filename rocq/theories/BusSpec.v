(** Vocabulary of the statements about busses. *)
From Coq Require Import QArith List.
From Verif Require Import BusModel.
Import ListNotations.
Open Scope Q_scope.

Fixpoint qsum (l : list Q) : Q := match l with [] => 0 | a :: r => a + qsum r end.

(** changing container [k] changes [g] proportionally, with factor [a] *)
Definition slope_at (g : env -> Q) (e : env) (k : nat) (a : Q) : Prop :=
  forall d, g (upd e k (e k + d)) == g e + a * d.

(** the characteristic is the constant [eta] *)
Definition constant_char (c : charline) (eta : Q) : Prop :=
  forall x, exists y, cl_evaluate c x = Ok y /\ y == eta.

(** the value of column [c] in a row given by dictionary entries *)
Fixpoint row_value (c : nat) (j : list (nat * Q)) : Q :=
  match j with
  | [] => 0
  | (c', v) :: r => if Nat.eqb c c' then v else row_value c r
  end.

(** [vs] are the bus values of the rows *)
Definition bus_values (rows : list brow) (e : env) (vs : list Q) : Prop :=
  Forall2 (fun b v => calc_bus_value b e = Ok v) rows vs.

(** components with a complete derivative: their containers are different *)
Definition regular (c : bcomp) : Prop :=
  match c with
  | CFlow _ m hi ho => NoDup [m; hi; ho]
  | CEngineQ m1 hi1 ho1 m2 hi2 ho2 => NoDup [m1; hi1; ho1; m2; hi2; ho2]
  | _ => False
  end.

(** rows with a constant, non-zero efficiency *)
Definition plain_row (b : brow) : Prop :=
  regular (b_comp b) /\ exists eta, ~ eta == 0 /\ constant_char (b_char b) eta.
