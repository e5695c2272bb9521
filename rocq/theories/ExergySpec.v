(** Vocabulary of the exergy statements, independent of the code's case
    distinctions. *)
From Coq Require Import QArith.
From Verif Require Import Base ExergyModel.
Open Scope Q_scope.

(** Flow exergy: what could be gained by bringing the stream to the ambient state *)
Definition flow_exergy (a : ambient) (c : conn) : Q :=
  x_m c * (x_h c - f_h (x_fluid c) (a_p a) (a_T a)
           - a_T a * (x_s c - f_s (x_fluid c) (a_p a) (a_T a))).
Definition sum_of (l : list conn) (g : conn -> Q) : Q := fold_right (fun c acc => g c + acc) 0 l.
(** Exergy entering minus exergy leaving; [W] is the power supplied *)
Definition net (a : ambient) (W : Q) (ins outs : list conn) : Q :=
  W + sum_of ins (flow_exergy a) - sum_of outs (flow_exergy a).
(** Entropy leaving minus entropy entering *)
Definition produced (ins outs : list conn) : Q :=
  sum_of outs (fun c => x_m c * x_s c) - sum_of ins (fun c => x_m c * x_s c).
(** Two ports of one stream *)
Definition same_stream (i o : conn) : Prop := x_m o == x_m i /\ x_fluid o = x_fluid i.
(** Enthalpy and entropy belong to pressure and temperature *)
Definition at_state (c : conn) : Prop :=
  x_h c == f_h (x_fluid c) (x_p c) (x_T c) /\ x_s c == f_s (x_fluid c) (x_p c) (x_T c).
(** A number is reported and equals [v] *)
Definition reports (x : num) (v : Q) : Prop := exists y, x = Some y /\ y == v.
(** Efficiency of a balance: product over fuel, a number unless one is nan or the fuel is zero *)
Definition efficient (b : balance) : Prop :=
  match E_F b, E_P b with
  | Some f, Some p =>
      ((exists e, epsilon b = Some e) <-> ~ f == 0) /\ forall e, epsilon b = Some e -> e * f == p
  | _, _ => epsilon b = None
  end.
