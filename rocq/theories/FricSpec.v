(** Vocabulary for pressure losses of pipes. *)
From Coq Require Import Reals.
From Verif Require Import ReportModel.
Open Scope R_scope.

(** Reynolds number of a mass flow in a pipe; [visc] is the sum of the viscosities at both ends. *)
Definition reynolds (m D visc : R) : R := 4 * Rabs m / (PI * D * (visc / 2)).
(** [l] is the friction factor: the value of the formula or the number searched for. *)
Definition is_factor (re ks d l : R) : Prop :=
  match darcy_friction_factor re ks d with Direct x => l = x | Zero_of f => 0 < l /\ f l = 0 end.
(** Flow regimes. *)
Inductive regime := Laminar | Blasius | Hanakov | Smooth | Rough.
Definition in_regime (g : regime) (re ks d : R) : Prop :=
  match g with
  | Laminar => re <= 2320
  | Blasius => 2320 < re <= 10000 /\ re * ks / d < 65
  | Hanakov => 10000 < re < 1000000 /\ re * ks / d < 65
  | Smooth => 1000000 <= re /\ re * ks / d < 65
  | Rough => 2320 < re /\ 65 <= re * ks / d
  end.
