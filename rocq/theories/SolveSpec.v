(** Statement vocabulary for the Newton loop. *)
From Coq Require Import QArith.
From Verif Require Import Base SolveModel.
Open Scope nat_scope.
Open Scope list_scope.

(** [trace step s ns s']: iterations from [s] with residual norms [ns] lead to
    [s'] without an exception; only the last may have a singular Jacobian. *)
Inductive trace {S0 : Type} (step : S0 -> S0 * res (fnum * bool)) : S0 -> list (fnum * bool) -> S0 -> Prop :=
| tr_nil s : trace step s [] s
| tr_cons s s1 s2 n d l : step s = (s1, Ok (n, d)) -> (d = true -> l = []) -> trace step s1 l s2 ->
    trace step s ((n, d) :: l) s2.

(** A number below the tolerance. *)
Definition small (n : fnum) : Prop := exists q, n = Fin q /\ (q < 1 # 1000)%Q.

(** A norm that fell by more than five per cent. *)
Definition falls (a b : fnum) : Prop := exists x y, a = Fin x /\ b = Fin y /\ (y < x * (95 # 100))%Q.
