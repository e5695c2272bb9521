(** What the convergence check of a combustion chamber has to establish. *)
From Coq Require Import QArith Qabs Bool List String.
From Verif Require Import Base UpdateModel UpdateSpec.
Import ListNotations.

(** The mass flow of an inlet in the check: an unknown one that is negative is replaced. *)
Definition start_flow (X : unknowns) (s : vstate) (i : conn) : Q :=
  if negb (Qle_bool 0 (v_m s (k_m i))) && x_m X (k_m i) then (1 # 100)%Q else v_m s (k_m i).
(** Mass fraction of a fluid. *)
Definition share (s : vstate) (c : conn) (f : string) : Q := match dget f (v_f s (k_fl c)) with Some q => q | None => 0%Q end.
(** Mass flow entering. *)
Fixpoint entering (X : unknowns) (s : vstate) (ins : list conn) : Q :=
  match ins with [] => 0%Q | i :: l => (start_flow X s i + entering X s l)%Q end.
(** Mass flow of a fluid entering. *)
Fixpoint inflow (X : unknowns) (s : vstate) (f : string) (ins : list conn) : Q :=
  match ins with [] => 0%Q | i :: l => (share s i f * start_flow X s i + inflow X s f l)%Q end.
(** Mass fraction of a fluid in the mixture of all inlets. *)
Definition mixed (X : unknowns) (s : vstate) (ins : list conn) (f : string) : Q := (inflow X s f ins / entering X s ins)%Q.

(** The names of the gases and the fuels. *)
Record gases := { g_o2 : string; g_co2 : string; g_h2o : string; g_fuels : list string }.
(** A fluid that does not take part in the reaction. *)
Definition inert (g : gases) (f : string) : Prop := f <> g_o2 g /\ f <> g_co2 g /\ f <> g_h2o g /\ ~ In f (g_fuels g).
(** The names differ and none is the name of a fuel. *)
Definition distinct (g : gases) : Prop :=
  g_o2 g <> g_co2 g /\ g_o2 g <> g_h2o g /\ g_co2 g <> g_h2o g /\ ~ In (g_o2 g) (g_fuels g) /\ ~ In (g_co2 g) (g_fuels g) /\ ~ In (g_h2o g) (g_fuels g).
(** A fraction of the flue gas that can be expected; [x] is the fraction in the mixture of the inlets. *)
Definition expected (g : gases) (x : Q) (f : string) (q : Q) : Prop :=
  (f = g_o2 g -> 1 # 1000 <= q <= 1 # 4)%Q
  /\ (f = g_co2 g \/ f = g_h2o g -> 1 # 1000 <= q <= 1 # 10)%Q
  /\ (In f (g_fuels g) -> q <= 0)%Q
  /\ (inert g f -> Qabs (q - x) <= 3 # 100)%Q.
(** Inlets and outlet have compositions of their own. *)
Definition apart (ins : list conn) (o : conn) : Prop := forall i, In i ins -> k_fl i <> k_fl o.
(** Neither is the mass flow of the outlet that of an inlet. *)
Definition own_flow (ins : list conn) (o : conn) : Prop := forall i, In i ins -> k_m i <> k_m o.
(** The mass fraction of all fuels. *)
Fixpoint fuel_share (fuels : list string) (s : vstate) (c : conn) : Q :=
  match fuels with [] => 0%Q | f :: l => (share s c f + fuel_share l s c)%Q end.
(** All fuels have a mass fraction at the connection. *)
Definition lists (fuels : list string) (s : vstate) (c : conn) : Prop := forall f, In f fuels -> dget f (v_f s (k_fl c)) <> None.
