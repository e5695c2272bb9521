(** C219: rows of busses. *)
From Coq Require Import Reals List String Bool Lra.
From Verif Require Import Base EqnModel JacModel EqnSpec JacSpec JacWitness JacBusModel JacBusSpec JacBusProofs JacBusWitness.
Import ListNotations.
Open Scope R_scope.

(** C219 – for any components on a bus, each unknown has the difference quotient of the residual as entry, or the residual does not depend on it. *)
Theorem C219_row : forall isv P ds Pb l e q,
  Forall (fun b => distinct isv (fst b) /\ inner e (fst b) /\ streams_known isv (fst b)) l ->
  isv q = true ->
  match bus_entries isv P ds l e q with
  | Some v => v = quotient ds (bus_residual P Pb l) e q
  | None => independent (bus_residual P Pb l) e q
  end.
Proof. exact bus_row. Qed.
Print Assumptions C219_row.

(** C219 – only unknowns have an entry. *)
Theorem C219_columns : forall isv P ds l e q v,
  Forall (fun b => distinct isv (fst b)) l ->
  bus_entries isv P ds l e q = Some v -> isv q = true.
Proof. exact bus_columns. Qed.
Print Assumptions C219_columns.

(** C219 – the value of a component on a bus is the power or heat its own equations determine. *)
Theorem C219_meaning : forall P e,
  (forall i o Pw, flow_energy_func i o Pw e = 0 <-> comp_value P (BFlow false i o) e = pval e Pw)
  /\ (forall i o Q, engine_Q_func i o Q e = 0 <-> comp_value P (BFlow true i o) e = pval e Q)
  /\ (forall i1 o1 i2 o2 Q1 Q2, engine_Q_func i1 o1 Q1 e = 0 -> engine_Q_func i2 o2 Q2 e = 0 -> comp_value P (BHeat2 i1 o1 i2 o2) e = pval e Q1 + pval e Q2)
  /\ (forall lhv fuels li o Pd gP Pw, gP (load Pd Pw e) <> 0 -> (tiP_func lhv fuels li o Pd gP Pw e = 0 <-> comp_value P (BPower lhv fuels li [o] Pd gP Pw) e = pval e Pw))
  /\ (forall lhv fuels li o Pd gQ gP Pw Ql, gP (load Pd Pw e) <> 0 -> (Qloss_func lhv fuels li o Pd gQ gP Pw Ql e = 0 <-> comp_value P (BLoss lhv fuels li [o] Pd gQ gP Pw) e = pval e Ql))
  /\ (forall e0 Pw i0 o0 i1 o1 o2, electrolyzer_energy_func (phT P i1 100000 298.15 (xs e i1)) (phT P o1 100000 298.15 (xs e o1)) (phT P o2 100000 298.15 (xs e o2)) e0 i0 i1 o0 o1 o2 Pw e = 0
       <-> comp_value P (BElPower e0 Pw i0 o0 i1 o1 o2) e = pval e Pw).
Proof. exact bus_meaning. Qed.
Print Assumptions C219_meaning.

Example C219_ex : Forall (fun b => distinct all_unknown (fst b) /\ inner we (fst b) /\ streams_known all_unknown (fst b)) demo_bus.
Proof.
  constructor; [|constructor; [|constructor]].
  - split; [|split; [|exact Logic.I]].
    + split; [|reflexivity]. split; [|split].
      * repeat constructor; cbn; intuition discriminate.
      * repeat constructor; cbn; intuition discriminate.
      * intros c [<-|[<-|[<-|[]]]]; (split; [repeat constructor; cbn; intuition discriminate|]);
          intros x [<-|[]]; cbn; tauto.
    + intros c f _ _. unfold vx, we. lra.
  - split; [discriminate|]. split; exact Logic.I.
Qed.
Example C219_entry : bus_entries all_unknown wP ds0 demo_bus we (QH 4) <> None /\ bus_entries all_unknown wP ds0 demo_bus we (QC 0) <> None
  /\ bus_entries all_unknown wP ds0 demo_bus we (QP 0) = None.
Proof. cbn. repeat split; discriminate. Qed.
