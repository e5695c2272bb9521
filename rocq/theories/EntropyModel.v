(** Entropy balances of components with heat transfer, over the reals. *)
From Coq Require Import Reals.
From Verif Require Import Base ReportModel.
Open Scope R_scope.

(** What the balances read at a connection: mass flow, pressure, enthalpy and the reported
    entropy. simple.py 950-962 *)
Record eport := { e_m : R; e_p : R; e_h : R; e_s : R }.

(** Results: entropy change by heat, by irreversibility, and mean temperature of the heat
    transfer. simple.py 960-962 *)
Record ebal := { b_Q : R; b_irr : R; b_T : R }.

(** SimpleHeatExchanger.entropy_balance, heat_exchangers/simple.py 950-962. [s] is s_mix_ph of
    the fluid at the inlet, [s'] of the one at the outlet. *)
Definition simple_balance (s s' : R -> R -> R) (i o : eport) : res ebal :=
  let p1_star := e_p i * sqrt (e_p o / e_p i) in
  let s1_star := s p1_star (e_h i) in
  let s2_star := s' p1_star (e_h o) in
  let S_Q := e_m i * (s2_star - s1_star) in
  let S_irr := e_m i * (e_s o - e_s i) - S_Q in
  rbind (fdiv (e_h o - e_h i) (s2_star - s1_star)) (fun T => Ok {| b_Q := S_Q; b_irr := S_irr; b_T := T |}).

(** One side of HeatExchanger.entropy_balance, heat_exchangers/base.py 1229-1254; [pr] is the
    pressure ratio of the side *)
Definition side_balance (s s' : R -> R -> R) (pr : R) (i o : eport) : res ebal :=
  let p_star := e_p i * sqrt pr in
  let s_i := s p_star (e_h i) in
  let s_o := s' p_star (e_h o) in
  let S_Q := e_m i * (s_o - s_i) in
  let S_irr := e_m i * (e_s o - e_s i) - S_Q in
  rbind (fdiv (e_m i * (e_h o - e_h i)) S_Q) (fun T => Ok {| b_Q := S_Q; b_irr := S_irr; b_T := T |}).

(** HeatExchanger.entropy_balance, heat_exchangers/base.py 1227-1258: both sides and S_irr *)
Definition hx_balance (s1 s1' s2 s2' : R -> R -> R) (pr1 pr2 : R) (i1 i2 o1 o2 : eport)
  : res (ebal * ebal * R) :=
  rbind (side_balance s1 s1' pr1 i1 o1) (fun b1 =>
  rbind (side_balance s2 s2' pr2 i2 o2) (fun b2 =>
  Ok (b1, b2, 0 + b_irr b1 + b_irr b2 + (b_Q b1 + b_Q b2)))).

(** Turbomachine.entropy_balance, turbomachinery/base.py 256-258; Valve.entropy_balance,
    piping/valve.py 336-338 *)
Definition flow_balance (i o : eport) : R := e_m i * (e_s o - e_s i).
