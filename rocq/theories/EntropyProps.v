(** C206, C207: entropy balances. *)
From Coq Require Import Reals Lra.
From Verif Require Import Base ReportModel EntropyModel EntropySpec EntropyProofs EntropyWitness.
Open Scope R_scope.

(** C206 – the parts add up to the change of entropy; heat is mean temperature times entropy of the heat. *)
Theorem C206_sum : forall s s' i o b, simple_balance s s' i o = Ok b ->
  b_Q b + b_irr b = e_m i * (e_s o - e_s i) /\
  e_m i * (e_h o - e_h i) = b_T b * b_Q b.
Proof. exact simple_sum. Qed.
Print Assumptions C206_sum.

(** C206 – the balance exists exactly if the enthalpy changes. *)
Theorem C206_defined : forall s T v i o, gibbs s T v -> 0 < e_p i -> 0 < e_p o -> 0 < e_h i -> 0 < e_h o ->
  ((exists b, simple_balance s s i o = Ok b) <-> e_h o <> e_h i).
Proof. exact simple_defined. Qed.
Print Assumptions C206_defined.

(** C206 – losses of pressure produce entropy, none without; the entropy of the heat has the sign of the heat. *)
Theorem C206_signs : forall s T v i o b, gibbs s T v -> 0 < e_h i -> 0 < e_h o ->
  0 < e_p o -> e_p o <= e_p i -> 0 < e_m i -> consistent s i -> consistent s o ->
  simple_balance s s i o = Ok b ->
  0 <= b_irr b /\ (e_p o = e_p i -> b_irr b = 0) /\
  (0 < b_Q b <-> e_h i < e_h o) /\ (b_Q b < 0 <-> e_h o < e_h i).
Proof. exact simple_signs. Qed.
Print Assumptions C206_signs.

(** C206 – the mean temperature lies between those of inlet and outlet at the mean pressure. *)
Theorem C206_mean : forall s T v i o b, gibbs s T v -> heating T -> 0 < e_p i -> 0 < e_p o ->
  0 < e_h i -> 0 < e_h o ->
  simple_balance s s i o = Ok b ->
  let p := e_p i * sqrt (e_p o / e_p i) in
  Rmin (T p (e_h i)) (T p (e_h o)) <= b_T b <= Rmax (T p (e_h i)) (T p (e_h o)).
Proof. exact simple_mean. Qed.
Print Assumptions C206_mean.

(** C206 – heat exchangers: entropy produced is the change of entropy of both streams. *)
Theorem C206_exchanger_sum : forall s1 s1' s2 s2' pr1 pr2 i1 i2 o1 o2 b1 b2 S,
  hx_balance s1 s1' s2 s2' pr1 pr2 i1 i2 o1 o2 = Ok (b1, b2, S) ->
  S = e_m i1 * (e_s o1 - e_s i1) + e_m i2 * (e_s o2 - e_s i2) /\
  S = (b_irr b1 + b_irr b2) + (b_Q b1 + b_Q b2).
Proof. exact hx_sum. Qed.
Print Assumptions C206_exchanger_sum.

(** C206 – heat exchangers: the heat produces entropy according to both mean temperatures; total not negative if the heat goes to the lower one. *)
Theorem C206_exchanger : forall s1 T1 v1 s2 T2 v2 i1 i2 o1 o2 b1 b2 S,
  gibbs s1 T1 v1 -> gibbs s2 T2 v2 -> 0 < e_h i1 -> 0 < e_h i2 -> 0 < e_h o1 -> 0 < e_h o2 ->
  0 < e_p o1 -> e_p o1 <= e_p i1 -> 0 < e_p o2 -> e_p o2 <= e_p i2 -> 0 < e_m i1 -> 0 < e_m i2 ->
  consistent s1 i1 -> consistent s1 o1 -> consistent s2 i2 -> consistent s2 o2 ->
  hx_balance s1 s1 s2 s2 (e_p o1 / e_p i1) (e_p o2 / e_p i2) i1 i2 o1 o2 = Ok (b1, b2, S) ->
  e_m i1 * (e_h o1 - e_h i1) + e_m i2 * (e_h o2 - e_h i2) = 0 ->
  e_h o1 < e_h i1 ->
  (b_T b2 <= b_T b1 -> 0 <= S) /\
  b_Q b1 + b_Q b2 = e_m i1 * (e_h i1 - e_h o1) * (1 / b_T b2 - 1 / b_T b1).
Proof. exact hx_second_law. Qed.
Print Assumptions C206_exchanger.

(** C206 – valves produce entropy. *)
Theorem C206_throttle : forall s T v i o, gibbs s T v -> 0 < e_h i -> consistent s i -> consistent s o ->
  0 < e_p o -> e_p o <= e_p i -> e_h o = e_h i -> 0 <= e_m i -> 0 <= flow_balance i o.
Proof. exact throttle. Qed.
Print Assumptions C206_throttle.

(** C206 – a turbomachine produces entropy exactly if its outlet enthalpy is at least the isentropic one. *)
Theorem C206_machine : forall s T v i o hs, gibbs s T v -> 0 < hs -> 0 < e_h o -> consistent s i -> consistent s o -> 0 < e_p o ->
  s (e_p o) hs = e_s i -> 0 < e_m i -> (0 <= flow_balance i o <-> hs <= e_h o).
Proof. exact machine. Qed.
Print Assumptions C206_machine.

Example C206_ex : gibbs gas_s gas_T gas_v /\ heating gas_T /\
  exists b, simple_balance gas_s gas_s (gas 2 5 300000) (gas 2 4 400000) = Ok b /\
    300 <= b_T b <= 400 /\ 0 < b_Q b /\ 0 <= b_irr b.
Proof.
  split; [apply gas_gibbs|]. split; [apply gas_heating|].
  destruct (proj2 (C206_defined gas_s gas_T gas_v (gas 2 5 300000) (gas 2 4 400000) gas_gibbs
    ltac:(cbn; lra) ltac:(cbn; lra) ltac:(cbn; lra) ltac:(cbn; lra)) ltac:(cbn; lra)) as (b & B).
  exists b. split; [assumption|]. split.
  - pose proof (C206_mean gas_s gas_T gas_v (gas 2 5 300000) (gas 2 4 400000) b gas_gibbs gas_heating
      ltac:(cbn; lra) ltac:(cbn; lra) ltac:(cbn; lra) ltac:(cbn; lra) B) as M.
    cbv zeta in M. unfold gas_T in M. cbn [gas e_h] in M. rewrite Rmin_left, Rmax_right in M by lra. lra.
  - destruct (C206_signs gas_s gas_T gas_v (gas 2 5 300000) (gas 2 4 400000) b gas_gibbs ltac:(cbn; lra) ltac:(cbn; lra) ltac:(cbn; lra)
      ltac:(cbn; lra) ltac:(cbn; lra) (gas_consistent _ _ _) (gas_consistent _ _ _) B) as (I & _ & S & _).
    split; [|assumption]. apply S. cbn. lra.
Qed.

(** C207 – an adiabatic pipe raises. *)
Theorem C207_adiabatic_refuted : exists s T v i o, gibbs s T v /\ 0 < e_p o < e_p i /\ 0 < e_m i /\ consistent s i /\ consistent s o /\
  simple_balance s s i o = Err ZeroDivisionError.
Proof.
  exists gas_s, gas_T, gas_v, (gas 2 5 300000), (gas 2 4 300000). split; [apply gas_gibbs|].
  split; [cbn; lra|]. split; [cbn; lra|]. split; [reflexivity|]. split; [reflexivity|].
  apply adiabatic. reflexivity.
Qed.
Print Assumptions C207_adiabatic_refuted.

(** C207 – so does every stream whose enthalpy does not change, *)
Theorem C207_adiabatic : forall s i o, e_h o = e_h i ->
  simple_balance s s i o = Err ZeroDivisionError.
Proof. exact adiabatic. Qed.
Print Assumptions C207_adiabatic.

(** C207 – and every heat exchanger without flow on its hot side. *)
Theorem C207_no_flow : forall s1 s1' s2 s2' pr1 pr2 i1 i2 o1 o2, e_m i1 = 0 ->
  hx_balance s1 s1' s2 s2' pr1 pr2 i1 i2 o1 o2 = Err ZeroDivisionError.
Proof. exact no_flow. Qed.
Print Assumptions C207_no_flow.
