(** C20: every unknown gets its own column.
    C60: presolving the fluid state keeps the balance of equations and unknowns. *)
From Verif Require Import Base MassModel VarSpaceModel VarSpaceSpec VarSpaceProofs VarSpaceWitness.
Open Scope nat_scope.
Open Scope string_scope.
Open Scope list_scope.

(** If the numbering succeeds then the numbers handed out are 0..n-1 in order,
    no unknown has two of them, the column stored in each object is its number,
    exactly the unknowns of the network are numbered (a mass flow shared by
    many connections counts once) and the flag [is_var] of every container of a
    connection says whether it is an unknown. *)
Theorem C20_every_unknown_one_column : forall bs cs cps s s',
  wf_net bs cs cps (vs_heap s) -> number_unknowns bs cs cps s = (s', None) ->
  map fst (vs_dict s') = seq 0 (num_vars s') /\
  NoDup (map snd (vs_dict s')) /\
  (forall i u, In (i, u) (vs_dict s') -> column s' u = Some i) /\
  (forall u, In u (map snd (vs_dict s')) <-> is_unknown bs cs cps (vs_heap s) u) /\
  (forall c x, In c cs -> x = k_m c \/ x = k_p c \/ x = k_h c ->
     (v_var (vs_heap s' x) = true <-> is_unknown bs cs cps (vs_heap s) (UConn x))) /\
  (forall x, v_set (vs_heap s' x) = v_set (vs_heap s x) /\ v_solved (vs_heap s' x) = false) /\
  length (vs_eqs s') = length cs.
Proof. exact number_unknowns_sound. Qed.
Print Assumptions C20_every_unknown_one_column.

(** Two unknowns never share a column. *)
Theorem C20_columns_distinct : forall bs cs cps s s',
  wf_net bs cs cps (vs_heap s) -> number_unknowns bs cs cps s = (s', None) ->
  forall u v, is_unknown bs cs cps (vs_heap s) u -> is_unknown bs cs cps (vs_heap s) v ->
  column s' u = column s' v -> u = v.
Proof. exact columns_distinct. Qed.
Print Assumptions C20_columns_distinct.

(** This stage fails exactly if a connection of known composition has more
    than three state specifications. *)
Theorem C20_error_only_overspecified : forall bs cs cps s s' e,
  number_unknowns bs cs cps s = (s', Some e) -> e = TESPyNetworkError /\
  exists c, In c cs /\ k_known c = true /\ 3 < num_specs (vs_heap s) c.
Proof. exact number_unknowns_error. Qed.
Print Assumptions C20_error_only_overspecified.

Theorem C20_overspecified_rejected : forall bs cs cps s c,
  In c cs -> k_known c = true -> 3 < num_specs (vs_heap s) c ->
  exists s' e, number_unknowns bs cs cps s = (s', Some e).
Proof. exact overspecified_rejected. Qed.
Print Assumptions C20_overspecified_rejected.

(** For every connection of known composition: equations left plus unknowns
    removed is the number of equations without presolving, and only unspecified
    pressure and enthalpy are removed. *)
Theorem C60_presolve_keeps_balance : forall m_set p_set h_set c mk,
  simplify m_set p_set h_set c = Ok mk ->
  length (equations mk c) + b2n (mk_p mk) + b2n (mk_h mk) = length (equations nomarks c) /\
  (mk_p mk = true -> p_set = false) /\ (mk_h mk = true -> h_set = false).
Proof. exact presolve_balance. Qed.
Print Assumptions C60_presolve_keeps_balance.

(** Whole network: presolving removes the same number of connection equations
    as unknowns; the right hand sides count every specified equation, and every
    open fraction and every distinct unspecified container. *)
Theorem C60_network_balance : forall bs cs s s',
  wf_net bs cs [] (vs_heap s) -> number_unknowns bs cs [] s = (s', None) ->
  exists removed,
    length (flat_map (fun l => l) (vs_eqs s')) + removed = length (flat_map (equations nomarks) cs) /\
    num_vars s' + removed = length (flat_map snd bs) + length (nodup Nat.eq_dec
      (filter (fun x => negb (v_set (vs_heap s x))) (flat_map (fun c => [k_m c; k_p c; k_h c]) cs))).
Proof. exact network_balance. Qed.
Print Assumptions C60_network_balance.

(** The same with the number of equations the user asks for: every specification of
    temperature, volumetric flow, vapour content, distance to the boiling point and every other one counts. *)
Theorem C60_asked : forall m_set p_set h_set c mk, simplify m_set p_set h_set c = Ok mk ->
  length (equations mk c) + b2n (mk_p mk) + b2n (mk_h mk) = asked c.
Proof. exact presolve_asked. Qed.
Print Assumptions C60_asked.
Theorem C60_network_asked : forall bs cs s s', wf_net bs cs [] (vs_heap s) -> number_unknowns bs cs [] s = (s', None) ->
  exists removed,
    length (flat_map (fun l => l) (vs_eqs s')) + removed = fold_right (fun c n => asked c + n) 0 cs /\
    num_vars s' + removed = length (flat_map snd bs) + length (nodup Nat.eq_dec
      (filter (fun x => negb (v_set (vs_heap s x))) (flat_map (fun c => [k_m c; k_p c; k_h c]) cs))).
Proof. exact network_asked. Qed.
Print Assumptions C60_network_asked.

Example ex_columns : snd ex_run = None /\
  vs_dict (fst ex_run) = [(0, UFluid 0 "N2"); (1, UFluid 0 "O2"); (2, UConn 0); (3, UConn 5); (4, UConn 6); (5, UConn 7);
                          (6, UComp 0 "D"); (7, UComp 1 "P")] /\
  vs_eqs (fst ex_run) = [[]; ["m_ref"]; ["T"; "v"]] /\
  map (fun x => v_var (vs_heap (fst ex_run) x)) (seq 0 8) = [true; false; false; false; false; true; true; true].
Proof. vm_compute. auto. Qed.
Example ex_wf : wf_net [(0, ["N2"; "O2"])] ex_conns [(0, [("D", true); ("L", false)]); (1, [("P", true)])] ex_heap.
Proof.
  repeat split; cbn; try (repeat constructor; cbn; intuition congruence).
  - intros b fs [H|[]]. inversion H; subst. repeat constructor; cbn; intuition congruence.
  - intros cp ps [H|[H|[]]]; inversion H; subst; repeat constructor; cbn; intuition congruence.
  - intros c c' [<-|[<-|[<-|[]]]] [<-|[<-|[<-|[]]]]; cbn; lia.
Qed.
Example ex_overspecified : snd (number_unknowns [] [ {| k_m := 0; k_p := 1; k_h := 2; k_T := true; k_x := true; k_Td := true;
  k_v := false; k_known := true; k_others := [] |} ] [] ex_state) = Some TESPyNetworkError.
Proof. reflexivity. Qed.
