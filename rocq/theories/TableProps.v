(** C239 - C242: the parameters of the component classes. *)
From Coq Require Import QArith Lqa Lia List String Bool.
From Verif Require Import Base UpdateModel StepModel StepSpec LinProofs TableModel TableSpec TableProofs.
Import ListNotations.
Open Scope nat_scope.
Open Scope string_scope.
Open Scope list_scope.

(** C239 – after any sequence of set_attr calls on a component of any class the preparation succeeds: one equation for every specified parameter that has one, groups exactly if all elements are specified, all other parameters unchanged. *)
Theorem C239_prepares : forall parse c calls mandatory, let h := cset_attr_history parse calls (new_component c) in
  exists k n, preprocess mandatory h = Ok (k, n)
  /\ n = mandatory + equations c k
  /\ (forall p r es, dget p (class_params c) = Some r -> t_kind r = KGcp es -> (specified k p = true <-> forall e, In e es -> specified k e = true))
  /\ (forall p, (forall r es, dget p (class_params c) = Some r -> t_kind r <> KGcp es) -> dget p (k_params k) = dget p (k_params h)).
Proof. exact prepares. Qed.
Print Assumptions C239_prepares.

(** C239 – a parameter has one equation together with derivatives, or none. *)
Theorem C239_rows : forall c p r, dget p (class_params c) = Some r ->
  (has_equation r = true <-> t_num_eq r = 1) /\ (has_equation r = false <-> t_num_eq r = 0) /\ (has_equation r = true <-> t_deriv r <> None).
Proof. exact row_facts. Qed.
Print Assumptions C239_rows.

(** C239 – the derivatives called for a parameter are those named after its equation. *)
Theorem C239_pairs : forall c p r f, dget p (class_params c) = Some r -> t_func r = Some f ->
  exists x, f = (x ++ "_func")%string /\ t_deriv r = Some (x ++ "_deriv")%string.
Proof. exact pairs. Qed.
Print Assumptions C239_pairs.
Example C239_pairs_ex : exists r, dget "ttd_u" (class_params KHeatExchanger) = Some r /\ t_func r = Some "ttd_u_func" /\ t_deriv r = Some "ttd_u_deriv".
Proof. eexists. repeat split; vm_compute; reflexivity. Qed.

(** C240 – a specification without effect. *)
Theorem C240_refuted : exists c p, number c p /\ forall parse v calls mandatory first k n, let h := cset_attr_history parse calls (new_component c) in
  is_numeric parse v = true -> var_flag h p = false -> preprocess mandatory h = Ok (k, n) ->
  exists h' k', cset_attr parse [(p, CV v)] h = (h', None) /\ preprocess mandatory h' = Ok (k', n)
    /\ active_derivs c k' = active_derivs c k /\ component_columns first k' = component_columns first k.
Proof. exact ignored_witness. Qed.
Print Assumptions C240_refuted.

(** C240 – parameters without any effect: the same equations, derivatives and unknowns. *)
Theorem C240_ignored_always : forall parse c p v calls mandatory first k n, let h := cset_attr_history parse calls (new_component c) in
  In p (ignored c) -> is_numeric parse v = true -> var_flag h p = false -> preprocess mandatory h = Ok (k, n) ->
  exists h' k', cset_attr parse [(p, CV v)] h = (h', None) /\ preprocess mandatory h' = Ok (k', n)
    /\ active_derivs c k' = active_derivs c k /\ component_columns first k' = component_columns first k.
Proof. exact ignored_no_effect. Qed.
Print Assumptions C240_ignored_always.

(** C240 – a parameter with an equation: specifying it adds the equation and calls its derivatives. *)
Theorem C240_partial : forall parse c p r v calls mandatory k n, let h := cset_attr_history parse calls (new_component c) in
  dget p (class_params c) = Some r -> t_kind r = KCp -> has_equation r = true -> specified h p = false ->
  is_numeric parse v = true -> preprocess mandatory h = Ok (k, n) ->
  exists h' k' n', cset_attr parse [(p, CV v)] h = (h', None) /\ preprocess mandatory h' = Ok (k', n') /\ n < n'
    /\ exists d, t_deriv r = Some d /\ In (d, t_own r) (active_derivs c k').
Proof. exact equation_effect. Qed.
Print Assumptions C240_partial.

(** C240 – all other parameters that take numbers have an equation or are elements of a group with an equation. *)
Theorem C240_covered_partial : forall c p r, dget p (class_params c) = Some r -> t_kind r = KCp -> ~ In p (ignored c) -> ~ In p ["P"; "Qloss"; "eta_mech"; "T_v_inner"; "dissipative"] ->
  has_equation r = true \/ exists g rg es, dget g (class_params c) = Some rg /\ t_kind rg = KGcp es /\ In p es /\ has_equation rg = true.
Proof. exact numbers_covered. Qed.
Print Assumptions C240_covered_partial.

(** C241 – an unknown without derivative. *)
Theorem C241_refuted : exists c p, number c p /\ forall parse calls mandatory first, let h := cset_attr_history parse calls (new_component c) in
  parse "var" = None ->
  exists h' k n, cset_attr parse [(p, CV (PStr "var"))] h = (h', None) /\ preprocess mandatory h' = Ok (k, n)
    /\ In p (map fst (component_columns first k)) /\ forall cols, jac_columns c k = Ok cols -> ~ In p cols.
Proof. exact unknown_witness. Qed.
Print Assumptions C241_refuted.

(** C241 – a parameter declared unknown gets a column of the Jacobian, but no derivative writes to it. *)
Theorem C241_unwritten_always : forall parse c calls mandatory first p, let h := cset_attr_history parse calls (new_component c) in
  number c p -> ~ In p (map snd (carriers c)) -> parse "var" = None ->
  exists h' k n, cset_attr parse [(p, CV (PStr "var"))] h = (h', None) /\ preprocess mandatory h' = Ok (k, n)
    /\ In p (map fst (component_columns first k)) /\ forall cols, jac_columns c k = Ok cols -> ~ In p cols.
Proof. exact unknown_without_entry. Qed.
Print Assumptions C241_unwritten_always.

(** C241 – with such a column there is no inverse, and the step changes nothing. *)
Theorem C241_singular_always : forall inv L n vars a s j, inverts inv -> (j < n)%nat -> (forall i, (i < n)%nat -> ar_jac a i j == 0) ->
  snd (matrix_inversion inv n a) = true /\ newton_step inv L n vars a s = (s, None).
Proof. exact unwritten_column. Qed.
Print Assumptions C241_singular_always.

(** C241 – pressure ratios of components with two sides: AttributeError in the derivatives. *)
Theorem C241_ratio_always : forall parse c calls mandatory p, let h := cset_attr_history parse calls (new_component c) in
  two_sided c = true -> p = "pr1" \/ p = "pr2" -> parse "var" = None ->
  exists h' k n, cset_attr parse [(p, CV (PStr "var"))] h = (h', None) /\ preprocess mandatory h' = Ok (k, n) /\ jac_columns c k = Err AttributeError.
Proof. exact ratio_raises. Qed.
Print Assumptions C241_ratio_always.

(** C241 – the other parameters: their column is written if their equation is in force. *)
Theorem C241_partial : forall c g p k cols, In (g, p) (carriers c) -> g = "" \/ specified k g = true -> var_flag k p = true ->
  jac_columns c k = Ok cols -> In p cols.
Proof. exact carried. Qed.
Print Assumptions C241_partial.

(** C241 – and by no other equation. *)
Theorem C241_only_partial : forall parse c calls mandatory k n cols p, let h := cset_attr_history parse calls (new_component c) in
  preprocess mandatory h = Ok (k, n) -> jac_columns c k = Ok cols -> In p cols ->
  exists g, In (g, p) (carriers c) /\ (g = "" \/ specified k g = true).
Proof. exact only_carried_history. Qed.
Print Assumptions C241_only_partial.

(** C242 – an unknown starting outside of its limits. *)
Theorem C242_refuted : exists c p r, dget p (class_params c) = Some r /\ In p (map snd (carriers c)) /\ forall parse, parse "var" = None ->
  exists h q x, cset_attr parse [(p, CV (PStr "var"))] (new_component c) = (h, None) /\ dget p (k_params h) = Some q /\ q_is_var q = true
    /\ q_val q = PNum (Fin x) /\ ~ (t_min r <= x <= t_max r)%Q.
Proof. exact start_witness. Qed.
Print Assumptions C242_refuted.

(** C242 – unknown parameters whose starting value is outside of the limits. *)
Theorem C242_outside_always : forall parse c p r, In p (out_of_limits c) -> dget p (class_params c) = Some r -> t_kind r = KCp -> parse "var" = None ->
  exists h q x, cset_attr parse [(p, CV (PStr "var"))] (new_component c) = (h, None) /\ dget p (k_params h) = Some q /\ q_is_var q = true
    /\ q_val q = PNum (Fin x) /\ ~ (t_min r <= x <= t_max r)%Q.
Proof. exact starts_outside. Qed.
Print Assumptions C242_outside_always.

(** C242 – all other defaults are within the limits. *)
Theorem C242_partial : forall c p r, dget p (class_params c) = Some r -> (within r <-> ~ In p (out_of_limits c)).
Proof. exact defaults_within. Qed.
Print Assumptions C242_partial.

(** C242 – the lower limit is not above the upper limit. *)
Theorem C242_ordered_partial : forall c p r, dget p (class_params c) = Some r -> (t_min r <= t_max r)%Q.
Proof. exact limits_ordered. Qed.
Print Assumptions C242_ordered_partial.

(** The power and efficiency of a pump. *)
Example C239_ex : rmap (fun kn => (equations KPump (fst kn), snd kn))
  (preprocess 0 (cset_attr_history (fun _ => None) [[("P", CV (PNum (Fin 100))); ("eta_s", CV (PNum (Fin (4 # 5))))]] (new_component KPump))) = Ok (2, 2).
Proof. reflexivity. Qed.
Example C239_group_ex : rmap (fun kn => (specified (fst kn) "darcy_group", specified (fst kn) "hw_group", snd kn)) (preprocess 0 (cset_attr_history (fun _ => None)
     [[("L", CV (PNum (Fin 100)))]; [("D", CV (PNum (Fin (1 # 10)))); ("ks", CV (PNum (Fin (1 # 10000))))]] (new_component KPipe))) = Ok (true, false, 1).
Proof. reflexivity. Qed.
(** The logarithmic temperature difference of a condenser. *)
Example C240_ex : In "td_log" (ignored KCondenser) 
  /\ rmap snd (preprocess 1 (new_component KCondenser)) = Ok 1
  /\ rmap (fun kn => (specified (fst kn) "td_log", snd kn)) (preprocess 1 (fst (cset_attr (fun _ => None) [("td_log", CV (PNum (Fin 10)))] (new_component KCondenser)))) = Ok (true, 1).
Proof. split; [now left|]. split; reflexivity. Qed.
Example C240_pump_ex : exists r, dget "P" (class_params KPump) = Some r /\ t_kind r = KCp /\ has_equation r = true.
Proof. eexists. repeat split; reflexivity. Qed.
(** The isentropic efficiency of a turbine as unknown. *)
Example C241_ex : number KTurbine "eta_s" /\ ~ In "eta_s" (map snd (carriers KTurbine)) 
  /\ rmap (fun kn => (map fst (component_columns 4 (fst kn)), jac_columns KTurbine (fst kn)))
    (preprocess 0 (fst (cset_attr (fun _ => None) [("eta_s", CV (PStr "var")); ("pr", CV (PStr "var"))] (new_component KTurbine))))
    = Ok (["eta_s"; "pr"], Ok ["pr"]).
Proof.
  split; [eexists; split; reflexivity|]. split; [intros [A|[A|[]]]; discriminate|]. reflexivity.
Qed.
Example C241_raises_ex : rmap (fun kn => jac_columns KHeatExchanger (fst kn))
  (preprocess 1 (fst (cset_attr (fun _ => None) [("pr1", CV (PStr "var"))] (new_component KHeatExchanger)))) = Ok (Err AttributeError).
Proof. reflexivity. Qed.
(** The diameter of a pipe as unknown. *)
Example C241_pipe_ex : In ("darcy_group", "D") (carriers KPipe) 
  /\ rmap (fun kn => (specified (fst kn) "darcy_group", jac_columns KPipe (fst kn)))
  (preprocess 0 (fst (cset_attr (fun _ => None) [("L", CV (PNum (Fin 100))); ("D", CV (PStr "var")); ("ks", CV (PNum (Fin (1 # 10000))))] (new_component KPipe))))
  = Ok (true, Ok ["D"]).
Proof. split; [cbn; tauto|]. reflexivity. Qed.
(** The power of a fuel cell. *)
Example C242_ex : In "P" (out_of_limits KFuelCell) /\ exists r, dget "P" (class_params KFuelCell) = Some r /\ t_val r = PNum (Fin 1) /\ (t_max r == 0)%Q.
Proof. split; [now left|]. eexists. repeat split; reflexivity. Qed.

