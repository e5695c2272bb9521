(** Properties of design and offdesign mode (C42, C110-C117). *)
From Coq Require Import QArith.
From Verif Require Import Base ModeModel ModeSpec ModeProofs4 ModeWitness.
Open Scope string_scope.
Open Scope list_scope.
Open Scope Q_scope.

(* ---------------------------------------------------------------- C42 *)
(** After any sequence of successful calculations the specification of every
    property but the mass flow is what the parameter lists say, and offdesign
    parameters have their design value. *)
Theorem C42_connection_flags : forall u files rs last st st' l c v k, wf st -> runs u files (rs ++ [last]) st = Some st' ->
  dget l (t_conns st) = Some c -> n_ldes c = false -> n_loff c = false -> prop st l v = Some k ->
  exists k', prop st' l v = Some k'
  /\ k_set k' = expected (n_des c) (n_off c) (t_redesign st || existsb offdesign (rs ++ [last])) last v (k_set k)
  /\ (offdesign last = true -> In v (n_off c) -> k_SI k' = k_design k').
Proof. exact flags_conn. Qed.
Print Assumptions C42_connection_flags.
Theorem C42_component_flags : forall u files rs last st st' l c v q, runs u files (rs ++ [last]) st = Some st' ->
  dget l (t_comps st) = Some c -> p_ldes c = false -> p_loff c = false -> param st l v = Some q ->
  exists q', param st' l v = Some q'
  /\ q_set q' = expected (p_des c) (p_off c) (t_redesign st || existsb offdesign (rs ++ [last])) last v (q_set q)
  /\ (offdesign last = true -> In v (p_off c) -> q_num q = true -> q_val q' = q_design q').
Proof. exact flags_comp. Qed.
Print Assumptions C42_component_flags.
(** A history that ends in design mode leaves the specification as it was *)
Theorem C42_back_connection : forall u files rs last st st' l c v k, wf st -> runs u files (rs ++ [last]) st = Some st' ->
  offdesign last = false -> dget l (t_conns st) = Some c -> n_ldes c = false -> n_loff c = false -> prop st l v = Some k ->
  (In v (n_des c) -> k_set k = true) -> (In v (n_off c) -> k_set k = false) ->
  exists k', prop st' l v = Some k' /\ k_set k' = k_set k.
Proof. exact back_conn. Qed.
Print Assumptions C42_back_connection.
Theorem C42_back_component : forall u files rs last st st' l c v q, runs u files (rs ++ [last]) st = Some st' ->
  offdesign last = false -> dget l (t_comps st) = Some c -> p_ldes c = false -> p_loff c = false -> param st l v = Some q ->
  (In v (p_des c) -> q_set q = true) -> (In v (p_off c) -> q_set q = false) ->
  exists q', param st' l v = Some q' /\ q_set q' = q_set q.
Proof. exact back_comp. Qed.
Print Assumptions C42_back_component.
(** An offdesign calculation takes back the references of design parameters and
    no others *)
Theorem C42_references : forall u files path sol st st' l c v b, solve u files "offdesign" path sol st = (st', None) ->
  dget l (t_conns st) = Some c -> n_ldes c = false -> v <> "m" -> reference st l v = Some b ->
  reference st' l v = Some (if smem v (n_des c) || existsb (fun w => String.eqb v (w ++ "_ref")%string) (n_des c) then false else b).
Proof. exact off_refs. Qed.
Print Assumptions C42_references.
Example C42_example :
  at_prop k_set (after [des 1; off "A" 2] plant) "c1" "p" = Some false
  /\ at_prop k_set (after [des 1; off "A" 2] plant) "c1" "T" = Some true
  /\ at_prop k_SI (after [des 1; off "A" 2] plant) "c1" "T" = Some (Some 7)
  /\ at_prop k_set (after [des 1; off "A" 2; off "B" 2; des 3] plant) "c1" "p" = Some true
  /\ at_prop k_set (after [des 1; off "A" 2; off "B" 2; des 3] plant) "c1" "T" = Some false
  /\ at_param q_set (after [des 1; off "A" 2] plant) "pump" "P" = Some true
  /\ at_param q_val (after [des 1; off "A" 2; off "B" 2] plant) "pump" "P" = Some (Some 9).
Proof. vm_compute. repeat split. Qed.
Example C42_wf_example : wf plant.
Proof.
  intros l c v D I. apply dget_In in D. destruct D as [D | [D | []]]; injection D as <- <-;
    repeat (destruct I as [<- | I]; [split; [discriminate | intros J; vm_compute in J; repeat (destruct J as [J | J]; [discriminate |]); contradiction] |]); contradiction.
Qed.

(* --------------------------------------------------------------- C110 *)
(** The mass flow does not come back to its connection: specified at c1 before, at
    c0 and not at c1 afterwards, and specifying it at c1 again raises. *)
Theorem C110_mass_flow_refuted : exists u files rs last st st' l l' c k k' k1,
  runs u files (rs ++ [last]) st = Some st' /\ offdesign last = false
  /\ dget l (t_conns st) = Some c /\ n_ldes c = false /\ n_loff c = false /\ In "m" (n_des c) /\ n_off c = []
  /\ mass st l = Some k /\ k_set k = true /\ mass st' l = Some k' /\ k_set k' = false
  /\ mass st' l' = Some k1 /\ k_set k1 = true /\ l' <> l
  /\ (exists x, snd (solve u files "design" None x (specify_mass l 10 st')) = Some TESPyNetworkError).
Proof.
  exists plain, disk, [des 1; off "E" 2], (des 3), metered. eexists. exists "c1", "c0". do 4 eexists. vm_compute.
  split; [reflexivity |]. split; [reflexivity |]. split; [reflexivity |]. do 2 (split; [reflexivity |]). split; [left; reflexivity |].
  do 7 (split; [reflexivity |]). split; [discriminate |]. exists (found 1). reflexivity.
Qed.
Print Assumptions C110_mass_flow_refuted.

(* --------------------------------------------------------------- C111 *)
(** A reference of a design parameter does not come back: the property is specified
    instead, although it was not before. *)
Theorem C111_reference_refuted : exists u files rs last st st' l c,
  runs u files (rs ++ [last]) st = Some st' /\ offdesign last = false /\ dget l (t_conns st) = Some c
  /\ n_ldes c = false /\ n_loff c = false /\ In "p" (n_des c)
  /\ reference st l "p_ref" = Some true /\ option_map k_set (prop st l "p") = Some false
  /\ reference st' l "p_ref" = Some false /\ option_map k_set (prop st' l "p") = Some true.
Proof.
  exists plain, disk, [des 1; off "E" 2], (des 3), referenced. eexists. exists "c1". eexists. vm_compute. repeat split; left; reflexivity.
Qed.
Print Assumptions C111_reference_refuted.

(* --------------------------------------------------------------- C112 *)
(** Back in design mode the value of a design parameter is the result of the
    offdesign calculation and not the value specified. *)
Theorem C112_values_refuted : exists u files rs last st st',
  runs u files (rs ++ [last]) st = Some st' /\ offdesign last = false
  /\ (exists l c v k k', dget l (t_conns st) = Some c /\ n_ldes c = false /\ n_loff c = false /\ In v (n_des c)
      /\ prop st l v = Some k /\ k_set k = true /\ k_val k = Some 5
      /\ prop st' l v = Some k' /\ k_set k' = true /\ k_val k' = Some 2)
  /\ (exists l c v q q', dget l (t_comps st) = Some c /\ p_ldes c = false /\ p_loff c = false /\ In v (p_des c)
      /\ param st l v = Some q /\ q_set q = true /\ q_val q = Some 2
      /\ param st' l v = Some q' /\ q_set q' = true /\ q_val q' = Some 4).
Proof.
  exists plain, disk, [des 1; {| r_mode := "offdesign"; r_path := Some "A";
    r_sol := {| s_conn := fun _ _ => 2; s_comp := fun _ _ => 4 |} |}], (des 3), plant. eexists. vm_compute.
  split; [reflexivity |]. split; [reflexivity |]. split.
  - exists "c1". eexists. exists "p". do 2 eexists. repeat split; left; reflexivity.
  - exists "pump". eexists. exists "eta_s". do 2 eexists. repeat split; left; reflexivity.
Qed.
Print Assumptions C112_values_refuted.

(* --------------------------------------------------------------- C113 *)
(** Design values are those of the path given: after any sequence of successful
    calculations of a new network that ends with an offdesign calculation. *)
Theorem C113_design_values : forall u files rs last st st' P, wf st ->
  (forall l c, dget l (t_conns st) = Some c -> n_new c = true) -> (forall l c, dget l (t_comps st) = Some c -> p_new c = true) ->
  runs u files (rs ++ [last]) st = Some st' -> offdesign last = true -> r_path last = Some P ->
  (forall l c v k', dget l (t_conns st) = Some c -> n_ldes c = false -> prop st' l v = Some k' ->
     k_design k' = table_conn (tables files (n_path c) P) l v)
  /\ (forall l c v q', dget l (t_comps st) = Some c -> p_ldes c = false -> (p_loff c = false \/ p_path c <> None) ->
     dget l (f_comps (files P)) <> None -> param st' l v = Some q' -> q_num q' = true ->
     q_design q' = table_comp (tables files (p_path c) P) l v).
Proof. exact design_conn_values. Qed.
Print Assumptions C113_design_values.
Example C113_example :
  at_prop k_design (after [des 1; off "A" 2; off "A" 3] plant) "c1" "T" = Some (Some 7)
  /\ at_prop k_design (after [des 1; off "A" 2; off "B" 3] plant) "c1" "T" = Some (Some 9)
  /\ at_prop k_design (after [des 1; off "A" 2; des 4; off "A" 3] plant) "c1" "p" = Some (Some 7)
  /\ at_param q_design (after [des 1; off "B" 2; off "A" 3] plant) "pump" "eta_s" = Some (Some 7).
Proof. vm_compute. repeat split. Qed.

(* --------------------------------------------------------------- C114 *)
(** Design values of another path after a calculation that was refused because of
    its mode. *)
Theorem C114_failed_refuted : exists u files rs st0 st1 st2 st3 P x,
  runs u files rs st0 = Some st1 /\ solve u files "offdesgin" (Some P) x st1 = (st2, Some ValueError)
  /\ solve u files "offdesign" (Some P) x st2 = (st3, None)
  /\ option_map k_design (prop st3 "c1" "p") = Some (Some 7) /\ table_conn (files P) "c1" "p" = Some 9.
Proof.
  exists plain, disk, [des 1; off "A" 2], plant. do 3 eexists. exists "B", (found 1). vm_compute. repeat split.
Qed.
Print Assumptions C114_failed_refuted.
(** No design value after local_design of a component was switched off. *)
Theorem C114_local_refuted : exists u files rs st0 st1 st2 P x,
  runs u files rs st0 = Some st1 /\ solve u files "offdesign" (Some P) x (local_comp "pump" false false st1) = (st2, None)
  /\ option_map q_design (param st2 "pump" "P") = Some None /\ option_map q_val (param st2 "pump" "P") = Some None
  /\ option_map q_set (param st2 "pump" "P") = Some true /\ table_comp (files P) "pump" "P" = Some 7.
Proof. exists plain, disk, [off "A" 2], (pumps None true false). do 2 eexists. exists "A", (found 1). vm_compute. repeat split. Qed.
Print Assumptions C114_local_refuted.
(** A component that is not in the tables of the path keeps the design value of
    the path before; no error. *)
Theorem C114_missing_refuted : exists u files rs last st st' P,
  runs u files (rs ++ [last]) st = Some st' /\ offdesign last = true /\ r_path last = Some P
  /\ dget "pipe" (f_comps (files P)) = None
  /\ option_map q_set (param st' "pipe" "ks") = Some true /\ option_map q_val (param st' "pipe" "ks") = Some (Some 7).
Proof. exists plain, disk, [off "C" 2], (off "D" 3), pipes. eexists. exists "D". vm_compute. repeat split. Qed.
Print Assumptions C114_missing_refuted.
(** No design mass flow when the specification moved to another connection of the
    branch between two offdesign calculations. *)
Theorem C114_mass_flow_refuted : exists u files rs st0 st1 st2 P x,
  runs u files rs st0 = Some st1
  /\ solve u files "offdesign" (Some P) x (specify_mass "c1" 3 (free_mass "c0" st1)) = (st2, None)
  /\ option_map k_design (mass st1 "c0") = Some (Some 7)
  /\ option_map k_set (mass st2 "c1") = Some true /\ option_map k_design (mass st2 "c1") = Some None
  /\ table_conn (files P) "c1" "m" = Some 7.
Proof. exists plain, disk, [des 1; off "A" 2], plant. do 2 eexists. exists "A", (found 1). vm_compute. repeat split. Qed.
Print Assumptions C114_mass_flow_refuted.

(* --------------------------------------------------------------- C115 *)
(** local_design after an offdesign calculation: the connection stays as it was in
    offdesign mode. *)
Theorem C115_local_design_refuted : exists u files rs st0 st1 st2 P x c,
  runs u files rs st0 = Some st1 /\ dget "c1" (t_conns (local_conn "c1" true false st1)) = Some c /\ n_ldes c = true
  /\ In "p" (n_des c) /\ In "T" (n_off c)
  /\ solve u files "offdesign" (Some P) x (local_conn "c1" true false st1) = (st2, None)
  /\ option_map k_set (prop st2 "c1" "p") = Some false /\ option_map k_set (prop st2 "c1" "T") = Some true.
Proof.
  exists plain, disk, [des 1; off "E" 2], (local false false). do 2 eexists. exists "E", (found 1). eexists. vm_compute. repeat split; left; reflexivity.
Qed.
Print Assumptions C115_local_design_refuted.
(** local_offdesign switched off: the connection stays in offdesign mode. *)
Theorem C115_local_offdesign_off_refuted : exists u files rs st0 st1 st2 x c,
  runs u files rs st0 = Some st1 /\ dget "c1" (t_conns (local_conn "c1" false false st1)) = Some c /\ n_loff c = false
  /\ In "p" (n_des c) /\ In "T" (n_off c) /\ option_map k_set (prop st0 "c1" "p") = Some true
  /\ solve u files "design" None x (local_conn "c1" false false st1) = (st2, None)
  /\ option_map k_set (prop st2 "c1" "p") = Some false /\ option_map k_set (prop st2 "c1" "T") = Some true.
Proof.
  exists plain, disk, [des 1], (local false true). do 2 eexists. exists (found 1). eexists. vm_compute. repeat split; left; reflexivity.
Qed.
Print Assumptions C115_local_offdesign_off_refuted.
(** local_offdesign of a connection: the offdesign parameter is specified but does
    not take its design value. *)
Theorem C115_connection_value_refuted : exists u files st st' x c,
  solve u files "design" None x st = (st', None) /\ dget "c1" (t_conns st) = Some c /\ n_loff c = true /\ In "T" (n_off c)
  /\ option_map k_set (prop st' "c1" "T") = Some true /\ option_map k_design (prop st' "c1" "T") = Some (Some 7)
  /\ option_map k_SI (prop st' "c1" "T") = Some None.
Proof.
  exists plain, disk, (local false true). eexists. exists (found 1). eexists. vm_compute. repeat split; left; reflexivity.
Qed.
Print Assumptions C115_connection_value_refuted.
(** local_offdesign of a component without a path of its own: accepted, the
    offdesign parameter is specified and has no value. *)
Theorem C115_component_path_refuted : exists u files st st' x c,
  solve u files "design" None x st = (st', None) /\ dget "pump" (t_comps st) = Some c /\ p_loff c = true /\ p_path c = None
  /\ In "P" (p_off c) /\ option_map q_set (param st' "pump" "P") = Some true /\ option_map q_val (param st' "pump" "P") = Some None.
Proof.
  exists plain, disk, (pumps None false true). eexists. exists (found 1). eexists. vm_compute. repeat split; left; reflexivity.
Qed.
Print Assumptions C115_component_path_refuted.

(* --------------------------------------------------------------- C116 *)
(** A reference is accepted in the offdesign list and the offdesign calculation
    raises. *)
Theorem C116_reference_refuted : exists u files rs st st1 c x,
  runs u files rs st = Some st1 /\ dget "c1" (t_conns st) = Some c /\ In "m_ref" (n_off c)
  /\ snd (solve u files "offdesign" (Some "E") x st1) = Some AttributeError.
Proof. exists plain, disk, [des 1], refs. do 2 eexists. exists (found 1). vm_compute. repeat split; left; reflexivity. Qed.
Print Assumptions C116_reference_refuted.

(* --------------------------------------------------------------- C117 *)
(** local_offdesign in a design calculation *)
Theorem C117_local_offdesign_connection : forall u files path sol st st' l c v k p, wf st -> solve u files "design" path sol st = (st', None) ->
  dget l (t_conns st) = Some c -> n_loff c = true -> n_path c = Some p -> prop st l v = Some k ->
  exists k', prop st' l v = Some k' /\ k_design k' = table_conn (files p) l v
  /\ k_set k' = if smem v (n_off c) then true else if smem v (n_des c) then false else k_set k.
Proof. exact local_off_conn. Qed.
Print Assumptions C117_local_offdesign_connection.
Theorem C117_local_offdesign_component : forall u files path sol st st' l c v q p, solve u files "design" path sol st = (st', None) ->
  dget l (t_comps st) = Some c -> p_loff c = true -> p_path c = Some p -> param st l v = Some q ->
  exists q', param st' l v = Some q'
  /\ q_set q' = (if smem v (p_off c) then true else if smem v (p_des c) then false else q_set q)
  /\ (q_num q = true -> q_design q' = table_comp (files p) l v)
  /\ (In v (p_off c) -> q_num q = true -> q_val q' = table_comp (files p) l v).
Proof. exact local_off_comp. Qed.
Print Assumptions C117_local_offdesign_component.
(** local_design in an offdesign calculation *)
Theorem C117_local_design_connection : forall u files path sol st st' l c v k, solve u files "offdesign" path sol st = (st', None) ->
  dget l (t_conns st) = Some c -> n_ldes c = true -> prop st l v = Some k ->
  exists k', prop st' l v = Some k' /\ k_set k' = k_set k.
Proof. exact local_des_conn. Qed.
Print Assumptions C117_local_design_connection.
Theorem C117_local_design_component : forall u files path sol st st' l c v q, solve u files "offdesign" path sol st = (st', None) ->
  dget l (t_comps st) = Some c -> p_ldes c = true -> param st l v = Some q ->
  exists q', param st' l v = Some q' /\ q_set q' = q_set q.
Proof. exact local_des_comp. Qed.
Print Assumptions C117_local_design_component.
Example C117_example :
  at_prop k_set (after [des 1] (local false true)) "c1" "p" = Some false
  /\ at_prop k_set (after [des 1] (local false true)) "c1" "T" = Some true
  /\ at_prop k_design (after [des 1] (local false true)) "c1" "T" = Some (Some 7)
  /\ at_param q_val (after [des 1] (pumps (Some "B") false true)) "pump" "P" = Some (Some 9)
  /\ at_param q_set (after [off "A" 1] (pumps None true false)) "pump" "P" = Some false
  /\ at_prop k_set (after [off "E" 1] (local true false)) "c1" "p" = Some true.
Proof. vm_compute. repeat split. Qed.
