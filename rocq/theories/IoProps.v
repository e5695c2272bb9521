(** Properties of export and import of a network (C41, C118-C121). *)
From Coq Require Import QArith.
From Verif Require Import Base UnitsModel NetUnitsModel IoModel IoSpec IoProofs6 IoWitness.
Open Scope string_scope.
Open Scope list_scope.

(* ---------------------------------------------------------------- C41 *)
(** Export into a directory without leftovers and import succeed and give a network
    with the same units, components, connections and busses. *)
Theorem C41_export_import : forall usable reg engines n d, good_net usable reg engines n -> clean reg n d ->
  exists d' n', export n d = Ok d' /\ load usable reg engines d' = Ok n' /\ kept_net reg n n'.
Proof. exact export_import. Qed.
Print Assumptions C41_export_import.
(** A heat exchanger with lines and a map, a splitter with three outlets, references
    and a bus *)
Example C41_example : good_net w_usable w_reg w_engines w_net /\ clean w_reg w_net no_dir /\ export w_net no_dir = Ok w_dir
  /\ load w_usable w_reg w_engines w_dir = Ok w_back
  /\ comp_param "hx" "Q" "val" w_back = Some (VNum (Some (-5 # 1))) /\ comp_param "hx" "kA_char1" "char_func" w_back = Some w_line
  /\ conn_param "c3" "m_ref" "ref" w_back = Some (VRef "c1" (1#3) 2).
Proof. refine (conj w_good (conj (clean_empty _ _) (conj w_export (conj w_load _)))). vm_compute. auto. Qed.

(* --------------------------------------------------------------- C118 *)
(** Local offdesign mode of a connection is not written *)
Theorem C118_local_offdesign_refuted : exists usable reg engines n d' n', good_net usable reg engines n /\
  export n no_dir = Ok d' /\ load usable reg engines d' = Ok n' /\
  exists l, conn_attr l "local_offdesign" n = Some (VBool true) /\ conn_attr l "local_offdesign" n' = Some (VBool false).
Proof. exists w_usable, w_reg, w_engines, w_net, w_dir, w_back. refine (conj w_good (conj w_export (conj w_load _))). exists "c1". vm_compute. auto. Qed.
Print Assumptions C118_local_offdesign_refuted.
(** A reference that is not active is active after the import *)
Theorem C118_reference_activated_refuted : exists usable reg engines n d' n', good_net usable reg engines n /\
  export n no_dir = Ok d' /\ load usable reg engines d' = Ok n' /\
  exists l p, conn_param l p "is_set" n = Some (VBool false) /\ conn_param l p "is_set" n' = Some (VBool true).
Proof. exists w_usable, w_reg, w_engines, w_net, w_dir, w_back. refine (conj w_good (conj w_export (conj w_load _))). exists "c3", "T_ref". vm_compute. auto. Qed.
Print Assumptions C118_reference_activated_refuted.
(** The starting values of the composition are not written *)
Theorem C118_fluid_start_refuted : exists usable reg engines n d' n', good_net usable reg engines n /\
  export n no_dir = Ok d' /\ load usable reg engines d' = Ok n' /\
  exists l e, conn_param l "fluid" "val0" n = Some (VDict e) /\ e <> [] /\ conn_param l "fluid" "val0" n' = Some (VDict []).
Proof.
  exists w_usable, w_reg, w_engines, w_net, w_dir, w_back. refine (conj w_good (conj w_export (conj w_load _))).
  exists "c1", [("water", VNum (Some (1#2)))]. split; [reflexivity|]. split; [discriminate|]. vm_compute. reflexivity.
Qed.
Print Assumptions C118_fluid_start_refuted.
(** The units of specific volume and of the boiling point difference, and the switch
    of the iteration table, fall back to their defaults *)
Theorem C118_units_refuted : exists usable reg engines n d' n', good_net usable reg engines n /\
  export n no_dir = Ok d' /\ load usable reg engines d' = Ok n' /\
  dget "vol" (nu_unit (t_units n)) = Some "l / kg" /\ dget "vol" (nu_unit (t_units n')) = Some "m3 / kg" /\
  dget "Td_bp" (nu_unit (t_units n)) = Some "C" /\ dget "Td_bp" (nu_unit (t_units n')) = Some "K" /\
  nu_iter (t_units n) = Some false /\ nu_iter (t_units n') = Some true.
Proof. exists w_usable, w_reg, w_engines, w_net, w_dir, w_back. refine (conj w_good (conj w_export (conj w_load _))). vm_compute. auto 9. Qed.
Print Assumptions C118_units_refuted.
(** The switch of the table and the reference value of a bus are not written *)
Theorem C118_bus_refuted : exists usable reg engines n d' n', good_net usable reg engines n /\
  export n no_dir = Ok d' /\ load usable reg engines d' = Ok n' /\
  exists l k b b' w w', dget l (t_busses n) = Some b /\ dget l (t_busses n') = Some b' /\
    b_print b = VBool false /\ b_print b' = VBool true /\
    dget k (b_rows b) = Some w /\ dget k (b_rows b') = Some w' /\ w_Pref w = VNum (Some 7%Q) /\ w_Pref w' = VNum None.
Proof.
  exists w_usable, w_reg, w_engines, w_net, w_dir, w_back. refine (conj w_good (conj w_export (conj w_load _))).
  exists "heat", "hx". do 4 eexists. split; [reflexivity|]. split; [vm_compute; reflexivity|]. split; [reflexivity|]. split; [reflexivity|].
  split; [reflexivity|]. split; [reflexivity|]. split; reflexivity.
Qed.
Print Assumptions C118_bus_refuted.
(** A group of characteristics that is set is not set after the import *)
Theorem C118_group_refuted : exists usable reg engines n d' n', good_net usable reg engines n /\
  export n no_dir = Ok d' /\ load usable reg engines d' = Ok n' /\
  exists l p, comp_param l p "is_set" n = Some (VBool true) /\ comp_param l p "is_set" n' = Some (VBool false).
Proof. exists w_usable, w_reg, w_engines, w_net, w_dir, w_back. refine (conj w_good (conj w_export (conj w_load _))). exists "hx", "kA_char". vm_compute. auto. Qed.
Print Assumptions C118_group_refuted.
(** The equations of the user are not written *)
Theorem C118_user_equations_refuted : exists usable reg engines n d' n', good_net usable reg engines n /\
  export n no_dir = Ok d' /\ load usable reg engines d' = Ok n' /\ t_udes n <> [] /\ t_udes n' = [].
Proof. exists w_usable, w_reg, w_engines, w_net, w_dir, w_back. refine (conj w_good (conj w_export (conj w_load _))). split; [discriminate|]. vm_compute. reflexivity. Qed.
Print Assumptions C118_user_equations_refuted.

(* --------------------------------------------------------------- C119 *)
(** A mass fraction can be set on a connection of the network, not on the one read *)
Theorem C119_set_fluid_after_import_refuted : exists usable reg engines n d' n' l c c' f x, good_net usable reg engines n /\
  export n no_dir = Ok d' /\ load usable reg engines d' = Ok n' /\ dget l (t_conns n) = Some c /\ dget l (t_conns n') = Some c' /\
  is_ok (specify_fluid f x (n_obj c)) = true /\ specify_fluid f x (n_obj c') = Err AttributeError.
Proof.
  exists w_usable, w_reg, w_engines, w_net, w_dir, w_back, "c1". do 2 eexists. exists "water", 1%Q.
  refine (conj w_good (conj w_export (conj w_load _))). split; [reflexivity|]. split; [vm_compute; reflexivity|]. split; reflexivity.
Qed.
Print Assumptions C119_set_fluid_after_import_refuted.
(** This holds for every connection of every network *)
Theorem C119_set_fluid_always_fails : forall usable reg engines n d d' n' l c' f x, good_net usable reg engines n -> clean reg n d ->
  export n d = Ok d' -> load usable reg engines d' = Ok n' -> dget l (t_conns n') = Some c' -> specify_fluid f x (n_obj c') = Err AttributeError.
Proof. exact set_fluid_never. Qed.
Print Assumptions C119_set_fluid_always_fails.

(** Before: setting a mass fraction changes the value and the mark of that fluid and nothing else *)
Theorem C119_set_fluid_partial : forall f x o o', specify_fluid f x o = Ok o' ->
  exists c c' v v' s s', dget "fluid" (o_params o) = Some c /\ dget "fluid" (o_params o') = Some c'
    /\ dget "val" (c_attrs c) = Some (VDict v) /\ dget "val" (c_attrs c') = Some (VDict v')
    /\ dget "is_set" (c_attrs c) = Some (VSet s) /\ dget "is_set" (c_attrs c') = Some (VSet s')
    /\ dget f v' = Some (VNum (Some x)) /\ (forall g, g <> f -> dget g v' = dget g v)
    /\ (forall g, In g s' <-> In g s \/ g = f) /\ (NoDup s -> NoDup s')
    /\ (forall k, k <> "val"%string -> k <> "is_set"%string -> dget k (c_attrs c') = dget k (c_attrs c))
    /\ (forall k, k <> "fluid"%string -> dget k (o_params o') = dget k (o_params o)).
Proof. exact set_fluid_means. Qed.
Print Assumptions C119_set_fluid_partial.
(** The containers written report an attribute they do not have, and only that, as a KeyError *)
Theorem C119_missing_attribute : forall c k e, attr c k = Err e <-> e = KeyError /\ dget k (c_attrs c) = None.
Proof. exact attr_error. Qed.
Print Assumptions C119_missing_attribute.

(* --------------------------------------------------------------- C120 *)
(** Networks that are written but cannot be read: no connection *)
Theorem C120_no_connection_refuted : exists usable reg engines n d', t_conns n = [] /\
  export n no_dir = Ok d' /\ load usable reg engines d' = Err IndexError.
Proof. exists w_usable, w_reg, w_engines, (with_conns [] w_net). eexists. split; [reflexivity|]. split; vm_compute; reflexivity. Qed.
Print Assumptions C120_no_connection_refuted.
(** a component with label P on a bus *)
Theorem C120_label_P_refuted : exists usable reg engines n d' b w, dget "power" (t_busses n) = Some b /\ dget "P" (b_rows b) = Some w /\ dmem "P" (t_comps n) = true /\
  export n no_dir = Ok d' /\ load usable reg engines d' = Err KeyError.
Proof.
  exists w_usable, w_reg, w_engines, w_P. do 3 eexists. split; [reflexivity|]. split; [reflexivity|]. split; [reflexivity|]. split; vm_compute; reflexivity.
Qed.
Print Assumptions C120_label_P_refuted.
(** a bus with a component outside the network *)
Theorem C120_foreign_bus_refuted : exists usable reg engines n d' b w, dget "heat" (t_busses n) = Some b /\ dget "gone" (b_rows b) = Some w /\ dmem "gone" (t_comps n) = false /\
  export n no_dir = Ok d' /\ load usable reg engines d' = Err KeyError.
Proof.
  exists w_usable, w_reg, w_engines, (with_busses [("heat", w_bus "gone")] w_net). do 3 eexists.
  split; [reflexivity|]. split; [reflexivity|]. split; [reflexivity|]. split; vm_compute; reflexivity.
Qed.
Print Assumptions C120_foreign_bus_refuted.
(** a component of a class that is not registered *)
Theorem C120_unregistered_refuted : exists usable reg engines n d' cls, class_of "hx" n = Some cls /\ dget cls reg = None /\
  export n no_dir = Ok d' /\ load usable reg engines d' = Err KeyError.
Proof.
  exists w_usable, w_reg, w_engines, (with_comps (dset "hx" ("MyHx", w_hx_obj) w_comps) w_net). do 2 eexists.
  split; [reflexivity|]. split; [reflexivity|]. split; vm_compute; reflexivity.
Qed.
Print Assumptions C120_unregistered_refuted.
(** a characteristic line where a map belongs, as the default of a map without one *)
Theorem C120_line_for_map_refuted : exists usable reg engines n d' x y e, comp_param "hx" "map" "char_func" n = Some (VLine x y e) /\
  export n no_dir = Ok d' /\ load usable reg engines d' = Err TypeError.
Proof.
  exists w_usable, w_reg, w_engines, (with_comps (dset "hx" ("HeatExchanger", w_line_for_map) w_comps) w_net). do 4 eexists.
  split; [reflexivity|]. split; vm_compute; reflexivity.
Qed.
Print Assumptions C120_line_for_map_refuted.

(* --------------------------------------------------------------- C121 *)
(** A network written over another one comes back with a component of that one *)
Theorem C121_stale_class_refuted : exists usable reg engines m n d d' n', good_net usable reg engines m /\
  export m no_dir = Ok d /\ export n d = Ok d' /\ load usable reg engines d' = Ok n' /\
  class_of "sp" n = Some "HeatExchanger" /\ class_of "sp" n' = Some "Splitter".
Proof.
  exists w_usable, w_reg, w_engines, w_net, w_relabel, w_dir. do 2 eexists. refine (conj w_good (conj w_export _)).
  split; [vm_compute; reflexivity|]. split; [vm_compute; reflexivity|]. split; vm_compute; reflexivity.
Qed.
Print Assumptions C121_stale_class_refuted.
(** or with its busses *)
Theorem C121_stale_busses_refuted : exists usable reg engines m n d d' n', good_net usable reg engines m /\
  export m no_dir = Ok d /\ export n d = Ok d' /\ load usable reg engines d' = Ok n' /\ t_busses n = [] /\ keys (t_busses n') = ["heat"].
Proof.
  exists w_usable, w_reg, w_engines, w_net, (with_busses [] w_net), w_dir. do 2 eexists. refine (conj w_good (conj w_export _)).
  split; [vm_compute; reflexivity|]. split; [vm_compute; reflexivity|]. split; vm_compute; reflexivity.
Qed.
Print Assumptions C121_stale_busses_refuted.
(** After save to the same directory the export cannot be read *)
Theorem C121_save_over_export_refuted : exists usable reg engines n d' design d'', good_net usable reg engines n /\
  export n no_dir = Ok d' /\ is_ok (load usable reg engines d') = true /\ save design d' = Ok d'' /\ load usable reg engines d'' = Err KeyError.
Proof.
  exists w_usable, w_reg, w_engines, w_net, w_dir, [("heat", [("hx", VNum (Some 5%Q))])]. eexists. refine (conj w_good (conj w_export _)).
  split; [rewrite w_load; reflexivity|]. split; vm_compute; reflexivity.
Qed.
Print Assumptions C121_save_over_export_refuted.
