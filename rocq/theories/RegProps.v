(** C44, C54: registries of busses and user defined equations. *)
From Verif Require Import RegModel RegSpec RegProofs.
Open Scope nat_scope.
Open Scope string_scope.
Open Scope list_scope.

(** C44 – labels stay unique and each label names the object carrying it, through
    any history including calls that raise. *)
Theorem C44_labels_unique :
  forall ulabel blabel ops, let r := rhistory ulabel blabel ops in
    (forall l u, dget l (r_ude r) = Some u <-> has_ude r u /\ ulabel u = l) /\
    (forall l b, dget l (r_bus r) = Some b <-> has_bus r b /\ blabel b = l) /\
    NoDup (map fst (r_ude r)) /\ NoDup (map fst (r_bus r)).
Proof. exact registry_unique. Qed.
Print Assumptions C44_labels_unique.

(** C44 – successful calls add and remove exactly their arguments. *)
Theorem C44_membership :
  forall ulabel blabel ops, let r := rhistory ulabel blabel ops in
    (forall args r', add_ude ulabel args r = (r', None) -> forall u, has_ude r' u <-> has_ude r u \/ In u (objs args)) /\
    (forall us r', (forall u, In u us -> has_ude r u) -> del_ude ulabel us r = (r', None) ->
       forall u, has_ude r' u <-> has_ude r u /\ ~ In u us) /\
    (forall args r', add_busses blabel args r = (r', None) -> forall b, has_bus r' b <-> has_bus r b \/ In b (objs args)) /\
    (forall bs r', del_busses blabel bs r = (r', None) -> forall b, has_bus r' b <-> has_bus r b /\ ~ In b bs).
Proof. exact rhistory_effects. Qed.
Print Assumptions C44_membership.

(** C44 – equations and busses do not affect each other. *)
Theorem C44_frame :
  forall ulabel blabel ops, let r := rhistory ulabel blabel ops in
    (forall args, r_bus (fst (add_ude ulabel args r)) = r_bus r /\ r_results (fst (add_ude ulabel args r)) = r_results r) /\
    (forall us, r_bus (fst (del_ude ulabel us r)) = r_bus r /\ r_results (fst (del_ude ulabel us r)) = r_results r) /\
    (forall args, r_ude (fst (add_busses blabel args r)) = r_ude r) /\
    (forall bs, r_ude (fst (del_busses blabel bs r)) = r_ude r).
Proof. exact rop_frame. Qed.
Print Assumptions C44_frame.

(** C44 – a component is listed at most once per bus, whatever was added. *)
Theorem C44_component_once :
  forall calls, NoDup (map fst (bhistory calls)).
Proof. exact bhistory_NoDup. Qed.
Print Assumptions C44_component_once.

(** C44 – adding a component (again) gives it the settings named in the call and
    the defaults for the others, and leaves the other components alone. *)
Theorem C44_component_settings :
  forall t c items t', NoDup (keys items) -> add_comps [BDict (Some (Some c)) items] t = (t', None) ->
    exists w, bget c t' = Some w /\
      b_param w = given items "param" as_param None /\ b_pref w = given items "P_ref" as_pref None /\
      b_char w = given items "char" as_char COwn /\ b_base w = given items "base" as_base "component".
Proof. exact add_one. Qed.
Print Assumptions C44_component_settings.

Theorem C44_component_frame :
  forall args t c, (forall items, ~ In (BDict (Some (Some c)) items) args) ->
    bget c (fst (add_comps args t)) = bget c t.
Proof. exact add_comps_frame. Qed.
Print Assumptions C44_component_frame.

(** C54 – a bus labelled like a component class replaces, and on removal deletes,
    the results table of that class. *)
Theorem C54_bus_leaves_other_results_refuted :
  exists ulabel blabel ops b, let r := rhistory ulabel blabel ops in
    dget "Pump" (r_results r) = Some TClass /\
    snd (add_busses blabel [AObj b] r) = None /\
    dget "Pump" (r_results (fst (add_busses blabel [AObj b] r))) = Some TBus /\
    dget "Pump" (r_results (fst (del_busses blabel [b] (fst (add_busses blabel [AObj b] r))))) = None.
Proof. exact results_clobbered. Qed.
Print Assumptions C54_bus_leaves_other_results_refuted.

(** C54 – tables under other names than the labels of the busses are left alone. *)
Theorem C54_bus_leaves_other_results_partial :
  forall ulabel blabel ops, let r := rhistory ulabel blabel ops in
    (forall args k, ~ In k (map blabel (objs args)) ->
       dget k (r_results (fst (add_busses blabel args r))) = dget k (r_results r)) /\
    (forall bs k, ~ In k (map blabel bs) ->
       dget k (r_results (fst (del_busses blabel bs r))) = dget k (r_results r)).
Proof. exact results_partial. Qed.
Print Assumptions C54_bus_leaves_other_results_partial.

Example C44_example :
  let l := fun o => nth o ["power"; "heat"; "power"] "" in
  let r := rhistory l l [AddBus [AObj 0; AObj 1]; AddBus [AObj 2]; DelBus [0]; AddBus [AObj 2]; AddUde [AObj 1]] in
  r_bus r = [("heat", 1); ("power", 2)] /\ r_ude r = [("heat", 1)] /\
  snd (add_busses l [AObj 0] r) = Some TESPyNetworkError /\
  bhistory [[BDict (Some (Some 7)) [("char", BNum (-1)); ("base", BStr "bus")]]; [BDict (Some (Some 7)) [("param", BStr "P")]]]
    = [(7, {| b_param := Some "P"; b_pref := None; b_char := COwn; b_base := "component" |})].
Proof. vm_compute. repeat split. Qed.
