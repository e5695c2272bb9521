(** Ambient temperature of simple heat exchangers, pipes and solar collectors.
    Source: /repo/src/tespy/components/heat_exchangers/simple.py 225, 253-256, components/component.py
    167-197, networks/network.py 1151-1159, 2275-2284, tools/data_containers.py 300-306.
    The rest of a calculation is given by the increments the solver finds for the parameter. *)
From Verif Require Import Base NetUnitsModel.
Open Scope string_scope.
Open Scope list_scope.

(** The parameter Tamb, data_containers.py 300-306, simple.py 225 *)
Record amb := { a_val : Q; a_SI : Q; a_set : bool; a_var : bool }.
(** Its defaults, data_containers.py 300-306 *)
Definition amb_default : amb := {| a_val := 1; a_SI := 0; a_set := false; a_var := false |}.
(** What is passed to set_attr(Tamb=...), component.py 167-197: a number, 'var', None *)
Inductive aarg := ANum (x : Q) | AVar | ANone.
(** Component.set_attr, component.py 167-197 *)
Definition set_amb (v : aarg) (a : amb) : amb :=
  match v with
  | ANum x => {| a_val := x; a_SI := a_SI a; a_set := true; a_var := false |}
  | AVar => {| a_val := a_val a; a_SI := a_SI a; a_set := true; a_var := true |}
  | ANone => {| a_val := a_val a; a_SI := a_SI a; a_set := false; a_var := false |}
  end.
(** SimpleHeatExchanger.preprocess, simple.py 253-256: the unit of the inlet's temperature is the
    one of the network (network.py 1159) *)
Definition amb_preprocess (n : netunits) (a : amb) : res amb :=
  rbind (get_unit "T" n) (fun u => rmap (fun t => {| a_val := a_val a; a_SI := t; a_set := a_set a; a_var := a_var a |})
    (convert_to_SI "T" (a_val a) u)).
(** Update of a component variable, network.py 2275-2284: [min_val] and [max_val] of the container
    are -1e12 and 1e12 (data_containers.py 300-306) *)
Definition amb_update (inc : Q) (a : amb) : amb :=
  if a_var a then
    let v := (a_val a + inc)%Q in
    let v' := if Qle_bool (-1000000000000) v then (if Qle_bool v 1000000000000 then v else 1000000000000) else (-1000000000000) in
    {| a_val := v'; a_SI := a_SI a; a_set := a_set a; a_var := a_var a |}
  else a.
(** The iterations of a calculation: ambient temperatures used by the equations (simple.py 543-544,
    659-660, solar_collector.py 239-240, parabolic_trough.py 286-287) and the parameter in the end *)
Fixpoint iterate (incs : list Q) (a : amb) : list Q * amb :=
  match incs with
  | [] => ([a_SI a], a)
  | i :: incs' => let (used, b) := iterate incs' (amb_update i a) in (a_SI a :: used, b)
  end.
(** Settings of the network and the parameter; network.py 207-232, simple.py 225 *)
Record plant := { g_net : netunits; g_amb : amb }.
(** A calculation; simple.py 253-256, network.py 2275-2284 *)
Definition calculate (incs : list Q) (g : plant) : res (list Q * plant) :=
  rmap (fun a => let (used, b) := iterate incs a in (used, {| g_net := g_net g; g_amb := b |})) (amb_preprocess (g_net g) (g_amb g)).
(** What a user does; network.py 234-326, component.py 167-197. Exceptions are caught by the user. *)
Inductive astep := Settings (kw : nukw) | SetTamb (v : aarg) | Solve (incs : list Q).
(** One step; network.py 234-326, component.py 167-197 *)
Definition act (g : plant) (s : astep) : plant :=
  match s with
  | Settings kw => {| g_net := fst (nu_set_attr kw (g_net g)); g_amb := g_amb g |}
  | SetTamb v => {| g_net := g_net g; g_amb := set_amb v (g_amb g) |}
  | Solve incs => match calculate incs g with Ok (_, g') => g' | Err _ => g end
  end.
(** A session with a new network; network.py 209-232 *)
Definition session (l : list astep) : plant := fold_left act l {| g_net := nu_defaults; g_amb := amb_default |}.
