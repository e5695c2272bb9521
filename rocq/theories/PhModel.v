(** Properties from pressure and enthalpy.
    Source: /repo/src/tespy/tools/fluid_properties/functions.py 27-34, 88-98,
    192-273.  The functions of a single fluid are parameters. *)
From Coq Require Import QArith.
From Verif Require Import Base NewtonModel MixModel.
Open Scope Q_scope.

(** Methods of the wrapper of a single fluid, wrappers.py 193-299: temperature,
    entropy, density and viscosity from pressure and enthalpy, temperature from
    pressure and entropy, isentropic outlet enthalpy *)
Record pure_ph := {
  u_Tph : entry -> Q -> Q -> res Q; u_sph : entry -> Q -> Q -> res Q; u_dph : entry -> Q -> Q -> res Q;
  u_visph : entry -> Q -> Q -> res Q; u_Tps : entry -> Q -> Q -> res Q; u_is : entry -> Q -> Q -> Q -> res Q }.

(** What inverse_temperature_mixture returns, helpers.py 80-88; Newton's method
    always ends within the fuel of the model (C06) *)
Definition temperature (r : res (option (res newton_out))) : res Q :=
  match r with
  | Err e => Err e
  | Ok None => Err ValueError
  | Ok (Some (Err e)) => Err e
  | Ok (Some (Ok o)) => Ok (no_x o)
  end.
(** T_MIX_PH_REVERSE, mixtures.py 337-341 *)
Definition h_rule (names : list string) (r : string) (p T : Q) (fd : fluids) : res Q :=
  if String.eqb r "ideal" then h_ideal p T fd
  else if String.eqb r "ideal-cond" then h_ideal_cond names p T fd else h_incompressible p T fd.
(** S_MIX_PT_DIRECT and T_MIX_PS_REVERSE, mixtures.py 344-348, 359-363 *)
Definition s_rule (names : list string) (r : string) (p T : Q) (fd : fluids) : res Q :=
  if String.eqb r "ideal" then s_ideal p T fd
  else if String.eqb r "ideal-cond" then s_ideal_cond names p T fd else s_incompressible p T fd.
(** V_MIX_PT_DIRECT, mixtures.py 366-370 *)
Definition v_rule (names : list string) (r : string) (p T : Q) (fd : fluids) : res Q :=
  if String.eqb r "ideal" then v_ideal p T fd
  else if String.eqb r "ideal-cond" then v_ideal_cond names p T fd else v_incompressible p T fd.
(** VISCOSITY_MIX_PT_DIRECT, mixtures.py 373-377 *)
Definition vis_rule (root : Q -> Q) (r : string) (p T : Q) (fd : fluids) : res Q :=
  if String.eqb r "incompressible" then viscosity_incompressible p T fd else viscosity_ideal root p T fd.

(** T_mix_ph, functions.py 88-98 *)
Definition T_mix_ph (u : pure_ph) (names : list string) (p h : Q) (fd : fluids) (rule : option string) (T0 : option Q) : res Q :=
  dispatch PTemperature_h rule fd (fun e => u_Tph u e p h) (fun r =>
    temperature (inverse_temperature fd (fun t => h_rule names r p t fd) h T0)).
(** s_mix_pT, functions.py 202-208 *)
Definition s_mix_pT (names : list string) (p T : Q) (fd : fluids) (rule : option string) : res Q :=
  dispatch PEntropy rule fd (fun e => Ok (w_spT (e_wr e) p T)) (fun r => s_rule names r p T fd).
(** v_mix_pT, functions.py 247-253 *)
Definition v_mix_pT (names : list string) (p T : Q) (fd : fluids) (rule : option string) : res Q :=
  dispatch PVolume rule fd (fun e => qdiv 1 (w_dpT (e_wr e) p T)) (fun r => v_rule names r p T fd).
(** viscosity_mix_pT, functions.py 266-272 *)
Definition viscosity_mix_pT (root : Q -> Q) (p T : Q) (fd : fluids) (rule : option string) : res Q :=
  dispatch PViscosity rule fd (fun e => Ok (w_vis (e_wr e) p T)) (fun r => vis_rule root r p T fd).
(** [if get_number_of_fluids(fluid_data) == 1], e.g. functions.py 193-198 *)
Definition single (fd : fluids) (pure : entry -> res Q) (mix : res Q) : res Q :=
  if Nat.eqb (number_of_fluids fd) 1 then
    match pure_fluid fd with Some e => pure e | None => Err TypeError end
  else mix.
(** s_mix_ph, functions.py 192-198 *)
Definition s_mix_ph (u : pure_ph) (names : list string) (p h : Q) (fd : fluids) (rule : option string) (T0 : option Q) : res Q :=
  single fd (fun e => u_sph u e p h)
    (rbind (T_mix_ph u names p h fd rule T0) (fun T => s_mix_pT names p T fd rule)).
(** v_mix_ph, functions.py 224-230 *)
Definition v_mix_ph (u : pure_ph) (names : list string) (p h : Q) (fd : fluids) (rule : option string) (T0 : option Q) : res Q :=
  single fd (fun e => rbind (u_dph u e p h) (qdiv 1))
    (rbind (T_mix_ph u names p h fd rule T0) (fun T => v_mix_pT names p T fd rule)).
(** viscosity_mix_ph, functions.py 256-262 *)
Definition viscosity_mix_ph (u : pure_ph) (root : Q -> Q) (names : list string) (p h : Q) (fd : fluids)
    (rule : option string) (T0 : option Q) : res Q :=
  single fd (fun e => u_visph u e p h)
    (rbind (T_mix_ph u names p h fd rule T0) (fun T => viscosity_mix_pT root p T fd rule)).
(** T_mix_ps, functions.py 211-221 *)
Definition T_mix_ps (u : pure_ph) (names : list string) (p s : Q) (fd : fluids) (rule : option string) (T0 : option Q) : res Q :=
  dispatch PTemperature_s rule fd (fun e => u_Tps u e p s) (fun r =>
    temperature (inverse_temperature fd (fun t => s_rule names r p t fd) s T0)).
(** isentropic, functions.py 27-34: the start value is not handed on *)
Definition isentropic (u : pure_ph) (names : list string) (p1 h1 p2 : Q) (fd : fluids) (rule : option string) (T0 : option Q) : res Q :=
  single fd (fun e => u_is u e p1 h1 p2)
    (rbind (s_mix_ph u names p1 h1 fd rule None) (fun s1 =>
     rbind (T_mix_ps u names p2 s1 fd rule None) (fun T2 => h_mix_pT names p2 T2 fd rule))).
