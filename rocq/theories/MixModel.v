(** Mixture properties.
    Source: /repo/src/tespy/tools/fluid_properties/helpers.py 25-103, mixtures.py,
    functions.py and the critical point handling of wrappers.py.
    Numbers are exact rationals.  The property functions of a pure fluid are
    functions of its wrapper; square root and logarithm are parameters. *)
From Coq Require Import QArith.
From Verif Require Import Base NewtonModel.
Open Scope Q_scope.

(** What the mixing functions use of a wrapper (wrappers.py 38-119, 142-175);
    [w_below] is [_is_below_T_critical] *)
Record wrapper := {
  w_M : Q; w_Tmin : Q; w_Tmax : Q; w_pmin : Q; w_aliases : list string; w_below : Q -> bool;
  w_psat : Q -> Q; w_Tsat : Q -> Q; w_hpT : Q -> Q -> Q; w_spT : Q -> Q -> Q; w_dpT : Q -> Q -> Q;
  w_vis : Q -> Q -> Q; w_hQT : Q -> Q -> Q; w_sQT : Q -> Q -> Q; w_dQT : Q -> Q -> Q }.
(** An entry of [fluid_data] (connection.py build_fluid_data): mass fraction and
    wrapper *)
Record entry := { e_frac : Q; e_wr : wrapper }.
(** [fluid_data]: entries by name of the fluid, functions.py 88 *)
Definition fluids := dict entry.

(** [/] of floats, e.g. helpers.py 62 *)
Definition qdiv (a b : Q) : res Q := if Qeq_bool b 0 then Err ZeroDivisionError else Ok (a / b).
(** _is_larger_than_precision, helpers.py 25-26; ERR is 1e-6 (global_vars.py 12) *)
Definition larger (x : Q) : bool := negb (Qle_bool x (1 # 1000000)).
(** [sum] of floats, helpers.py 65 *)
Definition total (l : list Q) : Q := fold_left Qplus l 0.

(** get_number_of_fluids, helpers.py 40-41 *)
Definition number_of_fluids (fd : fluids) : nat := length (filter (fun e => larger (e_frac (snd e))) fd).
(** get_pure_fluid, helpers.py 44-47; [None] if there is none *)
Definition pure_fluid (fd : fluids) : option entry :=
  option_map snd (find (fun e => larger (e_frac (snd e))) fd).
(** get_molar_fractions, helpers.py 60-66 *)
Definition molar_fractions (fd : fluids) : res (dict Q) :=
  rbind (rmapM (fun e => rmap (pair (fst e)) (qdiv (e_frac (snd e)) (w_M (e_wr (snd e))))) fd) (fun flow =>
  rmapM (fun e => rmap (pair (fst e)) (qdiv (snd e) (total (map snd flow)))) flow).
(** [d[k]], e.g. mixtures.py 31 *)
Definition at_key {V : Type} (k : string) (d : dict V) : res V :=
  match dget k d with Some v => Ok v | None => Err KeyError end.
(** calc_molar_mass_mixture, helpers.py 101-102 *)
Definition molar_mass_mixture (fd : fluids) (xs : dict Q) : res Q :=
  rmap total (rmapM (fun x => rmap (fun e => snd x * w_M (e_wr e)) (at_key (fst x) fd)) xs).

(** Sum over the fluids with a fraction above the precision: the loops of
    mixtures.py, e.g. 28-33 *)
Fixpoint sum_fluids (f : string -> entry -> res Q) (fd : fluids) (acc : Q) : res Q :=
  match fd with
  | [] => Ok acc
  | (k, e) :: fd' =>
      if larger (e_frac e) then rbind (f k e) (fun v => sum_fluids f fd' (acc + v))
      else sum_fluids f fd' acc
  end.

(** h_mix_pT_ideal, mixtures.py 25-35 *)
Definition h_ideal (p T : Q) (fd : fluids) : res Q :=
  rbind (molar_fractions fd) (fun xs =>
  sum_fluids (fun k e => rmap (fun x => w_hpT (e_wr e) (p * x) T * e_frac e) (at_key k xs)) fd 0).
(** s_mix_pT_ideal, mixtures.py 89-99 *)
Definition s_ideal (p T : Q) (fd : fluids) : res Q :=
  rbind (molar_fractions fd) (fun xs =>
  sum_fluids (fun k e => rmap (fun x => w_spT (e_wr e) (p * x) T * e_frac e) (at_key k xs)) fd 0).
(** v_mix_pT_ideal, mixtures.py 135-145 *)
Definition v_ideal (p T : Q) (fd : fluids) : res Q :=
  rbind (molar_fractions fd) (fun xs =>
  rbind (sum_fluids (fun k e => rmap (fun x => w_dpT (e_wr e) (p * x) T) (at_key k xs)) fd 0) (qdiv 1)).
(** h_mix_pT_forced_gas, mixtures.py 60-76 *)
Definition h_forced_gas (p T : Q) (fd : fluids) : res Q :=
  rbind (molar_fractions fd) (fun xs =>
  sum_fluids (fun k e => rmap (fun x =>
    let pp := p * x in
    let w := e_wr e in
    if String.eqb k "H2O" && Qle_bool (w_pmin w) pp then
      if Qle_bool T (w_Tsat w pp) then w_hQT w 1 T * e_frac e else w_hpT w pp T * e_frac e
    else w_hpT w pp T * e_frac e) (at_key k xs)) fd 0).
(** h_mix_pT_incompressible, mixtures.py 79-86 *)
Definition h_incompressible (p T : Q) (fd : fluids) : res Q :=
  sum_fluids (fun _ e => Ok (w_hpT (e_wr e) p T * e_frac e)) fd 0.
(** s_mix_pT_incompressible, mixtures.py 124-132 *)
Definition s_incompressible (p T : Q) (fd : fluids) : res Q :=
  sum_fluids (fun _ e => Ok (w_spT (e_wr e) p T * e_frac e)) fd 0.
(** v_mix_pT_incompressible, mixtures.py 170-177 *)
Definition v_incompressible (p T : Q) (fd : fluids) : res Q :=
  sum_fluids (fun _ e => rmap (fun v => v * e_frac e) (qdiv 1 (w_dpT (e_wr e) p T))) fd 0.
(** viscosity_mix_pT_ideal, mixtures.py 180-223; [root] is [** 0.5] *)
Definition viscosity_ideal (root : Q -> Q) (p T : Q) (fd : fluids) : res Q :=
  rbind (molar_fractions fd) (fun xs =>
  rbind (sum_fluids (fun k e => rmap (fun x => x * root (w_M (e_wr e)) * w_vis (e_wr e) p T) (at_key k xs)) fd 0) (fun a =>
  rbind (sum_fluids (fun k e => rmap (fun x => x * root (w_M (e_wr e))) (at_key k xs)) fd 0) (fun b =>
  qdiv a b))).
(** viscosity_mix_pT_incompressible, mixtures.py 226-233 *)
Definition viscosity_incompressible (p T : Q) (fd : fluids) : res Q :=
  sum_fluids (fun _ e => Ok (w_vis (e_wr e) p T * e_frac e)) fd 0.

(** _water_in_mixture with [next(iter(..))], mixtures.py 274-276, e.g. 39-41: the
    names of water are a parameter.  With several names of water in one mixture
    the code takes one in the order of a Python set, the model the first. *)
Definition water_in (names : list string) (fd : fluids) : option string :=
  option_map fst (find (fun e => smem (fst e) names && larger (e_frac (snd e))) fd).

(** cond_check, mixtures.py 279-334: composition of the gas by mass and by moles,
    liquid water by mass and by moles *)
Record condensed := { c_mass_gas : dict Q; c_molar_gas : dict Q; c_mass_liquid : Q; c_molar_liquid : Q }.
(** mixtures.py 279-334 *)
Definition cond_check (p T : Q) (fd : fluids) (water : string) : res condensed :=
  rbind (molar_fractions fd) (fun xs =>
  rbind (at_key water fd) (fun ew =>
  let dry := {| c_mass_gas := map (fun e => (fst e, e_frac (snd e))) fd; c_molar_gas := xs;
                c_mass_liquid := 0; c_molar_liquid := 0 |} in
  if w_below (e_wr ew) T then
    let p_sat := w_psat (e_wr ew) T in
    rbind (at_key water xs) (fun xw =>
    if negb (Qle_bool (p * xw) p_sat) then
      rbind (qdiv p p_sat) (fun r =>
      rbind (qdiv (1 - xw) (r - 1)) (fun water_gas =>
      let liquid := xw - water_gas in
      let gas_sum := 1 - liquid in
      rbind (rmapM (fun x => rmap (pair (fst x)) (qdiv (snd x) gas_sum)) xs) (fun gas0 =>
      rbind (qdiv water_gas gas_sum) (fun wg =>
      let gas := dset water wg gas0 in
      rbind (molar_mass_mixture fd xs) (fun M =>
      rbind (qdiv (liquid * w_M (e_wr ew)) M) (fun mass_liquid =>
      rbind (molar_mass_mixture fd gas) (fun Mg =>
      rbind (rmapM (fun x => rbind (at_key (fst x) fd) (fun e =>
               rmap (fun q => (fst x, q * w_M (e_wr e))) (qdiv (snd x) Mg))) gas) (fun mass_gas =>
      Ok {| c_mass_gas := mass_gas; c_molar_gas := gas; c_mass_liquid := mass_liquid;
            c_molar_liquid := liquid |}))))))))
    else Ok dry)
  else Ok dry)).

(** h_mix_pT_ideal_cond, mixtures.py 38-57 *)
Definition h_ideal_cond (names : list string) (p T : Q) (fd : fluids) : res Q :=
  match water_in names fd with
  | None => h_ideal p T fd
  | Some water =>
      rbind (cond_check p T fd water) (fun c =>
      let ml := c_mass_liquid c in
      if negb (larger ml) then h_ideal p T fd
      else sum_fluids (fun k e =>
        rbind (at_key k (c_mass_gas c)) (fun mg =>
        if String.eqb k water then Ok (w_hQT (e_wr e) 0 T * ml + w_hQT (e_wr e) 1 T * mg * (1 - ml))
        else rmap (fun x => w_hpT (e_wr e) (p * x) T * mg * (1 - ml)) (at_key k (c_molar_gas c)))) fd 0)
  end.
(** s_mix_pT_ideal_cond, mixtures.py 102-121 *)
Definition s_ideal_cond (names : list string) (p T : Q) (fd : fluids) : res Q :=
  match water_in names fd with
  | None => s_ideal p T fd
  | Some water =>
      rbind (cond_check p T fd water) (fun c =>
      let ml := c_mass_liquid c in
      if Qeq_bool ml 0 then s_ideal p T fd
      else sum_fluids (fun k e =>
        rbind (at_key k (c_mass_gas c)) (fun mg =>
        if String.eqb k water then Ok (w_sQT (e_wr e) 0 T * ml + w_sQT (e_wr e) 1 T * mg * (1 - ml))
        else rmap (fun x => w_spT (e_wr e) (p * x) T * mg * (1 - ml)) (at_key k (c_molar_gas c)))) fd 0)
  end.
(** v_mix_pT_ideal_cond, mixtures.py 148-167 *)
Definition v_ideal_cond (names : list string) (p T : Q) (fd : fluids) : res Q :=
  match water_in names fd with
  | None => v_ideal p T fd
  | Some water =>
      rbind (cond_check p T fd water) (fun c =>
      let ml := c_mass_liquid c in
      if Qeq_bool ml 0 then v_ideal p T fd
      else rbind (sum_fluids (fun k e =>
        if String.eqb k water then Ok (w_dQT (e_wr e) 0 T * ml + w_dQT (e_wr e) 1 T * (1 - ml))
        else rmap (fun x => w_dpT (e_wr e) (p * x) T * (1 - ml)) (at_key k (c_molar_gas c))) fd 0) (qdiv 1))
  end.

(* ------------------------------------------------------------- dispatch *)

(** The property functions that look up a mixing rule, with the tables
    mixtures.py 337-381; viscosity checks the table of volumes (functions.py 270) *)
Inductive property := PEnthalpy | PEntropy | PVolume | PViscosity | PTemperature_h | PTemperature_s | PChemical.
(** mixtures.py 337-381 *)
Definition rules (q : property) : list string :=
  match q with
  | PEnthalpy => ["ideal"; "ideal-cond"; "incompressible"; "forced-gas"]
  | PChemical => ["ideal-cond"]
  | _ => ["ideal"; "ideal-cond"; "incompressible"]
  end%string.
(** e.g. h_mix_pT, functions.py 125-131, with _check_mixing_rule, helpers.py 29-37;
    [pure] and [mix] are the values of the two branches *)
Definition dispatch (q : property) (rule : option string) (fd : fluids) (pure : entry -> res Q)
    (mix : string -> res Q) : res Q :=
  if Nat.eqb (number_of_fluids fd) 1 then
    match pure_fluid fd with Some e => pure e | None => Err TypeError end
  else match rule with
       | Some r => if smem r (rules q) then mix r else Err KeyError
       | None => Err KeyError
       end.
(** h_mix_pQ, Q_mix_ph, phase_mix_ph, p_sat_T, T_sat_p: functions.py 134-182 *)
Definition saturation (fd : fluids) (pure : entry -> res Q) : res Q :=
  if Nat.eqb (number_of_fluids fd) 1 then
    match pure_fluid fd with Some e => pure e | None => Err TypeError end
  else Err ValueError.
(** h_mix_pT, functions.py 125-131 *)
Definition h_mix_pT (names : list string) (p T : Q) (fd : fluids) (rule : option string) : res Q :=
  dispatch PEnthalpy rule fd (fun e => Ok (w_hpT (e_wr e) p T)) (fun r =>
    if String.eqb r "ideal" then h_ideal p T fd
    else if String.eqb r "ideal-cond" then h_ideal_cond names p T fd
    else if String.eqb r "incompressible" then h_incompressible p T fd else h_forced_gas p T fd).

(* ------------------------------------------------ temperature inversion *)

(** get_mixture_temperature_range, helpers.py 91-99: [max] and [min] of an empty
    list raise *)
Definition temperature_range (fd : fluids) : res (Q * Q) :=
  match filter (fun e => larger (e_frac (snd e))) fd with
  | [] => Err ValueError
  | (_, e) :: l =>
      Ok (fold_left (fun m x => if Qle_bool (w_Tmin (e_wr (snd x))) m then m else w_Tmin (e_wr (snd x))) l (w_Tmin (e_wr e)) + (1#10),
          fold_left (fun m x => if Qle_bool m (w_Tmax (e_wr (snd x))) then m else w_Tmax (e_wr (snd x))) l (w_Tmax (e_wr e)) - (1#10))
  end.
(** central_difference with delta 0.01, helpers.py (tools) 568-573 *)
Definition central (f : Q -> res Q) (x : Q) : res Q :=
  rbind (f (x + (1#100))) (fun u => rbind (f (x - (1#100))) (fun l => Ok ((u - l) / (2 * (1#100))))).
(** inverse_temperature_mixture, helpers.py 69-88; [f] is the mixing function at
    the given pressure and composition, [T0] a start value other than nan; the
    result of Newton's method as in NewtonModel *)
Definition inverse_temperature (fd : fluids) (f : Q -> res Q) (target : Q) (T0 : option Q) : res (option (res newton_out)) :=
  rbind (temperature_range fd) (fun '(valmin, valmax) =>
  let T0 := match T0 with
            | Some t => if Qeq_bool t 0 then (valmin + valmax) / 2 else t
            | None => (valmin + valmax) / 2
            end in
  Ok (newton 14 {| nk_f := f; nk_df := central f; nk_target := target; nk_valmin := valmin;
                   nk_valmax := valmax * 2; nk_tol_rel := (1 # 1000000); nk_tol_abs := (1 # 1000000000000);
                   nk_mode := ModeRel |} T0 10)).

(* --------------------------------------------------- derivatives, state *)

(** dT_mix_ph_dfluid, functions.py 115-122: [T] is T_mix_ph as a function of the
    composition and the start value; the composition afterwards and the result *)
Definition shift (k : string) (d : Q) (fd : fluids) : res fluids :=
  rmap (fun e => dset k {| e_frac := e_frac e + d; e_wr := e_wr e |} fd) (at_key k fd).
(** functions.py 115-122 *)
Definition dT_dfluid (T : fluids -> option Q -> res Q) (k : string) (fd : fluids) (T0 : option Q)
  : fluids * res Q :=
  let d := (1 # 100000) in
  match shift k d fd with
  | Err e => (fd, Err e)
  | Ok fd1 =>
      match T fd1 T0 with
      | Err e => (fd1, Err e)
      | Ok upper =>
          match shift k (- (2 * d)) fd1 with
          | Err e => (fd1, Err e)
          | Ok fd2 =>
              match T fd2 (Some upper) with
              | Err e => (fd2, Err e)
              | Ok lower =>
                  match shift k d fd2 with
                  | Err e => (fd2, Err e)
                  | Ok fd3 => (fd3, Ok ((upper - lower) / (2 * d)))
                  end
              end
          end
      end
  end.
(** dT_mix_pdh, functions.py 101-105; [T] is T_mix_ph at the pressure, by enthalpy
    and start value *)
Definition dT_pdh (T : Q -> option Q -> res Q) (h : Q) (T0 : option Q) : res Q :=
  rbind (T (h + (1#10)) T0) (fun upper => rbind (T (h - (1#10)) (Some upper)) (fun lower =>
  Ok ((upper - lower) / (2 * (1#10))))).
(** dv_mix_pdh, functions.py 240-244; [v] is v_mix_ph at the pressure, by enthalpy
    and start value of the temperature *)
Definition dv_pdh (v : Q -> option Q -> res Q) (h : Q) (T0 : option Q) : res Q :=
  rbind (v (h + (1#10)) T0) (fun upper => rbind (v (h - (1#10)) (Some upper)) (fun lower =>
  Ok ((upper - lower) / (2 * (1#10))))).

(* -------------------------------------------------------------- wrappers *)

(** _make_p_subcritical, wrappers.py 177-180, 340-343 *)
Definition subcritical (p_crit p : Q) : Q := if Qle_bool p p_crit then p else p_crit * (99#100).
(** T_sat of both libraries, wrappers.py 219-222, 369-371: [lib] is the saturation
    temperature of the library by pressure in Pa *)
Definition T_sat (lib : Q -> Q) (p_crit p : Q) : Q := lib (subcritical p_crit p).
(** p_sat of the CoolProp wrapper, wrappers.py 224-229; [T_crit] is None for
    incompressible fluids (160), which compares with TypeError *)
Definition coolprop_p_sat (lib : Q -> Q) (T_crit : option Q) (T : Q) : res Q :=
  match T_crit with
  | None => Err TypeError
  | Some tc => Ok (lib (if Qle_bool T tc then T else tc * (99#100)))
  end.
(** p_sat of the iapws wrapper, wrappers.py 373-377: the library takes K and
    returns MPa; [lib] is in K and Pa *)
Definition iapws_p_sat (lib : Q -> Q) (T_crit T : Q) : Q :=
  lib ((if Qle_bool T T_crit then T else T_crit * (99#100)) / 1000000).
