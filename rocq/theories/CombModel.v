(** Combustion chamber, diabatic combustion chamber and combustion engine:
    reaction equations, thermal input, energy balance, value checks.
    /repo/src/tespy/components/combustion/base.py, diabatic.py, engine.py.
    Numbers are rationals; a division by zero is an exception (Python floats).
    Molar masses, elemental compositions and aliases (CoolProp) are inputs. *)
From Coq Require Import QArith Qabs.
From Verif Require Import Base CharModel.
Open Scope Q_scope.

(** [fluid.val[f]], [fluid.wrapper[f]]; As in combustion/base.py 596-680 *)
Definition fget (d : dict Q) (k : string) : res Q :=
  match dget k d with Some v => Ok v | None => Err KeyError end.
(** Division of Python floats, as in combustion/base.py 993-1013 *)
Definition qdiv (a b : Q) : res Q :=
  if Qeq_bool b 0 then Err ZeroDivisionError else Ok (a / b).
(** Comparison of Python floats, as in combustion/base.py 1202-1276 *)
Definition qlt (a b : Q) : bool := negb (Qle_bool b a).

(** the part of a connection the reaction equations read; combustion/base.py 596-680 *)
Record stream := { s_m : Q; s_x : dict Q }.

(** an entry of [self.fuels], base.py 292-301 *)
Record fuel := { f_name : string; f_C : Q; f_H : Q; f_LHV : Q }.

(** Inlets and outlet as returned by [_get_combustion_connections] (base.py
    248-249, engine.py 370-371), [self.fuels], the molar masses of the wrappers of
    the first inlet and the air ratio parameter. *)
Record chamber := {
  c_in1 : stream; c_in2 : stream; c_out : stream;
  c_fuels : list fuel; c_M : dict Q; c_lamb_set : bool; c_lamb : Q
}.

(* -------------------------------------------------------------- reactions *)

(** [i.m.val_SI * i.fluid.val[f] / inl[0].fluid.wrapper[f]._molar_mass],
    base.py 607, 620, 1000-1001, 1009-1010 *)
Definition amount (ch : chamber) (s : stream) (f : string) : res Q :=
  rbind (fget (s_x s) f) (fun x => rbind (fget (c_M ch) f) (fun M => qdiv (s_m s * x) M)).

(** base.py 604-610 and 997-1004: hydrogen and carbon of the fuels *)
Fixpoint fuel_sums (ch : chamber) (fs : list fuel) (nh nc : Q) : res (Q * Q) :=
  match fs with
  | [] => Ok (nh, nc)
  | f :: r =>
      rbind (amount ch (c_in1 ch) (f_name f)) (fun a =>
      rbind (amount ch (c_in2 ch) (f_name f)) (fun b =>
      fuel_sums ch r (nh + a * f_H f + b * f_H f) (nc + a * f_C f + b * f_C f)))
  end.

(** [n_fuel[f]], base.py 605-608 *)
Definition fuel_moles (ch : chamber) (f : string) : res Q :=
  rbind (amount ch (c_in1 ch) f) (fun a =>
  rbind (amount ch (c_in2 ch) f) (fun b => Ok (0 + a + b))).

(** [fluid in self.fuel_list] with the data in [self.fuels]; combustion/base.py 253-301 *)
Definition find_fuel (ch : chamber) (f : string) : option fuel :=
  find (fun x => String.eqb f (f_name x)) (c_fuels ch).

(** CombustionChamber.stoichiometry, base.py 496-680: the residual of one fluid
    and [lamb.val] afterwards (base.py 629-630 stores it). [self.o2] etc. are the
    literal names (base.py 290). *)
Definition stoichiometry (ch : chamber) (fluid : string) : res (Q * Q) :=
  rbind (fuel_sums ch (c_fuels ch) 0 0) (fun '(nh, nc) =>
  rbind (fuel_moles ch "O2") (fun nox =>
  let nst := nh / 4 + nc in
  rbind (if c_lamb_set ch then Ok (c_lamb ch) else qdiv nox nst) (fun lamb =>
  let rich := qlt lamb 1 in
  let nh_exc := if rich then (nst - nox) * 4 else 0 in
  let nc_exc := if rich then nst - nox else 0 in
  rbind
    (if String.eqb fluid "CO2" then
       rbind (fget (c_M ch) "CO2") (fun M => Ok ((nc - nc_exc) * M))
     else if String.eqb fluid "H2O" then
       rbind (fget (c_M ch) "H2O") (fun M => Ok ((nh - nh_exc) / 2 * M))
     else if String.eqb fluid "O2" then
       rbind (fget (c_M ch) "O2") (fun M =>
       if rich then Ok (- nox * M)
       else rbind (qdiv (- nox) lamb) (fun q => Ok (q * M)))
     else match find_fuel ch fluid with
     | Some f =>
         rbind (fuel_moles ch fluid) (fun nf =>
         rbind (if rich then
                  rbind (qdiv nox nst) (fun l =>
                  qdiv (- (l - 1) * (nf * (f_H f / 4 + f_C f))) (f_H f / 4 + f_C f))
                else Ok 0) (fun exc =>
         rbind (fget (c_M ch) fluid) (fun M => Ok (- (nf - exc) * M))))
     | None => Ok 0
     end) (fun dm =>
  rbind (fget (s_x (c_in1 ch)) fluid) (fun x1 =>
  rbind (fget (s_x (c_in2 ch)) fluid) (fun x2 =>
  rbind (fget (s_x (c_out ch)) fluid) (fun xo =>
  Ok (dm + x1 * s_m (c_in1 ch) + x2 * s_m (c_in2 ch) - xo * s_m (c_out ch), lamb)))))))).

(** base.py 976-1013 and 911-928 *)
Definition calc_lambda (ch : chamber) : res Q :=
  rbind (fuel_sums ch (c_fuels ch) 0 0) (fun '(nh, nc) =>
  rbind (fuel_moles ch "O2") (fun nox => qdiv nox (nh / 4 + nc))).
(** CombustionChamber.lambda_func, combustion/base.py 928 *)
Definition lambda_func (ch : chamber) : res Q :=
  rmap (fun l => l - c_lamb ch) (calc_lambda ch).

(** base.py 359-373 *)
Definition mass_flow_func (ch : chamber) : Q :=
  s_m (c_in1 ch) + s_m (c_in2 ch) - s_m (c_out ch).

(* ------------------------------------------------------------ thermal input *)

(** base.py 1089-1117 *)
Fixpoint ti_loop (ch : chamber) (fs : list fuel) (ti : Q) : res Q :=
  match fs with
  | [] => Ok ti
  | f :: r =>
      rbind (fget (s_x (c_in1 ch)) (f_name f)) (fun x1 =>
      rbind (fget (s_x (c_in2 ch)) (f_name f)) (fun x2 =>
      rbind (fget (s_x (c_out ch)) (f_name f)) (fun xo =>
      ti_loop ch r (ti + (0 + s_m (c_in1 ch) * x1 + s_m (c_in2 ch) * x2 - s_m (c_out ch) * xo)
                         * f_LHV f))))
  end.
(** CombustionChamber.calc_ti, combustion/base.py 1105-1117 *)
Definition calc_ti (ch : chamber) : res Q := ti_loop ch (c_fuels ch) 0.
(** base.py 1016-1029 *)
Definition ti_func (ch : chamber) (ti : Q) : res Q := rmap (fun t => ti - t) (calc_ti ch).

(** the variables of a chamber: mass flow or a mass fraction of a port;
    combustion/base.py 1070-1087 *)
Inductive port := In1 | In2 | Out.
(** the same with fluid, combustion/base.py 1070-1087 *)
Inductive var := VM (p : port) | VX (p : port) (f : string).
(** the connection at a port, combustion/base.py 249 *)
Definition stream_at (ch : chamber) (p : port) : stream :=
  match p with In1 => c_in1 ch | In2 => c_in2 ch | Out => c_out ch end.

(** base.py 1074-1075, 1082-1084: sum of fraction times heating value *)
Fixpoint lhv_sum (s : stream) (fs : list fuel) : res Q :=
  match fs with
  | [] => Ok 0
  | f :: r => rbind (fget (s_x s) (f_name f)) (fun x =>
              rbind (lhv_sum s r) (fun t => Ok (x * f_LHV f + t)))
  end.

(** base.py 1058-1087: the entries written into the row, in order.  The columns
    of fuels that are not unknowns are skipped. *)
Definition ti_port (ch : chamber) (is_var : var -> bool) (sgn : Q) (p : port)
  : res (list (var * Q)) :=
  let s := stream_at ch p in
  rbind (if is_var (VM p) then rmap (fun t => [(VM p, sgn * t)]) (lhv_sum s (c_fuels ch)) else Ok [])
  (fun ms => Ok (ms ++ map (fun f => (VX p (f_name f), sgn * s_m s * f_LHV f))
                     (filter (fun f => is_var (VX p (f_name f))) (c_fuels ch)))%list).
(** CombustionChamber.ti_deriv, combustion/base.py 1070-1087 *)
Definition ti_deriv (ch : chamber) (is_var : var -> bool) : res (list (var * Q)) :=
  rbind (ti_port ch is_var (-1) In1) (fun a =>
  rbind (ti_port ch is_var (-1) In2) (fun b =>
  rbind (ti_port ch is_var 1 Out) (fun c => Ok (a ++ b ++ c)%list))).

(* ----------------------------------------------------------- energy balance *)

(** The specific enthalpies at the ports and the enthalpy at the reference state
    (h_mix_pT with "forced-gas", an oracle of the composition). *)
Section Energy.
Variable href : dict Q -> Q.

(** base.py 806-855; [scale] is [self.eta.val] in diabatic.py 278-329, else 1 *)
Definition energy_func (ch : chamber) (h1 h2 ho scale : Q) : res Q :=
  rbind (calc_ti ch) (fun ti =>
  Ok (0 + s_m (c_in1 ch) * (h1 - href (s_x (c_in1 ch)))
        + s_m (c_in2 ch) * (h2 - href (s_x (c_in2 ch)))
        - s_m (c_out ch) * (ho - href (s_x (c_out ch))) + ti * scale)).

(** diabatic.py 361-384: reported efficiency and heat loss *)
Definition diabatic_report (ch : chamber) (h1 h2 ho : Q) : res (Q * Q) :=
  rbind (calc_ti ch) (fun ti =>
  let r := 0 + s_m (c_in1 ch) * (h1 - href (s_x (c_in1 ch)))
        + s_m (c_in2 ch) * (h2 - href (s_x (c_in2 ch)))
        - s_m (c_out ch) * (ho - href (s_x (c_out ch))) in
  rbind (qdiv (- r) ti) (fun eta => Ok (eta, - (1 - eta) * ti))).
End Energy.

(** base.py 887-909: the columns energy_balance_deriv writes among the mass
    flows and mass fractions (it also writes pressures and enthalpies). *)
Definition energy_columns (is_var : var -> bool) : list var :=
  filter is_var [VM In1; VM In2; VM Out].

(* ------------------------------------------------------------------- engine *)

(** Characteristics of the engine and the cooling circuits; [e_design] is
    [self.P.design], [None] for nan. engine.py 251-284. *)
Record engine := {
  e_tiP : charline; e_Q1c : charline; e_Q2c : charline; e_Qlc : charline;
  e_P : Q; e_design : option Q; e_Qloss : Q;
  e_m1 : Q; e_hi1 : Q; e_ho1 : Q; e_m2 : Q; e_hi2 : Q; e_ho2 : Q
}.

(** engine.py 633-636, 717-720, 812-815, 906-909, 978-981 *)
Definition load (e : engine) (P : Q) : res Q :=
  match e_design e with None => Ok 1 | Some d => qdiv P d end.

(** engine.py 617-641 *)
Definition tiP_char_func (e : engine) (ti : Q) : res Q :=
  rbind (load e (e_P e)) (fun x => rbind (cl_evaluate (e_tiP e) x) (fun t => Ok (ti + t * e_P e))).
(** engine.py 693-724 and 788-821 *)
Definition Q_char_func (e : engine) (c : charline) (m hi ho ti : Q) : res Q :=
  rbind (load e (e_P e)) (fun x => rbind (cl_evaluate c x) (fun q =>
  rbind (cl_evaluate (e_tiP e) x) (fun t => Ok (ti * q - t * m * (ho - hi))))).
(** CombustionEngine.Q1_char_func, engine.py 714-724 *)
Definition Q1_char_func (e : engine) := Q_char_func e (e_Q1c e) (e_m1 e) (e_hi1 e) (e_ho1 e).
(** CombustionEngine.Q2_char_func, engine.py 809-821 *)
Definition Q2_char_func (e : engine) := Q_char_func e (e_Q2c e) (e_m2 e) (e_hi2 e) (e_ho2 e).
(** engine.py 885-912 *)
Definition Qloss_char_func (e : engine) (ti : Q) : res Q :=
  rbind (load e (e_P e)) (fun x => rbind (cl_evaluate (e_Qlc e) x) (fun q =>
  rbind (cl_evaluate (e_tiP e) x) (fun t => Ok (ti * q + t * e_Qloss e)))).
(** engine.py 373-417; [flue] is the balance of the base class without the
    thermal input, i.e. enthalpy in minus enthalpy out of the gases *)
Definition engine_energy (e : engine) (flue ti : Q) : Q :=
  flue + ti - e_m1 e * (e_ho1 e - e_hi1 e) - e_m2 e * (e_ho2 e - e_hi2 e) + (e_P e + e_Qloss e).

(** engine.py 963-983 and 985-1006 *)
Definition calc_P (e : engine) (P ti : Q) : res Q :=
  rbind (load e P) (fun x => rbind (cl_evaluate (e_tiP e) x) (fun t => qdiv (- ti) t)).
(** CombustionEngine.calc_Qloss, engine.py 1000-1006 *)
Definition calc_Qloss (e : engine) (P ti : Q) : res Q :=
  rbind (load e P) (fun x => rbind (cl_evaluate (e_Qlc e) x) (fun q =>
  rbind (cl_evaluate (e_tiP e) x) (fun t => qdiv (- ti * q) t))).
(** engine.py 1298-1311: reported Q1, Q2, P, Qloss; the heat loss is computed
    with the new power. *)
Definition engine_report (e : engine) (ti : Q) : res (Q * Q * Q * Q) :=
  rbind (calc_P e (e_P e) ti) (fun P =>
  rbind (calc_Qloss e P ti) (fun Ql =>
  Ok (- e_m1 e * (e_ho1 e - e_hi1 e), - e_m2 e * (e_ho2 e - e_hi2 e), P, Ql))).

(* -------------------------------------------------------------------- setup *)

Section Setup.
(** CP.get_aliases with the blanks removed, helpers.py 48-50 *)
Variable aliases : string -> list string.

(** fluidalias_in_list, helpers.py 49-50 *)
Definition alias_in_list (f : string) (l : list string) : bool :=
  existsb (fun a => smem a l) (aliases f).

(** global_vars.py 104 *)
Definition combustion_gases : list string :=
  ["methane"; "ethane"; "propane"; "butane"; "hydrogen"; "nDodecane"]%string.

(** base.py 251-290: the fuels found and, if accepted, the names used later for
    oxygen, carbon dioxide and water ([setattr(self, fluid.lower(), fluid)]) *)
Definition setup_names (all_fluids : list string) : res (list string) :=
  let fuels := nodup string_dec (filter (fun f => alias_in_list f combustion_gases) all_fluids) in
  match fuels with
  | [] => Err TESPyComponentError
  | _ => if forallb (fun f => alias_in_list f all_fluids) ["O2"; "CO2"; "H2O"; "N2"]%string
         then Ok fuels else Err TESPyComponentError
  end.

(** base.py 330-340: enthalpies of formation in kJ/mol *)
Definition hf_table : dict Q :=
  [("hydrogen", 0); ("methane", -(746#10)); ("ethane", -(840#10)); ("propane", -(1038#10));
   ("butane", -(1257#10)); ("nDodecane", -(2894#10)); ("O2", 0); ("CO2", -(39351#100));
   ("H2O", -(241826#1000))]%string.

(** base.py 303-357.  [key] is a set; [list(key)[0]] is its only element for the
    supported fuels, here the first in the order of the table. *)
Definition calc_lhv (C H M : Q) (f : string) : res Q :=
  match filter (fun kv => smem (fst kv) (aliases f)) hf_table with
  | [] => Err IndexError
  | (_, hf) :: _ =>
      rmap (fun v => v * 1000) (qdiv (- (H / 2 * -(241826#1000) + C * -(39351#100) - ((C + H / 4) * 0 + hf))) M)
  end.
End Setup.

(* ------------------------------------------------------------- value checks *)

(** The attributes convergence_check reads and writes. combustion/base.py 1202-1276. *)
Record port_state := {
  k_m : Q; k_m_var : bool; k_x : dict Q; k_x_var : list string;
  k_h : Q; k_h_var : bool; k_good : bool
}.
(** assignment to m.val_SI, combustion/base.py 1202-1276 *)
Definition set_km (p : port_state) (m : Q) :=
  {| k_m := m; k_m_var := k_m_var p; k_x := k_x p; k_x_var := k_x_var p;
     k_h := k_h p; k_h_var := k_h_var p; k_good := k_good p |}.
(** assignment to fluid.val, combustion/base.py 1202-1276 *)
Definition set_kx (p : port_state) (x : dict Q) :=
  {| k_m := k_m p; k_m_var := k_m_var p; k_x := x; k_x_var := k_x_var p;
     k_h := k_h p; k_h_var := k_h_var p; k_good := k_good p |}.
(** assignment to h.val_SI, combustion/base.py 1202-1276 *)
Definition set_kh (p : port_state) (h : Q) :=
  {| k_m := k_m p; k_m_var := k_m_var p; k_x := k_x p; k_x_var := k_x_var p;
     k_h := h; k_h_var := k_h_var p; k_good := k_good p |}.

(** base.py 1205-1207 *)
Definition fix_inlet (p : port_state) : port_state :=
  if qlt (k_m p) 0 && k_m_var p then set_km p (1#100) else p.

(** base.py 1215-1218, 1221-1224, 1227-1230 *)
Definition clip (hi hi' lo lo' v : Q) : Q :=
  let v := if qlt hi v then hi' else v in if qlt v lo then lo' else v.

(** base.py 1213-1242: the new fraction of one unknown fluid at the outlet *)
Definition check_fraction (fuels : list string) (i1 i2 o : port_state) (m : Q) (f : string)
  : res Q :=
  rbind (fget (k_x o) f) (fun v =>
  if String.eqb f "O2" then Ok (clip (1#4) (1#5) (1#1000) (1#20) v)
  else if String.eqb f "CO2" then Ok (clip (1#10) (75#1000) (1#1000) (1#50) v)
  else if String.eqb f "H2O" then Ok (clip (1#10) (75#1000) (1#1000) (1#50) v)
  else if smem f fuels then Ok (if qlt 0 v then 0 else v)
  else rbind (fget (k_x i1) f) (fun x1 => rbind (fget (k_x i2) f) (fun x2 =>
       rbind (qdiv (0 + x1 * k_m i1 + x2 * k_m i2) m) (fun q =>
       Ok (if qlt (3#100) (Qabs (v - q)) then q else v))))).

(** the loop over the variable fluids of the outlet, combustion/base.py 1202-1276 *)
Fixpoint check_fractions (fuels : list string) (i1 i2 o : port_state) (m : Q) (vars : list string)
  : res port_state :=
  match vars with
  | [] => Ok o
  | f :: r => rbind (check_fraction fuels i1 i2 o m f) (fun v =>
              check_fractions fuels i1 i2 (set_kx o (dset f v (k_x o))) m r)
  end.

(** sum(fluid.val.values()), combustion/base.py 1202-1276 *)
Definition total (d : dict Q) : Q := fold_left (fun a kv => a + snd kv) d 0.

(** base.py 1245-1246 *)
Fixpoint normalise (t : Q) (vars : list string) (d : dict Q) : res (dict Q) :=
  match vars with
  | [] => Ok d
  | f :: r => rbind (fget d f) (fun v => rbind (qdiv v t) (fun q => normalise t r (dset f q d)))
  end.

(** base.py 1260-1273: [fuel_found], [fuel_inlet], [air_tmp] after the loop *)
Fixpoint fuel_fraction (fuels : list string) (d : dict Q) : res Q :=
  match fuels with
  | [] => Ok 0
  | f :: r => rbind (fget d f) (fun x => rbind (fuel_fraction r d) (fun t => Ok (x + t)))
  end.
(** one inlet in the loop of convergence_check, combustion/base.py 1202-1276 *)
Definition scan_inlet (fuels : list string) (st : bool * option bool * option Q)
    (which : bool) (p : port_state) : res (bool * option bool * option Q) :=
  let '(_, fi, air) := st in
  if k_good p then Ok (false, fi, air)
  else rbind (fuel_fraction fuels (k_x p)) (fun x =>
       let '(found, fi) := if qlt (3#4) x && k_m_var p then (true, Some which) else (false, fi) in
       Ok (found, fi, if qlt x (3#4) then Some (k_m p) else air)).

(** CombustionChamber.convergence_check, base.py 1190-1276 (build_fluid_data
    omitted).  [which] false is the first inlet. *)
Definition convergence_check (fuels : list string) (lamb : Q) (lamb_set : bool)
    (i1 i2 o : port_state) : res (port_state * port_state * port_state) :=
  let i1 := fix_inlet i1 in
  let i2 := fix_inlet i2 in
  let m := 0 + k_m i1 + k_m i2 in
  rbind (check_fractions fuels i1 i2 o m (k_x_var o)) (fun o =>
  rbind (normalise (total (k_x o)) (k_x_var o) (k_x o)) (fun x =>
  let o := set_kx o x in
  let o := if qlt (k_m o) 0 && k_m_var o then set_km o 10 else o in
  let o := if negb (k_good o) then
             if qlt (k_h o) 750000 && k_h_var o then set_kh o 1000000 else o
           else o in
  if qlt lamb 2 && negb lamb_set then
    rbind (scan_inlet fuels (false, None, None) false i1) (fun st =>
    rbind (scan_inlet fuels st true i2) (fun '(found, fi, air) =>
    if found then
      match air, fi with
      | Some a, Some false => Ok (set_km i1 (a / 25), i2, o)
      | Some a, Some true => Ok (i1, set_km i2 (a / 25), o)
      | _, _ => Err UnboundLocalError
      end
    else Ok (i1, i2, o)))
  else Ok (i1, i2, o))).
