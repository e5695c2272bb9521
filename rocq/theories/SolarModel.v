(** Solar collectors and steam turbines.
    Sources: /repo/src/tespy/components/heat_exchangers/solar_collector.py,
    heat_exchangers/parabolic_trough.py, turbomachinery/steam_turbine.py,
    turbomachinery/turbine.py 253-267. Values are reals, ambient temperatures in K. *)
From Coq Require Import Reals.
From Verif Require Export Base.
Open Scope R_scope.

(** solar_collector.py 232-242, from the temperatures at both ends. *)
Definition collector_eq (A E eta lin quad Tamb m h_i h_o T_i T_o : R) : R :=
  let T_m := 1 / 2 * (T_i + T_o) in
  m * (h_o - h_i) - A * (E * eta - (T_m - Tamb) * lin - quad * (T_m - Tamb) ^ 2).
(** solar_collector.py 291: entry of the mass flow. *)
Definition collector_m_entry (h_i h_o : R) : R := h_o - h_i.
(** solar_collector.py 311: heat. *)
Definition heat (m h_i h_o : R) : R := m * (h_o - h_i).
(** solar_collector.py 316: reported losses. *)
Definition collector_loss (A E m h_i h_o : R) : R := - (E * A - heat m h_i h_o).

(** x ** 1.5 for x not negative. *)
Definition pow15 (x : R) : R := if Req_EM_T x 0 then 0 else Rpower x (3 / 2).
(** parabolic_trough.py 276-279: incidence angle modifier. *)
Definition iam (iam_1 iam_2 aoi : R) : R := 1 - iam_1 * Rabs aoi - iam_2 * aoi ^ 2.
(** parabolic_trough.py 271-289. *)
Definition trough_eq (A E eta doc iam_1 iam_2 aoi c_1 c_2 Tamb m h_i h_o T_i T_o : R) : R :=
  let T_m := 1 / 2 * (T_i + T_o) in
  m * (h_o - h_i) - A * (E * eta * pow15 doc * iam iam_1 iam_2 aoi - (T_m - Tamb) * c_1 - c_2 * (T_m - Tamb) ^ 2).
(** parabolic_trough.py 366. *)
Definition trough_loss (A E m h_i h_o : R) : R := - E * A + heat m h_i h_o.

(** Phases as Connection.calc_phase returns them (connection.py 1138-1142,
    wrappers.py 244-255). *)
Inductive phase := TwoPhase | Liquid | Gas | NotRecognised.

(** Phases of CoolProp (its enumeration of phases). wrappers.py 245-255. *)
Inductive cp_phase := CPLiquid | Supercritical | SupercriticalGas | SupercriticalLiquid | CriticalPoint | CPGas | CPTwoPhase | Unknown.
(** CoolPropWrapper.phase_ph, wrappers.py 244-255, from the answer of CoolProp. *)
Definition phase_ph (p : cp_phase) : phase :=
  match p with CPTwoPhase => TwoPhase | CPLiquid => Liquid | CPGas => Gas | _ => NotRecognised end.
(** CoolPropWrapper.Q_ph, wrappers.py 231-242; [q]: vapour fraction of CoolProp. *)
Definition Q_ph (p : cp_phase) (q : R) : R :=
  match p with CPTwoPhase => q | CPLiquid => 0 | CPGas => 1 | _ => -1 end.

(** Properties of the fluid: enthalpy after isentropic change of pressure, enthalpy of
    saturated vapour; root search of scipy. steam_turbine.py 201-263. *)
Record steam := { his : R -> R -> R -> R; hvap : R -> R; brentq : (R -> R) -> R -> R -> res R }.
(** Inlet and outlet: pressure, enthalpy, phase and vapour fraction.
    steam_turbine.py 201-263. *)
Record port := { pp : R; hh : R; ph : phase; xx : R }.

(** turbine.py 253-267. *)
Definition eta_s (f : steam) (i o : port) : R := (hh o - hh i) / (his f (pp i) (hh i) (pp o) - hh i).

(** steam_turbine.py 220-241: dry expansion to the pressure at [frac] minus saturated vapour. *)
Definition find_sat (f : steam) (eta_dry : R) (i o : port) (frac : R) : R :=
  let psat := pp i - frac * (pp i - pp o) in
  hh i - eta_dry * (hh i - his f (pp i) (hh i) psat) - hvap f psat.

(** steam_turbine.py 200-263. *)
Definition eta_s_wet (f : steam) (eta_dry alpha : R) (i o : port) : res R :=
  match ph i with
  | TwoPhase => Ok (eta_s f i o - eta_dry * (1 - alpha * (1 - (xx i + xx o) / 2)))
  | _ =>
      match ph o with
      | Gas => Ok (eta_s f i o - eta_dry)
      | _ =>
          rmap (fun frac =>
            let psat := pp i - frac * (pp i - pp o) in
            let hsat := hvap f psat in
            let eta := eta_dry * (1 - alpha * (1 - (1 + xx o) / 2)) in
            hh o - (hsat - eta * (hsat - his f psat hsat (pp o))))
            (brentq f (find_sat f eta_dry i o) 1 0)
      end
  end.
