(** The three fluid property engines: CoolProp, iapws and pyromat.
    Source: /repo/src/tespy/tools/fluid_properties/wrappers.py, functions.py 134-189 and
    connections/connection.py 785-895, 1138-1142.  The libraries themselves are parameters. *)
From Coq Require Import QArith Ascii.
From Verif Require Import Base MixModel PhModel.
Open Scope Q_scope.

(** The methods of a wrapper with their arguments, wrappers.py 64-119, 199-205 *)
Inductive meth :=
| Isentropic (p1 h1 p2 : Q) | T_ph (p h : Q) | T_ps (p s : Q) | H_pQ (p q : Q) | H_ps (p s : Q)
| H_pT (p T : Q) | H_QT (q T : Q) | S_QT (q T : Q) | M_T_sat (p : Q) | M_p_sat (T : Q)
| Q_ph (p h : Q) | Phase_ph (p h : Q) | D_ph (p h : Q) | D_pT (p T : Q) | D_QT (q T : Q)
| Vis_ph (p h : Q) | Vis_pT (p T : Q) | S_ph (p h : Q) | S_pT (p T : Q).
(** What a method returns: a number or the name of a phase, wrappers.py 244-255 *)
Inductive value := Num (q : Q) | Name (s : string).

(** The pairs of inputs of AbstractState.update, wrappers.py 191-283 *)
Inductive pair := HmassP | PSmass | PQ_in | PT_in | QT_in.
(** Phases of CoolProp, wrappers.py 235-239; all others are one case *)
Inductive cphase := CTwo | CLiq | CGas | COther.
(** What a CoolProp state answers after an update, wrappers.py 191-283; only some fluids
    have a viscosity *)
Record cstate := { g_T : Q; g_h : Q; g_s : Q; g_p : Q; g_rho : Q; g_Q : Q; g_phase : cphase; g_vis : res Q }.
(** The library: the state after an update, or an exception together with what the object
    then holds.  CoolProp, called in wrappers.py 191-283 *)
Record coolprop := { cp_update : pair -> Q -> Q -> res cstate; cp_after : cstate -> pair -> Q -> Q -> cstate }.
(** Constants of a wrapper, wrappers.py 142-172; no critical temperature for
    incompressible fluids *)
Record consts := { k_pcrit : Q; k_Tcrit : option Q }.

(** self.AS.update(...), then the output that is read, wrappers.py 191-193 *)
Definition ask {A : Type} (lib : coolprop) (i : pair) (a b : Q) (f : cstate -> res A) (st : cstate)
  : cstate * res A :=
  match cp_update lib i a b with
  | Err e => (cp_after lib st i a b, Err e)
  | Ok s => (s, f s)
  end.
(** A number is read, wrappers.py 193 *)
Definition num (f : cstate -> Q) (s : cstate) : res value := Ok (Num (f s)).
(** The viscosity is read, wrappers.py 269-275 *)
Definition vis (s : cstate) : res value := rmap Num (g_vis s).
(** CoolPropWrapper.Q_ph, wrappers.py 235-242 *)
Definition cp_Q (s : cstate) : res value :=
  Ok (Num (match g_phase s with CTwo => g_Q s | CLiq => 0 | CGas => 1 | COther => - (1) end)).
(** CoolPropWrapper.phase_ph, wrappers.py 248-255 *)
Definition cp_phase (s : cstate) : res value :=
  Ok (Name (match g_phase s with CTwo => "tp" | CLiq => "l" | CGas => "g" | COther => "state not recognised" end)).

(** A method call of CoolPropWrapper on the state object, wrappers.py 174-283 *)
Definition cp_call (k : consts) (lib : coolprop) (st : cstate) (m : meth) : cstate * res value :=
  match m with
  | Isentropic p1 h1 p2 =>
      let '(st1, r) := ask lib HmassP h1 p1 (fun s => Ok (g_s s)) st in
      match r with
      | Err e => (st1, Err e)
      | Ok s => ask lib PSmass p2 s (num g_h) st1
      end
  | T_ph p h => ask lib HmassP h p (num g_T) st
  | T_ps p s => ask lib PSmass p s (num g_T) st
  | H_pQ p q => ask lib PQ_in p q (num g_h) st
  | H_ps p s => ask lib PSmass p s (num g_h) st
  | H_pT p T => ask lib PT_in p T (num g_h) st
  | H_QT q T => ask lib QT_in q T (num g_h) st
  | S_QT q T => ask lib QT_in q T (num g_s) st
  | M_T_sat p => ask lib PQ_in (subcritical (k_pcrit k) p) 0 (num g_T) st
  | M_p_sat T =>
      match k_Tcrit k with
      | None => (st, Err TypeError)
      | Some tc => ask lib QT_in 0 (if Qle_bool T tc then T else tc * (99#100)) (num g_p) st
      end
  | Q_ph p h => ask lib HmassP h (subcritical (k_pcrit k) p) cp_Q st
  | Phase_ph p h => ask lib HmassP h (subcritical (k_pcrit k) p) cp_phase st
  | D_ph p h => ask lib HmassP h p (num g_rho) st
  | D_pT p T => ask lib PT_in p T (num g_rho) st
  | D_QT q T => ask lib QT_in q T (num g_rho) st
  | Vis_ph p h => ask lib HmassP h p vis st
  | Vis_pT p T => ask lib PT_in p T vis st
  | S_ph p h => ask lib HmassP h p (num g_s) st
  | S_pT p T => ask lib PT_in p T (num g_s) st
  end.

(** Any number of calls, each possibly raising; the state afterwards. wrappers.py 174-283 *)
Definition cp_calls (k : consts) (lib : coolprop) (st : cstate) (ms : list meth) : cstate :=
  fold_left (fun st m => fst (cp_call k lib st m)) ms st.

(* ------------------------------------------------------------------ iapws *)

(** Keyword pairs of iapws.IAPWS97 and IAPWS95, wrappers.py 348-416 *)
Inductive ipair := I_hP | I_sP | I_Px | I_PT | I_Tx.
(** Phases of iapws, wrappers.py 386-393 *)
Inductive iphase := ILiquid | IVapour | ITwo | ISatVap | ISatLiq | IOther.
(** The attributes of such an object: K, MPa, kJ, kg, wrappers.py 348-416 *)
Record istate := { i_T : Q; i_P : Q; i_h : Q; i_s : Q; i_rho : Q; i_x : Q; i_mu : Q; i_phase : iphase }.
(** iapws called with two keywords, wrappers.py 348-416 *)
Definition iapws := ipair -> Q -> Q -> res istate.

(** kJ from J and back, MPa from Pa and back; wrappers.py 349-416 *)
Definition kilo (x : Q) : Q := x / 1000.
(** wrappers.py 349-416 *)
Definition mega (x : Q) : Q := x / 1000000.

(** An attribute of a new object, wrappers.py 349 *)
Definition get (lib : iapws) (i : ipair) (a b : Q) (f : istate -> Q) : res value :=
  rmap (fun s => Num (f s)) (lib i a b).

(** A method call of IAPWSWrapper, wrappers.py 345-416 *)
Definition ia_call (p_crit T_crit : Q) (lib : iapws) (m : meth) : res value :=
  match m with
  | Isentropic p1 h1 p2 =>
      rbind (lib I_hP (kilo h1) (mega p1)) (fun s =>
      get lib I_sP (kilo (i_s s * 1000)) (mega p2) (fun t => i_h t * 1000))
  | T_ph p h => get lib I_hP (kilo h) (mega p) i_T
  | T_ps p s => get lib I_sP (kilo s) (mega p) i_T
  | H_pQ p q => get lib I_Px (mega p) q (fun s => i_h s * 1000)
  | H_ps p s => get lib I_sP (kilo s) (mega p) (fun t => i_h t * 1000)
  | H_pT p T => get lib I_PT (mega p) T (fun s => i_h s * 1000)
  | H_QT q T => get lib I_Tx T q (fun s => i_h s * 1000)
  | S_QT q T => get lib I_Tx T q (fun s => i_s s * 1000)
  | M_T_sat p => get lib I_Px (mega (subcritical p_crit p)) 0 i_T
  | M_p_sat T =>
      get lib I_Tx (mega (if Qle_bool T T_crit then T else T_crit * (99#100))) 0 (fun s => i_P s * 1000000)
  | Q_ph p h => get lib I_hP (kilo h) (mega (subcritical p_crit p)) i_x
  | Phase_ph p h =>
      rmap (fun s => Name match i_phase s with
                          | ILiquid => "l" | IVapour => "g"
                          | ITwo | ISatVap | ISatLiq => "tp"
                          | IOther => "phase not recognised" end)
           (lib I_hP (kilo h) (mega (subcritical p_crit p)))
  | D_ph p h => get lib I_hP (kilo h) (mega p) i_rho
  | D_pT p T => get lib I_PT (mega p) T i_rho
  | D_QT q T => get lib I_Tx T q i_rho
  | Vis_ph p h => get lib I_hP (kilo h) (mega p) i_mu
  | Vis_pT p T => get lib I_PT (mega p) T i_mu
  | S_ph p h => get lib I_hP (kilo h) (mega p) (fun s => i_s s * 1000)
  | S_pT p T => get lib I_PT (mega p) T (fun s => i_s s * 1000)
  end.

(** Whether the fluid is accepted, wrappers.py 315-325: [aliases] of H2O in CoolProp *)
Definition ia_new (aliases : list string) (fluid : string) (back_end : option string) : res string :=
  let b := match back_end with None => "IF97"%string | Some b => b end in
  if negb (existsb (String.eqb fluid) aliases) then Err ValueError
  else if String.eqb b "IF97" || String.eqb b "IF95" then Ok b else Err NotImplementedError.

(* ---------------------------------------------------------------- pyromat *)

(** Keyword pairs of pyromat, wrappers.py 460-523 *)
Inductive ppair := P_ph | P_ps | P_pT | P_xT.
(** Answers of pyromat in K, Pa, J, kg, wrappers.py 436-438, 460-523 *)
Record pstate := { y_T : Q; y_h : Q; y_s : Q; y_d : Q; y_x : Q }.
(** pyromat called with two keywords, wrappers.py 460-523 *)
Definition pyromat := ppair -> Q -> Q -> res pstate.

(** wrappers.py 461 *)
Definition pget (lib : pyromat) (i : ppair) (a b : Q) (f : pstate -> Q) : res value :=
  rmap (fun s => Num (f s)) (lib i a b).
(** self.back_end == "ig", wrappers.py 490-523 *)
Definition unless_ig (ig : bool) (r : res value) : res value := if ig then Err NotImplementedError else r.

(** A method call of PyromatWrapper, wrappers.py 457-523: what the class does not define is
    inherited from FluidPropertyWrapper (59-119), which raises NotImplementedError; [h_pQ] is
    defined in neither, so that there is no such attribute *)
Definition py_call (ig : bool) (lib : pyromat) (m : meth) : res value :=
  match m with
  | Isentropic p1 h1 p2 =>
      rbind (lib P_ph p1 h1) (fun s => pget lib P_ps p2 (y_s s) y_h)
  | T_ph p h => pget lib P_ph p h y_T
  | T_ps p s => pget lib P_ps p s y_T
  | H_pQ _ _ => Err AttributeError
  | H_ps p s => pget lib P_ps p s y_h
  | H_pT p T => pget lib P_pT p T y_h
  | H_QT q T => unless_ig ig (pget lib P_xT q T y_h)
  | S_QT q T => unless_ig ig (pget lib P_xT q T y_s)
  | M_T_sat _ | M_p_sat _ | Phase_ph _ _ | Vis_ph _ _ | Vis_pT _ _ => Err NotImplementedError
  | Q_ph p h => unless_ig ig (pget lib P_ph p h y_x)
  | D_ph p h => pget lib P_ph p h y_d
  | D_pT p T => pget lib P_pT p T y_d
  | D_QT q T => unless_ig ig (pget lib P_xT q T y_d)
  | S_ph p h => pget lib P_ph p h y_s
  | S_pT p T => unless_ig ig (pget lib P_pT p T y_s)
  end.

(* ---------------------------------------------------------- fluid names *)

(** [name.split(c)], Python; wrappers.py 52-53 *)
Fixpoint split_on (c : Ascii.ascii) (s : string) : list string :=
  match s with
  | EmptyString => [EmptyString]
  | String a s' =>
      if Ascii.eqb a c then EmptyString :: split_on c s'
      else match split_on c s' with
           | [] => [String a EmptyString]
           | w :: ws => String a w :: ws
           end
  end.
(** [name.replace("]", "")], wrappers.py 54 *)
Fixpoint drop (c : Ascii.ascii) (s : string) : string :=
  match s with
  | EmptyString => EmptyString
  | String a s' => if Ascii.eqb a c then drop c s' else String a (drop c s')
  end.
(** Fluid and fraction from the given name, wrappers.py 50-56: two parts are unpacked *)
Definition fluid_name (s : string) : res (string * option string) :=
  match split_on "["%char s with
  | [a] => Ok (a, None)
  | [a; b] => Ok (a, Some (drop "]"%char b))
  | _ => Err ValueError
  end.

(* ---------------------------------------------------------- connections *)

(** Values a connection reports for a single fluid, connection.py 785-789, 836-840, 857-861:
    nan if the method is not implemented *)
Definition or_nan (r : res value) : res (option value) :=
  match r with
  | Ok v => Ok (Some v)
  | Err NotImplementedError => Ok None
  | Err e => Err e
  end.
(** calc_results of a single fluid, connection.py 932-950, without specified vapour fraction
    and difference to the boiling temperature: vapour fraction, phase and the difference,
    [td0] before; exceptions other than ValueError end the post processing; without a boiling
    temperature the vapour fraction becomes nan (950) *)
Definition reported (call : meth -> res value) (p h : Q) (td0 : option value)
  : res (option value * option value * option value) :=
  let try_nan r := match r with Err ValueError => Ok None | r => r end in
  let td := match call (T_ph p h) with
            | Err e => Err e
            | Ok (Num T) => match call (M_T_sat p) with
                            | Ok (Num ts) => Ok (Num (T - ts)) | Ok v => Ok v | Err e => Err e end
            | Ok v => Ok v
            end in
  rbind (try_nan (or_nan (call (Q_ph p h)))) (fun x =>
  rbind (try_nan (or_nan (call (Phase_ph p h)))) (fun ph =>
  match or_nan td with
  | Ok d => Ok (x, ph, d)
  | Err ValueError => Ok (None, ph, td0)
  | Err e => Err e
  end)).
(** x_func, connection.py 842-844: residual of a specified vapour fraction *)
Definition x_func (call : meth -> res value) (p h x : Q) : res (option Q) :=
  match call (H_pQ p x) with
  | Ok (Num q) => Ok (Some (h - q))
  | Ok (Name _) => Err TypeError
  | Err e => Err e
  end.
(** Td_bp_func, connection.py 857-865: residual of a specified difference to the boiling
    temperature *)
Definition Td_bp_func (call : meth -> res value) (p h td : Q) : res (option Q) :=
  match call (T_ph p h) with
  | Ok (Num T) =>
      match call (M_T_sat p) with
      | Ok (Num ts) => Ok (Some (T - ts - td))
      | Ok (Name _) => Err TypeError
      | Err NotImplementedError => Ok None
      | Err e => Err e
      end
  | Ok (Name _) => Err TypeError
  | Err NotImplementedError => Ok None
  | Err e => Err e
  end.

(** dv_mix_dph, functions.py 233-237; [v] is v_mix_ph at the enthalpy, by pressure and start
    value *)
Definition dv_dph (v : Q -> option Q -> res Q) (p : Q) (T0 : option Q) : res Q :=
  rbind (v (p + (1#10)) T0) (fun upper => rbind (v (p - (1#10)) (Some upper)) (fun lower =>
  Ok ((upper - lower) / (2 * (1#10))))).
(** v_deriv, connection.py 800-806, without the factor of the mass flow: the derivatives of the
    specific volume are asked for without the mixing rule of the connection *)
Definition v_row (u : pure_ph) (names : list string) (p h : Q) (fd : fluids) (p_var h_var : bool)
  : res (option Q * option Q) :=
  let v p h T0 := v_mix_ph u names p h fd None T0 in
  rbind (if p_var then rmap Some (dv_dph (fun p T0 => v p h T0) p None) else Ok None) (fun dp =>
  rbind (if h_var then rmap Some (dv_pdh (fun h T0 => v p h T0) h None) else Ok None) (fun dh =>
  Ok (dp, dh))).
