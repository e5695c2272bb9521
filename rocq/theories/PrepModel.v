(** Preparation of particular classes before a solution.
    Models src/tespy/components/combustion/engine.py 351-368, 1315-1326, reactors/fuel_cell.py 216-257,
    reactors/water_electrolyzer.py 257-298, heat_exchangers/condenser.py 255-259,
    turbomachinery/steam_turbine.py 166-178.  Component.preprocess is CompSpecModel; messages of the logger
    other than the warning of the steam turbine are left out. *)
From Verif Require Export TableModel.
From Verif Require CharModel CombModel OffModel UpdateModel.
Open Scope nat_scope.
Open Scope string_scope.
Open Scope list_scope.

(** The start of preprocess: an unspecified parameter becomes a variable; engine.py 353-358, 360-365,
    fuel_cell.py 218-223, water_electrolyzer.py 259-264 *)
Definition auto_var (parse : string -> option pnum) (p : string) (k : comp) : res comp :=
  match dget p (k_params k) with
  | None => Err AttributeError
  | Some q =>
      if q_is_set q then Ok k
      else let '(k', e) := cset_attr parse [(p, CV (PStr "var"))] k in
           match e with None => Ok k' | Some e => Err e end
  end.
(** CombustionEngine.preprocess, engine.py 351-367 *)
Definition engine_preprocess (parse : string -> option pnum) (mandatory : nat) (k : comp) : res (comp * nat) :=
  rbind (auto_var parse "P" k) (fun k => rbind (auto_var parse "Qloss" k) (preprocess mandatory)).

(** Molar formation enthalpy of water, hydrogen and oxygen; fuel_cell.py 250-253, water_electrolyzer.py 291-294 *)
Definition hf (f : string) : Q := if String.eqb f "H2O" then -286000 else 0.
(** FuelCell.calc_e0, fuel_cell.py 250-257; the molar masses of the fluids at the hydrogen inlet *)
Definition fuel_cell_e0 (molar : dict Q) : res Q :=
  match dget "H2" molar with
  | None => Err KeyError
  | Some M => if Qeq_bool M 0 then Err ZeroDivisionError else Ok ((2 * hf "H2O" - 2 * hf "H2" - hf "O2") / (2 * M))%Q
  end.
(** WaterElectrolyzer.calc_e0, water_electrolyzer.py 291-298; the fluids at the hydrogen outlet *)
Definition electrolyzer_e0 (molar : dict Q) : res Q :=
  match dget "H2" molar with
  | None => Err KeyError
  | Some M => if Qeq_bool M 0 then Err ZeroDivisionError else Ok (- (2 * hf "H2O" - 2 * hf "H2" - hf "O2") / (2 * M))%Q
  end.
(** FuelCell.preprocess, fuel_cell.py 216-230, WaterElectrolyzer.preprocess, water_electrolyzer.py 257-272 *)
Definition reactor_preprocess (e0 : dict Q -> res Q) (parse : string -> option pnum) (mandatory : nat) (molar : dict Q) (k : comp)
  : res (comp * nat * Q) :=
  rbind (auto_var parse "P" k) (fun k => rbind (e0 molar) (fun e => rmap (fun kn => (kn, e)) (preprocess mandatory k))).

(** bool(value) in Python; condenser.py 258 *)
Definition truth (v : pv) : bool :=
  match v with
  | PNone => false | PNum (Fin q) => negb (Qeq_bool q 0) | PBool b => b
  | PStr s => negb (String.eqb s "") | PList l => match l with [] => false | _ => true end
  | PDict d => match d with [] => false | _ => true end | _ => true
  end.
(** Condenser.preprocess, condenser.py 255-259 *)
Definition condenser_preprocess (mandatory : nat) (k : comp) : res (comp * nat) :=
  match dget "subcooling" (k_params k) with
  | None => Err AttributeError
  | Some q => preprocess mandatory (k_with_params k (dset "subcooling" (put_field (FIsSet (negb (truth (q_val q)))) q) (k_params k)))
  end.

(** SteamTurbine.preprocess, steam_turbine.py 166-178, with the warning for other fluids than water *)
Definition steam_preprocess (aliases : string -> list string) (fd : dict Q) (mandatory : nat) (k : comp) : bool * res (comp * nat) :=
  match UpdateModel.single_fluid fd with
  | None => (false, Err ValueError)
  | Some f => (negb (CombModel.alias_in_list aliases f ["water"]), preprocess mandatory k)
  end.

(** CombustionEngine.check_parameter_bounds, engine.py 1318-1326, after the checks of all components: the
    load and the warnings for the lines tiP_char, Qloss_char, Q1_char and Q2_char; [None] is nan, design values are not zero *)
Definition engine_bounds (design : option Q) (P : Q) (tiP Qloss Q1 Q2 : CharModel.charline) : res (list OffModel.warning) :=
  let expr := match design with None => 1%Q | Some d => (P / d)%Q end in
  rmap (@concat _) (rmapM (fun c => OffModel.line_domain c expr) [tiP; Qloss; Q1; Q2]).
