(** Default and custom characteristics: tools/characteristics.py 481-573 and the part of
    components/component.py 363-383 that installs them. *)
From Coq Require Import String List Bool QArith.
From Verif Require Import Base CharModel.
Import ListNotations.
Open Scope string_scope.

(** Entries of the data files: sampling points of a line or a map
    (tools/characteristics.py 512-521). *)
Record ldata := { ld_x : list Q; ld_y : list Q }.
(** Entries of char_maps.json (tools/characteristics.py 518-521). *)
Record mdata := { md_x : list Q; md_y : list (list Q); md_z : list (list Q) }.

(** Contents of char_lines.json and char_maps.json: component, parameter, name of the
    function (tools/characteristics.py 504-511). *)
Definition table (A : Type) := dict (dict (dict A)).

(** d[k], KeyError if missing (tools/characteristics.py 513). *)
Definition look {A : Type} (k : string) (d : dict A) : res A :=
  match dget k d with Some a => Ok a | None => Err KeyError end.

(** data[component][parameter][function_name] (tools/characteristics.py 513-520). *)
Definition look3 {A : Type} (t : table A) (component parameter name : string) : res A :=
  rbind (look component t) (fun t => rbind (look parameter t) (fun t => look name t)).

(** Objects held by characteristic parameters (tools/characteristics.py 515, 521). *)
Inductive characteristic := CLine (c : charline) | CMap (c : charmap).

(** Kind of a parameter: ComponentCharacteristics or ComponentCharacteristicMaps
    (components/component.py 364, 375). *)
Inductive ckind := KLine | KMap.

(** load_default_char; a line is created without extrapolation
    (tools/characteristics.py 481-523). *)
Definition load_default_char (lines : table ldata) (maps : table mdata) (component parameter name : string) (k : ckind)
  : res characteristic :=
  match k with
  | KLine => rbind (look3 lines component parameter name) (fun d => rmap CLine (CharLine_new (ld_x d) (ld_y d) false))
  | KMap => rbind (look3 maps component parameter name) (fun d => rmap CMap (CharMap_new (md_x d) (md_y d) (md_z d)))
  end.

(** The constant line CharLine(x=[0, 1], y=[1, 1]) (components/component.py 372, 383). *)
Definition unit_line : charline := {| cl_x := [0%Q; 1%Q]; cl_y := [1%Q; 1%Q]; cl_extrapolate := false |}.

(** Installation in preprocess: only KeyError is caught (components/component.py 367-372, 378-383). *)
Definition install (lines : table ldata) (maps : table mdata) (component parameter : string) (k : ckind)
  (current : option characteristic) : res characteristic :=
  match current with
  | Some c => Ok c
  | None =>
      match load_default_char lines maps component parameter "DEFAULT" k with
      | Err KeyError => Ok (CLine unit_line)
      | r => r
      end
  end.

(** Parameters of a component: name, kind, characteristic specified so far
    (components/component.py 353-383). *)
Definition cparams := list (string * ckind * option characteristic).

(** The loop over the parameters (components/component.py 353-383). *)
Definition install_all (lines : table ldata) (maps : table mdata) (component : string) (ps : cparams)
  : res (list (string * characteristic)) :=
  rmapM (fun p => rmap (fun c => (fst (fst p), c)) (install lines maps component (fst (fst p)) (snd (fst p)) (snd p))) ps.

(** Evaluation of a line by the component equations (components/turbomachinery/turbine.py 373-377); a map's
    evaluate needs a second argument (tools/characteristics.py 313). *)
Definition evaluate1 (c : characteristic) (x : Q) : res Q :=
  match c with CLine l => cl_evaluate l x | CMap _ => Err TypeError end.
(** Evaluation of a map by evaluate_x and evaluate_y, at guide vane angle 0
    (components/turbomachinery/compressor.py 382-386); lines do not have these methods. *)
Definition evaluate2 (c : characteristic) (x y : Q) : res Q :=
  match c with CMap m => cm_evaluate m x y | CLine _ => Err AttributeError end.

(** FileNotFoundError or another exception (tools/characteristics.py 569-573). *)
Inductive loaderr := NoFile | Other (e : pyerr).

(** load_custom_char: the file of the home directory, if it exists
    (tools/characteristics.py 526-573). *)
Definition load_custom_char (lines : option (dict ldata)) (maps : option (dict mdata)) (name : string) (k : ckind)
  : characteristic + loaderr :=
  let lift (r : res characteristic) := match r with Ok c => inl c | Err e => inr (Other e) end in
  match k with
  | KLine => match lines with
             | None => inr NoFile
             | Some d => lift (rbind (look name d) (fun e => rmap CLine (CharLine_new (ld_x e) (ld_y e) false)))
             end
  | KMap => match maps with
            | None => inr NoFile
            | Some d => lift (rbind (look name d) (fun e => rmap CMap (CharMap_new (md_x e) (md_y e) (md_z e))))
            end
  end.

(** component() of the classes with characteristics (turbine.py 152, steam_turbine.py 151, heat_exchangers/base.py 230,
    movingboundary.py 263, condenser.py 244, desuperheater.py 181, simple.py 203, solar_collector.py 187,
    parabolic_trough.py 224, pipe.py 165). *)
Definition component_of (cls : string) : option string :=
  dget cls [("Turbine", "turbine"); ("SteamTurbine", "steam turbine"); ("HeatExchanger", "heat exchanger");
            ("MovingBoundaryHeatExchanger", "moving boundary heat exchanger"); ("Condenser", "condenser");
            ("Desuperheater", "desuperheater"); ("SimpleHeatExchanger", "heat exchanger simple");
            ("SolarCollector", "solar collector"); ("ParabolicTrough", "parabolic trough"); ("Pipe", "pipe")].

(** Components and parameters with an entry DEFAULT in the data files shipped
    (data/char_lines.json 1-213). *)
Definition shipped_lines : list (string * list string) :=
  [("turbine", ["eta_s_char"]); ("compressor", ["eta_s_char"]); ("pump", ["eta_s_char"]);
   ("combustion engine", ["tiP_char"; "Q1_char"; "Q2_char"; "Qloss_char"]);
   ("heat exchanger", ["kA_char1"; "kA_char2"]); ("condenser", ["kA_char1"; "kA_char2"]);
   ("desuperheater", ["kA_char1"; "kA_char2"]); ("heat exchanger simple", ["kA_char"]); ("pipe", ["kA_char"]);
   ("water electrolyzer", ["eta_char"])].
