(** Labels, references and figure files of the LaTeX report of a network.
    Source: /repo/src/tespy/tools/document_models.py.
    Modelled: which labels of equations and figures are defined, which are referred to, which
    characteristics are drawn to which files, and which files the figures show. Values, marks and
    the placing of figures are DocModel.v, equations DocEqModel.v, rows of tables SpecTabModel.v.
    Not modelled: captions, headings, the text of equations; folders of files (C217): names are
    those in the text, relative to the folder of the report. Characteristics are numbered. *)
From Coq Require Import DecimalString Ascii.
From Verif Require Import Base.
Open Scope string_scope.
Open Scope list_scope.

(** What matters of the text: a label of an equation (document_models.py 1004-1010), a figure with its
    label and file that is made for a characteristic (977-983), references to them, and the drawing
    of a characteristic to a file (characteristics.py 232-262) *)
Inductive item :=
| Eq (label : string)
| Fig (label file : string) (of : nat)
| RefEq (label : string)
| RefFig (label : string)
| Plot (file : string) (c : nat).

(** [s.replace(' ', '_')], document_models.py 482, 488, 493, 508, 580, 812, 1043, 1087 *)
Fixpoint under (s : string) : string :=
  match s with
  | EmptyString => EmptyString
  | String a s' => String (if Ascii.eqb a " "%char then "_"%char else a) (under s')
  end.
(** [str(i)], document_models.py 493, 508 *)
Definition str (i : nat) : string := NilEmpty.string_of_uint (Nat.to_uint i).
(** The label of an equation: class and label; document_models.py 1005-1006 *)
Definition eq_label (cls l : string) : string := (cls ++ "_" ++ l)%string.

(* ---------------------------------------------------------- connections *)

(** Properties of connections and their texts, global_vars.py 17-102 *)
Inductive prop := Pm | Pv | Pp | Ph | PT | PTd | Pvol | Px | Ps.
(** global_vars.py 19, 29, 40, 50, 61, 71, 80, 88, 95 *)
Definition text (p : prop) : string :=
  match p with
  | Pm => "mass flow" | Pv => "volumetric flow" | Pp => "pressure" | Ph => "enthalpy" | PT => "temperature"
  | PTd => "temperature difference to boiling point" | Pvol => "specific volume"
  | Px => "vapor mass fraction" | Ps => "entropy"
  end.
(** document_connection_params 338-345: header and equation of every specified property *)
Definition prop_items (ps : list prop) : list item :=
  map (fun p => RefEq (eq_label "Connection" (text p))) ps ++ map (fun p => Eq (eq_label "Connection" (text p))) ps.
(** document_connection_fluids 394-418: the same for specified fluids *)
Definition fluid_items (fs : list string) : list item :=
  map (fun f => RefEq (eq_label "Connection" f)) fs ++ map (fun f => Eq (eq_label "Connection" f)) fs.

(* ------------------------------------------------ user defined equations *)

(** A user defined equation: label, lines and maps to draw; document_models.py 478-520,
    helpers.py 166-240 *)
Record ude := { u_label : string; u_lines : list nat; u_maps : list nat }.
(** document_models.py 481-482 *)
Definition ude_ref (u : ude) : string := eq_label "UserDefinedEquation" (under (u_label u)).
(** Figures numbered from [i]; document_models.py 490-504, 505-519: the labels of both kinds begin
    with UDE_CharLine *)
Fixpoint ude_figures (kind : string) (u : ude) (i : nat) (cs : list nat) : list item :=
  match cs with
  | [] => []
  | c :: cs =>
      let file := ("figures/UDE_" ++ kind ++ "_" ++ under (u_label u) ++ "_" ++ str i ++ ".pdf")%string in
      [Plot file c; Fig ("UDE_CharLine_" ++ u_label u ++ "_" ++ str i)%string file c; RefEq (ude_ref u)]
      ++ ude_figures kind u (S i) cs
  end.
(** document_ude, document_models.py 478-521 *)
Definition ude_items (u : ude) : list item :=
  [RefEq (ude_ref u); Eq (ude_ref u)] ++ ude_figures "CharLine" u 1 (u_lines u) ++ ude_figures "CharMap" u 1 (u_maps u).

(* ------------------------------------------------------------ components *)

(** Mandatory constraints: a single equation, one with a characteristic, or one equation per
    fluid; combustion/engine.py 288-310, combustion/base.py 767-777 *)
Inductive constr := Single (l : string) | Charted (l : string) | Stoich (l : string) (fluids : list string).
(** The kind of a characteristic, document_models.py 1151-1154 *)
Inductive kind := KLine | KMap.
(** document_models.py 1042, 1086 *)
Definition kind_name (k : kind) : string := match k with KLine => "CharLine" | KMap => "CharMap" end.
(** A class of components as far as the report reads it: name, constraints of the first component,
    labels, parameters, groups and characteristics specified for some component with whether they
    have a documented equation, the elements of groups with those that are characteristics, and
    the characteristic of a parameter of a component. document_models.py 575-597, 636-740 *)
Record cl := {
  c_name : string;
  c_constr : list constr;
  c_comps : list string;
  c_params : list (string * bool);
  c_groups : list (string * bool * list (string * option kind));
  c_chars : list (string * bool * kind);
  c_char : string -> string -> nat }.
(** Labels of the equations of a constraint; document_models.py 596, combustion/base.py 767-777 *)
Definition constr_labels (k : constr) : list string :=
  match k with Single l | Charted l => [l] | Stoich l fs => map (fun f => (l ++ "_" ++ f)%string) fs end.
(** The file of a characteristic of a component, document_models.py 579-580, 1041-1043, 1085-1087 *)
Definition char_file (cp : string) (k : kind) (param label : string) : string :=
  ("figures/" ++ cp ++ "_" ++ kind_name k ++ "_" ++ param ++ "_" ++ under label ++ ".pdf")%string.
(** The label of its figure, document_models.py 592, 1055, 1097 *)
Definition char_label (k : kind) (param label : string) : string := (kind_name k ++ "_" ++ param ++ "_" ++ label)%string.
(** One figure: drawing, and the figure with the equation it refers to; document_models.py 1037-1055,
    1081-1097 *)
Definition drawn (m : cl) (k : kind) (param label : string) : item := Plot (char_file (c_name m) k param label) (c_char m label param).
(** document_models.py 587-592, 1050-1055 *)
Definition shown (m : cl) (k : kind) (param group label : string) : list item :=
  [Fig (char_label k param label) (char_file (c_name m) k param label) (c_char m label param); RefEq (eq_label (c_name m) group)].
(** get_component_mandatory_constraints, document_models.py 571-604 *)
Definition constr_items (m : cl) : list item :=
  flat_map (fun k => match k with
     | Charted l => map (drawn m KLine l) (c_comps m) ++ flat_map (shown m KLine l l) (c_comps m)
     | _ => [] end) (c_constr m)
  ++ flat_map (fun k => map (fun l => Eq (eq_label (c_name m) l)) (constr_labels k)) (c_constr m).
(** Elements of groups in force, document_models.py 692 *)
Definition elements (m : cl) : list string := flat_map (fun g => map fst (snd g)) (c_groups m).
(** Specified columns of the table with whether they are documented, groups' elements removed;
    document_models.py 667, 694-705 *)
Definition columns (m : cl) : list (string * bool) :=
  filter (fun c => negb (smem (fst c) (elements m)))
    (c_params m ++ map fst (c_groups m) ++ map (fun c => fst c) (c_chars m)).
(** Columns with an equation, document_models.py 703-714 *)
Definition documented (m : cl) : list string := map fst (filter snd (columns m)).
(** Characteristics of a class in the order they are drawn: parameter, equation referred to, kind;
    document_models.py 669-690 (every component of the class, SpecTabModel.v) *)
Definition charts (m : cl) : list (string * string * kind) :=
  map (fun c => (fst (fst c), fst (fst c), snd c)) (c_chars m)
  ++ flat_map (fun g => flat_map (fun e => match snd e with Some k => [(fst e, fst (fst g), k)] | None => [] end) (snd g)) (c_groups m).
(** get_component_specifications, document_models.py 636-743: figures are placed only if there are
    equations *)
Definition spec_items (m : cl) : list item :=
  flat_map (fun x => match x with (p, _, k) => map (drawn m k p) (c_comps m) end) (charts m)
  ++ match c_comps m with
     | [] => []
     | _ =>
       map (fun c => RefEq (eq_label (c_name m) c)) (documented m)
       ++ map (fun c => Eq (eq_label (c_name m) c)) (documented m)
       ++ match documented m with
          | [] => []
          | _ => flat_map (fun x => match x with (p, g, k) => flat_map (shown m k p g) (c_comps m) end) (charts m)
          end
     end.

(* ---------------------------------------------------------------- busses *)

(** A component on a bus: its characteristic, whether that is constant, whether the base is the bus.
    document_models.py 788-797 *)
Record brow := { w_comp : string; w_char : nat; w_const : bool; w_base : bool }.
(** A bus: whether its total is given, its components. document_models.py 768-786 *)
Record bus := { b_set : bool; b_rows : list brow }.
(** [chars_plotted]: characteristic and base with the label of the figure. document_models.py 764,
    798-816 *)
Definition plotted := list (nat * bool * string).
(** [key in chars_plotted], document_models.py 799-803 *)
Fixpoint find_chart (c : nat) (b : bool) (p : plotted) : option string :=
  match p with
  | [] => None
  | (c', b', l) :: p => if Nat.eqb c c' && Bool.eqb b b' then Some l else find_chart c b p
  end.
(** document_models.py 808-816 *)
Definition bus_file (mode l : string) : string := ("figures/Bus_CharLine_" ++ under l ++ mode ++ ".pdf")%string.
(** document_models.py 815 *)
Definition bus_label (mode l : string) : string := ("Bus_CharLine_" ++ l ++ mode)%string.
(** The loop over the components of a bus, document_models.py 787-859 *)
Fixpoint bus_loop (mode : string) (rows : list brow) (p : plotted) : list item * plotted :=
  match rows with
  | [] => ([], p)
  | r :: rows =>
      if w_const r then bus_loop mode rows p
      else match find_chart (w_char r) (w_base r) p with
      | Some l => let (i, q) := bus_loop mode rows p in (RefFig l :: i, q)
      | None =>
          let l := bus_label mode (w_comp r) in
          let f := bus_file mode (w_comp r) in
          let (i, q) := bus_loop mode rows (p ++ [(w_char r, w_base r, l)]) in
          ([Plot f (w_char r); Fig l f (w_char r); RefFig l] ++ i, q)
      end
  end.
(** document_busses, document_models.py 762-898; components without a documented bus function end
    the report (C235) *)
Fixpoint bus_items (mode : string) (bs : list bus) (p : plotted) : list item :=
  match bs with
  | [] => []
  | b :: bs =>
      let (i, q) := bus_loop mode (b_rows b) p in
      (if b_set b then match b_rows b with [] => [] | _ => [Eq (eq_label "Bus" "energy_flow_sum")] end else []) ++ i ++ bus_items mode bs q
  end.

(** A network as the report reads it: mode, specified properties and fluids of connections
    (references end the report, C216), user defined equations, classes, busses. *)
Record net := { n_mode : string; n_props : list prop; n_fluids : list string; n_udes : list ude; n_classes : list cl; n_busses : list bus }.
(** document_model, document_models.py 61-67 *)
Definition report (n : net) : list item :=
  prop_items (n_props n) ++ fluid_items (n_fluids n) ++ flat_map ude_items (n_udes n)
  ++ flat_map (fun m => constr_items m ++ spec_items m) (n_classes n) ++ bus_items (n_mode n) (n_busses n) [].
