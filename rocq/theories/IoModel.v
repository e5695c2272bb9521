(** Export of a network and construction of a network from exported files.
    Source: /repo/src/tespy/networks/network.py 152-164, 405-442, 510-542, 2668-2674,
    2713-2725, 2755-2802; networks/network_reader.py 34-421;
    tools/data_containers.py 91-579; tools/characteristics.py 55-80, 171-176,
    219-253, 454-459; components/component.py 38-43, 102-303;
    connections/connection.py 232-310, 400-609, 673-710; connections/bus.py 180-199,
    330-420.
    json.dump followed by json.load is the identity on trees of null, booleans,
    numbers (with nan), strings, lists and dictionaries; anything else raises.
    Files written before an exception are left out.  The wrapper objects of
    fluids are an oracle that may raise.  The check of the loaded network
    (network_reader.py 262) is modelled in TopoModel and left out here, as are the
    checks of labels, numpy integers and truth values (which json does not write),
    and that Splitter, Separator and Merge without a number of connectors set it
    to 2 when the connectors are asked for (nodes/splitter.py 149-154). *)
From Coq Require Import QArith.
From Verif Require Import Base UnitsModel NetUnitsModel.
Open Scope string_scope.
Open Scope list_scope.

(** Python objects stored in containers; nan is [VNum None]; data_containers.py 163-579. *)
Inductive value :=
| VNone | VBool (b : bool) | VNum (x : option Q) | VStr (s : string)
| VList (l : list value) | VDict (d : list (string * value)) | VSet (l : list string)
| VLine (x y : list Q) (e : bool) | VMap (x : list Q) (y z : list (list Q))
| VRef (conn : string) (factor delta : Q) | VEngine (s : string).
(** json.dump, network.py 2723, 2780, 2791, 2801 *)
Fixpoint jsonable (v : value) : bool :=
  match v with
  | VNone | VBool _ | VNum _ | VStr _ => true
  | VList l => forallb jsonable l
  | VDict d => forallb (fun e => jsonable (snd e)) d
  | _ => false
  end.
(** a file with a dictionary, network.py 2723 *)
Definition dump (d : dict value) : res (dict value) := if jsonable (VDict d) then Ok d else Err TypeError.

(** Container classes of data_containers.py: ComponentProperties 257, FluidProperties
    445, FluidComposition 319, ReferencedFluidProperties 507, ComponentCharacteristics
    166, ComponentCharacteristicMaps 212, grouped containers 374 and 412,
    SimpleDataContainer 543 *)
Inductive kind := KCp | KProp | KFlu | KRef | KCC | KCM | KGroup | KSimple.
(** A container with its attributes, data_containers.py 91-99 *)
Record container := { c_kind : kind; c_attrs : dict value }.
(** DataContainer.get_attr, data_containers.py 125-147 *)
Definition attr (c : container) (k : string) : res value :=
  match dget k (c_attrs c) with Some v => Ok v | None => Err KeyError end.
(** DataContainer.set_attr, data_containers.py 101-123 *)
Definition set_attrs (d : dict value) (c : container) : res container :=
  rmap (fun a => {| c_kind := c_kind c; c_attrs := a |})
    (fold_left (fun (r : res (dict value)) e => rbind r (fun a => if dmem (fst e) a then Ok (dset (fst e) (snd e) a) else Err KeyError))
       d (Ok (c_attrs c))).
(** {k: self.get_attr(k) for k in keys}, data_containers.py 310, 504 *)
Definition pick (ks : list string) (c : container) : res (dict value) := rmapM (fun k => rmap (fun v => (k, v)) (attr c k)) ks.
(** ndarray.tolist(), characteristics.py 173-174, 456-458 *)
Definition numbers (l : list Q) : value := VList (map (fun x => VNum (Some x)) l).
(** CharLine._serialize and CharMap._serialize, characteristics.py 171-176, 454-459 *)
Definition char_dict (v : value) : res value :=
  match v with
  | VLine x y e => Ok (VDict [("x", numbers x); ("y", numbers y); ("extrapolate", VBool e)])
  | VMap x y z => Ok (VDict [("x", numbers x); ("y", VList (map numbers y)); ("z", VList (map numbers z))])
  | _ => Err AttributeError
  end.
(** data_containers.py 203-205, 248-250 *)
Definition char_part (c : container) : res (dict value) :=
  rbind (attr c "char_func") (fun f => match f with VNone => Ok [] | _ => rmap (fun d => [("char_func", d)]) (char_dict f) end).
(** [e.__name__], data_containers.py 369 *)
Definition engine_name (v : value) : res value := match v with VEngine s => Ok (VStr s) | _ => Err AttributeError end.
(** a mapping over the values of a dictionary, data_containers.py 369 *)
Definition map_dict (f : value -> res value) (v : value) : res value :=
  match v with
  | VDict d => rmap VDict (rmapM (fun e => rmap (fun x => (fst e, x)) (f (snd e))) d)
  | _ => Err AttributeError
  end.
(** [list(self.is_set)], data_containers.py 368 *)
Definition as_list (v : value) : res value :=
  match v with VSet l => Ok (VList (map VStr l)) | VList l => Ok (VList l) | _ => Err TypeError end.
(** _serialize of the containers, data_containers.py 162, 202-209, 247-254, 308-316,
    366-371, 502-504, 531-540, 578-579 *)
Definition serialize (c : container) : res (dict value) :=
  match c_kind c with
  | KCp => pick ["val"; "val_SI"; "is_set"; "d"; "min_val"; "max_val"; "is_var"] c
  | KProp => pick ["val"; "val0"; "val_SI"; "is_set"; "unit"] c
  | KSimple => pick ["val"; "is_set"] c
  | KCC => rbind (char_part c) (fun f => rmap (app f) (pick ["is_set"; "param"; "char_params"] c))
  | KCM => rbind (char_part c) (fun f => rmap (app f) (pick ["is_set"; "param"] c))
  | KFlu =>
      rbind (attr c "val") (fun v => rbind (rbind (attr c "is_set") as_list) (fun s =>
      rbind (rbind (attr c "engine") (map_dict engine_name)) (fun e => rmap (fun b =>
        [("val", v); ("is_set", s); ("engine", e); ("back_end", b)]) (rbind (attr c "back_end") (map_dict (fun b => Ok b))))))
  | KRef =>
      rbind (attr c "ref") (fun r => match r with
      | VRef l f d => rmap (fun p => p ++ [("conn", VStr l); ("factor", VNum (Some f)); ("delta", VNum (Some d))]) (pick ["is_set"; "unit"] c)
      | VNone => Ok []
      | _ => Err AttributeError
      end)
  | KGroup => Ok []
  end.

(** A component or connection: attributes that are no containers, containers by
    name, and the names accepted in parameter lists (component.py 120-135, 231,
    connection.py 254-273, 430) *)
Record obj := { o_attrs : dict value; o_params : dict container; o_listed : list string }.
(** a dictionary built by updates, component.py 289-295 *)
Definition build (l : list (string * value)) : dict value := fold_left (fun d e => dset (fst e) (snd e) d) l [].
(** {k: self.get_attr(k)}, component.py 290-291, connection.py 578-579 *)
Definition pick_attrs (ks : list string) (o : obj) : res (list (string * value)) :=
  rmapM (fun k => match dget k (o_attrs o) with Some v => Ok (k, v) | None => Err KeyError end) ks.
(** the containers, component.py 292-294, connection.py 580-584 *)
Definition pick_params (o : obj) : res (list (string * value)) :=
  rmapM (fun e => rmap (fun d => (fst e, VDict d)) (serialize (snd e))) (o_params o).
(** Component._serializable, component.py 298-303 *)
Definition comp_keys : list string :=
  ["design"; "offdesign"; "local_design"; "local_offdesign"; "design_path"; "printout"; "fkt_group"; "char_warnings"].
(** Component._serialize, component.py 288-296 *)
Definition comp_data (o : obj) : res (dict value) :=
  rbind (pick_attrs comp_keys o) (fun a => rmap (fun p => build (a ++ p)) (pick_params o)).

(** A connection with its ends, connection.py 248-252 *)
Record conn := { n_source : string; n_sid : string; n_target : string; n_tid : string; n_obj : obj }.
(** Connection._serializable without the connector ids, connection.py 588-594 *)
Definition conn_keys : list string :=
  ["design_path"; "design"; "offdesign"; "local_design"; "local_design"; "printout"; "mixing_rule"].
(** Connection._serialize, connection.py 574-586; the state is the last container *)
Definition conn_data (c : conn) : res (dict value) :=
  rbind (pick_attrs conn_keys (n_obj c)) (fun a => rmap (fun p =>
    build ([("source", VStr (n_source c)); ("target", VStr (n_target c)); ("source_id", VStr (n_sid c)); ("target_id", VStr (n_tid c))] ++ a ++ p))
    (pick_params (n_obj c))).

(** A row of the table of a bus, bus.py 180-189, without the efficiency *)
Record row := { w_param : value; w_Pref : value; w_char : value; w_base : value }.
(** A bus, bus.py 191-195: value, components by label, printout *)
Record bus := { b_P : container; b_rows : dict row; b_print : value }.
(** Bus._serialize, bus.py 411-420 *)
Definition bus_data (b : bus) : res (dict value) :=
  rbind (serialize (b_P b)) (fun p => rmap (fun l => build (("P", VDict p) :: l))
    (rmapM (fun e => rmap (fun ch => (fst e, VDict [("param", w_param (snd e)); ("base", w_base (snd e)); ("char", ch)])) (char_dict (w_char (snd e)))) (b_rows b))).

(** The network: units, components with their class by label, connections and
    busses by label, labels of user defined equations (network.py 166-197) *)
Record net := { t_units : netunits; t_comps : dict (string * obj); t_conns : dict conn; t_busses : dict bus; t_udes : list string }.
(** The content of a directory: network.json (its keyword arguments),
    connections.json, components/*.json by class, busses.json;
    network.py 2703-2802, network_reader.py 176-264. *)
Record dir := { d_net : option nukw; d_conns : option (dict value); d_comps : dict (dict value); d_busses : option (dict value) }.
(** An empty directory, network.py 2702-2711 *)
Definition no_dir : dir := {| d_net := None; d_conns := None; d_comps := []; d_busses := None |}.

(** Network._serialize, network.py 152-164 *)
Definition net_data (s : netunits) : res nukw :=
  let unit p := match dget p (nu_unit s) with Some u => Ok (p, u) | None => Err AttributeError end in
  let range p := match dget p (nu_range s) with Some r => Ok (p, Some r) | None => Err AttributeError end in
  rbind (rmapM unit ["m"; "p"; "h"; "T"; "x"; "v"; "s"]) (fun u =>
  rmap (fun r => {| kw_unit := u; kw_range := r; kw_iter := None |}) (rmapM range ["m"; "p"; "h"])).
(** export_connections, network.py 2773-2781 *)
Definition conns_data (cs : dict conn) : res (dict value) :=
  rbind (rmapM (fun e => rmap (fun d => (fst e, VDict d)) (conn_data (snd e))) cs) (fun l => dump (build l)).
(** self.comps["comp_type"].unique(), network.py 2784 *)
Definition classes (cs : dict (string * obj)) : list string :=
  fold_left (fun l e => if smem (fst (snd e)) l then l else l ++ [fst (snd e)]) cs [].
(** one file of export_components, network.py 2785-2791 *)
Definition class_data (cs : dict (string * obj)) (cls : string) : res (dict value) :=
  rbind (rmapM (fun e => rmap (fun d => (fst e, VDict d)) (comp_data (snd (snd e)))) (filter (fun e => String.eqb (fst (snd e)) cls) cs))
    (fun l => dump (build l)).
(** export_components, network.py 2783-2792: files of other classes stay *)
Definition comps_data (cs : dict (string * obj)) (old : dict (dict value)) : res (dict (dict value)) :=
  fold_left (fun r cls => rbind r (fun f => rmap (fun d => dset cls d f) (class_data cs cls))) (classes cs) (Ok old).
(** export_busses, network.py 2794-2802: no file is written without busses *)
Definition busses_data (bs : dict bus) (old : option (dict value)) : res (option (dict value)) :=
  match bs with
  | [] => Ok old
  | _ => rbind (rmapM (fun e => rmap (fun d => (fst e, VDict d)) (bus_data (snd e))) bs) (fun l => rmap Some (dump (build l)))
  end.
(** export, network.py 2668-2674 *)
Definition export (n : net) (d : dir) : res dir :=
  rbind (net_data (t_units n)) (fun u => rbind (conns_data (t_conns n)) (fun c =>
  rbind (comps_data (t_comps n) (d_comps d)) (fun p => rmap (fun b =>
    {| d_net := Some u; d_conns := Some c; d_comps := p; d_busses := b |}) (busses_data (t_busses n) (d_busses d))))).
(** save_busses, network.py 2755-2771: the design values of the components of the
    busses in the same file; the tables of save are others *)
Definition save (design : dict (dict value)) (d : dir) : res dir :=
  match design with
  | [] => Ok d
  | _ => rmap (fun b => {| d_net := d_net d; d_conns := d_conns d; d_comps := d_comps d; d_busses := Some b |})
           (dump (map (fun e => (fst e, VDict (snd e))) design))
  end.

(* ------------------------------------------------------------------------ reading *)

(** keyword arguments taken from a dictionary, network_reader.py 292, 297, 365 *)
Definition mapping (v : value) : res (dict value) := match v with VDict d => Ok d | _ => Err TypeError end.
(** numpy.asarray(..).astype(float), characteristics.py 62-68 *)
Definition floats (v : value) : res (list Q) :=
  match v with
  | VList l => rmapM (fun x => match x with VNum (Some q) => Ok q | _ => Err TypeError end) l
  | _ => Err TypeError
  end.
(** an argument with default, characteristics.py 55-56, 219-220 *)
Definition arg (k : string) (d : dict value) (default : value) : value := match dget k d with Some v => v | None => default end.
(** only known keyword arguments, characteristics.py 55-56, 219-220 *)
Definition only (ks : list string) (d : dict value) : bool := forallb (fun e => smem (fst e) ks) d.
(** CharLine(..), characteristics.py 55-80 *)
Definition make_line (v : value) : res value :=
  rbind (mapping v) (fun d => if only ["x"; "y"; "extrapolate"] d then
    rbind (floats (arg "x" d (numbers [0; 1]))) (fun x => rbind (floats (arg "y" d (numbers [1; 1]))) (fun y =>
    match arg "extrapolate" d (VBool false) with
    | VBool e => if Nat.eqb (length x) (length y) then Ok (VLine x y e) else Err ValueError
    | _ => Err TypeError
    end)) else Err TypeError).
(** all rows have the same length, characteristics.py 234-235, 245 *)
Definition rectangular (y z : list (list Q)) : bool :=
  forallb (fun row => Nat.eqb (length row) (length (hd [] y))) (y ++ z).
(** CharMap(..), characteristics.py 219-253 *)
Definition make_map (v : value) : res value :=
  let table w := match w with VList l => rmapM floats l | _ => Err TypeError end in
  rbind (mapping v) (fun d => if only ["x"; "y"; "z"] d then
    rbind (floats (arg "x" d (numbers [0; 1]))) (fun x =>
    rbind (table (arg "y" d (VList [numbers [1; 1]; numbers [1; 1]]))) (fun y =>
    rbind (table (arg "z" d (VList [numbers [1; 1]; numbers [1; 1]]))) (fun z =>
    if Nat.eqb (length x) (length y) && Nat.eqb (length y) (length z) && rectangular y z then Ok (VMap x y z) else Err ValueError))) else Err TypeError).
(** network_reader.py 289-297 for one container of a component *)
Definition read_param (c : container) (v : value) : res container :=
  rbind (mapping v) (fun d =>
  rbind (match dget "char_func" d with
         | Some f => match c_kind c with
                     | KCC => rmap (fun l => dset "char_func" l d) (make_line f)
                     | KCM => rmap (fun m => dset "char_func" m d) (make_map f)
                     | _ => Ok d
                     end
         | None => Ok d
         end) (fun d =>
  rbind (match c_kind c with
         | KProp => match dget "val" d with Some x => Ok (dset "val0" x d) | None => Err KeyError end
         | _ => Ok d
         end) (fun d => set_attrs d c))).
(** network_reader.py 364-365 for one container of a connection *)
Definition read_data (c : container) (v : value) : res container := rbind (mapping v) (fun d => set_attrs d c).
(** a list of names, component.py 224-231, connection.py 426-430 *)
Definition strings (v : value) : res (list string) :=
  match v with VList l => rmapM (fun x => match x with VStr s => Ok s | _ => Err TypeError end) l | _ => Err TypeError end.
(** the checks of set_attr for what is no container, component.py 223-265,
    connection.py 424-462 *)
Definition check_attr (listed : list string) (k : string) (v : value) : res unit :=
  if smem k ["design"; "offdesign"] then
    rbind (strings v) (fun l => if forallb (fun s => smem s listed) l then Ok tt else Err ValueError)
  else if smem k ["printout"; "local_design"; "local_offdesign"; "char_warnings"] then
    match v with VBool _ => Ok tt | _ => Err TypeError end
  else Ok tt.
(** one entry of the file, network_reader.py 287-299, 362-367 *)
Definition apply_arg (read : container -> value -> res container) (o : obj) (k : string) (v : value) : res obj :=
  match dget k (o_params o) with
  | Some c => rmap (fun c' => {| o_attrs := o_attrs o; o_params := dset k c' (o_params o); o_listed := o_listed o |}) (read c v)
  | None =>
      if dmem k (o_attrs o)
      then rmap (fun _ => {| o_attrs := dset k v (o_attrs o); o_params := o_params o; o_listed := o_listed o |}) (check_attr (o_listed o) k v)
      else Err KeyError
  end.
(** all entries, network_reader.py 287-299 *)
Definition apply_args (read : container -> value -> res container) (l : list (string * value)) (o : obj) : res obj :=
  fold_left (fun r e => rbind r (fun o => apply_arg read o (fst e) (snd e))) l (Ok o).

(** Connectors: a fixed list (turbomachinery/base.py 99-103), or a number given by a
    parameter, with a default number if it is not set (nodes/merge.py 172-177,
    nodes/splitter.py 149-154, basics/subsystem_interface.py 151-161); the names are
    a function of the number *)
Inductive ports := Fixed (l : list string) | Counted (param : string) (name : value -> list string) (default : list string).
(** inlets() and outlets(), nodes/merge.py 172-177 *)
Definition connectors (p : ports) (o : obj) : list string :=
  match p with
  | Fixed l => l
  | Counted param name default =>
      match dget param (o_params o) with
      | Some c => match dget "is_set" (c_attrs c), dget "val" (c_attrs c) with
                  | Some (VBool true), Some v => name v
                  | _, _ => default
                  end
      | None => default
      end
  end.
(** A registered class: the new instance of a label and the connectors,
    component.py 38-43, 102-136 *)
Record class := { k_new : string -> obj; k_in : ports; k_out : ports }.

(** _construct_components, network_reader.py 267-301 *)
Definition construct_components (cls : string) (k : class) (data : dict value) : res (dict (string * obj)) :=
  rmapM (fun e => rbind (mapping (snd e)) (fun d => rmap (fun o => (fst e, (cls, o))) (apply_args read_param d (k_new k (fst e))))) data.
(** the loop over the component files, network_reader.py 187-212; classes that are
    not registered are skipped *)
Definition load_comps (reg : dict class) (files : dict (dict value)) : res (dict (string * obj)) :=
  fold_left (fun r f => rbind r (fun cs =>
    match dget (fst f) reg with
    | None => Ok cs
    | Some k => rmap (fun new => fold_left (fun cs e => dset (fst e) (snd e) cs) new cs) (construct_components (fst f) k (snd f))
    end)) files (Ok []).
(** _construct_network, network_reader.py 304-324 *)
Definition load_net (kw : nukw) : res netunits := match nu_set_attr kw nu_defaults with (s, None) => Ok s | (_, Some e) => Err e end.

(** is "ref" part of the name, network_reader.py 349, 351 *)
Definition has_ref (k : string) : bool := match String.index 0 "ref" k with Some _ => true | None => false end.
(** a container with the default attributes of its class, data_containers.py 484-500;
    attributes that hold functions are left out, as is the constant_deriv flag *)
Definition fluid_property (v : bool) : container :=
  {| c_kind := KProp; c_attrs := [("design", VNum None); ("val", VNum None); ("val0", VNum None); ("val_SI", VNum (Some 0));
       ("unit", VNone); ("is_set", VBool false); ("is_var", VBool v)] |}.
(** data_containers.py 354-364 *)
Definition composition : container :=
  {| c_kind := KFlu; c_attrs := [("val", VDict []); ("val0", VDict []); ("is_set", VSet []); ("design", VDict []); ("wrapper", VDict []);
       ("back_end", VDict []); ("engine", VDict []); ("is_var", VSet [])] |}.
(** data_containers.py 520-529 *)
Definition referenced : container := {| c_kind := KRef; c_attrs := [("ref", VNone); ("is_set", VBool false); ("unit", VNone)] |}.
(** data_containers.py 567-576 *)
Definition simple (v : value) : container := {| c_kind := KSimple; c_attrs := [("val", v); ("is_set", VBool false)] |}.
(** Connection.get_parameters and the state, connection.py 673-710, 269 *)
Definition new_data : dict container :=
  [("m", fluid_property true); ("p", fluid_property true); ("h", fluid_property true); ("vol", fluid_property false); ("s", fluid_property false);
   ("fluid", composition); ("fluid_balance", simple (VBool false)); ("T", fluid_property false); ("v", fluid_property false);
   ("x", fluid_property false); ("Td_bp", fluid_property false); ("m_ref", referenced); ("p_ref", referenced); ("h_ref", referenced);
   ("T_ref", referenced); ("v_ref", referenced); ("state", simple (VNum None))].
(** A new connection, connection.py 254-273 *)
Definition new_conn : obj :=
  {| o_attrs := [("design_path", VNone); ("design", VList []); ("offdesign", VList []); ("local_design", VBool false);
       ("local_offdesign", VBool false); ("printout", VBool true); ("mixing_rule", VNone)];
     o_params := new_data; o_listed := filter (fun k => negb (String.eqb k "state")) (keys new_data) |}.
(** wrapper_registry.items[engine], network_reader.py 369-370 *)
Definition read_engine (engines : list string) (v : value) : res value :=
  match v with VStr s => if smem s engines then Ok (VEngine s) else Err KeyError | _ => Err TypeError end.
(** Connection._create_fluid_wrapper, connection.py 596-609: default engine and back
    end of each fluid, then the wrapper; the container has no wrappers yet *)
Definition default_engines (usable : string -> string -> value -> option pyerr) (c : container) : res container :=
  match dget "val" (c_attrs c), dget "engine" (c_attrs c), dget "back_end" (c_attrs c) with
  | Some (VDict v), Some (VDict e), Some (VDict b) =>
      rmap (fun eb => {| c_kind := c_kind c; c_attrs := dset "back_end" (VDict (snd eb)) (dset "engine" (VDict (fst eb)) (c_attrs c)) |})
        (fold_left (fun r f => rbind r (fun eb =>
           let e := if dmem f (fst eb) then fst eb else dset f (VEngine "CoolPropWrapper") (fst eb) in
           let b := if dmem f (snd eb) then snd eb else dset f VNone (snd eb) in
           match dget f e, dget f b with
           | Some (VEngine n), Some x => match usable n f x with None => Ok (e, b) | Some x => Err x end
           | _, _ => Err TypeError
           end)) (keys v) (Ok (e, b)))
  | _, _, _ => Err TypeError
  end.
(** network_reader.py 369-373: the fluid composition *)
Definition read_fluid (usable : string -> string -> value -> option pyerr) (engines : list string) (v : value) (c : container) : res container :=
  rbind (mapping v) (fun d => rbind (match dget "engine" d with Some e => map_dict (read_engine engines) e | None => Err KeyError end)
    (fun e => rbind (set_attrs (dset "engine" e d) c) (default_engines usable))).
(** a string taken from the data, network_reader.py 358-359, 380 *)
Definition str (k : string) (d : dict value) : res string :=
  match dget k d with Some (VStr s) => Ok s | Some _ => Err TypeError | None => Err KeyError end.
(** network_reader.py 346-350 *)
Definition arglist (first : dict value) : list string :=
  filter (fun k => negb (smem k ["source"; "source_id"; "target"; "target_id"; "label"; "fluid"]) && negb (has_ref k)) (keys first).
(** network_reader.py 351 *)
Definition arglist_ref (first : dict value) : list string := filter has_ref (keys first).
(** Connection(..), network_reader.py 357-361, connection.py 235-252, 282-310 *)
Definition make_ends (reg : dict class) (comps : dict (string * obj)) (d : dict value) : res (string * string * string * string) :=
  rbind (str "source" d) (fun s => rbind (str "source_id" d) (fun si => rbind (str "target" d) (fun t => rbind (str "target_id" d) (fun ti =>
  match dget s comps, dget t comps with
  | Some (ks, os), Some (kt, ot) =>
      match dget ks reg, dget kt reg with
      | Some a, Some b =>
          if String.eqb s t then Err TESPyConnectionError
          else if negb (smem si (connectors (k_out a) os)) then Err ValueError
          else if negb (smem ti (connectors (k_in b) ot)) then Err ValueError
          else Ok (s, si, t, ti)
      | _, _ => Err KeyError
      end
  | _, _ => Err KeyError
  end)))).
(** one pass of the first loop of _construct_connections, network_reader.py 357-373 *)
Definition construct_conn (usable : string -> string -> value -> option pyerr) (reg : dict class) (engines : list string) (comps : dict (string * obj)) (args : list string) (v : value) : res conn :=
  rbind (mapping v) (fun d => rbind (make_ends reg comps d) (fun ends =>
  rbind (fold_left (fun r k => rbind r (fun o => match dget k d with Some x => apply_arg read_data o k x | None => Err KeyError end)) args (Ok new_conn)) (fun o =>
  match dget "fluid" d, dget "fluid" (o_params o) with
  | Some f, Some c => rmap (fun c' =>
      let '(s, si, t, ti) := ends in
      {| n_source := s; n_sid := si; n_target := t; n_tid := ti;
         n_obj := {| o_attrs := o_attrs o; o_params := dset "fluid" c' (o_params o); o_listed := o_listed o |} |}) (read_fluid usable engines f c)
  | _, _ => Err KeyError
  end))).
(** network_reader.py 377-384 with connection.py 538-545, 1169-1189: a reference given to one
    connection *)
Definition read_ref (labels : list string) (k : string) (v : value) (c : conn) : res conn :=
  rbind (mapping v) (fun d =>
  match d with
  | [] => Ok c
  | _ =>
      rbind (str "conn" d) (fun l => if smem l labels then
      match dget "factor" d, dget "delta" d, dget k (o_params (n_obj c)) with
      | Some (VNum (Some f)), Some (VNum (Some x)), Some r =>
          rmap (fun r' => {| n_source := n_source c; n_sid := n_sid c; n_target := n_target c; n_tid := n_tid c;
            n_obj := {| o_attrs := o_attrs (n_obj c); o_params := dset k r' (o_params (n_obj c)); o_listed := o_listed (n_obj c) |} |})
            (set_attrs [("ref", VRef l f x); ("is_set", VBool true)] r)
      | Some _, Some _, Some _ => Err TypeError
      | Some _, Some _, None => Err NotImplementedError
      | _, _, _ => Err KeyError
      end else Err KeyError)
  end).
(** _construct_connections, network_reader.py 327-386 *)
Definition construct_connections (usable : string -> string -> value -> option pyerr) (reg : dict class) (engines : list string) (comps : dict (string * obj)) (data : dict value) : res (dict conn) :=
  match data with
  | [] => Err IndexError
  | (_, first) :: _ =>
      rbind (mapping first) (fun fd =>
      rbind (rmapM (fun e => rmap (fun c => (fst e, c)) (construct_conn usable reg engines comps (arglist fd) (snd e))) data) (fun cs =>
      rmapM (fun e => rbind (match dget (fst e) data with Some v => mapping v | None => Err KeyError end) (fun d =>
        rmap (fun c => (fst e, c)) (fold_left (fun r k => rbind r (fun c => match dget k d with Some v => read_ref (keys data) k v c | None => Err KeyError end))
          (arglist_ref fd) (Ok (snd e))))) cs))
  end.
(** A new bus, bus.py 180-195 *)
Definition new_bus : bus := {| b_P := simple (VNum None); b_rows := []; b_print := VBool true |}.
(** one component of a bus, network_reader.py 414-419 with bus.py 330-399 *)
Definition read_row (comps : dict (string * obj)) (l : string) (v : value) : res row :=
  rbind (mapping v) (fun d => match dget "char" d with
  | None => Err KeyError
  | Some ch => rbind (make_line ch) (fun line => if dmem l comps then
      match dget "param" d, dget "base" d with
      | Some p, Some b =>
          match p, b with
          | (VStr _ | VNone), VStr s =>
              if smem s ["bus"; "component"] then Ok {| w_param := p; w_Pref := VNum None; w_char := line; w_base := b |} else Err ValueError
          | (VStr _ | VNone), _ => Err ValueError
          | _, _ => Err TypeError
          end
      | _, _ => Err KeyError
      end else Err KeyError)
  end).
(** _construct_busses, network_reader.py 408-419 *)
Definition construct_bus (comps : dict (string * obj)) (v : value) : res bus :=
  rbind (mapping v) (fun d =>
  rbind (match dget "P" d with Some p => read_data (b_P new_bus) p | None => Err KeyError end) (fun P =>
  rmap (fun rows => {| b_P := P; b_rows := rows; b_print := b_print new_bus |})
    (rmapM (fun e => rmap (fun r => (fst e, r)) (read_row comps (fst e) (snd e))) (filter (fun e => negb (String.eqb (fst e) "P")) d)))).
(** the busses of the file, network_reader.py 238-250 *)
Definition load_busses (comps : dict (string * obj)) (f : option (dict value)) : res (dict bus) :=
  match f with
  | None => Ok []
  | Some data => rmapM (fun e => rmap (fun b => (fst e, b)) (construct_bus comps (snd e))) data
  end.
(** _add_comps for every connection, network.py 510-542: the components of the
    network are the ends of its connections *)
Definition add_comps (comps : dict (string * obj)) (cs : dict conn) : dict (string * obj) :=
  fold_left (fun t l => match dget l comps with Some c => if dmem l t then t else dset l c t | None => t end)
    (flat_map (fun e => [n_source (snd e); n_target (snd e)]) cs) [].
(** load_network, network_reader.py 176-264, up to the check of the network; a
    missing file raises FileNotFoundError, here KeyError *)
Definition load (usable : string -> string -> value -> option pyerr) (reg : dict class) (engines : list string) (d : dir) : res net :=
  rbind (load_comps reg (d_comps d)) (fun comps =>
  match d_net d, d_conns d with
  | Some kw, Some data =>
      rbind (load_net kw) (fun u => rbind (construct_connections usable reg engines comps data) (fun cs =>
      rmap (fun bs => {| t_units := u; t_comps := add_comps comps cs; t_conns := cs; t_busses := bs; t_udes := [] |}) (load_busses comps (d_busses d))))
  | _, _ => Err KeyError
  end).
(** Connection._fluid_specification for one fluid with a number, connection.py
    475-484: [is_set.add] *)
Definition specify_fluid (f : string) (x : Q) (o : obj) : res obj :=
  match dget "fluid" (o_params o) with
  | None => Err KeyError
  | Some c =>
      match dget "val" (c_attrs c), dget "is_set" (c_attrs c) with
      | Some (VDict v), Some (VSet s) =>
          Ok {| o_attrs := o_attrs o; o_listed := o_listed o; o_params := dset "fluid"
            {| c_kind := c_kind c; c_attrs := dset "is_set" (VSet (if smem f s then s else s ++ [f])) (dset "val" (VDict (dset f (VNum (Some x)) v)) (c_attrs c)) |} (o_params o) |}
      | Some (VDict _), Some _ => Err AttributeError
      | _, _ => Err TypeError
      end
  end.
