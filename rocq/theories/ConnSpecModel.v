(** Connection specifications.
    Models src/tespy/connections/connection.py 233-279 (defaults), 313-462
    (set_attr), 464-498 (_fluid_specification), 500-510 (_check_fluid_datatypes)
    and 512-551 (_parameter_specification). The state is what these methods read
    and write. *)
From Coq Require Export QArith Ascii.
From Verif Require Export Base.
Open Scope nat_scope.
Open Scope string_scope.

(** A Python number as far as specifications can tell: finite or nan.
    connection.py 513-551. *)
Inductive pnum := Fin (q : Q) | NaN.

(** Values a user can put into a dictionary argument. connection.py 466-498. *)
Inductive dval := DNone | DNum (n : pnum) | DStr (s : string).

(** Values a user can pass as keyword argument. [PRef] is a
    connections.connection.Ref object (1145-1195) on connection number [conn];
    [PObj] stands for any other object. *)
Inductive pv :=
| PNone
| PNum (n : pnum)
| PBool (b : bool)
| PStr (s : string)
| PList (l : list string)
| PDict (d : dict dval)
| PRef (conn : nat) (factor delta : Q)
| PObj.

(** tools/data_containers.py 484-500: the fields of FluidProperties that
    specifications use. *)
Record fprop := { fp_val : pv; fp_val0 : pv; fp_is_set : bool; fp_is_var : bool }.

(** tools/data_containers.py 520-532: ReferencedFluidProperties. *)
Record rprop := { rp_ref : option (nat * Q * Q); rp_is_set : bool }.

(** tools/data_containers.py 356-367: FluidComposition. *)
Record fcomp := {
  fl_val : dict dval; fl_val0 : dict dval;
  fl_is_set : list string; fl_is_var : list string;
  fl_engine : dict dval; fl_back_end : dict (option string)
}.

(** connection.py 249-273: the attributes of a connection written by set_attr. *)
Record conn := {
  c_prop : string -> fprop;
  c_ref : string -> rprop;
  c_fluid : fcomp;
  c_balance : bool;
  c_state : option string; c_state_set : bool;
  c_design : list string; c_offdesign : list string;
  c_design_path : pv; c_new_design : bool;
  c_printout : bool; c_local_design : bool; c_local_offdesign : bool;
  c_mixing : pv
}.

(** connection.py 673-711 (get_parameters): the keys of property_data, split by
    container type. *)
Definition value_props : list string := ["m"; "p"; "h"; "vol"; "s"; "T"; "v"; "x"; "Td_bp"].
(** The references among the properties, connection.py 674-710 *)
Definition ref_props : list string := ["m_ref"; "p_ref"; "h_ref"; "T_ref"; "v_ref"].
(** All names of properties, connection.py 674-710 and 235-280 *)
Definition property_data : list string :=
  ["m"; "p"; "h"; "vol"; "s"; "fluid"; "fluid_balance"; "T"; "v"; "x"; "Td_bp";
   "m_ref"; "p_ref"; "h_ref"; "T_ref"; "v_ref"].

(** connection.py 268: property_data0. *)
Definition property_data0 : list string := map (fun x => x ++ "0") property_data.

(** connection.py 249-279 with the container defaults. *)
Definition fprop_default (var : bool) : fprop :=
  {| fp_val := PNum NaN; fp_val0 := PNum NaN; fp_is_set := false; fp_is_var := var |}.
(** The connection after __init__, connection.py 235-280 *)
Definition conn_default : conn := {|
  c_prop := fun k => fprop_default (smem k ["m"; "p"; "h"]);
  c_ref := fun _ => {| rp_ref := None; rp_is_set := false |};
  c_fluid := {| fl_val := []; fl_val0 := []; fl_is_set := []; fl_is_var := [];
                fl_engine := []; fl_back_end := [] |};
  c_balance := false; c_state := None; c_state_set := false;
  c_design := []; c_offdesign := []; c_design_path := PNone; c_new_design := true;
  c_printout := true; c_local_design := false; c_local_offdesign := false;
  c_mixing := PNone |}.

(** Record updates (Python attribute assignment). connection.py 400-551. *)
Definition with_prop (c : conn) (f : string -> fprop) : conn :=
  {| c_prop := f; c_ref := c_ref c; c_fluid := c_fluid c; c_balance := c_balance c;
     c_state := c_state c; c_state_set := c_state_set c; c_design := c_design c;
     c_offdesign := c_offdesign c; c_design_path := c_design_path c;
     c_new_design := c_new_design c; c_printout := c_printout c;
     c_local_design := c_local_design c; c_local_offdesign := c_local_offdesign c;
     c_mixing := c_mixing c |}.
(** The same for references, connection.py 513-551 *)
Definition with_ref (c : conn) (f : string -> rprop) : conn :=
  {| c_prop := c_prop c; c_ref := f; c_fluid := c_fluid c; c_balance := c_balance c;
     c_state := c_state c; c_state_set := c_state_set c; c_design := c_design c;
     c_offdesign := c_offdesign c; c_design_path := c_design_path c;
     c_new_design := c_new_design c; c_printout := c_printout c;
     c_local_design := c_local_design c; c_local_offdesign := c_local_offdesign c;
     c_mixing := c_mixing c |}.
(** The same for the fluid and its balance, connection.py 466-498 *)
Definition with_fluid (c : conn) (f : fcomp) (b : bool) : conn :=
  {| c_prop := c_prop c; c_ref := c_ref c; c_fluid := f; c_balance := b;
     c_state := c_state c; c_state_set := c_state_set c; c_design := c_design c;
     c_offdesign := c_offdesign c; c_design_path := c_design_path c;
     c_new_design := c_new_design c; c_printout := c_printout c;
     c_local_design := c_local_design c; c_local_offdesign := c_local_offdesign c;
     c_mixing := c_mixing c |}.
(** The same for the state, connection.py 400-462 *)
Definition with_state (c : conn) (v : option string) (b : bool) : conn :=
  {| c_prop := c_prop c; c_ref := c_ref c; c_fluid := c_fluid c; c_balance := c_balance c;
     c_state := v; c_state_set := b; c_design := c_design c;
     c_offdesign := c_offdesign c; c_design_path := c_design_path c;
     c_new_design := c_new_design c; c_printout := c_printout c;
     c_local_design := c_local_design c; c_local_offdesign := c_local_offdesign c;
     c_mixing := c_mixing c |}.
(** The same for design, offdesign and design_path, connection.py 400-462 *)
Definition with_lists (c : conn) (d o : list string) (path : pv) (new : bool) : conn :=
  {| c_prop := c_prop c; c_ref := c_ref c; c_fluid := c_fluid c; c_balance := c_balance c;
     c_state := c_state c; c_state_set := c_state_set c; c_design := d;
     c_offdesign := o; c_design_path := path;
     c_new_design := new; c_printout := c_printout c;
     c_local_design := c_local_design c; c_local_offdesign := c_local_offdesign c;
     c_mixing := c_mixing c |}.
(** The same for the boolean attributes and the mixing rule, connection.py 400-462 *)
Definition with_flags (c : conn) (pr ld lo : bool) (mx : pv) : conn :=
  {| c_prop := c_prop c; c_ref := c_ref c; c_fluid := c_fluid c; c_balance := c_balance c;
     c_state := c_state c; c_state_set := c_state_set c; c_design := c_design c;
     c_offdesign := c_offdesign c; c_design_path := c_design_path c;
     c_new_design := c_new_design c; c_printout := pr;
     c_local_design := ld; c_local_offdesign := lo;
     c_mixing := mx |}.

(** connection.py 513-517: is `float(value)` possible? [parse] is Python's float
    on strings, an oracle. *)
Definition is_numeric (parse : string -> option pnum) (v : pv) : bool :=
  match v with
  | PNum _ | PBool _ => true
  | PStr s => match parse s with Some _ => true | None => false end
  | _ => false
  end.

(** The container updates of _parameter_specification. connection.py 513-551. *)
Definition unset_fp (f : fprop) (free : bool) : fprop :=
  {| fp_val := fp_val f; fp_val0 := fp_val0 f; fp_is_set := false;
     fp_is_var := if free then true else fp_is_var f |}.
(** A value is specified, connection.py 513-551 *)
Definition set_fp (f : fprop) (v : pv) (primary : bool) : fprop :=
  {| fp_val := v; fp_val0 := fp_val0 f; fp_is_set := true;
     fp_is_var := if primary then false else fp_is_var f |}.
(** A starting value is given, connection.py 513-551 *)
Definition start_fp (f : fprop) (v : pv) : fprop :=
  {| fp_val := fp_val f; fp_val0 := v; fp_is_set := fp_is_set f; fp_is_var := fp_is_var f |}.
(** A reference is unset, connection.py 513-551 *)
Definition unset_rp (r : rprop) : rprop := {| rp_ref := rp_ref r; rp_is_set := false |}.
(** A reference is given, connection.py 513-551 *)
Definition set_rp (x : nat * Q * Q) : rprop := {| rp_ref := Some x; rp_is_set := true |}.
(** is_set of a reference is raised, connection.py 513-551 *)
Definition flag_rp (r : rprop) : rprop := {| rp_ref := rp_ref r; rp_is_set := true |}.

(** key.replace('0', ''), connection.py 537. *)
Fixpoint strip0 (s : string) : string :=
  match s with
  | EmptyString => EmptyString
  | String c s' => if Ascii.eqb c "0"%char then strip0 s' else String c (strip0 s')
  end.

(** connection.py 512-551: _parameter_specification for a key of property_data or
    property_data0. A numeric value for one of the *_ref containers sets is_set
    and then raises KeyError, because they have no `val` (data_containers.py
    112-123). *)
Definition parameter_specification (parse : string -> option pnum) (key : string) (value : pv)
    (c : conn) : conn * option pyerr :=
  match value with
  | PNone =>
      if smem key value_props then
        let c1 := with_prop c (upd key (unset_fp (c_prop c key) (smem key ["m"; "p"; "h"])) (c_prop c)) in
        if smem (key ++ "_ref") ref_props
        then (with_ref c1 (upd (key ++ "_ref") (unset_rp (c_ref c (key ++ "_ref"))) (c_ref c)), None)
        else (c1, None)
      else if smem key ref_props then
        (with_ref c (upd key (unset_rp (c_ref c key)) (c_ref c)), None)
      else (c, Some KeyError)
  | _ =>
      if is_numeric parse value then
        if smem key property_data then
          if smem key value_props then
            (with_prop c (upd key (set_fp (c_prop c key) value (smem key ["m"; "p"; "h"])) (c_prop c)), None)
          else (with_ref c (upd key (flag_rp (c_ref c key)) (c_ref c)), Some KeyError)
        else
          let base := strip0 key in
          if smem base value_props then
            (with_prop c (upd base (start_fp (c_prop c base) value) (c_prop c)), None)
          else (c, Some KeyError)
      else
        match value with
        | PRef o f d =>
            if smem (key ++ "_ref") ref_props
            then (with_ref c (upd (key ++ "_ref") (set_rp (o, f, d)) (c_ref c)), None)
            else (c, Some NotImplementedError)
        | _ => (c, Some TypeError)
        end
  end.

(** connection.py 470-473: back_end, fluid = fluid.split("::"). *)
Definition split_back_end (s : string) : res (option string * string) :=
  match index 0 "::" s with
  | None => Ok (None, s)
  | Some i =>
      let rest := substring (i + 2) (String.length s) s in
      match index 0 "::" rest with
      | None => Ok (Some (substring 0 i s), rest)
      | Some _ => Err ValueError
      end
  end.

(** connection.py 468-484: one entry of the `fluid` dictionary. *)
Definition fluid_entry (fluid : string) (back_end : option string) (fraction : dval) (f : fcomp) : fcomp :=
  match fraction with
  | DNone =>
      {| fl_val := fl_val f; fl_val0 := fl_val0 f;
         fl_is_set := srem fluid (fl_is_set f); fl_is_var := sadd fluid (fl_is_var f);
         fl_engine := fl_engine f; fl_back_end := fl_back_end f |}
  | _ =>
      {| fl_val := dset fluid fraction (fl_val f); fl_val0 := fl_val0 f;
         fl_is_set := sadd fluid (fl_is_set f); fl_is_var := srem fluid (fl_is_var f);
         fl_engine := fl_engine f; fl_back_end := dset fluid back_end (fl_back_end f) |}
  end.

(** The loop over the fluid dictionary, connection.py 466-498 *)
Fixpoint fluid_entries (d : dict dval) (f : fcomp) : fcomp * option pyerr :=
  match d with
  | [] => (f, None)
  | (name, fraction) :: d' =>
      match split_back_end name with
      | Err e => (f, Some e)
      | Ok (be, fluid) => fluid_entries d' (fluid_entry fluid be fraction f)
      end
  end.

(** dict.update. As in connection.py 466-498. *)
Definition dupdate {V : Type} (d new : dict V) : dict V :=
  fold_left (fun acc kv => dset (fst kv) (snd kv) acc) new d.

(** connection.py 464-510: _fluid_specification with _check_fluid_datatypes. *)
Definition fluid_specification (key : string) (value : pv) (c : conn) : conn * option pyerr :=
  let f := c_fluid c in
  if String.eqb key "fluid_balance" then
    match value with
    | PBool b => (with_fluid c f b, None)
    | _ => (c, Some TypeError)
    end
  else
    match value with
    | PDict d =>
        if String.eqb key "fluid" then
          let '(f', e) := fluid_entries d f in (with_fluid c f' (c_balance c), e)
        else if String.eqb key "fluid0" then
          (with_fluid c {| fl_val := fl_val f; fl_val0 := dupdate (fl_val0 f) d;
                           fl_is_set := fl_is_set f; fl_is_var := fl_is_var f;
                           fl_engine := fl_engine f; fl_back_end := fl_back_end f |} (c_balance c), None)
        else if String.eqb key "fluid_engines" then
          (with_fluid c {| fl_val := fl_val f; fl_val0 := fl_val0 f;
                           fl_is_set := fl_is_set f; fl_is_var := fl_is_var f;
                           fl_engine := d; fl_back_end := fl_back_end f |} (c_balance c), None)
        else (c, Some KeyError)
    | _ => (c, Some TypeError)
    end.

(** 'fluid' in key, connection.py 405. *)
Definition contains (needle s : string) : bool :=
  match index 0 needle s with Some _ => true | None => false end.

(** connection.py 399-462: one keyword argument of set_attr. *)
Definition set_one (parse : string -> option pnum) (key : string) (value : pv) (c : conn)
  : conn * option pyerr :=
  if String.eqb key "label" then (c, Some TESPyConnectionError)
  else if contains "fluid" key then fluid_specification key value c
  else if smem key property_data || smem key property_data0 then
    parameter_specification parse key value c
  else if String.eqb key "state" then
    match value with
    | PStr "l" => (with_state c (Some "l") true, None)
    | PStr "g" => (with_state c (Some "g") true, None)
    | PNone => (with_state c (c_state c) false, None)
    | _ => (c, Some TypeError)
    end
  else if smem key ["design"; "offdesign"] then
    match value with
    | PList l =>
        if forallb (fun x => smem x property_data) l then
          (if String.eqb key "design"
           then with_lists c l (c_offdesign c) (c_design_path c) (c_new_design c)
           else with_lists c (c_design c) l (c_design_path c) (c_new_design c), None)
        else (c, Some ValueError)
    | _ => (c, Some TypeError)
    end
  else if String.eqb key "design_path" then
    (with_lists c (c_design c) (c_offdesign c) value true, None)
  else if smem key ["printout"; "local_design"; "local_offdesign"] then
    match value with
    | PBool b =>
        (if String.eqb key "printout"
         then with_flags c b (c_local_design c) (c_local_offdesign c) (c_mixing c)
         else if String.eqb key "local_design"
         then with_flags c (c_printout c) b (c_local_offdesign c) (c_mixing c)
         else with_flags c (c_printout c) (c_local_design c) b (c_mixing c), None)
    | _ => (c, Some TypeError)
    end
  else if String.eqb key "mixing_rule" then
    (with_flags c (c_printout c) (c_local_design c) (c_local_offdesign c) value, None)
  else (c, Some KeyError).

(** connection.py 397-462: set_attr processes the keywords in the order given and
    stops at the first exception, keeping what was done before. *)
Fixpoint set_attr (parse : string -> option pnum) (kw : list (string * pv)) (c : conn)
  : conn * option pyerr :=
  match kw with
  | [] => (c, None)
  | (k, v) :: kw' =>
      match set_one parse k v c with
      | (c', Some e) => (c', Some e)
      | (c', None) => set_attr parse kw' c'
      end
  end.

(** A history of set_attr calls; a call that raises is caught by the user.
    connection.py 400-462. *)
Definition set_attr_history (parse : string -> option pnum) (calls : list (list (string * pv))) (c : conn)
  : conn := fold_left (fun c kw => fst (set_attr parse kw c)) calls c.
