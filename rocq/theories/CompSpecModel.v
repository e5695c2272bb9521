(** Component specifications.
    Models src/tespy/components/component.py 138-265 (set_attr) and the counting
    part of 329-427 (preprocess), with src/tespy/tools/data_containers.py
    101-123 (DataContainer.set_attr). The values a user passes are those of
    ConnSpecModel plus characteristics. *)
From Verif Require Export ConnSpecModel.
Open Scope nat_scope.
Open Scope string_scope.

(** The data container classes of component parameters (data_containers.py
    166-313, 374-442, 543-581) with the element list of groups. *)
Inductive pkind :=
| KCp                          (* ComponentProperties *)
| KSimple                      (* SimpleDataContainer *)
| KCc                          (* ComponentCharacteristics *)
| KCm                          (* ComponentCharacteristicMaps *)
| KGcp (elements : list string)  (* GroupedComponentProperties *)
| KGcc (elements : list string). (* GroupedComponentCharacteristics *)

(** The fields used by set_attr and preprocess. [q_char] is the identity of the
    characteristic object, [q_func] tells whether an equation is attached,
    [q_extra] holds the remaining fields (d, min_val, max_val, param, ...).
    data_containers.py 241-245, 354-364, 405-409. *)
Record param := {
  q_kind : pkind; q_val : pv; q_is_set : bool; q_is_var : bool;
  q_char : option nat; q_func : bool; q_num_eq : nat; q_extra : dict pv
}.

(** Field assignments inside a dictionary argument. is_set and is_var are
    booleans (other truth values are not modelled). component.py 164-265. *)
Inductive field := FIsSet (b : bool) | FIsVar (b : bool) | FVal (v : pv) | FChar (id : nat)
                 | FOther (name : string) (v : pv).

(** What a user can pass for a component keyword. component.py 164-265. *)
Inductive carg := CV (v : pv) | CDict (d : list field) | CChar (id : nat).

(** data_containers.py 195-200, 241-245, 300-306, 405-409, 439-442, 567-577: which
    attributes exist. *)
Definition field_allowed (k : pkind) (f : field) : bool :=
  match f with
  | FIsSet _ => true
  | FIsVar _ => match k with KCp => true | _ => false end
  | FVal _ => match k with KCp | KSimple => true | _ => false end
  | FChar _ => match k with KCc | KCm => true | _ => false end
  | FOther n _ =>
      smem n (match k with
              | KCp => ["val_SI"; "d"; "min_val"; "max_val"; "design"; "is_result"; "num_eq";
                        "func_params"; "func"; "deriv"; "latex"]
              | KSimple => ["func_params"; "func"; "deriv"; "latex"; "num_eq"; "_solved"]
              | KCc => ["param"; "func_params"; "func"; "deriv"; "latex"; "char_params"; "num_eq"]
              | KCm => ["param"; "func_params"; "func"; "deriv"; "latex"; "num_eq"]
              | KGcp _ | KGcc _ => ["elements"; "func_params"; "func"; "deriv"; "latex"; "num_eq"]
              end)
  end.

(** One attribute assignment. Overwriting func, num_eq or elements through a
    dictionary is not tracked (they go to [q_extra]).
    DataContainer.set_attr, data_containers.py 111-123. *)
Definition put_field (f : field) (q : param) : param :=
  match f with
  | FIsSet b => {| q_kind := q_kind q; q_val := q_val q; q_is_set := b; q_is_var := q_is_var q;
                   q_char := q_char q; q_func := q_func q; q_num_eq := q_num_eq q; q_extra := q_extra q |}
  | FIsVar b => {| q_kind := q_kind q; q_val := q_val q; q_is_set := q_is_set q; q_is_var := b;
                   q_char := q_char q; q_func := q_func q; q_num_eq := q_num_eq q; q_extra := q_extra q |}
  | FVal v => {| q_kind := q_kind q; q_val := v; q_is_set := q_is_set q; q_is_var := q_is_var q;
                 q_char := q_char q; q_func := q_func q; q_num_eq := q_num_eq q; q_extra := q_extra q |}
  | FChar i => {| q_kind := q_kind q; q_val := q_val q; q_is_set := q_is_set q; q_is_var := q_is_var q;
                  q_char := Some i; q_func := q_func q; q_num_eq := q_num_eq q; q_extra := q_extra q |}
  | FOther n v => {| q_kind := q_kind q; q_val := q_val q; q_is_set := q_is_set q; q_is_var := q_is_var q;
                     q_char := q_char q; q_func := q_func q; q_num_eq := q_num_eq q;
                     q_extra := dset n v (q_extra q) |}
  end.

(** data_containers.py 101-123: DataContainer.set_attr. *)
Fixpoint dc_set_attr (fs : list field) (q : param) : param * option pyerr :=
  match fs with
  | [] => (q, None)
  | f :: fs' => if field_allowed (q_kind q) f then dc_set_attr fs' (put_field f q)
                else (q, Some KeyError)
  end.

(** component.py 165-212: one keyword naming a parameter. *)
Definition set_param (parse : string -> option pnum) (v : carg) (q : param) : param * option pyerr :=
  match v with
  | CV PNone =>
      (* 167-173: is_set=False, then is_var=False with KeyError ignored *)
      let '(q1, e1) := dc_set_attr [FIsSet false] q in
      match e1 with Some _ => (q1, e1) | None => (fst (dc_set_attr [FIsVar false] q1), None) end
  | _ =>
      match v, q_kind q with
      | CDict d, KSimple => (* a dictionary becomes the value of a simple container *)
          dc_set_attr [FVal PObj; FIsSet true] q
      | CDict d, _ => dc_set_attr d q
      | CV w, KCp =>
          if is_numeric parse w then dc_set_attr [FVal w; FIsSet true; FIsVar false] q
          else match w with
               | PStr "var" => dc_set_attr [FIsSet true; FIsVar true] q
               | _ => (q, Some TypeError)
               end
      | CV w, KSimple => dc_set_attr [FVal w; FIsSet true] q
      | CChar i, KCp => (q, Some TypeError)
      | CChar i, KSimple => dc_set_attr [FVal PObj; FIsSet true] q
      | CChar i, (KCc | KCm) => (put_field (FChar i) q, None)
      | _, (KCc | KCm) => (q, Some TypeError)
      | _, (KGcp _ | KGcc _) => (q, None)   (* no branch of the code applies *)
      end
  end.

(** component.py 118-136: the attributes of a component written by set_attr. *)
Record comp := {
  k_params : dict param;
  k_design : list string; k_offdesign : list string;
  k_local_design : bool; k_local_offdesign : bool; k_printout : bool; k_char_warnings : bool;
  k_design_path : carg; k_fkt_group : carg; k_new_design : bool
}.

(** Attribute assignment. component.py 164-265. *)
Definition k_with_params (c : comp) (d : dict param) : comp :=
  {| k_params := d; k_design := k_design c; k_offdesign := k_offdesign c;
     k_local_design := k_local_design c; k_local_offdesign := k_local_offdesign c;
     k_printout := k_printout c; k_char_warnings := k_char_warnings c;
     k_design_path := k_design_path c; k_fkt_group := k_fkt_group c; k_new_design := k_new_design c |}.
(** Assignment of design and offdesign, component.py 164-265 *)
Definition k_with_lists (c : comp) (d o : list string) : comp :=
  {| k_params := k_params c; k_design := d; k_offdesign := o;
     k_local_design := k_local_design c; k_local_offdesign := k_local_offdesign c;
     k_printout := k_printout c; k_char_warnings := k_char_warnings c;
     k_design_path := k_design_path c; k_fkt_group := k_fkt_group c; k_new_design := k_new_design c |}.
(** Assignment of the boolean attributes, component.py 164-265 *)
Definition k_with_flags (c : comp) (ld lo pr cw : bool) : comp :=
  {| k_params := k_params c; k_design := k_design c; k_offdesign := k_offdesign c;
     k_local_design := ld; k_local_offdesign := lo; k_printout := pr; k_char_warnings := cw;
     k_design_path := k_design_path c; k_fkt_group := k_fkt_group c; k_new_design := k_new_design c |}.
(** Assignment of design_path and fkt_group, component.py 164-265 *)
Definition k_with_path (c : comp) (p f : carg) : comp :=
  {| k_params := k_params c; k_design := k_design c; k_offdesign := k_offdesign c;
     k_local_design := k_local_design c; k_local_offdesign := k_local_offdesign c;
     k_printout := k_printout c; k_char_warnings := k_char_warnings c;
     k_design_path := p; k_fkt_group := f; k_new_design := true |}.

(** component.py 163-265: one keyword. *)
Definition cset_one (parse : string -> option pnum) (key : string) (v : carg) (c : comp)
  : comp * option pyerr :=
  match dget key (k_params c) with
  | Some q => let '(q', e) := set_param parse v q in (k_with_params c (dset key q' (k_params c)), e)
  | None =>
      if smem key ["design"; "offdesign"] then
        match v with
        | CV (PList l) =>
            if forallb (fun x => smem x (keys (k_params c))) l
            then (if String.eqb key "design" then k_with_lists c l (k_offdesign c)
                  else k_with_lists c (k_design c) l, None)
            else (c, Some ValueError)
        | _ => (c, Some TypeError)
        end
      else if smem key ["local_design"; "local_offdesign"; "printout"; "char_warnings"] then
        match v with
        | CV (PBool b) =>
            (if String.eqb key "local_design"
             then k_with_flags c b (k_local_offdesign c) (k_printout c) (k_char_warnings c)
             else if String.eqb key "local_offdesign"
             then k_with_flags c (k_local_design c) b (k_printout c) (k_char_warnings c)
             else if String.eqb key "printout"
             then k_with_flags c (k_local_design c) (k_local_offdesign c) b (k_char_warnings c)
             else k_with_flags c (k_local_design c) (k_local_offdesign c) (k_printout c) b, None)
        | _ => (c, Some TypeError)
        end
      else if String.eqb key "design_path" then (k_with_path c v (k_fkt_group c), None)
      else if String.eqb key "fkt_group" then (k_with_path c (k_design_path c) v, None)
      else (c, Some KeyError)
  end.

(** component.py 138-265: set_attr. *)
Fixpoint cset_attr (parse : string -> option pnum) (kw : list (string * carg)) (c : comp)
  : comp * option pyerr :=
  match kw with
  | [] => (c, None)
  | (k, v) :: kw' =>
      match cset_one parse k v c with
      | (c', Some e) => (c', Some e)
      | (c', None) => cset_attr parse kw' c'
      end
  end.

(** A history of set_attr calls (component.py 164-265); a call that raises is caught by the user *)
Definition cset_attr_history (parse : string -> option pnum) (calls : list (list (string * carg))) (c : comp)
  : comp := fold_left (fun c kw => fst (cset_attr parse kw c)) calls c.

(** component.py 382-402: the flag of a property group. [self.get_attr(e)] raises
    KeyError for an element that is no parameter. *)
Fixpoint all_set (es : list string) (ps : dict param) : res bool :=
  match es with
  | [] => Ok true
  | e :: es' =>
      match dget e ps with
      | None => Err KeyError
      | Some q => rbind (all_set es' ps) (fun b => Ok (q_is_set q && b)%bool)
      end
  end.

(** component.py 349-412: the loop over the parameters, updating the group flags
    and adding up the number of equations. [ps] is the parameter dictionary being
    updated, [todo] the entries still to visit. *)
Fixpoint preprocess_params (todo : list string) (ps : dict param) (num_eq : nat) : res (dict param * nat) :=
  match todo with
  | [] => Ok (ps, num_eq)
  | key :: todo' =>
      match dget key ps with
      | None => Err KeyError
      | Some q =>
          rbind (match q_kind q with
                 | KGcp es => rbind (all_set es ps) (fun b => Ok (put_field (FIsSet b) q))
                 | _ => Ok q
                 end) (fun q' =>
          preprocess_params todo' (dset key q' ps)
            (if q_is_set q' && q_func q' then num_eq + q_num_eq q' else num_eq))
      end
  end.

(** component.py 329-412: equations of the mandatory constraints first. *)
Definition preprocess (mandatory : nat) (c : comp) : res (comp * nat) :=
  rmap (fun '(ps, n) => (k_with_params c ps, n))
       (preprocess_params (keys (k_params c)) (k_params c) mandatory).

(** component.py 351-356: component variables get consecutive columns after the
    network's variables, in parameter order. *)
Definition component_columns (first : nat) (c : comp) : list (string * nat) :=
  let vs := filter (fun kq => match q_kind (snd kq) with KCp => q_is_var (snd kq) | _ => false end) (k_params c) in
  combine (map fst vs) (seq first (length vs)).
