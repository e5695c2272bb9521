(** What a user sees of a connection's specifications. *)
From Verif Require Import ConnSpecModel.
Open Scope string_scope.

(** The value specification in force for a property, if any. *)
Definition value_spec (c : conn) (p : string) : option pv :=
  if fp_is_set (c_prop c p) then Some (fp_val (c_prop c p)) else None.

(** The reference in force for a property, if any. *)
Definition ref_spec (c : conn) (p : string) : option (nat * Q * Q) :=
  if rp_is_set (c_ref c (p ++ "_ref")) then rp_ref (c_ref c (p ++ "_ref")) else None.

(** The starting value of a property. *)
Definition start_value (c : conn) (p : string) : pv := fp_val0 (c_prop c p).

(** Properties that can be set to a value, and those that can be referenced. *)
Definition settable (p : string) : Prop := In p ["m"; "p"; "h"; "vol"; "s"; "T"; "v"; "x"; "Td_bp"].
Definition referable (p : string) : Prop := In p ["m"; "p"; "h"; "T"; "v"].

(** Which value a list of values given one after the other leaves in force:
    numbers replace, None withdraws, a reference does not touch the value. *)
Definition value_after (given : list pv) (start : option pv) : option pv :=
  fold_left (fun acc v => match v with PNone => None | PRef _ _ _ => acc | _ => Some v end) given start.

Definition ref_after (given : list pv) (start : option (nat * Q * Q)) : option (nat * Q * Q) :=
  fold_left (fun acc v => match v with
                          | PNone => None
                          | PRef o f d => Some (o, f, d)
                          | _ => acc end) given start.

(** The values a sequence of calls gives for keyword [k]. *)
Definition given_for (k : string) (calls : list (dict pv)) : list pv :=
  flat_map (fun kw => match dget k kw with Some v => [v] | None => [] end) calls.

(** All calls of the sequence return normally. *)
Fixpoint all_succeed (parse : string -> option pnum) (calls : list (dict pv)) (c : conn) : Prop :=
  match calls with
  | [] => True
  | kw :: calls' =>
      snd (set_attr parse kw c) = None /\ all_succeed parse calls' (fst (set_attr parse kw c))
  end.

(** Fluid specifications: the entries given for a fluid, in order, as (back end,
    fraction); names may carry a back end prefix. *)
Definition entries_for (fluid : string) (d : dict dval) : list (option string * dval) :=
  flat_map (fun nv => match split_back_end (fst nv) with
                      | Ok (be, f) => if String.eqb f fluid then [(be, snd nv)] else []
                      | Err _ => [] end) d.

(** Is a fluid fixed after these entries? *)
Definition fixed_after (l : list (option string * dval)) (start : bool) : bool :=
  fold_left (fun _ e => match snd e with DNone => false | _ => true end) l start.

(** Which fraction and back end the last entry with a fraction left. *)
Definition fraction_after (l : list (option string * dval)) (start : option dval) : option dval :=
  fold_left (fun acc e => match snd e with DNone => acc | v => Some v end) l start.
Definition back_end_after (l : list (option string * dval)) (start : option (option string))
  : option (option string) :=
  fold_left (fun acc e => match snd e with DNone => acc | _ => Some (fst e) end) l start.

(** The fluid state in force. *)
Definition state_spec (c : conn) : option string := if c_state_set c then c_state c else None.

(** The entries a sequence of calls gives through the keyword `fluid`. *)
Definition given_entries (fluid : string) (calls : list (dict pv)) : list (option string * dval) :=
  flat_map (fun kw => match dget "fluid" kw with Some (PDict d) => entries_for fluid d | _ => [] end) calls.

(** Fluid bookkeeping is consistent: no fluid is both fixed and variable, and
    every fixed fluid has a fraction and a recorded back end. *)
Definition fluid_ok (f : fcomp) : Prop :=
  (forall x, In x (fl_is_set f) -> ~ In x (fl_is_var f)) /\
  (forall x, In x (fl_is_set f) -> dget x (fl_val f) <> None /\ dget x (fl_val f) <> Some DNone) /\
  (forall x, In x (fl_is_set f) -> dget x (fl_back_end f) <> None).
