(** The tables of results and specifications of components over the life of a network,
    and the report written from them.
    Source: /repo/src/tespy/networks/network.py 384-403, 510-567, 782-810, 1362-1368,
    1638-1643, 2490-2501, components/component.py 343-411, tools/document_models.py 540-546,
    627-736.
    Values of parameters are CellModel.v, columns and marks of the report DocModel.v; here only
    which components and characteristics the tables and the report contain. *)
From Verif Require Import Base.
Open Scope string_scope.
Open Scope list_scope.

(** A class of components: its parameters that take numbers, groups with their elements,
    characteristics with an equation of their own and the other characteristics.
    network.py 794-801, component.py 353-411 *)
Record cls := { q_params : list string; q_groups : dict (list string); q_chars : list string; q_lines : list string }.
(** A component: class and what is specified after its preparation. component.py 359-411 *)
Record comp := { o_class : string; o_set : string -> bool; o_var : string -> bool }.
(** Rows of a table: label and flags by column; a column that is missing is nan. network.py
    1366-1368 *)
Definition rows := dict (dict bool).
(** The four tables of a class. network.py 802-810 *)
Record tabs := { t_groups : rows; t_chars : rows; t_vars : rows; t_props : rows }.
(** A network: components, labels in the results of each class, specifications of each class.
    network.py 181-202 *)
Record net := { n_comps : dict comp; n_res : dict (list string); n_spec : dict tabs }.
(** Network.set_defaults, network.py 181-202 *)
Definition empty_net : net := {| n_comps := []; n_res := []; n_spec := [] |}.

Section Classes.
(** The classes by name. *)
Variable Q : string -> cls.

(** Flags of a component by column, as collected by Component.preprocess. component.py 359-411:
    characteristics without equation have none *)
Definition flags (cols : list string) (f : string -> bool) : dict bool := map (fun c => (c, f c)) cols.
(** [.loc[cp.label] = ...] if there is any column, network.py 1365-1368 *)
Definition put (l : string) (r : dict bool) (t : rows) : rows := match r with [] => t | _ => dset l r t end.
(** The rows of one component in the tables of its class, network.py 1365-1368, 1641-1643 *)
Definition put_all (l : string) (c : comp) (t : tabs) : tabs :=
  let q := Q (o_class c) in
  {| t_groups := put l (flags (keys (q_groups q)) (o_set c)) (t_groups t);
     t_chars := put l (flags (q_chars q) (o_set c)) (t_chars t);
     t_vars := put l (flags (q_params q) (o_var c)) (t_vars t);
     t_props := put l (flags (q_params q) (o_set c)) (t_props t) |}.
(** Empty tables, network.py 805-810 *)
Definition no_tabs : tabs := {| t_groups := []; t_chars := []; t_vars := []; t_props := [] |}.
(** Tables of a class are created once, network.py 782-810 *)
Definition init_comp (c : comp) (n : net) : net :=
  {| n_comps := n_comps n;
     n_res := if dmem (o_class c) (n_res n) then n_res n else dset (o_class c) [] (n_res n);
     n_spec := if dmem (o_class c) (n_spec n) then n_spec n else dset (o_class c) no_tabs (n_spec n) |}.
(** Specifications are written when a calculation is prepared, network.py 1362-1368,
    1638-1643 *)
Definition spec_comp (lc : string * comp) (n : net) : net :=
  match dget (o_class (snd lc)) (n_spec n) with
  | Some t => {| n_comps := n_comps n; n_res := n_res n; n_spec := dset (o_class (snd lc)) (put_all (fst lc) (snd lc) t) (n_spec n) |}
  | None => n
  end.
(** A new row at the end, or the values of an old one are replaced; pandas .loc *)
Definition row_in (l : string) (ls : list string) : list string := if smem l ls then ls else ls ++ [l].
(** Results are written parameter by parameter, network.py 2490-2501 *)
Definition res_comp (lc : string * comp) (n : net) : net :=
  match dget (o_class (snd lc)) (n_res n) with
  | Some ls => {| n_comps := n_comps n;
      n_res := match q_params (Q (o_class (snd lc))) with [] => n_res n | _ => dset (o_class (snd lc)) (row_in (fst lc) ls) (n_res n) end;
      n_spec := n_spec n |}
  | None => n
  end.
(** A loop over the components, network.py 769, 1305, 2490 *)
Definition over {A : Type} (f : A -> net -> net) (l : list A) (n : net) : net := fold_left (fun n x => f x n) l n.
(** Network.solve as far as the tables are concerned: tables, specifications, and results unless
    the Jacobian is singular or there is no progress (network.py 1965-2008). *)
Definition calculate (complete : bool) (n : net) : net :=
  let n := over init_comp (map snd (n_comps n)) n in
  let n := over spec_comp (n_comps n) n in
  if complete then over res_comp (n_comps n) n else n.

(** What a user does. Connections are those of TopoModel.v: here components enter and leave. *)
Inductive op := Add (l : string) (c : comp) | Remove (l : string) | Change (l : string) (set var : string -> bool) | Solve (complete : bool).
(** _add_comps, network.py 523-542; _del_comps, network.py 557-567: the row of the results is
    dropped, those of the specifications stay; set_attr of a component *)
Definition run (o : op) (n : net) : net :=
  match o with
  | Add l c => if dmem l (n_comps n) then n else {| n_comps := dset l c (n_comps n); n_res := n_res n; n_spec := n_spec n |}
  | Remove l =>
      match dget l (n_comps n) with
      | None => n
      | Some c =>
          {| n_comps := ddel l (n_comps n);
             n_res := match dget (o_class c) (n_res n) with
                      | Some ls => dset (o_class c) (filter (fun x => negb (String.eqb x l)) ls) (n_res n)
                      | None => n_res n end;
             n_spec := n_spec n |}
      end
  | Change l set var =>
      match dget l (n_comps n) with
      | None => n
      | Some c => {| n_comps := dset l {| o_class := o_class c; o_set := set; o_var := var |} (n_comps n); n_res := n_res n; n_spec := n_spec n |}
      end
  | Solve complete => calculate complete n
  end.
(** A session. network.py 405-467, 1965-2012 *)
Definition session (os : list op) : net := fold_left (fun n o => run o n) os empty_net.

(* --------------------------------------------------------------- report *)

(** Columns with a specification in some row, document_models.py 660-661: [specs[specs]] has
    True or nan, columns of nan only are dropped *)
Definition in_force (cols : list string) (t : rows) : list string :=
  filter (fun c => existsb (fun r => match dget c (snd r) with Some b => b | None => false end) t) cols.
(** [nw.get_comp(row).get_attr]: None has no such attribute, network.py 399-403 *)
Definition comp_at (l : string) (n : net) : res comp := match dget l (n_comps n) with Some c => Ok c | None => Err AttributeError end.
(** document_models.py 669-675: nan counts as true, so every row gets its figure *)
Definition char_figures (n : net) (cols : list string) (t : rows) : res (list (string * string)) :=
  rmap (@concat _) (rmapM (fun c => rmapM (fun r => rmap (fun _ => (fst r, c)) (comp_at (fst r) n)) t) cols).
(** document_models.py 679-692: the same for the elements of groups; elements without line or map
    give no figure (document_models.py 1151-1154) *)
Definition group_figures (n : net) (q : cls) (cols : list string) (t : rows) : res (list (string * string)) :=
  rmap (@concat _) (rmapM (fun g => rmap (@concat _) (rmapM (fun r => rmap (fun _ =>
    map (fun e => (fst r, e)) (filter (fun e => smem e (q_lines q) || smem e (q_chars q)) (match dget g (q_groups q) with Some es => es | None => [] end)))
    (comp_at (fst r) n)) t)) cols).
(** The labels of several tables side by side, pandas.concat in document_models.py 667 *)
Definition union (a b : list string) : list string := a ++ filter (fun x => negb (smem x a)) b.
(** The last element of the last loop that ran: the name [row] in document_models.py 648-710 *)
Definition last_row (loops : list (list string)) : option string := fold_left (fun r l => match rev l with [] => r | x :: _ => Some x end) loops None.
(** document_models.py 702-706: the headers of specified columns ask the component of that row *)
Definition headers (n : net) (last : option string) (cols : list string) : res unit :=
  match cols with
  | [] => Ok tt
  | _ => match last with None => Err UnboundLocalError | Some l => rmap (fun _ => tt) (comp_at l n) end
  end.
(** get_component_specifications, document_models.py 630-736: labels in the table of parameters
    and figures of characteristics (label and name); the figures are printed if an equation is
    (733-736) *)
Definition report_class (n : net) (k : string) : res (list string * list (string * string)) :=
  match dget k (n_res n), dget k (n_spec n) with
  | Some res, Some t =>
      let q := Q k in
      let gs := in_force (keys (q_groups q)) (t_groups t) in
      let cs := in_force (q_chars q) (t_chars t) in
      rbind (char_figures n cs (t_chars t)) (fun f1 =>
      rbind (group_figures n q gs (t_groups t)) (fun f2 =>
      let elements := flat_map (fun g => match dget g (q_groups q) with Some es => es | None => [] end) gs in
      let labels := union (union res (keys (t_groups t))) (keys (t_chars t)) in
      match labels with
      | [] => Ok ([], [])
      | _ =>
          let specified := in_force (q_params q) (t_props t) ++ in_force (q_params q) (t_vars t) ++ gs ++ cs in
          let last := last_row [match q_params q with [] => [] | _ => res end; match cs with [] => [] | _ => keys (t_chars t) end;
                                match gs with [] => [] | _ => keys (t_groups t) end] in
          rmap (fun _ => (labels, f1 ++ f2)) (headers n last (filter (fun c => negb (smem c elements)) specified))
      end))
  | _, _ => Err KeyError
  end.
(** Classes of the components, [unique], document_models.py 541 *)
Fixpoint unique (l : list string) : list string :=
  match l with [] => [] | x :: l' => x :: filter (fun y => negb (String.eqb y x)) (unique l') end.
(** document_components, document_models.py 540-546 *)
Definition report (n : net) : res (list (string * (list string * list (string * string)))) :=
  rmapM (fun k => rmap (fun r => (k, r)) (report_class n k)) (unique (map (fun c => o_class (snd c)) (n_comps n))).
End Classes.
