(** Design and offdesign mode: specification flags, design values and the
    decisions of [solve] about reading the design point.
    Source: /repo/src/tespy/networks/network.py 836-905, 970-1018, 1117-1177,
    1227-1500, 1564-1659, 1903-1965, 2468-2500; components/component.py 786-809.
    The file system is a function from paths to contents; every path exists.
    Tables of connections hold SI values, with the volume per mass flow among
    them (network.py 1512-1519); tables of components are one per path instead of
    one per path and class.  Fluid compositions, busses and equations are left out.
    The solver is an oracle that returns a value for everything not specified. *)
From Coq Require Import QArith.
From Verif Require Import Base.
Open Scope string_scope.
Open Scope list_scope.

(** A FluidProperties container, data_containers.py 423-505; nan is None *)
Record cont := { k_set : bool; k_var : bool; k_val : option Q; k_SI : option Q; k_design : option Q }.
(** A connection, connection.py 254-276: containers other than the mass flow by
    name, the flags of references and of the fluid balance, the owner of the mass
    flow container in use and the one kept in [_m_tmp] (network.py 994-1000),
    parameter lists, path, local flags, [new_design] *)
Record conn := {
  n_props : dict cont; n_flags : dict bool; n_m : string; n_tmp : option string;
  n_des : list string; n_off : list string; n_path : option string;
  n_ldes : bool; n_loff : bool; n_new : bool }.
(** A component parameter; [q_num] tells ComponentProperties from the other
    containers (component.py 803) *)
Record par := { q_set : bool; q_num : bool; q_val : option Q; q_design : option Q }.
(** A component, component.py 121-131 *)
Record comp := {
  p_pars : dict par; p_des : list string; p_off : list string; p_path : option string;
  p_ldes : bool; p_loff : bool; p_new : bool }.
(** The network: connections, mass flow containers by the connection that created
    them, components, mass flow branches, [redesign] (network.py 205, 884),
    [design_path], [new_design] (1904-1921) *)
Record net := {
  t_conns : dict conn; t_m : dict cont; t_comps : dict comp; t_branches : list (list string);
  t_redesign : bool; t_path : option string; t_new : bool }.
(** The tables of a path: connections.csv and components/*.csv, network.py 1404,
    1845 *)
Record file := { f_conns : dict (dict (option Q)); f_comps : dict (dict (option Q)) }.
(** Unit conversion of connection properties, helpers.py 25-98 (modelled in
    UnitsModel) *)
Record units := { u_si : string -> Q -> Q; u_un : string -> Q -> Q }.
(** The values the solver finds for connections and components; network.py 2017-2068 *)
Record solution := { s_conn : string -> string -> Q; s_comp : string -> string -> Q }.

(** [c.get_attr(var)] written through, e.g. network.py 1592 *)
Definition put {V : Type} (v : string) (g : V -> V) (d : dict V) : dict V :=
  match dget v d with Some k => dset v (g k) d | None => d end.
(** the containers of a connection replaced, network.py 1592 *)
Definition with_props (c : conn) (d : dict cont) : conn :=
  {| n_props := d; n_flags := n_flags c; n_m := n_m c; n_tmp := n_tmp c; n_des := n_des c; n_off := n_off c;
     n_path := n_path c; n_ldes := n_ldes c; n_loff := n_loff c; n_new := n_new c |}.
(** [c.get_attr(var).is_set = b] of a reference, network.py 1596 *)
Definition flag (v : string) (b : bool) (c : conn) : conn :=
  {| n_props := n_props c; n_flags := put v (fun _ => b) (n_flags c); n_m := n_m c; n_tmp := n_tmp c;
     n_des := n_des c; n_off := n_off c; n_path := n_path c; n_ldes := n_ldes c; n_loff := n_loff c; n_new := n_new c |}.
(** [c.m] and [c._m_tmp], network.py 994-1000 *)
Definition with_m (c : conn) (m : string) (tmp : option string) : conn :=
  {| n_props := n_props c; n_flags := n_flags c; n_m := m; n_tmp := tmp; n_des := n_des c; n_off := n_off c;
     n_path := n_path c; n_ldes := n_ldes c; n_loff := n_loff c; n_new := n_new c |}.
(** [c.new_design], network.py 1281, 1603 *)
Definition with_new (c : conn) (b : bool) : conn :=
  {| n_props := n_props c; n_flags := n_flags c; n_m := n_m c; n_tmp := n_tmp c; n_des := n_des c; n_off := n_off c;
     n_path := n_path c; n_ldes := n_ldes c; n_loff := n_loff c; n_new := b |}.
(** [param.is_set = b], network.py 1256, 1286 *)
Definition set_flag (b : bool) (k : cont) : cont :=
  {| k_set := b; k_var := k_var k; k_val := k_val k; k_SI := k_SI k; k_design := k_design k |}.
(** network.py 1592-1594 *)
Definition unset (k : cont) : cont :=
  {| k_set := false; k_var := true; k_val := k_val k; k_SI := k_SI k; k_design := k_design k |}.
(** network.py 1599-1602 *)
Definition set_to_design (k : cont) : cont :=
  {| k_set := true; k_var := false; k_val := k_val k; k_SI := k_design k; k_design := k_design k |}.
(** [container.design = d], network.py 1275 *)
Definition with_design (d : option Q) (k : cont) : cont :=
  {| k_set := k_set k; k_var := k_var k; k_val := k_val k; k_SI := k_SI k; k_design := d |}.
(** [container.val_SI = x], network.py 1175 *)
Definition with_SI (x : option Q) (k : cont) : cont :=
  {| k_set := k_set k; k_var := k_var k; k_val := k_val k; k_SI := x; k_design := k_design k |}.
(** [container.val = x], connection.py 953 *)
Definition with_val (x : option Q) (k : cont) : cont :=
  {| k_set := k_set k; k_var := k_var k; k_val := x; k_SI := k_SI k; k_design := k_design k |}.

(** Change the container or flag called [v] of a connection; [h] are the mass flow
    containers (network.py 1255, 1592, 1599) *)
Definition touch (g : cont -> cont) (b : bool) (hc : dict cont * conn) (v : string) : dict cont * conn :=
  let '(h, c) := hc in
  if String.eqb v "m" then (put (n_m c) g h, c)
  else if dmem v (n_flags c) then (h, flag v b c)
  else (h, with_props c (put v g (n_props c))).

(** A loop over the connections that stops at the first exception;
    as in network.py 1586-1659 *)
Fixpoint sweep (f : string -> dict cont -> conn -> dict cont * conn * option pyerr) (h : dict cont) (cs : dict conn)
  : dict cont * dict conn * option pyerr :=
  match cs with
  | [] => (h, [], None)
  | (l, c) :: cs' =>
      match f l h c with
      | (h1, c1, Some e) => (h1, (l, c1) :: cs', Some e)
      | (h1, c1, None) => let '(h2, cs2, e) := sweep f h1 cs' in (h2, (l, c1) :: cs2, e)
      end
  end.
(** The same over the components; network.py 1586-1659 *)
Fixpoint sweep_comps (f : string -> comp -> comp * option pyerr) (cs : dict comp) : dict comp * option pyerr :=
  match cs with
  | [] => ([], None)
  | (l, c) :: cs' =>
      match f l c with
      | (c1, Some e) => ((l, c1) :: cs', Some e)
      | (c1, None) => let '(cs2, e) := sweep_comps f cs' in ((l, c1) :: cs2, e)
      end
  end.
(** connections and mass flow containers replaced, e.g. network.py 1588 *)
Definition with_conns (st : net) (h : dict cont) (cs : dict conn) : net :=
  {| t_conns := cs; t_m := h; t_comps := t_comps st; t_branches := t_branches st; t_redesign := t_redesign st;
     t_path := t_path st; t_new := t_new st |}.
(** components replaced, e.g. network.py 1613 *)
Definition with_comps (st : net) (cs : dict comp) : net :=
  {| t_conns := t_conns st; t_m := t_m st; t_comps := cs; t_branches := t_branches st; t_redesign := t_redesign st;
     t_path := t_path st; t_new := t_new st |}.
(** run over the connections of a network, e.g. network.py 1587 *)
Definition over_conns (f : string -> dict cont -> conn -> dict cont * conn * option pyerr) (st : net) : net * option pyerr :=
  let '(h, cs, e) := sweep f (t_m st) (t_conns st) in (with_conns st h cs, e).
(** run over the components of a network, e.g. network.py 1613 *)
Definition over_comps (f : string -> comp -> comp * option pyerr) (st : net) : net * option pyerr :=
  let '(cs, e) := sweep_comps f (t_comps st) in (with_comps st cs, e).
(** the next statement, unless an exception was raised; as in network.py 1904-2012 *)
Definition andthen (r : net * option pyerr) (f : net -> net * option pyerr) : net * option pyerr :=
  match r with (st, None) => f st | (st, Some e) => (st, Some e) end.

(* --------------------------------------------------------- mass flow sharing *)

(** [c.m.is_set]; network.py 974-1024 *)
Definition m_set (st : net) (l : string) : bool :=
  match dget l (t_conns st) with
  | Some c => match dget (n_m c) (t_m st) with Some k => k_set k | None => false end
  | None => false
  end.
(** network.py 994-1000: the connections [ls] use the container of [main] *)
Definition share (main : string) (ls : list string) (st : net) : net :=
  match dget main (t_conns st) with
  | None => st
  | Some cm => with_conns st (t_m st) (fold_left (fun cs l => put l (fun c => with_m c (n_m cm) (Some (n_m c))) cs) ls (t_conns st))
  end.
(** one branch of presolve_massflow_topology, network.py 974-1018, without the
    check of references *)
Definition presolve_branch (b : list string) (st : net) : net * option pyerr :=
  match filter (m_set st) b with
  | [main] => (share main b st, None)
  | [] => match b with [] => (st, None) | main :: rest => (share main rest st, None) end
  | _ => (st, Some TESPyNetworkError)
  end.
(** presolve_massflow_topology, network.py 970-1018 *)
Definition presolve (st : net) : net * option pyerr :=
  fold_left (fun r b => andthen r (presolve_branch b)) (t_branches st) (st, None).
(** reset_topology_reduction_specifications, network.py 1126-1139 *)
Definition reset_conn (_ : string) (h : dict cont) (c : conn) : dict cont * conn * option pyerr :=
  match n_tmp c with
  | None => (h, c, None)
  | Some t =>
      let v := match dget (n_m c) h with Some k => k_SI k | None => None end in
      (put t (with_SI v) h, with_m c t None, None)
  end.

(* --------------------------------------------------------------- specified values *)

(** network.py 1172-1177: the value in SI of what is specified *)
Definition to_SI (u : units) (v : string) (k : cont) : cont :=
  if k_set k then with_SI (option_map (u_si u v) (k_val k)) k else k.
(** init_set_properties, network.py 1141-1177 *)
Definition set_properties_conn (u : units) (_ : string) (h : dict cont) (c : conn) : dict cont * conn * option pyerr :=
  (put (n_m c) (to_SI u "m") h, with_props c (map (fun e => (fst e, to_SI u (fst e) (snd e))) (n_props c)), None).

(* ------------------------------------------------------------------ design values *)

(** init_conn_design_params, network.py 1493-1528 *)
Definition load_conn (fi : file) (l : string) (h : dict cont) (c : conn) : dict cont * conn * option pyerr :=
  match dget l (f_conns fi) with
  | None => (h, c, Some TESPyNetworkError)
  | Some row =>
      let d v := match dget v row with Some x => x | None => None end in
      (put (n_m c) (with_design (d "m")) h, with_props c (map (fun e => (fst e, with_design (d (fst e)) (snd e))) (n_props c)), None)
  end.
(** Component.set_parameters, component.py 799-809; None is the empty series *)
Definition set_parameters (design_mode : bool) (data : option (dict (option Q))) (c : comp) : comp * option pyerr :=
  let new := if design_mode || p_ldes c then true else p_new c in
  let read := (negb design_mode && negb (p_ldes c)) || (design_mode && p_loff c) in
  let missing := match data with
                 | None => existsb (fun e => q_num (snd e)) (p_pars c)
                 | Some row => existsb (fun e => q_num (snd e) && negb (dmem (fst e) row)) (p_pars c)
                 end in
  let value v := match data with Some row => match dget v row with Some x => x | None => None end | None => None end in
  let c' d := {| p_pars := d; p_des := p_des c; p_off := p_off c; p_path := p_path c; p_ldes := p_ldes c;
                 p_loff := p_loff c; p_new := new |} in
  let write f := map (fun e => (fst e, if q_num (snd e)
                   then {| q_set := q_set (snd e); q_num := true; q_val := q_val (snd e); q_design := f (fst e) |}
                   else snd e)) (p_pars c) in
  if read then if missing then (c' (p_pars c), Some KeyError) else (c' (write value), None)
  else (c' (write (fun _ => None)), None).
(** component part of init_offdesign_params, network.py 1399-1440: the labels of
    the table *)
Definition load_comps (files : string -> file) (path : string) (st : net) : net * option pyerr :=
  fold_left (fun r l => andthen r (fun st =>
    match dget l (t_comps st) with
    | None => (st, Some KeyError)
    | Some c =>
        let fi := match p_path c with Some p => files p | None => files path end in
        match dget l (f_comps fi) with
        | None => (st, Some KeyError)
        | Some row => let '(c', e) := set_parameters false (Some row) c in (with_comps st (dset l c' (t_comps st)), e)
        end
    end)) (keys (f_comps (files path))) (st, None).
(** init_offdesign_params, network.py 1394-1473 *)
Definition load (files : string -> file) (path : string) (st : net) : net * option pyerr :=
  andthen (load_comps files path st) (over_conns (fun l h c =>
    load_conn (match n_path c with Some p => files p | None => files path end) l h c)).

(* ------------------------------------------------------------------- mode switches *)

(** offdesign part of one connection, network.py 1588-1603; containers without
    [design] raise at 1602 *)
Definition offdesign_conn (_ : string) (h : dict cont) (c : conn) : dict cont * conn * option pyerr :=
  if n_ldes c then (h, c, None)
  else
    let '(h1, c1) := fold_left (fun hc v =>
      let '(h, c) := touch unset false hc v in (h, flag (v ++ "_ref") false c)) (n_des c) (h, c) in
    let '(h2, c2, e) := fold_left (fun (r : dict cont * conn * option pyerr) v =>
      match r with
      | (h, c, Some e) => (h, c, Some e)
      | (h, c, None) =>
          let '(h', c') := touch set_to_design true (h, c) v in
          (h', c', if dmem v (n_flags c) then Some AttributeError else None)
      end) (n_off c) (h1, c1, None) in
    match e with
    | None => (h2, with_new c2 false, None)
    | Some e => (h2, c2, Some e)
    end.
(** parameters replaced; component.py 799-809 *)
Definition with_pars (c : comp) (d : dict par) (new : bool) : comp :=
  {| p_pars := d; p_des := p_des c; p_off := p_off c; p_path := p_path c; p_ldes := p_ldes c; p_loff := p_loff c; p_new := new |}.
(** [cp.get_attr(var).is_set = b], network.py 1332, 1355 *)
Definition par_flag (b : bool) (q : par) : par :=
  {| q_set := b; q_num := q_num q; q_val := q_val q; q_design := q_design q |}.
(** network.py 1339-1347, 1624-1632 *)
Definition par_design (q : par) : par :=
  {| q_set := true; q_num := q_num q; q_val := if q_num q then q_design q else q_val q; q_design := q_design q |}.
(** network.py 1331-1347, 1614-1632: switch a component to offdesign *)
Definition comp_off (c : comp) : dict par :=
  fold_left (fun d v => put v par_design d) (p_off c) (fold_left (fun d v => put v (par_flag false) d) (p_des c) (p_pars c)).
(** offdesign part of one component, network.py 1613-1649 *)
Definition offdesign_comp (_ : string) (c : comp) : comp * option pyerr :=
  if p_ldes c then (with_pars c (p_pars c) false, None) else (with_pars c (comp_off c) false, None).
(** init_offdesign, network.py 1586-1659 *)
Definition init_offdesign (st : net) : net * option pyerr :=
  andthen (over_conns offdesign_conn st) (over_comps offdesign_comp).

(** design part of one connection, network.py 1242-1289 *)
Definition design_conn (files : string -> file) (redesign : bool) (l : string) (h : dict cont) (c : conn)
  : dict cont * conn * option pyerr :=
  if n_loff c then
    match n_path c with
    | None => (h, c, Some TESPyNetworkError)
    | Some p =>
        let '(h1, c1) := fold_left (touch (set_flag true) true) (n_off c)
                           (fold_left (touch (set_flag false) false) (n_des c) (h, c)) in
        load_conn (files p) l h1 c1
    end
  else
    let h0 := put (n_m c) (with_design None) h in
    let c0 := with_new (with_props c (put "h" (with_design None) (put "p" (with_design None) (n_props c)))) true in
    if redesign then
      let '(h1, c1) := fold_left (touch (set_flag false) false) (n_off c)
                         (fold_left (touch (set_flag true) true) (n_des c) (h0, c0)) in
      (h1, c1, None)
    else (h0, c0, None).
(** design part of one component, network.py 1306-1360; a component missing in its
    own table raises (1322) *)
Definition design_comp (files : string -> file) (redesign : bool) (l : string) (c : comp) : comp * option pyerr :=
  if p_loff c then
    match p_path c with
    | Some p => match dget l (f_comps (files p)) with
                | None => (c, Some KeyError)
                | Some row => match set_parameters true (Some row) c with
                              | (c', Some e) => (c', Some e)
                              | (c', None) => (with_pars c' (comp_off c') false, None)
                              end
                end
    | None => (with_pars c (comp_off c) false, None)
    end
  else
    let c' := if redesign
              then with_pars c (fold_left (fun d v => put v (par_flag false) d) (p_off c)
                                  (fold_left (fun d v => put v (par_flag true) d) (p_des c) (p_pars c))) (p_new c)
              else c in
    set_parameters true None c'.
(** init_design, network.py 1238-1375 *)
Definition init_design (files : string -> file) (st : net) : net * option pyerr :=
  andthen (over_conns (design_conn files (t_redesign st)) st) (fun st' => over_comps (design_comp files (t_redesign st)) st').

(* -------------------------------------------------------------------------- solve *)

(** network.py 1904-1917: is the design point read again *)
Definition needs_design (st : net) (path : option string) : bool :=
  let same := match t_path st, path with Some a, Some b => String.eqb a b | _, _ => false end in
  if same then existsb (fun e => n_new (snd e)) (t_conns st) || existsb (fun e => p_new (snd e)) (t_comps st) else true.
(** network.py 1904-1921 *)
Definition start (path : option string) (st : net) : net :=
  {| t_conns := t_conns st; t_m := t_m st; t_comps := t_comps st; t_branches := t_branches st;
     t_redesign := t_redesign st; t_path := path; t_new := needs_design st path |}.
(** network.py 884 *)
Definition redesigned (st : net) : net :=
  {| t_conns := t_conns st; t_m := t_m st; t_comps := t_comps st; t_branches := t_branches st;
     t_redesign := true; t_path := t_path st; t_new := t_new st |}.
(** initialise, network.py 877-902, for the parts listed above *)
Definition initialise (u : units) (files : string -> file) (offdesign : bool) (st : net) : net * option pyerr :=
  andthen (presolve st) (fun st => andthen (over_conns (set_properties_conn u) st) (fun st =>
  if offdesign then
    let st := redesigned st in
    match t_path st with
    | None => (st, Some TESPyNetworkError)
    | Some p => andthen (if t_new st then load files p st else (st, None)) init_offdesign
    end
  else init_design files st)).
(** the solution is written to everything not specified; parameters that are
    specified come out as specified; network.py 2017-2068, 2253-2283 *)
Definition solved_cont (x : Q) (k : cont) : cont := if k_set k then k else with_SI (Some x) k.
(** solve_loop, network.py 2014-2068, as an oracle *)
Definition solver (sol : solution) (st : net) : net :=
  {| t_conns := map (fun lc => (fst lc, with_props (snd lc)
       (map (fun e => (fst e, solved_cont (s_conn sol (fst lc) (fst e)) (snd e))) (n_props (snd lc))))) (t_conns st);
     t_m := map (fun e => (fst e, solved_cont (s_conn sol (fst e) "m") (snd e))) (t_m st);
     t_comps := t_comps st; t_branches := t_branches st; t_redesign := t_redesign st; t_path := t_path st; t_new := t_new st |}.
(** [prop.val = convert_from_SI(..)], connection.py 951-954 *)
Definition to_val (u : units) (v : string) (k : cont) : cont := with_val (option_map (u_un u v) (k_SI k)) k.
(** calc_results, connection.py 951-954 *)
Definition report_conn (u : units) (_ : string) (h : dict cont) (c : conn) : dict cont * conn * option pyerr :=
  (put (n_m c) (to_val u "m") h, with_props c (map (fun e => (fst e, to_val u (fst e) (snd e))) (n_props c)), None).
(** calc_parameters, network.py 2491-2492: values of parameters not specified *)
Definition report_comp (sol : solution) (l : string) (c : comp) : comp * option pyerr :=
  (with_pars c (map (fun e => (fst e, if q_num (snd e) && negb (q_set (snd e))
     then {| q_set := false; q_num := true; q_val := Some (s_comp sol l (fst e)); q_design := q_design (snd e) |}
     else snd e)) (p_pars c)) (p_new c), None).
(** solve, network.py 1903-2010, for a network already checked *)
Definition solve (u : units) (files : string -> file) (mode : string) (path : option string) (sol : solution) (st : net)
  : net * option pyerr :=
  let st := start path st in
  if negb (String.eqb mode "design" || String.eqb mode "offdesign") then (st, Some ValueError)
  else
    andthen (initialise u files (String.eqb mode "offdesign") st) (fun st =>
    andthen (over_conns reset_conn (solver sol st)) (fun st =>
    andthen (over_conns (report_conn u) st) (over_comps (report_comp sol)))).
