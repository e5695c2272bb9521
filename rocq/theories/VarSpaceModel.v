(** The variable space: numbering of the unknowns (columns of the Jacobian)
    and the connection equations left over after presolving the fluid state.
    Models src/tespy/networks/network.py 1118-1124 (fluid fractions, end of
    presolve_fluid_topology), 1208-1225 (_assign_variable_space), the connection
    loop 1291-1294 and the component loop 1363-1376 of init_design (identical
    statements in init_offdesign 1605-1608, 1638-1651),
    src/tespy/connections/connection.py 611-671 (preprocess,
    simplify_specifications) and the numbering part of
    src/tespy/components/component.py 329-361 (preprocess). *)
From Verif Require Export Base MassModel.
Open Scope nat_scope.
Open Scope string_scope.
Open Scope list_scope.

(** The fields of FluidProperties (tools/data_containers.py 477-501) that the
    numbering uses. *)
Record vcont := { v_set : bool; v_solved : bool; v_var : bool; v_jcol : option nat }.

(** A connection: references to the containers of m, p and h (m may be shared
    by the mass flow reduction), the specification flags of T, x, Td_bp and v,
    whether the composition is known ([not c.fluid.is_var]) and the other
    parameters with an equation that are specified (fluid_balance, the five
    references; connection.py 673-711). *)
Record vconn := { k_m : nat; k_p : nat; k_h : nat;
  k_T : bool; k_x : bool; k_Td : bool; k_v : bool;
  k_known : bool; k_others : list string }.

(** An unknown: a fraction of a fluid in the container of a fluid branch, a
    container of a connection, a parameter of a component. network.py 1209-1225. *)
Inductive unknown :=
| UFluid (branch : nat) (fluid : string)
| UConn (container : nat)
| UComp (comp : nat) (param : string).

(** Network state: heap of connection containers, [fluid.J_col] of the fluid
    branches, J_col of component parameters, [variables_dict] (in insertion
    order), [_conn_variables], [num_conn_vars], [num_comp_vars] and the names
    of the equations of the connections processed so far. network.py 1209-1225, 853-905. *)
Record vstate := { vs_heap : nat -> vcont; vs_fcol : nat -> string -> option nat;
  vs_ccol : nat -> string -> option nat;
  vs_dict : list (nat * unknown); vs_vars : list nat; vs_nconn : nat; vs_ncomp : nat;
  vs_eqs : list (list string) }.

(** network.py 1118-1124: [for fluid in main_conn.fluid.is_var]. *)
Definition assign_fluid (b : nat) (s : vstate) (f : string) : vstate :=
  {| vs_heap := vs_heap s;
     vs_fcol := fun b' f' => if Nat.eqb b' b && String.eqb f' f then Some (vs_nconn s) else vs_fcol s b' f';
     vs_ccol := vs_ccol s;
     vs_dict := vs_dict s ++ [(vs_nconn s, UFluid b f)];
     vs_vars := vs_vars s; vs_nconn := S (vs_nconn s); vs_ncomp := vs_ncomp s; vs_eqs := vs_eqs s |}.
(** network.py 1209-1225, one fluid branch *)
Definition assign_branch (s : vstate) (b : nat * list string) : vstate :=
  fold_left (assign_fluid (fst b)) (snd b) s.
(** network.py 1209-1225, all fluid branches *)
Definition assign_fluids (bs : list (nat * list string)) (s : vstate) : vstate :=
  fold_left assign_branch bs s.

(** [heap] with the container [x] replaced.
    Assignment to attributes of containers, connection.py 612-671. *)
Definition with_heap (s : vstate) (h : nat -> vcont) : vstate :=
  {| vs_heap := h; vs_fcol := vs_fcol s; vs_ccol := vs_ccol s; vs_dict := vs_dict s; vs_vars := vs_vars s;
     vs_nconn := vs_nconn s; vs_ncomp := vs_ncomp s; vs_eqs := vs_eqs s |}.

(** network.py 1209-1225: the body of the loop over 'm', 'p', 'h'. *)
Definition assign_one (s : vstate) (x : nat) : vstate :=
  let d := vs_heap s x in
  if negb (v_set d) && negb (existsb (Nat.eqb x) (vs_vars s)) then
    if negb (v_solved d) then
      {| vs_heap := fupd x {| v_set := v_set d; v_solved := v_solved d; v_var := true; v_jcol := Some (vs_nconn s) |} (vs_heap s);
         vs_fcol := vs_fcol s; vs_ccol := vs_ccol s;
         vs_dict := vs_dict s ++ [(vs_nconn s, UConn x)];
         vs_vars := vs_vars s ++ [x];
         vs_nconn := S (vs_nconn s); vs_ncomp := vs_ncomp s; vs_eqs := vs_eqs s |}
    else
      with_heap s (fupd x {| v_set := v_set d; v_solved := false; v_var := false; v_jcol := v_jcol d |} (vs_heap s))
  else if v_set d then
    with_heap s (fupd x {| v_set := v_set d; v_solved := v_solved d; v_var := false; v_jcol := v_jcol d |} (vs_heap s))
  else s.
(** network.py 1209-1225: the containers of a connection *)
Definition assign_conn (s : vstate) (c : vconn) : vstate :=
  assign_one (assign_one (assign_one s (k_m c)) (k_p c)) (k_h c).

(** The flags [_solved] that simplify_specifications raises: of p, h (in the
    heap) and of T, x, Td_bp (owned by the connection, cleared again by
    preprocess within the same pass, hence kept local to the step). connection.py 628-671. *)
Record marks := { mk_p : bool; mk_h : bool; mk_T : bool; mk_x : bool; mk_Td : bool }.
(** No flag raised, connection.py 628-671 *)
Definition nomarks := {| mk_p := false; mk_h := false; mk_T := false; mk_x := false; mk_Td := false |}.

(** connection.py 627-671. The numerical evaluation of the state (h_mix_pT
    etc.) is an oracle without effect on the numbering and is left out. *)
Definition b2n (b : bool) : nat := if b then 1 else 0.
(** Connection.simplify_specifications, connection.py 628-671 *)
Definition simplify (m_set p_set h_set : bool) (c : vconn) : res marks :=
  let specs := b2n m_set + b2n p_set + b2n h_set + b2n (k_T c) + b2n (k_x c) + b2n (k_Td c) + b2n (k_v c) in
  if Nat.ltb 3 specs then Err TESPyNetworkError
  else if negb h_set && p_set then
    if k_T c then Ok {| mk_p := false; mk_h := true; mk_T := true; mk_x := false; mk_Td := false |}
    else if k_Td c then Ok {| mk_p := false; mk_h := true; mk_T := false; mk_x := false; mk_Td := true |}
    else if k_x c then Ok {| mk_p := false; mk_h := true; mk_T := false; mk_x := true; mk_Td := false |}
    else Ok nomarks
  else if negb h_set && negb p_set then
    if k_T c && k_x c then Ok {| mk_p := true; mk_h := true; mk_T := true; mk_x := true; mk_Td := false |}
    else Ok nomarks
  else Ok nomarks.

(** _solved is raised, connection.py 628-671 *)
Definition mark_solved (b : bool) (x : nat) (h : nat -> vcont) : nat -> vcont :=
  if b then fupd x {| v_set := v_set (h x); v_solved := true; v_var := v_var (h x); v_jcol := v_jcol (h x) |} h else h.

(** connection.py 616-622: the parameters that become equations (the order of
    the dictionary of parameters: fluid_balance first, then T, v, x, Td_bp,
    then the references; the order is irrelevant here and the other
    parameters are put last). *)
Definition equations (mk : marks) (c : vconn) : list string :=
  (if k_T c && negb (mk_T mk) then ["T"] else []) ++
  (if k_v c then ["v"] else []) ++
  (if k_x c && negb (mk_x mk) then ["x"] else []) ++
  (if k_Td c && negb (mk_Td mk) then ["Td_bp"] else []) ++
  k_others c.

(** network.py 1291-1294: simplify (only with known composition), assign,
    preprocess of one connection. *)
Definition conn_step (s : vstate) (c : vconn) : vstate * option pyerr :=
  let h := vs_heap s in
  match (if k_known c then simplify (v_set (h (k_m c))) (v_set (h (k_p c))) (v_set (h (k_h c))) c else Ok nomarks) with
  | Err e => (s, Some e)
  | Ok mk =>
      let h1 := mark_solved (mk_h mk) (k_h c) (mark_solved (mk_p mk) (k_p c) h) in
      let s1 := assign_conn (with_heap s h1) c in
      ({| vs_heap := vs_heap s1; vs_fcol := vs_fcol s1; vs_ccol := vs_ccol s1; vs_dict := vs_dict s1;
          vs_vars := vs_vars s1; vs_nconn := vs_nconn s1; vs_ncomp := vs_ncomp s1;
          vs_eqs := vs_eqs s1 ++ [equations mk c] |}, None)
  end.
(** network.py 1143-1206: the loop over the connections *)
Fixpoint conn_loop (cs : list vconn) (s : vstate) : vstate * option pyerr :=
  match cs with
  | [] => (s, None)
  | c :: cs' => match conn_step s c with
                | (s', None) => conn_loop cs' s'
                | (s', Some e) => (s', Some e)
                end
  end.

(** component.py 353-361: a component is the list of its ComponentProperties
    with their flag is_var; [num_nw] is the argument of preprocess. Returns the
    columns, [vars] in insertion order and [num_vars]. *)
Fixpoint comp_preprocess (num_nw num_vars : nat) (ps : list (string * bool)) : list (string * nat) * nat :=
  match ps with
  | [] => ([], num_vars)
  | (p, var) :: ps' =>
      if var then let (l, n) := comp_preprocess num_nw (S num_vars) ps' in ((p, num_nw + num_vars) :: l, n)
      else comp_preprocess num_nw num_vars ps'
  end.

(** network.py 1371-1374: [i] counts up from the first free number. *)
Fixpoint comp_dict (cp i : nat) (vars : list string) : list (nat * unknown) :=
  match vars with
  | [] => []
  | p :: vs => (i, UComp cp p) :: comp_dict cp (S i) vs
  end.

(** network.py 1363-1376: one component; [cp] is its identity. *)
Definition comp_step (s : vstate) (c : nat * list (string * bool)) : vstate :=
  let (cp, ps) := c in
  let i := vs_nconn s + vs_ncomp s in
  let (cols, n) := comp_preprocess i 0 ps in
  {| vs_heap := vs_heap s; vs_fcol := vs_fcol s;
     vs_ccol := fun cp' p' => if Nat.eqb cp' cp then match dget p' cols with Some j => Some j | None => vs_ccol s cp' p' end
                              else vs_ccol s cp' p';
     vs_dict := vs_dict s ++ comp_dict cp i (map fst cols);
     vs_vars := vs_vars s; vs_nconn := vs_nconn s; vs_ncomp := vs_ncomp s + n; vs_eqs := vs_eqs s |}.

(** The whole numbering of one initialise() call: the counters, the dictionary
    and [_conn_variables] are reset (network.py 857-859, 1238). *)
Definition fresh (s : vstate) : vstate :=
  {| vs_heap := vs_heap s; vs_fcol := vs_fcol s; vs_ccol := vs_ccol s; vs_dict := []; vs_vars := [];
     vs_nconn := 0; vs_ncomp := 0; vs_eqs := [] |}.
(** network.py 1143-1225: fluids, connections, components *)
Definition number_unknowns (bs : list (nat * list string)) (cs : list vconn)
    (cps : list (nat * list (string * bool))) (s : vstate) : vstate * option pyerr :=
  match conn_loop cs (assign_fluids bs (fresh s)) with
  | (s', None) => (fold_left comp_step cps s', None)
  | (s', Some e) => (s', Some e)
  end.
(** network.py 2073-2121: the number of variables *)
Definition num_vars (s : vstate) : nat := vs_nconn s + vs_ncomp s.
