(** The network's tables of connections and components, and the topology check.
    Models src/tespy/networks/network.py 363-568 and 691-710, 768-834 and
    src/tespy/connections/connection.py 232-252, 270-313. *)
From Verif Require Export Base.
Open Scope string_scope.

(** The objects the user created: components and connections are numbered
    (object identity), the tables give their immutable attributes.
    component.py 118-136 (label, class), inlets()/outlets() of the classes;
    connection.py 240-252 (label, source, source_id, target, target_id). *)
Record world := {
  w_class : nat -> string; w_clabel : nat -> string;
  w_inlets : nat -> list string; w_outlets : nat -> list string;
  w_label : nat -> string;
  w_source : nat -> nat; w_source_id : nat -> string;
  w_target : nat -> nat; w_target_id : nat -> string
}.

(** network.py 181-207: conns and comps (rows in insertion order, indexed by
    label; the other columns are attributes of the objects), the keys of the
    results dictionary, the checked flag. *)
Record net := { n_conns : dict nat; n_comps : dict nat; n_results : list string; n_checked : bool }.

(** Network.set_defaults, network.py 170-232 *)
Definition empty_net : net := {| n_conns := []; n_comps := []; n_results := []; n_checked := false |}.

(** Assignment to conns and checked, network.py 415-467 *)
Definition n_with_conns (n : net) (d : dict nat) (ck : bool) : net :=
  {| n_conns := d; n_comps := n_comps n; n_results := n_results n; n_checked := ck |}.
(** Assignment to comps, network.py 521-567 *)
Definition n_with_comps (n : net) (d : dict nat) : net :=
  {| n_conns := n_conns n; n_comps := d; n_results := n_results n; n_checked := n_checked n |}.
(** Assignment to results and checked, network.py 521-567 *)
Definition n_with_results (n : net) (r : list string) (ck : bool) : net :=
  {| n_conns := n_conns n; n_comps := n_comps n; n_results := r; n_checked := ck |}.

(** object in list, as in network.py 521-567 *)
Definition nmem (x : nat) (l : list nat) : bool := existsb (Nat.eqb x) l.

(** network.py 363-403: get_conn, get_comp. *)
Definition get_conn (n : net) (label : string) : option nat := dget label (n_conns n).
(** Network.get_comp, network.py 399-403 *)
Definition get_comp (n : net) (label : string) : option nat := dget label (n_comps n).

(** An argument of add_conns: a connection, or an object of another type.
    network.py 415-442. *)
Inductive arg := AConn (c : nat) | AOther.

(** The connections among the arguments, network.py 415-442 *)
Definition arg_conns (l : list arg) : list nat :=
  flat_map (fun a => match a with AConn c => [c] | AOther => [] end) l.

Section W.
Variable W : world.

(** network.py 521, 454: [list({cp for c in args for cp in [c.source, c.target]})].
    The order of a Python set is unspecified: [order] is any function. *)
Definition ends (cs : list nat) : list nat := flat_map (fun c => [w_source W c; w_target W c]) cs.

(** network.py 415-441: the loop of add_conns. *)
Fixpoint add_conns_loop (args : list arg) (n : net) : net * option pyerr :=
  match args with
  | [] => (n, None)
  | AOther :: _ => (n, Some TypeError)
  | AConn c :: args' =>
      if dmem (w_label W c) (n_conns n) then (n, Some ValueError)
      else add_conns_loop args' (n_with_conns n (dset (w_label W c) c (n_conns n)) false)
  end.

(** network.py 523-542: _add_comps. *)
Fixpoint add_comps (cps : list nat) (n : net) : net * option pyerr :=
  match cps with
  | [] => (n, None)
  | k :: cps' =>
      match dget (w_clabel W k) (n_comps n) with
      | Some k' => if Nat.eqb k' k then add_comps cps' n else (n, Some TESPyNetworkError)
      | None => add_comps cps' (n_with_comps n (dset (w_clabel W k) k (n_comps n)))
      end
  end.

(** network.py 405-442: add_conns. *)
Definition add_conns (order : list nat -> list nat) (args : list arg) (n : net) : net * option pyerr :=
  match add_conns_loop args n with
  | (n', Some e) => (n', Some e)
  | (n', None) => add_comps (order (ends (arg_conns args))) n'
  end.

(** network.py 455-462: the loop of del_conns; DataFrame.drop raises KeyError for
    a missing label. *)
Fixpoint del_conns_loop (cs : list nat) (n : net) : net * option pyerr :=
  match cs with
  | [] => (n, None)
  | c :: cs' =>
      if dmem (w_label W c) (n_conns n)
      then del_conns_loop cs' (n_with_conns n (ddel (w_label W c) (n_conns n)) (n_checked n))
      else (n, Some KeyError)
  end.

(** network.py 557-567: _del_comps. The results table of the class is looked up
    after the row was dropped. *)
Fixpoint del_comps (cps : list nat) (n : net) : net * option pyerr :=
  match cps with
  | [] => (n, None)
  | k :: cps' =>
      if nmem k (ends (map snd (n_conns n))) then del_comps cps' n
      else if dmem (w_clabel W k) (n_comps n) then
        let n' := n_with_comps n (ddel (w_clabel W k) (n_comps n)) in
        if smem (w_class W k) (n_results n') then del_comps cps' n' else (n', Some KeyError)
      else (n, Some KeyError)
  end.

(** network.py 444-467: del_conns. *)
Definition del_conns (order : list nat -> list nat) (cs : list nat) (n : net) : net * option pyerr :=
  match del_conns_loop cs n with
  | (n', Some e) => (n', Some e)
  | (n', None) =>
      match del_comps (order (ends cs)) n' with
      | (n'', Some e) => (n'', Some e)
      | (n'', None) => (n_with_results n'' (n_results n'') false, None)
      end
  end.

(** network.py 471-508: DataFrame.duplicated on a pair of columns. *)
Definition port_eqb (a b : nat * string) : bool := Nat.eqb (fst a) (fst b) && String.eqb (snd a) (snd b).
(** Repeated rows, pandas duplicated in network.py 471-508 *)
Fixpoint has_duplicate (l : list (nat * string)) : bool :=
  match l with [] => false | x :: l' => existsb (port_eqb x) l' || has_duplicate l' end.

(** Source and source_id, network.py 471-508 *)
Definition out_port (c : nat) : nat * string := (w_source W c, w_source_id W c).
(** Target and target_id, network.py 471-508 *)
Definition in_port (c : nat) : nat * string := (w_target W c, w_target_id W c).

(** Network.check_conns, network.py 471-508 *)
Definition check_conns (n : net) : option pyerr :=
  let cs := map snd (n_conns n) in
  if has_duplicate (map out_port cs) then Some TESPyNetworkError
  else if has_duplicate (map in_port cs) then Some TESPyNetworkError
  else None.

(** network.py 773, 775: Series.sort_values on the port names, which are strings. *)
Fixpoint insert_by (key : nat -> string) (c : nat) (l : list nat) : list nat :=
  match l with
  | [] => [c]
  | x :: l' => if String.leb (key c) (key x) then c :: l else x :: insert_by key c l'
  end.
(** sort_values, network.py 770-807 *)
Definition sort_by (key : nat -> string) (l : list nat) : list nat := fold_right (insert_by key) [] l.

(** network.py 770-781: the connection lists of a component. *)
Definition outl (n : net) (k : nat) : list nat :=
  sort_by (w_source_id W) (filter (fun c => Nat.eqb (w_source W c) k) (map snd (n_conns n))).
(** comp.inl, network.py 770-807 *)
Definition inl (n : net) (k : nat) : list nat :=
  sort_by (w_target_id W) (filter (fun c => Nat.eqb (w_target W c) k) (map snd (n_conns n))).

(** network.py 783-791: results tables of the component classes. *)
Definition init_components (n : net) : net :=
  fold_left (fun n k => n_with_results n (sadd (w_class W k) (n_results n)) (n_checked n))
            (map snd (n_comps n)) n.

(** network.py 809-834: check_components. [num_o], [num_i] are the lengths of
    outlets() and inlets() (780-781). *)
Definition count_if (f : nat -> bool) (l : list nat) : nat := length (filter f l).
(** Network.check_components, network.py 812-834 *)
Fixpoint check_components (ks : list nat) (n : net) : option pyerr :=
  match ks with
  | [] => None
  | k :: ks' =>
      let cs := map snd (n_conns n) in
      if negb (Nat.eqb (count_if (fun c => Nat.eqb (w_source W c) k) cs) (length (w_outlets W k))) then Some TESPyNetworkError
      else if negb (Nat.eqb (count_if (fun c => Nat.eqb (w_target W c) k) cs) (length (w_inlets W k))) then Some TESPyNetworkError
      else check_components ks' n
  end.

(** connection.py 232-252, 270-313: the checks in the constructor of a
    connection, on its arguments. *)
Definition create_conn (source : nat) (outlet_id : string) (target : nat) (inlet_id : string) : option pyerr :=
  if Nat.eqb source target then Some TESPyConnectionError
  else if negb (smem outlet_id (w_outlets W source)) then Some ValueError
  else if negb (smem inlet_id (w_inlets W target)) then Some ValueError
  else None.
End W.
