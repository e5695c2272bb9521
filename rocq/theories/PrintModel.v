(** Network.print_results and print_components: which values appear in the printed
    tables. The layout by tabulate and the number format are not modelled; [show] is
    Python's [str]. *)
From Coq Require Import QArith.
From Verif Require Import Base.
Open Scope Q_scope.

(** Content of a result table: a number (nan is [None]) or a text.
    network.py 2474-2485, 2495-2501. *)
Inductive value := Num (q : option Q) | Txt (s : string).

(** The limits and flags of a parameter that print_components looks at,
    network.py 2657-2662 *)
Record pparam := { q_min : Q; q_max : Q; q_var : bool; q_set : bool }.
(** A component of the table of the network, network.py 2650-2651 *)
Record pcomp := { pc_label : string; pc_type : string; pc_print : bool; pc_param : string -> pparam }.
(** A connection of the table of the network, network.py 2582-2590 *)
Record pconn := { cn_label : string; cn_print : bool; cn_set : string -> bool; cn_val : string -> value }.
(** A bus, network.py 2599-2611 *)
Record pbus := { b_label : string; b_print : bool; b_Pset : bool }.

(** A table of results: columns and rows by label, network.py 785-791, 1189-1194, 632-635 *)
Record table := { t_cols : list string; t_rows : dict (list value) }.

(** The parts of the network that are used; [n_results] is the attribute [results], which
    exists from the constructor on (network.py 194). *)
Record pnet := { n_comps : list pcomp; n_conns : list pconn; n_busses : list pbus; n_results : dict table }.

(** Escape sequences, network.py 2539-2545 *)
Record colours := { c_end : string; c_set : string; c_err : string; c_var : string }.

(** A printed table: title, columns, rows. network.py 2570-2576, 2594-2597, 2613-2619 *)
Inductive cell := Text (s : string) | Value (v : value).
(** See [cell]; network.py 2570-2576 *)
Record section := { s_title : string; s_cols : list string; s_rows : list (string * list cell) }.

(** tools/global_vars.py 12 *)
Definition ERR : Q := 1 # 1000000.

(** [val < x], [val > x]: false for nan; a text raises. Python semantics, network.py 2657-2658 *)
Definition lt_val (v : option Q) (x : Q) : bool :=
  match v with None => false | Some q => if Qlt_le_dec q x then true else false end.
(** network.py 2658 *)
Definition gt_val (v : option Q) (x : Q) : bool :=
  match v with None => false | Some q => if Qlt_le_dec x q then true else false end.

(** Network.print_components, network.py 2649-2666; [None] is the nan returned for hidden
    components *)
Definition print_components (show : value -> string) (colored : bool) (k : colours) (c : pcomp)
  (param : string) (v : option Q) : option string :=
  if pc_print c then
    let s := show (Num v) in
    let p := pc_param c param in
    if negb colored then Some s
    else if lt_val v (q_min p - ERR) || gt_val v (q_max p + ERR)
    then Some (c_err k ++ " " ++ s ++ " " ++ c_end k)%string
    else if q_var p then Some (c_var k ++ " " ++ s ++ " " ++ c_end k)%string
    else if q_set p then Some (c_set k ++ " " ++ s ++ " " ++ c_end k)%string
    else Some s
  else None.

(** get_comp, network.py 399-403: [None] if there is no such component; the attribute access
    that follows then raises *)
Definition find_comp (n : pnet) (l : string) : option pcomp :=
  find (fun c => String.eqb (pc_label c) l) (n_comps n).
(** get_conn, network.py 376-382 *)
Definition find_conn (n : pnet) (l : string) : option pconn :=
  find (fun c => String.eqb (cn_label c) l) (n_conns n).

(** The cells of a row of a table of components, network.py 2561-2564; component tables hold
    numbers only (dtype float64, 791) *)
Definition row_cells (show : value -> string) (colored : bool) (k : colours) (c : pcomp)
  (cols : list string) (vs : list value) : list (option string) :=
  map (fun '(p, v) => match v with
                      | Num q => print_components show colored k c p q
                      | Txt s => Some s
                      end) (combine cols vs).

(** Unique types in order of appearance, network.py 2554 *)
Fixpoint unique (l : list string) : list string :=
  match l with
  | [] => []
  | a :: l' => a :: filter (fun b => negb (String.eqb a b)) (unique l')
  end.

(** dropna(how='all'), network.py 2566: rows of which every cell is nan are left out *)
Fixpoint drop_nan (l : list (string * list (option string))) : list (string * list cell) :=
  match l with
  | [] => []
  | (a, cs) :: l' =>
      if forallb (fun c => match c with None => true | Some _ => false end) cs then drop_nan l'
      else (a, map (fun c => match c with None => Value (Num None) | Some s => Text s end) cs) :: drop_nan l'
  end.

(** The table of a type of components, network.py 2555-2576: [Ok None] if nothing is printed *)
Definition comp_section (show : value -> string) (colored : bool) (k : colours) (n : pnet) (ty : string)
  : res (option section) :=
  match dget ty (n_results n) with
  | None => Err KeyError
  | Some t =>
      match t_cols t, t_rows t with
      | [], _ | _, [] => Ok None
      | _, _ =>
          rbind (rmapM (fun '(l, vs) =>
                   match find_comp n l with
                   | None => Err AttributeError
                   | Some c => Ok (l, row_cells show colored k c (t_cols t) vs)
                   end) (t_rows t)) (fun rows =>
          match drop_nan rows with
          | [] => Ok None
          | rs => Ok (Some {| s_title := ty; s_cols := t_cols t; s_rows := rs |})
          end)
      end
  end.

(** network.py 2579 *)
Definition conn_cols : list string := ["m"; "p"; "h"; "T"; "x"; "phase"]%string.

(** The value of a column of a row *)
Definition col_of (t : table) (vs : list value) (c : string) : option value :=
  dget c (combine (t_cols t) vs).

(** The table of connections, network.py 2579-2597 *)
Definition conn_row (show : value -> string) (colored : bool) (k : colours) (n : pnet) (t : table)
  (r : string * list value) : res (option (string * list cell)) :=
  let '(l, vs) := r in
  match find_conn n l with
  | None => Err AttributeError
  | Some c =>
      if negb (cn_print c) then Ok None
      else
        let txt (p : string) :=
          if colored && cn_set c p then (c_set k ++ show (cn_val c p) ++ c_end k)%string
          else show (match col_of t vs p with Some v => v | None => Num None end) in
        Ok (Some (l, map (fun p => Text (txt p)) conn_cols))
  end.
(** Rows that are left, in order *)
Fixpoint keep {A : Type} (l : list (option A)) : list A :=
  match l with [] => [] | None :: l' => keep l' | Some a :: l' => a :: keep l' end.
(** network.py 2579-2597; a missing column or table raises *)
Definition conn_section (show : value -> string) (colored : bool) (k : colours) (n : pnet)
  : res (option section) :=
  match dget "Connection" (n_results n) with
  | None => Err KeyError
  | Some t =>
      if negb (forallb (fun c => existsb (String.eqb c) (t_cols t)) conn_cols) then Err KeyError
      else
        rbind (rmapM (conn_row show colored k n t) (t_rows t)) (fun rs =>
        match keep rs with
        | [] => Ok None
        | rows => Ok (Some {| s_title := "Connection"; s_cols := conn_cols; s_rows := rows |})
        end)
  end.

(** Sum of a column: nan is skipped by pandas. network.py 2604 *)
Definition num (v : value) : Q := match v with Num (Some q) => q | _ => 0 end.
(** network.py 2604 *)
Definition col_sum (t : table) (c : string) : Q :=
  fold_left (fun s r => s + match col_of t (snd r) c with Some v => num v | None => 0 end) (t_rows t) 0.

(** network.py 2601-2603 *)
Definition bus_cols : list string := ["component value"; "bus value"; "efficiency"]%string.

(** The table of a bus, network.py 2599-2619 *)
Definition bus_section (show : value -> string) (colored : bool) (k : colours) (n : pnet) (b : pbus)
  : res (option section) :=
  if negb (b_print b) then Ok None
  else
    match dget (b_label b) (n_results n) with
    | None => Err KeyError
    | Some t =>
        if negb (forallb (fun c => existsb (String.eqb c) (t_cols t)) bus_cols) then Err KeyError
        else
          let pick vs := map (fun c => match col_of t vs c with Some v => v | None => Num None end) bus_cols in
          let rows : dict (list value) := map (fun '(l, vs) => (l, pick vs)) (t_rows t) in
          let total := [Num (Some (col_sum t "component value")); Num (Some (col_sum t "bus value")); Num None] in
          let rows := dset "total" total rows in
          let cells (r : string * list value) : string * list cell :=
            let '(l, vs) := r in
            (l, map (fun '(c, v) =>
                  if colored && String.eqb c "bus value" then
                    if b_Pset b && String.eqb l "total"
                    then Text (c_set k ++ show v ++ c_end k)%string
                    else Text (show v)
                  else Value v) (combine bus_cols vs)) in
          Ok (Some {| s_title := ("Bus: " ++ b_label b)%string; s_cols := bus_cols; s_rows := map cells rows |})
    end.

(** Network.print_results, network.py 2536-2624: the tables in order. The test in 2547 asks
    whether the attribute [results] exists, which the constructor sets. *)
Definition print_results (show : value -> string) (colored : bool) (k : colours) (n : pnet)
  : res (list section) :=
  rbind (rmapM (comp_section show colored k n) (unique (map pc_type (n_comps n)))) (fun cs =>
  rbind (conn_section show colored k n) (fun c =>
  rbind (rmapM (bus_section show colored k n) (n_busses n)) (fun bs =>
  Ok (keep cs ++ keep [c] ++ keep bs)%list))).
