(** ExergyAnalysis. Source: /repo/src/tespy/tools/analyses.py 312-668.
    Tables are lists of rows in order of insertion, nan is [None] (ExergyModel).
    Efficiencies of busses and categories of fluids are inputs; a quotient by zero
    (numpy: inf or nan) is nan.  Input for Sankey diagrams (669-810) is in SankeyModel; printing is not modelled. *)
From Coq Require Import QArith Qabs.
From Verif Require Import Base ExergyModel.
Open Scope Q_scope.

(** A component: label, [fkt_group], outcome of [exergy_balance], number of inlets
    and outlets, category of the fluid at the first inlet and outlet
    (categorize_fluids, analyses.py 29-56) *)
Record comp := {
  k_label : string; k_group : string; k_balance : res balance;
  k_inlets : nat; k_outlets : nat; k_cat_in : string; k_cat_out : string }.
(** A member of a bus: whether its base is 'bus', and its efficiency
    (calc_bus_efficiency, component.py 692) *)
Record member := { b_base : bool; b_eff : Q }.
(** A bus passed to the analysis: label and [comps] by component label, analyses.py 499-500 *)
Record bus := { u_label : string; u_comps : dict member }.
(** A connection: source, target, category, exergies; analyses.py 612-634 reads these. *)
Record link := { n_src : string; n_tgt : string; n_cat : string; n_chem : Q; n_phys : Q }.
(** The arguments of ExergyAnalysis; analyses.py 305-330. *)
Record analysis := { an_F : list bus; an_P : list bus; an_int : list bus; an_L : list bus }.

(** analyses.py 499 *)
Definition all_busses (an : analysis) : list bus := (an_F an ++ an_P an ++ an_int an ++ an_L an)%list.
(** analyses.py 320-323 *)
Definition reserved (an : analysis) : list string :=
  (["E_P"; "E_F"; "E_D"; "E_L"]%string
   ++ map u_label (an_int an ++ an_F an ++ an_P an ++ an_L an))%list.
(** analyses.py 302-330 *)
Definition create (an : analysis) : res unit :=
  match an_F an, an_P an with
  | [], _ => Err TESPyNetworkError
  | _, [] => Err TESPyNetworkError
  | _, _ =>
      if existsb (fun l => smem l ["E_P"; "E_F"; "E_D"; "E_L"]%string) (map u_label (all_busses an))
      then Err ValueError else Ok tt
  end.

(** A row of a sankey table: chemical, physical, massless; analyses.py 579-657. *)
Definition vec := (num * num * num)%type.
(** a new row, analyses.py 536 *)
Definition vzero : vec := (Some 0, Some 0, Some 0).
(** row [+=], analyses.py 538, 567, 667 *)
Definition vadd (a b : vec) : vec :=
  let '(a1, a2, a3) := a in let '(b1, b2, b3) := b in (nadd a1 b1, nadd a2 b2, nadd a3 b3).
(** [sankey_data[label]]: rows by (target_group, category), analyses.py 398-406 *)
Definition table := list ((string * string) * vec).
(** equality of index entries, analyses.py 535 *)
Definition key_eqb (k k' : string * string) : bool :=
  String.eqb (fst k) (fst k') && String.eqb (snd k) (snd k').
(** [.loc[key, :] = value], analyses.py 536, 583 *)
Fixpoint tset (k : string * string) (v : vec) (t : table) : table :=
  match t with
  | [] => [(k, v)]
  | (k', v') :: t' => if key_eqb k k' then (k', v) :: t' else (k', v') :: tset k v t'
  end.
(** [.loc[key]], analyses.py 535-538 *)
Fixpoint tget (k : string * string) (t : table) : option vec :=
  match t with [] => None | (k', v') :: t' => if key_eqb k k' then Some v' else tget k t' end.
(** analyses.py 535-538, 564-567: create a row of zeros if missing, then add *)
Definition tadd (k : string * string) (v : vec) (t : table) : table :=
  tset k (vadd (match tget k t with Some w => w | None => vzero end) v) t.
(** [self.sankey_data[g]], analyses.py 535; the tables used exist *)
Definition table_of (g : string) (sk : dict table) : table :=
  match dget g sk with Some t => t | None => [] end.

(** A row of [bus_data]; analyses.py 501-575. *)
Record bus_row := { r_F : num; r_P : num; r_base : bool; r_group : string }.
(** [bus_data], the E_F, E_P, E_L of [network_data] and [sankey_data], analyses.py 379-405 *)
Record state := { st_rows : dict bus_row; st_F : num; st_P : num; st_L : num; st_sankey : dict table }.

(** [sum(e for e in cp.E_bus.values() if e)], analyses.py 511, 540 *)
Definition bus_total (v : bus_value) : res num :=
  match v with
  | Plain _ => Err AttributeError
  | Shares c p m =>
      Ok (fold_left (fun acc e => match e with Some q => if Qeq_bool q 0 then acc else nadd acc e | None => None end)
            [c; p; m] (Some 0))
  end.
(** float [*], nan kept, analyses.py 545 *)
Definition nmul := nlift Qmult.
(** float [/], nan kept; by zero nan, analyses.py 514 *)
Definition ndiv (a : num) (e : Q) : num := if Qeq_bool e 0 then None else option_map (fun x => x / e) a.

(** [b in self.E_F] etc. analyses.py 501-575. *)
Definition is_in (b : bus) (l : list bus) : bool := smem (u_label b) (map u_label l).

(** The rows added to a sankey table for one component on a bus, analyses.py
    524-538 and 552-567; [port] is the number of outlets (inlets) available,
    [scale] divides by or multiplies with the efficiency *)
Definition add_share (target cat : string) (pos : nat) (v : num) (t : table) : table :=
  tadd (target, cat) (match pos with
                      | 0%nat => (v, Some 0, Some 0) | 1%nat => (Some 0, v, Some 0) | _ => (Some 0, Some 0, v)
                      end) t.
(** the loop over [cp.E_bus.items()], analyses.py 524-538, 553-567; [cp.outl[0]] of a component without outlet raises *)
Fixpoint add_shares (target cat : string) (ports : nat) (scale : num -> num)
    (l : list (nat * num)) (t : table) : res table :=
  match l with
  | [] => Ok t
  | (pos, v) :: l' =>
      match v with
      | Some q =>
          if Qeq_bool q 0 then add_shares target cat ports scale l' t
          else if Nat.ltb pos 2 then
            match ports with
            | O => Err IndexError
            | _ => add_shares target cat ports scale l' (add_share target cat pos (scale v) t)
            end
          else add_shares target cat ports scale l' (add_share target "work" pos (scale v) t)
      | None =>
          if Nat.ltb pos 2 then
            match ports with
            | O => Err IndexError
            | _ => add_shares target cat ports scale l' (add_share target cat pos None t)
            end
          else add_shares target cat ports scale l' (add_share target "work" pos None t)
      end
  end.
(** [cp.E_bus.items()], analyses.py 524 *)
Definition shares (v : bus_value) : list (nat * num) :=
  match v with
  | Shares c p m => [(0%nat, c); (1%nat, p); (2%nat, m)]
  | Plain _ => []
  end.

(** analyses.py 509-570 *)
Definition eval_member (an : analysis) (k : comp) (bal : balance) (b : bus) (mb : member) (st : state)
  : res state :=
  rbind (bus_total (E_bus bal)) (fun e =>
  if b_base mb then
    let F := ndiv e (b_eff mb) in
    let st1 := {| st_rows := dset (k_label k) {| r_F := F; r_P := e; r_base := true; r_group := k_group k |} (st_rows st);
                  st_F := if is_in b (an_F an) then nadd (st_F st) F else st_F st;
                  st_P := if is_in b (an_F an) then st_P st
                          else if is_in b (an_P an) then nsub (st_P st) F else st_P st;
                  st_L := if is_in b (an_F an) || is_in b (an_P an) then st_L st
                          else if is_in b (an_L an) then nsub (st_L st) F else st_L st;
                  st_sankey := st_sankey st |} in
    rbind (add_shares (k_group k) (k_cat_out k) (k_outlets k) (fun v => ndiv v (b_eff mb))
             (shares (E_bus bal)) (table_of (u_label b) (st_sankey st))) (fun t =>
    Ok {| st_rows := st_rows st1; st_F := st_F st1; st_P := st_P st1; st_L := st_L st1;
          st_sankey := dset (u_label b) t (st_sankey st) |})
  else
    let P := nmul e (Some (b_eff mb)) in
    let st1 := {| st_rows := dset (k_label k) {| r_F := e; r_P := P; r_base := false; r_group := k_group k |} (st_rows st);
                  st_F := if is_in b (an_F an) then nsub (st_F st) P else st_F st;
                  st_P := if is_in b (an_F an) then st_P st
                          else if is_in b (an_P an) then nadd (st_P st) P else st_P st;
                  st_L := if is_in b (an_F an) || is_in b (an_P an) then st_L st
                          else if is_in b (an_L an) then nadd (st_L st) P else st_L st;
                  st_sankey := st_sankey st |} in
    rbind (add_shares (u_label b) (k_cat_in k) (k_inlets k) (fun v => nmul v (Some (b_eff mb)))
             (shares (E_bus bal)) (table_of (k_group k) (st_sankey st))) (fun t =>
    Ok {| st_rows := st_rows st1; st_F := st_F st1; st_P := st_P st1; st_L := st_L st1;
          st_sankey := dset (k_group k) t (st_sankey st) |})).

(** evaluate_busses, analyses.py 493-575; [n] is [cp_on_num_busses] *)
Fixpoint eval_busses (an : analysis) (k : comp) (bal : balance) (bs : list bus) (n : nat) (st : state)
  : res state :=
  match bs with
  | [] => Ok st
  | b :: bs' =>
      match dget (k_label k) (u_comps b) with
      | None => eval_busses an k bal bs' n st
      | Some mb =>
          if Nat.ltb 0 n then Err TESPyNetworkError
          else rbind (eval_member an k bal b mb st) (eval_busses an k bal bs' (S n))
      end
  end.

(** A row of [component_data]; analyses.py 345-491. *)
Record comp_row := { c_label : string; c_group : string; c_F : num; c_P : num; c_D : num }.
(** analyses.py 408-435, one component *)
Definition component_step (an : analysis) (k : comp) (acc : list comp_row * state)
  : res (list comp_row * state) :=
  let '(rows, st) := acc in
  rbind (k_balance k) (fun bal =>
  let row := {| c_label := k_label k; c_group := k_group k; c_F := E_F bal; c_P := E_P bal; c_D := E_D bal |} in
  if smem (k_group k) (reserved an) then Err ValueError
  else
    let st := {| st_rows := st_rows st; st_F := st_F st; st_P := st_P st; st_L := st_L st;
                 st_sankey := if dmem (k_group k) (st_sankey st) then st_sankey st
                              else dset (k_group k) [] (st_sankey st) |} in
    rbind (eval_busses an k bal (all_busses an) 0 st) (fun st' =>
    Ok ((rows ++ [row])%list, st'))).
(** the loop of analyses.py 408-435 *)
Fixpoint run_components (an : analysis) (ks : list comp) (acc : list comp_row * state)
  : res (list comp_row * state) :=
  match ks with [] => Ok acc | k :: ks' => rbind (component_step an k acc) (run_components an ks') end.
(** analyses.py 379-405 *)
Definition start (an : analysis) : list comp_row * state :=
  ([], {| st_rows := []; st_F := Some 0; st_P := Some 0; st_L := Some 0;
          st_sankey := fold_left (fun d l => dset l [] d) (reserved an) [] |}).

(** [self.bus_data['E_D']], analyses.py 575 *)
Definition row_D (r : bus_row) : num := nsub (r_F r) (r_P r).
(** aggregation_data, analyses.py 437-459 *)
Definition aggregate (rows : dict bus_row) (c : comp_row) : comp_row :=
  match dget (c_label c) rows with
  | None => c
  | Some r =>
      {| c_label := c_label c; c_group := c_group c;
         c_F := if r_base r then nadd (c_F c) (row_D r) else c_F c;
         c_P := if r_base r then c_P c else nsub (c_P c) (row_D r);
         c_D := nadd (c_D c) (row_D r) |}
  end.
(** [Series.sum]: nan is skipped; pandas, used in analyses.py 345-491. *)
Definition nansum (l : list num) : Q :=
  fold_left (fun acc e => match e with Some q => acc + q | None => acc end) l 0.

(** Results: [network_data], [aggregation_data], the message that the balance is
    not closed (analyses.py 461-489; [ERR ** 0.5] is 1e-3) *)
Record results := { o_F : num; o_P : num; o_D : Q; o_L : num; o_open : bool;
                    o_rows : list comp_row; o_agg : list comp_row; o_bus : dict bus_row;
                    o_sankey : dict table }.
(** [abs], analyses.py 464-465 *)
Definition nabs (a : num) : num := option_map Qabs a.
(** network results and message, analyses.py 437-489 *)
Definition totals (acc : list comp_row * state) : results :=
  let '(rows, st) := acc in
  let D := nansum (map c_D rows) + nansum (map (fun r => row_D (snd r)) (st_rows st)) in
  let F := nabs (st_F st) in
  let P := nabs (st_P st) in
  let residual := nabs (nsub (nsub (nsub F P) (Some D)) (st_L st)) in
  {| o_F := F; o_P := P; o_D := D; o_L := st_L st;
     o_open := match residual with Some r => Qle_bool (1 # 1000) r | None => false end;
     o_rows := rows; o_agg := map (aggregate (st_rows st)) rows; o_bus := st_rows st;
     o_sankey := st_sankey st |}.

(** create_group_data, analyses.py 579-583: destruction of each group *)
Definition group_D (agg : list comp_row) (g : string) : Q :=
  nansum (map c_D (filter (fun c => String.eqb (c_group c) g) agg)).
(** the rows (E_D, E_D), analyses.py 579-583 *)
Definition add_D (agg : list comp_row) (sk : dict table) : dict table :=
  map (fun gt => (fst gt, tset ("E_D", "E_D")%string (Some 0, Some 0, Some (group_D agg (fst gt))) (snd gt))) sk.
(** calculate_group_input_value, analyses.py 659-668: the rows of each table for the
    label must be one (a table of n rows is added to a table of one row) *)
Fixpoint group_input (label : string) (sk : dict table) (acc : vec) : res vec :=
  match sk with
  | [] => Ok acc
  | (_, t) :: sk' =>
      match filter (fun r => String.eqb (fst (fst r)) label) t with
      | [] => group_input label sk' acc
      | [r] => group_input label sk' (vadd acc (snd r))
      | _ => Err ValueError
      end
  end.
(** column sums, nan skipped; pandas, used in analyses.py 579-657. *)
Definition vsum (t : table) : vec :=
  (Some (nansum (map (fun r => fst (fst (snd r))) t)),
   Some (nansum (map (fun r => snd (fst (snd r))) t)), Some (nansum (map (fun r => snd (snd r)) t))).
(** [input_value.sum()] of the single row, analyses.py 589 *)
Definition vskip (v : vec) : vec := vsum [(("", "")%string, v)].
(** negation of the columns subtracted, analyses.py 589 *)
Definition vneg (v : vec) : vec := let '(a, b, c) := v in (nneg a, nneg b, nneg c).
(** analyses.py 585-608 *)
Fixpoint fuel_rows (bs : list bus) (sk : dict table) : res (dict table) :=
  match bs with
  | [] => Ok sk
  | b :: bs' =>
      rbind (group_input (u_label b) sk vzero) (fun v =>
      let row := vadd (vsum (table_of (u_label b) sk)) (vneg (vskip v)) in
      fuel_rows bs' (dset "E_F" (tset (u_label b, "E_F"%string) row (table_of "E_F" sk)) sk))
  end.
(** product and loss rows, analyses.py 592-608 *)
Fixpoint out_rows (tag : string) (bs : list bus) (sk : dict table) : res (dict table) :=
  match bs with
  | [] => Ok sk
  | b :: bs' =>
      rbind (group_input (u_label b) sk vzero) (fun v =>
      let t := table_of (u_label b) sk in
      out_rows tag bs' (dset (u_label b) (tset (tag, tag) (vadd (vskip v) (vneg (vsum t))) t) sk))
  end.
(** analyses.py 610-634: streams leaving a group *)
Definition group_of (rows : list comp_row) (label : string) : string :=
  match find (fun c => String.eqb (c_label c) label) rows with Some c => c_group c | None => ""%string end.
(** rows for the connections leaving one group, analyses.py 610-634 *)
Definition link_rows (rows : list comp_row) (ls : list link) (g : string) (t : table) : table :=
  let comps := map c_label (filter (fun c => String.eqb (c_group c) g) rows) in
  fold_left (fun t k =>
    fold_left (fun t l =>
      if String.eqb (n_src l) k && negb (smem (n_tgt l) comps)
      then tadd (group_of rows (n_tgt l), n_cat l) (Some (n_chem l), Some (n_phys l), Some 0) t
      else t) ls t) comps t.
(** the loop over the tables, analyses.py 610 *)
Definition add_links (rows : list comp_row) (ls : list link) (sk : dict table) : dict table :=
  map (fun gt => (fst gt, link_rows rows ls (fst gt) (snd gt))) sk.
(** [.sum().sum()], analyses.py 642-646 *)
Definition vtotal (v : vec) : Q := let '(a, b, c) := v in nansum [a; b; c].
(** analyses.py 636-650: input and destruction of each group *)
Fixpoint group_data (groups : list string) (agg : list comp_row) (sk : dict table)
  : res (list (string * (Q * Q))) :=
  match groups with
  | [] => Ok []
  | g :: gs =>
      rbind (group_input g sk vzero) (fun v =>
      rbind (group_data gs agg sk) (fun r =>
      Ok ((g, (vtotal v,
               vtotal (vsum (filter (fun x => String.eqb (fst (fst x)) "E_D") (table_of g sk))))) :: r)))
  end.
(** [component_data["group"].unique()], analyses.py 640 *)
Fixpoint unique (l : list string) : list string :=
  match l with [] => [] | x :: l' => x :: filter (fun y => negb (String.eqb x y)) (unique l') end.

(** analyse, analyses.py 332-491 *)
Definition analyse (an : analysis) (ks : list comp) (ls : list link)
  : res (results * list (string * (Q * Q))) :=
  rbind (create an) (fun _ =>
  rbind (run_components an ks (start an)) (fun acc =>
  let r := totals acc in
  rbind (fuel_rows (an_F an) (add_D (o_agg r) (o_sankey r))) (fun sk =>
  rbind (out_rows "E_P" (an_P an) sk) (fun sk =>
  rbind (out_rows "E_L" (an_L an) sk) (fun sk =>
  let sk := add_links (o_rows r) ls sk in
  rbind (group_data (unique (map c_group (o_rows r))) (o_agg r) sk) (fun g =>
  Ok (r, g))))))).
