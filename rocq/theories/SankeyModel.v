(** Input for Sankey diagrams from an exergy analysis (AnalysisModel).
    Models /repo/src/tespy/tools/analyses.py 669-810. Tables are lists of rows; the order in
    which pandas puts the rows of a sum of two tables is not modelled (here: first table, then
    rows new in the second). *)
From Coq Require Import QArith Qabs.
From Verif Require Import Base ExergyModel AnalysisModel.
Open Scope Q_scope.
Open Scope list_scope.

(** index.get_level_values("target_group"), analyses.py 673, 695. *)
Definition targets (t : table) : list string := map (fun r => fst (fst r)) t.
(** single_group_input, analyses.py 671-676. *)
Definition single_group_input (g : string) (sk : dict table) : list string :=
  map fst (filter (fun e => smem g (targets (snd e)) && negb (String.eqb (fst e) g)) sk).

(** Addition of DataFrames with fill_value=0, analyses.py 699: nan and missing entries count
    as 0 unless both are; None is nan. *)
Definition padd (a b : num) : num :=
  match a, b with
  | Some x, Some y => Some (x + y)
  | Some x, None => Some x
  | None, b => b
  end.
(** The same for a row, analyses.py 699. *)
Definition vpadd (a b : vec) : vec :=
  let '(a1, a2, a3) := a in let '(b1, b2, b3) := b in (padd a1 b1, padd a2 b2, padd a3 b3).
(** DataFrame.add, analyses.py 699. *)
Definition frame_add (a b : table) : table :=
  map (fun r => (fst r, match tget (fst r) b with Some w => vpadd (snd r) w | None => snd r end)) a
  ++ filter (fun r => match tget (fst r) a with Some _ => false | None => true end) b.
(** Rows to a group dropped, analyses.py 700-701. *)
Definition drop_target (g : string) (t : table) : table :=
  filter (fun r => negb (String.eqb (fst (fst r)) g)) t.

(** analyses.py 697-702: the table of the only source takes the rows of the group, the group is
    deleted. *)
Definition bypass (g s : string) (sk : dict table) : dict table :=
  ddel g (dset s (drop_target g (frame_add (table_of s sk) (table_of g sk))) sk).

(** One target group only, analyses.py 695. *)
Definition one_target (t : table) : bool := Nat.eqb (length (unique (targets t))) 1.

(** remove_transit_groups, analyses.py 690-709: [scan] is the loop over the keys, which ends
    with a recursive call [again] when a group was bypassed. *)
Fixpoint scan (res_groups : list string) (again : dict table -> res (dict table)) (ks : list string)
  (sk : dict table) : res (dict table) :=
  match ks with
  | [] => Ok sk
  | g :: ks' =>
      if smem g res_groups then scan res_groups again ks' sk
      else
        match single_group_input g sk with
        | [s] => if one_target (table_of g sk) then again (bypass g s sk) else scan res_groups again ks' sk
        | [] => match table_of g sk with
                | [] => scan res_groups again ks' (ddel g sk)
                | _ => scan res_groups again ks' sk
                end
        | _ => scan res_groups again ks' sk
        end
  end.
(** analyses.py 690-709; out of fuel is Python's RecursionError. *)
Fixpoint remove_transit (fuel : nat) (res_groups : list string) (sk : dict table) : res (dict table) :=
  match fuel with
  | 0%nat => Err RecursionError
  | S fuel' => scan res_groups (remove_transit fuel' res_groups) (keys sk) sk
  end.

(** Rows with an absolute sum (nan skipped) at the threshold or above, analyses.py 750-754. *)
Definition shown (thr : Q) (r : (string * string) * vec) : bool :=
  let '(a, b, c) := snd r in Qle_bool thr (nansum [nabs a; nabs b; nabs c]).
(** analyses.py 752-754. *)
Definition above (thr : Q) (sk : dict table) : dict table :=
  map (fun e => (fst e, filter (shown thr) (snd e))) sk.

(** The order of nodes if none is passed, analyses.py 758-764. *)
Definition default_order (an : analysis) (groups : list string) : list string :=
  ["E_F"%string] ++ map u_label (an_F an) ++ groups ++ map u_label (an_int an ++ an_P an ++ an_L an)
  ++ ["E_P"; "E_L"; "E_D"]%string.

(** The colours by category, analyses.py 778-790 (the entry for nan is left out: no category
    is nan). *)
Definition colordict : dict string :=
  [("E_F", "rgba(242, 142, 43, 0.90)"); ("E_P", "rgba(118, 183, 178, 0.90)"); ("E_D", "rgba(176, 122, 161, 0.90)");
   ("E_L", "rgba(156, 117, 95, 0.90)"); ("combustion-gas", "rgba(237, 201, 72, 0.90)");
   ("non-combustion-gas", "rgba(186, 176, 172, 0.90)"); ("two-phase-fluid", "rgba(89, 161, 79, 0.90)");
   ("incompressible", "rgba(255, 157, 167, 0.90)"); ("work", "rgba(78, 121, 167, 0.90)"); ("heat", "rgba(225, 87, 89, 0.90)")]%string.
(** colordict.update(colors), analyses.py 791. *)
Definition palette (colors : dict string) : dict string := fold_left (fun d c => dset (fst c) (snd c) d) colors colordict.

(** list.index, analyses.py 800, 806. *)
Fixpoint index_of (x : string) (l : list string) : res nat :=
  match l with
  | [] => Err ValueError
  | y :: l' => if String.eqb x y then Ok 0%nat else rmap S (index_of x l')
  end.

(** A link: source, target, value, colour; analyses.py 793-798. *)
Record slink := { l_src : nat; l_tgt : nat; l_val : Q; l_col : string }.

(** One cell of a table, analyses.py 803-808. *)
Definition cell_link (pal : dict string) (order : list string) (src : nat) (k : string * string) (v : num) : res (list slink) :=
  match v with
  | Some q =>
      if Qle_bool q 0 then Ok []
      else rbind (index_of (fst k) order) (fun t =>
           match dget (snd k) pal with
           | Some c => Ok [{| l_src := src; l_tgt := t; l_val := q; l_col := c |}]
           | None => Err KeyError
           end)
  | None => Ok []
  end.
(** One row, analyses.py 801-808. *)
Definition row_links (pal : dict string) (order : list string) (src : nat) (r : (string * string) * vec) : res (list slink) :=
  let '(a, b, c) := snd r in
  rbind (cell_link pal order src (fst r) a) (fun x =>
  rbind (cell_link pal order src (fst r) b) (fun y =>
  rbind (cell_link pal order src (fst r) c) (fun z => Ok (x ++ y ++ z)))).
(** One table, analyses.py 799-808. *)
Definition table_links (pal : dict string) (order : list string) (e : string * table) : res (list slink) :=
  rbind (index_of (fst e) order) (fun src => rmap (@concat slink) (rmapM (row_links pal order src) (snd e))).

(** Nodes not in the order passed, analyses.py 766-769. *)
Definition missing (order : list string) (sk : dict table) : list string :=
  filter (fun n => negb (smem n order)) (keys sk).

(** generate_plotly_sankey_input, analyses.py 750-810: tables, group labels, order, colours,
    threshold; [disaggregate] is not used by the code. *)
Definition sankey_input (an : analysis) (groups : list string) (order : list string) (colors : dict string)
  (thr : Q) (disaggregate : bool) (sk : dict table) : res (list slink * list string) :=
  rbind (remove_transit (S (length sk)) (reserved an) (above thr sk)) (fun sk' =>
  let order' := match order with [] => default_order an groups | _ => order end in
  match order, missing order sk' with
  | _ :: _, _ :: _ => Err ValueError
  | _, _ => rmap (fun ls => (concat ls, order')) (rmapM (table_links (palette colors) order') sk')
  end).

(** The tables and groups an analysis ends with, analyses.py 345-491 with create_group_data
    579-650 (the steps of [analyse]). *)
Definition final_tables (an : analysis) (ks : list comp) (ls : list link) : res (list string * dict table) :=
  rbind (create an) (fun _ =>
  rbind (run_components an ks (start an)) (fun acc =>
  let r := totals acc in
  rbind (fuel_rows (an_F an) (add_D (o_agg r) (o_sankey r))) (fun sk =>
  rbind (out_rows "E_P" (an_P an) sk) (fun sk =>
  rbind (out_rows "E_L" (an_L an) sk) (fun sk =>
  let sk := add_links (o_rows r) ls sk in
  rbind (group_data (unique (map c_group (o_rows r))) (o_agg r) sk) (fun g => Ok (map fst g, sk))))))).
(** The diagram of an analysis: analyse, then generate_plotly_sankey_input (analyses.py
    345-491, 750-810). *)
Definition diagram (an : analysis) (ks : list comp) (ls : list link) (order : list string) (colors : dict string)
  (thr : Q) (disaggregate : bool) : res (list slink * list string) :=
  rbind (final_tables an ks ls) (fun gs => sankey_input an (fst gs) order colors thr disaggregate (snd gs)).
