(** C203, C204, C205: the printed results. *)
From Coq Require Import QArith.
From Verif Require Import Base PrintModel PrintSpec PrintProofs PrintProofs2 PrintWitness.
Open Scope nat_scope.

(** C203 – a component is in the table of its type exactly if it is not hidden; without colours every result is printed in order. *)
Theorem C203_component : forall show colored k n l c t vs,
  well_formed n -> print_results show colored k n = Ok l -> In c (n_comps n) ->
  dget (pc_type c) (n_results n) = Some t -> t_cols t <> [] -> NoDup (map fst (t_rows t)) ->
  In (pc_label c, vs) (t_rows t) -> pc_type c <> "Connection"%string -> not_bus_title (pc_type c) ->
  (mentions l (pc_type c) (pc_label c) <-> pc_print c = true) /\
  (colored = false -> forall cells, shows l (pc_type c) (pc_label c) cells ->
     cells = map (fun v => Text (show v)) vs).
Proof. exact component_listed. Qed.
Print Assumptions C203_component.

(** C203 – red for values outside the limits, otherwise the colours of variables and of specified values. *)
Theorem C203_colours : forall show k c p v,
  pc_print c = true ->
  let wrap (m : string) := Some (m ++ " " ++ show (Num v) ++ " " ++ c_end k)%string in
  let cell := print_components show true k c p v in
  (off_limits (pc_param c p) v -> cell = wrap (c_err k)) /\
  (~ off_limits (pc_param c p) v ->
     (q_var (pc_param c p) = true -> cell = wrap (c_var k)) /\
     (q_var (pc_param c p) = false -> q_set (pc_param c p) = true -> cell = wrap (c_set k)) /\
     (q_var (pc_param c p) = false -> q_set (pc_param c p) = false -> cell = Some (show (Num v)))).
Proof. exact colours_mean. Qed.
Print Assumptions C203_colours.

(** C203 – a connection is printed exactly if it is not hidden, with its results, specified values in colour. *)
Theorem C203_connection : forall show colored k n l c t vs,
  well_formed n -> print_results show colored k n = Ok l -> In c (n_conns n) ->
  ~ In "Connection"%string (map pc_type (n_comps n)) ->
  dget "Connection"%string (n_results n) = Some t -> NoDup (map fst (t_rows t)) ->
  In (cn_label c, vs) (t_rows t) ->
  (mentions l "Connection" (cn_label c) <-> cn_print c = true) /\
  (forall cells, shows l "Connection" (cn_label c) cells ->
     cells = map (fun p => Text
       (if colored && cn_set c p then (c_set k ++ show (cn_val c p) ++ c_end k)%string
        else show (match col_of t vs p with Some v => v | None => Num None end)))
       ["m"; "p"; "h"; "T"; "x"; "phase"]%string).
Proof. exact connection_listed. Qed.
Print Assumptions C203_connection.

(** C203 – all components of a bus and the sum of their values. *)
Theorem C203_bus : forall show k n l b t,
  print_results show false k n = Ok l -> In b (n_busses n) ->
  dget (b_label b) (n_results n) = Some t -> b_print b = true -> ~ In "total"%string (map fst (t_rows t)) ->
  exists s q1 q2, In s l /\ s_title s = ("Bus: " ++ b_label b)%string /\
    s_rows s = (map (fun r => (fst r, map (fun c => Value (match col_of t (snd r) c with Some v => v | None => Num None end))
                                 ["component value"; "bus value"; "efficiency"]%string)) (t_rows t)
               ++ [("total"%string, [Value (Num (Some q1)); Value (Num (Some q2)); Value (Num None)])])%list /\
    (q1 == fold_right (fun r s => match col_of t (snd r) "component value" with Some v => num v | None => 0 end + s) 0 (t_rows t))%Q /\
    (q2 == fold_right (fun r s => match col_of t (snd r) "bus value" with Some v => num v | None => 0 end + s) 0 (t_rows t))%Q.
Proof. exact bus_listed. Qed.
Print Assumptions C203_bus.

(** C203 – nothing is printed of hidden busses. *)
Theorem C203_bus_hidden : forall show colored k n l b,
  print_results show colored k n = Ok l ->
  (forall b', In b' (n_busses n) -> b_label b' = b_label b -> b_print b' = false) ->
  (forall c, In c (n_comps n) -> pc_type c <> ("Bus: " ++ b_label b)%string) ->
  forall a, ~ mentions l ("Bus: " ++ b_label b) a.
Proof. exact bus_hidden. Qed.
Print Assumptions C203_bus_hidden.

(** C203 – a solved network can be printed. *)
Theorem C203_prints : forall show colored k n,
  (forall c, In c (n_comps n) -> exists t, dget (pc_type c) (n_results n) = Some t /\
     forall a vs, In (a, vs) (t_rows t) -> find_comp n a <> None) ->
  (exists t, dget "Connection"%string (n_results n) = Some t /\
     (forall c, In c ["m"; "p"; "h"; "T"; "x"; "phase"]%string -> In c (t_cols t)) /\
     forall a vs, In (a, vs) (t_rows t) -> find_conn n a <> None) ->
  (forall b, In b (n_busses n) -> exists t, dget (b_label b) (n_results n) = Some t /\
     (forall c, In c ["component value"; "bus value"; "efficiency"]%string -> In c (t_cols t))) ->
  exists l, print_results show colored k n = Ok l.
Proof. exact prints. Qed.
Print Assumptions C203_prints.

Example C203_ex : well_formed (w_net false) /\
  print_results w_show true w_k (w_net false) = Ok
   [ {| s_title := "Pump"; s_cols := ["P"; "eta_s"]; s_rows := [("pump", [Text "R 1.0 E"; Text "S 1.0 E"])] |};
     {| s_title := "Connection"; s_cols := ["m"; "p"; "h"; "T"; "x"; "phase"];
        s_rows := [("c1", [Text "S1.0E"; Text "1.0"; Text "1.0"; Text "1.0"; Text "nan"; Text "l"])] |};
     {| s_title := "Bus: power"; s_cols := ["component value"; "bus value"; "efficiency"];
        s_rows := [("pump", [Value (Num (Some 5%Q)); Text "1.0"; Value (Num (Some 1%Q))]);
                   ("total", [Value (Num (Some 5%Q)); Text "1.0"; Value (Num None)])] |} ]%string.
Proof. split; [apply w_wf|reflexivity]. Qed.

(** C204 – a network that has never been solved raises KeyError instead. *)
Theorem C204_unsolved_refuted : exists show colored k n, n_results n = [] /\ n_comps n <> [] /\
  print_results show colored k n <> Err TESPyNetworkError /\ print_results show colored k n = Err KeyError.
Proof. exists w_show, false, w_k, w_new. repeat split; try discriminate; reflexivity. Qed.
Print Assumptions C204_unsolved_refuted.

(** C204 – what is missing: the documented exception is not raised for any network. *)
Theorem C204_errors_partial : forall show colored k n e, print_results show colored k n = Err e ->
  e = KeyError \/ e = AttributeError.
Proof. exact errors. Qed.
Print Assumptions C204_errors_partial.

(** C204 – but something is raised as long as there are no results of connections. *)
Theorem C204_unsolved_partial : forall show colored k n,
  dget "Connection"%string (n_results n) = None ->
  exists e, print_results show colored k n = Err e /\ (e = KeyError \/ e = AttributeError).
Proof. exact unsolved. Qed.
Print Assumptions C204_unsolved_partial.

(** C205 – the row of a component labelled total is replaced by the sum; other components are listed (C203). *)
Theorem C205_bus_refuted : exists n l b t vs,
  print_results w_show false w_k n = Ok l /\ In b (n_busses n) /\ b_print b = true /\
  dget (b_label b) (n_results n) = Some t /\ In ("total", vs) (t_rows t) /\
  col_of t vs "bus value" = Some (Num (Some 6%Q)) /\
  forall cells, shows l ("Bus: " ++ b_label b) "total" cells ->
    cells <> map (fun c => Value (match col_of t vs c with Some v => v | None => Num None end))
               ["component value"; "bus value"; "efficiency"].
Proof. exact total_lost. Qed.
Print Assumptions C205_bus_refuted.
