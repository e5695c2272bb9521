(** C214-C218: the report of a network. *)
From Coq Require Import QArith.
From Verif Require Import Base DocModel DocSpec DocProofs DocWitness.
Open Scope nat_scope.

(** C214 – every figure is placed once, in order, *)
Theorem C214_figures : forall figs, figures_in (place_figures figs) = figs.
Proof. exact figures_placed. Qed.
Print Assumptions C214_figures.

(** C214 – in rows of two. *)
Theorem C214_rows : forall figs,
  exists rows : list (list string),
    concat rows = figs
    /\ length rows = length figs / 2 + 1
    /\ Forall (fun r => length r <= 2) rows
    /\ (forall i, S i < length rows -> length (nth i rows []) = 2)
    /\ place_figures figs = flat_map row_text rows.
Proof. exact figures_rows. Qed.
Print Assumptions C214_rows.

Example C214_ex : place_figures ["a"; "b"; "c"]%string =
  [Begin; Figure "a"; End_; Begin; Figure "b"; End_; Newline; Begin; Figure "c"; End_; Newline].
Proof. reflexivity. Qed.

(** C215 – connections: a specified value is in the table whatever is selected, bold with results, with its equation; *)
Theorem C215_specified : forall s spec t l c v,
  In l (t_rows t) -> In c (t_cols t) -> spec l c = true -> t_val t l c = Some v ->
  let '(rows, cols, cells, eqs) := conn_table s spec t in
  In l rows /\ In c cols /\ In c eqs /\ cell_value (cells l c) = Some v
  /\ (c <> "phase"%string -> cells l c = if f_results s then Bold (Some v) else Plain (Some v)).
Proof. exact conn_specified. Qed.
Print Assumptions C215_specified.

(** C215 – nothing else is bold; *)
Theorem C215_bold : forall s spec t l c v,
  let '(_, _, cells, _) := conn_table s spec t in
  cells l c = Bold v -> spec l c = true /\ f_results s = true.
Proof. exact conn_bold. Qed.
Print Assumptions C215_bold.

(** C215 – without results the values are the specified ones; *)
Theorem C215_inputs : forall s spec t l c v,
  f_results s = false ->
  let '(_, _, cells, _) := conn_table s spec t in
  cell_value (cells l c) = Some v -> spec l c = true /\ t_val t l c = Some v.
Proof. exact conn_inputs_only. Qed.
Print Assumptions C215_inputs.

(** C215 – equations only of columns with a specified value; *)
Theorem C215_equations : forall s spec t c,
  let '(rows, cols, cells, eqs) := conn_table s spec t in
  In c eqs -> In c cols /\ exists l v, In l rows /\ spec l c = true /\ t_val t l c = Some v.
Proof. exact conn_equations. Qed.
Print Assumptions C215_equations.

(** C215 – with results the selected columns and those with specifications are shown. *)
Theorem C215_selected : forall s spec t l c v,
  f_results s = true ->
  let '(rows, cols, cells, eqs) := conn_table s spec t in
  (In l (t_rows t) -> In c (t_cols t) -> t_val t l c = Some v -> In c (f_params s) \/ f_params s = [] ->
   In l rows /\ In c cols /\ cell_value (cells l c) = Some v)
  /\ (In c cols -> f_params s <> [] -> In c (f_params s) \/ exists r, In r (t_rows t) /\ spec r c = true).
Proof. exact conn_selected. Qed.
Print Assumptions C215_selected.

(** C215 – components: specified parameters bold, variables italic; *)
Theorem C215_components : forall s q t l c,
  In l (t_rows t) -> In c (t_cols t) -> p_spec q l c || p_var q l c = true -> p_latex q c = true ->
  let '(rows, cols, cells) := comp_table s q t in
  In l rows /\ In c cols
  /\ cells l c = if p_var q l c then Italic (t_val t l c)
                 else if f_results s then Bold (t_val t l c) else Plain (t_val t l c).
Proof. exact comp_specified. Qed.
Print Assumptions C215_components.

(** C215 – without results the values are the specified ones; *)
Theorem C215_component_inputs : forall s q t l c v,
  f_results s = false ->
  let '(_, _, cells) := comp_table s q t in
  cell_value (cells l c) = Some v -> p_spec q l c || p_var q l c = true /\ t_val t l c = Some v.
Proof. exact comp_inputs_only. Qed.
Print Assumptions C215_component_inputs.

(** C215 – with results, the values shown are those of the chosen parameters and of all that are specified somewhere; *)
Theorem C215_component_results : forall s q t l c v,
  f_results s = true ->
  let '(_, _, cells) := comp_table s q t in
  cell_value (cells l c) = Some v <->
  t_val t l c = Some v /\ (f_params s = [] \/ In c (f_params s) \/ exists r, In r (t_rows t) /\ p_spec q r c || p_var q r c = true).
Proof. exact comp_results. Qed.
Print Assumptions C215_component_results.

(** C215 – nothing else is bold or italic. *)
Theorem C215_marks : forall s q t l c v,
  let '(_, _, cells) := comp_table s q t in
  (cells l c = Bold v -> p_spec q l c = true /\ p_var q l c = false /\ f_results s = true)
  /\ (cells l c = Italic v <-> p_var q l c = true /\ v = t_val (comp_values s q t) l c).
Proof. exact comp_marks. Qed.
Print Assumptions C215_marks.

Example C215_ex :
  (let '(rows, cols, cells, eqs) := conn_table (only ["h"]) demo_spec demo_frame in
   rows = ["c1"; "c2"] /\ cols = ["p"; "T"] /\ eqs = ["p"; "T"]
   /\ cells "c1" "p" = Bold (Some (10 # 1)%Q) /\ cells "c2" "p" = Plain (Some (20 # 1)%Q))%string
  /\ (let '(rows, cols, cells, eqs) := conn_table inputs demo_spec demo_frame in
   cols = ["p"; "T"] /\ cells "c1" "p" = Plain (Some (10 # 1)%Q) /\ cells "c2" "p" = Plain None)%string
  /\ (let '(_, cols, cells) := comp_table (only []) demo_specs demo_comps in
   cells "turbine" "pr" = Italic (Some (1 # 2)%Q) /\ cells "turbine" "eta_s" = Bold (Some (9 # 10)%Q)
   /\ cells "turbine" "P" = Plain (Some (1 # 2)%Q))%string.
Proof. repeat split. Qed.

(** C216 – one reference of one connection is enough. *)
Theorem C216_references_refuted : exists refs, document_refs refs <> Ok tt /\ exists c p, refs = [(c, [p])].
Proof.
  exists [("c1", ["m_ref"])]%string. split; [discriminate|]. now exists "c1"%string, "m_ref"%string.
Qed.
Print Assumptions C216_references_refuted.

(** C216 – the report fails exactly if a reference is set on any connection. *)
Theorem C216_all_partial : forall refs,
  document_refs refs = if existsb (fun cr => negb (Nat.eqb (length (snd cr)) 0)) refs then Err AttributeError else Ok tt.
Proof. exact refs_fail. Qed.
Print Assumptions C216_all_partial.

Example C216_ex : document_refs [("c1", []); ("c2", ["T_ref"])]%string = Err AttributeError
  /\ document_refs [("c1", []); ("c2", [])]%string = Ok tt.
Proof. split; reflexivity. Qed.

(** C217 – of the default folder, a bus characteristic. *)
Theorem C217_folder_refuted : exists k path name, ~ inside (figure_folder path) (figure_file k path ("figures/" ++ name)).
Proof.
  exists OfBus, "report"%string, "Bus.pdf"%string. intros H.
  apply (proj1 (other_figures OfBus "report" "Bus.pdf" ltac:(discriminate))) in H as [H|H]; [discriminate H|].
  apply ends_slash_iff in H. discriminate H.
Qed.
Print Assumptions C217_folder_refuted.

(** C217 – figures of component characteristics are in the folder, *)
Theorem C217_component_partial : forall path name,
  inside (figure_folder path) (figure_file OfComponent path ("figures/" ++ name)).
Proof. exact component_figures. Qed.
Print Assumptions C217_component_partial.

(** C217 – the others exactly if the path is empty or ends with a slash. *)
Theorem C217_others_partial : forall k path name,
  k <> OfComponent ->
  (inside (figure_folder path) (figure_file k path ("figures/" ++ name))
   <-> path = ""%string \/ exists q, path = (q ++ "/")%string).
Proof. exact other_figures. Qed.
Print Assumptions C217_others_partial.

Example C217_ex : figure_file OfBus "report" "figures/b.pdf" = "reportfigures/b.pdf"%string
  /\ figure_file OfComponent "report" "figures/b.pdf" = "report/figures/b.pdf"%string
  /\ figure_file OfEquation "report/" "figures/b.pdf" = "report/figures/b.pdf"%string.
Proof. repeat split. Qed.

(** C218 – a column neither selected nor specified is in the table. *)
Theorem C218_selection_refuted : exists s q t c, f_results s = true /\ f_params s <> [] /\ ~ In c (f_params s)
  /\ (forall l, p_spec q l c = false /\ p_var q l c = false)
  /\ let '(_, cols, _) := comp_table s q t in In c cols.
Proof.
  exists (only ["eta_s"])%string, demo_specs, demo_comps, "P"%string.
  split; [reflexivity|]. split; [discriminate|]. split.
  - intros [H|[]]. discriminate H.
  - split; [now split|]. cbn. tauto.
Qed.
Print Assumptions C218_selection_refuted.

(** C218 – the columns never depend on the selection. *)
Theorem C218_columns_partial : forall s q t,
  let '(rows, cols, _) := comp_table s q t in
  let '(rows', cols', _) := comp_table {| f_results := f_results s; f_params := [] |} q t in
  rows = rows' /\ cols = cols'.
Proof. exact comp_unrestricted. Qed.
Print Assumptions C218_columns_partial.

(** C218 – a specified parameter without text of its equation is never in the table. *)
Theorem C218_untold_partial : forall s q t l c,
  In l (t_rows t) -> p_spec q l c || p_var q l c = true -> p_latex q c = false ->
  let '(_, cols, _) := comp_table s q t in ~ In c cols.
Proof. exact comp_untold. Qed.
Print Assumptions C218_untold_partial.

Example C218_ex : (let '(_, cols, cells) := comp_table (only ["P"]) demo_specs demo_comps in
  cols = ["eta_s"; "pr"; "P"] /\ p_spec demo_specs "turbine" "Tamb" = true)%string.
Proof. split; reflexivity. Qed.
