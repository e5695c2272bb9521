(** The LaTeX report of a network.
    Source: /repo/src/tespy/tools/document_models.py and tools/data_containers.py 507-529.
    Modelled: which values, equations and figures are in the report, and how values are marked.
    Not modelled: the LaTeX text of headings, captions, units and equations, number formats. *)
From Coq Require Import QArith Ascii.
From Verif Require Import Base.
Open Scope nat_scope.

(* -------------------------------------------------------------- figures *)

(** Pieces of the text written for figures, document_models.py 1117-1124 *)
Inductive token := Begin | Figure (f : string) | End_ | Newline.
(** [figures[2 * row:2 * (row + 1)]], document_models.py 1117 *)
Definition slice (figs : list string) (row : nat) : list string := firstn 2 (skipn (2 * row) figs).
(** place_figures, document_models.py 1113-1124 *)
Definition place_figures (figs : list string) : list token :=
  flat_map (fun row => flat_map (fun f => [Begin; Figure f; End_]) (slice figs row) ++ [Newline])
           (seq 0 (length figs / 2 + 1)).

(** Whether a text ends with a slash; os.path.join, Python *)
Fixpoint ends_slash (s : string) : bool :=
  match s with
  | EmptyString => false
  | String a EmptyString => Ascii.eqb a "/"%char
  | String _ s' => ends_slash s'
  end.
(** os.path.join(path, local) of a relative [local], Python; document_models.py 50, 1045, 1089 *)
Definition join (path local : string) : string :=
  ((if String.eqb path "" || ends_slash path then path else path ++ "/") ++ local)%string.
(** Whose characteristic is plotted, document_models.py 489-517, 578-595, 805-838, 1014-1055 *)
Inductive figure_of := OfComponent | OfConstraint | OfBus | OfEquation.
(** Name of the file of a figure: [local] begins with "figures/"; document_models.py 495,
    510, 585, 820, 1045, 1089 *)
Definition figure_file (k : figure_of) (path local : string) : string :=
  match k with
  | OfComponent => join path local
  | OfConstraint | OfBus | OfEquation => (path ++ local)%string
  end.
(** The folder created for figures, document_models.py 50-53 *)
Definition figure_folder (path : string) : string := join path "figures".

(* --------------------------------------------------------------- tables *)

(** A table of results: labels, columns, values (None is nan), and which are specified.
    network.py 1188-1200 *)
Record frame := { t_rows : list string; t_cols : list string; t_val : string -> string -> option Q }.
(** Entries of the tables as marked in the report, document_models.py 343-349 *)
Inductive cell := Bold (v : option Q) | Italic (v : option Q) | Plain (v : option Q).
(** Settings of the report, document_models.py 87-113; [f_params] of the class or Connection *)
Record settings := { f_results : bool; f_params : list string }.

(** Whether any value of a list holds; numpy any *)
Definition smem (x : string) (l : list string) : bool := existsb (String.eqb x) l.

(** Values left to the report, document_models.py 245-250, 273-278 *)
Definition conn_values (s : settings) (spec : string -> string -> bool) (t : frame) : frame :=
  let column c := match f_params s with [] => true | ps => smem c ps || existsb (fun r => spec r c) (t_rows t) end in
  {| t_rows := t_rows t; t_cols := t_cols t;
     t_val := fun l c => if (f_results s || spec l c) && column c then t_val t l c else None |}.
(** data_to_df, document_models.py 914-921: rows without values, then columns without values,
    are dropped *)
Definition polished (t : frame) : frame :=
  let some l c := match t_val t l c with Some _ => true | None => false end in
  let rows := filter (fun l => existsb (some l) (t_cols t)) (t_rows t) in
  {| t_rows := rows; t_cols := filter (fun c => existsb (fun l => some l c) rows) (t_cols t); t_val := t_val t |}.
(** The cells of the table of connections, document_models.py 330-349; the phase is left as it
    is *)
Definition conn_cell (s : settings) (spec : string -> string -> bool) (t : frame) (l c : string) : cell :=
  if String.eqb c "phase" then Plain (t_val t l c)
  else if spec l c && f_results s then Bold (t_val t l c) else Plain (t_val t l c).
(** The table of connections in the report, document_models.py 278-281, 327-361: labels, columns
    and cells; the columns with an equation (280) *)
Definition conn_table (s : settings) (spec : string -> string -> bool) (t : frame)
  : list string * list string * (string -> string -> cell) * list string :=
  let d := polished (conn_values s spec t) in
  let eqs := filter (fun c => existsb (fun l => spec l c && match t_val d l c with Some _ => true | None => false end) (t_rows d)) (t_cols d) in
  (t_rows d, t_cols d, conn_cell s spec d, eqs).

(** What is specified of the components of a class, network.py 802-810: parameters, variables,
    and whether the parameter has an equation text *)
Record comp_specs := { p_spec : string -> string -> bool; p_var : string -> string -> bool; p_latex : string -> bool }.
(** Cells of component parameters, document_models.py 646-658 *)
Definition comp_cell (s : settings) (q : comp_specs) (t : frame) (l c : string) : cell :=
  if p_var q l c then Italic (t_val t l c)
  else if p_spec q l c && f_results s then Bold (t_val t l c)
  else Plain (t_val t l c).
(** Values of component parameters, document_models.py 634-641 *)
Definition comp_values (s : settings) (q : comp_specs) (t : frame) : frame :=
  let any c := existsb (fun l => p_spec q l c || p_var q l c) (t_rows t) in
  {| t_rows := t_rows t; t_cols := t_cols t;
     t_val := fun l c =>
       if f_results s then
         match f_params s with
         | [] => t_val t l c
         | ps => if negb (smem c ps) && negb (any c) then None else t_val t l c
         end
       else if p_spec q l c || p_var q l c then t_val t l c else None |}.
(** Columns of the table of component parameters without groups, document_models.py 643-658,
    699-715: every column is written again in the loop over all columns; columns with a
    specification but no equation text are removed *)
Definition comp_columns (q : comp_specs) (t : frame) : list string :=
  filter (fun c => negb (existsb (fun l => p_spec q l c || p_var q l c) (t_rows t)) || p_latex q c) (t_cols t).
(** The table of parameters of a class, document_models.py 630-725 *)
Definition comp_table (s : settings) (q : comp_specs) (t : frame) : list string * list string * (string -> string -> cell) :=
  let d := comp_values s q t in (t_rows d, comp_columns q d, comp_cell s q d).

(* ------------------------------------------------------------ references *)

(** The container of a referenced property, data_containers.py 520-529: its attributes *)
Definition ref_attributes : list string :=
  ["ref"; "is_set"; "unit"; "func"; "deriv"; "num_eq"; "func_params"; "_solved"]%string.
(** Attribute access of that container, Python *)
Definition ref_attr (a : string) : res unit := if smem a ref_attributes then Ok tt else Err AttributeError.
(** The loop over references, document_models.py 255-268: [refs] tells which of the five
    references of a connection are set (network.py 1199) *)
Definition document_refs (refs : list (string * list string)) : res unit :=
  fold_left (fun r cr => fold_left (fun r (p : string) => rbind r (fun _ => ref_attr "val")) (snd cr) r) refs (Ok tt).
