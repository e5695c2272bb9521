(** ExergyAnalysis.print_results.
    Source: /repo/src/tespy/tools/analyses.py 812-894.
    The text tabulate makes of a table is not modelled. *)
From Coq Require Import QArith.
From Verif Require Import Base.
Open Scope string_scope.
Open Scope list_scope.

(** A cell: number (None is nan) or text (names of groups, base of a bus), analyses.py 356-376 *)
Inductive cell := Num (q : option Q) | Text (s : string).
(** A table: columns and labelled rows, analyses.py 356-376, 634-637 *)
Record frame := { f_cols : list string; f_rows : list (string * (string -> cell)) }.
(** The tables of an analysis, analyses.py 356-376, 444, 634 *)
Record data := { d_conns : frame; d_comps : frame; d_busses : frame; d_agg : frame; d_network : frame; d_groups : frame }.
(** Arguments, analyses.py 812-815 *)
Record options := { p_sort : bool; p_busses : bool; p_comps : bool; p_conns : bool; p_groups : bool; p_network : bool; p_agg : bool }.
(** Defaults, analyses.py 812-815 *)
Definition defaults : options := {| p_sort := true; p_busses := true; p_comps := true; p_conns := true; p_groups := true; p_network := true; p_agg := true |}.

(** [df.loc[:, df.columns != name]], analyses.py 852, 862, 872 *)
Definition without (names : list string) (f : frame) : frame :=
  {| f_cols := filter (fun c => negb (smem c names)) (f_cols f); f_rows := f_rows f |}.
(** Descending by E_D, rows without number at the end; analyses.py 854, 864, 874, 890. pandas
    does not promise an order of equal rows, the model keeps theirs. *)
Definition before (a b : string * (string -> cell)) : bool :=
  match snd a "E_D", snd b "E_D" with
  | Num (Some x), Num (Some y) => Qle_bool y x
  | Num (Some _), _ => true
  | _, Num (Some _) => false
  | _, _ => true
  end.
(** Insertion of a row; sort_values in analyses.py 854 *)
Fixpoint insert (r : string * (string -> cell)) (l : list (string * (string -> cell))) : list (string * (string -> cell)) :=
  match l with [] => [r] | x :: l' => if before r x then r :: l else x :: insert r l' end.
(** sort_values in analyses.py 854 *)
Definition sorted (l : list (string * (string -> cell))) : list (string * (string -> cell)) := fold_right insert [] l.
(** analyses.py 853-854: a table without this column cannot be sorted *)
Definition sort_frame (b : bool) (f : frame) : res frame :=
  if b then if smem "E_D" (f_cols f) then Ok {| f_cols := f_cols f; f_rows := sorted (f_rows f) |} else Err KeyError else Ok f.
(** One section: headline and table, if it is wanted. analyses.py 843-894 *)
Definition section (b : bool) (title : string) (f : res frame) : res (list (string * frame)) :=
  if b then rmap (fun f => [(title, f)]) f else Ok [].
(** print_results, analyses.py 843-894 *)
Definition print_results (o : options) (d : data) : res (list (string * frame)) :=
  rbind (section (p_conns o) "Connection specific physical exergy and chemical exergy" (Ok (d_conns d))) (fun a =>
  rbind (section (p_comps o) "Component exergy analysis" (sort_frame (p_sort o) (without ["group"] (d_comps d)))) (fun b =>
  rbind (section (p_busses o) "Bus exergy analysis" (sort_frame (p_sort o) (without ["group"; "base"] (d_busses d)))) (fun c =>
  rbind (section (p_agg o) "Aggregation of components and busses" (sort_frame (p_sort o) (without ["group"] (d_agg d)))) (fun e =>
  rbind (section (p_network o) "Network exergy analysis" (Ok (d_network d))) (fun f =>
  rbind (section (p_groups o) "Functional groups exergy flows" (sort_frame (p_sort o) (d_groups d))) (fun g =>
  Ok (a ++ b ++ c ++ e ++ f ++ g))))))).
