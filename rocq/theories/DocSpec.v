(** What a reader of the report may expect.
    Source: /repo/src/tespy/tools/document_models.py (docstrings 29-48, 187-200, 1101-1112). *)
From Coq Require Import QArith.
From Verif Require Import Base DocModel.
Open Scope nat_scope.

(** The text of one figure, and of one row of figures; document_models.py 1117-1123 *)
Definition figure_text (f : string) : list token := [Begin; Figure f; End_].
Definition row_text (row : list string) : list token := flat_map figure_text row ++ [Newline].
(** Figures in a text, in order *)
Definition figures_in (t : list token) : list string :=
  flat_map (fun k => match k with Figure f => [f] | _ => [] end) t.
(** A file is in a folder, as the text of its path tells *)
Definition inside (folder file : string) : Prop := exists name, file = (folder ++ "/" ++ name)%string.
(** The value of a cell *)
Definition cell_value (c : cell) : option Q := match c with Bold v | Italic v | Plain v => v end.
