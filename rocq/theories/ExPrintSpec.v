(** Vocabulary of the statements about printed exergy analyses. *)
From Coq Require Import QArith Permutation Sorting.Sorted.
From Verif Require Import Base ExPrintModel.
Open Scope string_scope.
Open Scope list_scope.

(** The number in the column E_D. *)
Definition destruction (r : string * (string -> cell)) (q : Q) : Prop := snd r "E_D" = Num (Some q).
(** A row does not come before one with more exergy destruction, nor a row without number before
    one with a number. *)
Definition not_less (a b : string * (string -> cell)) : Prop := forall y, destruction b y -> exists x, destruction a x /\ y <= x.
(** Descending rows. *)
Definition descending (l : list (string * (string -> cell))) : Prop := StronglySorted not_less l.
(** [g] shows [f] without the columns [hidden]: the same rows with the same values, sorted or in
    their order. *)
Definition shows (sort : bool) (hidden : list string) (f g : frame) : Prop :=
  (forall c, In c (f_cols g) <-> In c (f_cols f) /\ ~ In c hidden)
  /\ (if sort then Permutation (f_rows f) (f_rows g) /\ descending (f_rows g) else f_rows g = f_rows f).
(** Tables that are sorted have the column E_D. *)
Definition has_E_D (d : data) : Prop := forall f, In f [d_comps d; d_busses d; d_agg d; d_groups d] -> In "E_D" (f_cols f).
(** The table printed under a headline. *)
Definition printed (out : list (string * frame)) (title : string) (wanted : bool) (P : frame -> Prop) : Prop :=
  (wanted = true -> exists g, In (title, g) out /\ P g) /\ (forall g, In (title, g) out -> wanted = true /\ P g).
