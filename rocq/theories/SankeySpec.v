(** Vocabulary for statements about Sankey tables. *)
From Coq Require Import QArith Qabs.
From Verif Require Import Base ExergyModel AnalysisModel.
Open Scope Q_scope.

(** The three columns of a table. *)
Inductive column := Chemical | Physical | Massless.
Definition cell (c : column) (v : vec) : num :=
  match c with Chemical => fst (fst v) | Physical => snd (fst v) | Massless => snd v end.
(** A number shown, nan counts as nothing. *)
Definition amount (v : num) : Q := match v with Some q => q | None => 0 end.

(** What flows to the target with the category, over all groups. *)
Definition flow_in (c : column) (k : string * string) (sk : dict table) : Q :=
  fold_right (fun e s => fold_right (fun r s => (if key_eqb k (fst r) then amount (cell c (snd r)) else 0) + s) s (snd e)) 0 sk.

(** Every index entry once. *)
Definition rows_unique (t : table) : Prop := NoDup (map fst t).
Definition proper (sk : dict table) : Prop := NoDup (keys sk) /\ forall g t, In (g, t) sk -> rows_unique t.

(** [s] sends something to [g]. *)
Definition feeds (s g : string) (sk : dict table) : Prop := exists t c v, In (s, t) sk /\ In ((g, c), v) t.
(** One other group feeds [g], and [g] feeds one group. *)
Definition transit (g : string) (sk : dict table) : Prop :=
  (exists s, s <> g /\ feeds s g sk /\ forall s', s' <> g -> feeds s' g sk -> s' = s) /\
  (exists t, feeds g t sk /\ forall t', feeds g t' sk -> t' = t).
(** No flow from another group and none to any. *)
Definition isolated (g : string) (sk : dict table) : Prop :=
  (forall s, s <> g -> ~ feeds s g sk) /\ forall t, ~ feeds g t sk.
(** Flows end at groups that have a table. *)
Definition closed (sk : dict table) : Prop := forall s g, feeds s g sk -> In g (keys sk).

(** [i] is where [x] occurs first. *)
Definition first_at (x : string) (l : list string) (i : nat) : Prop :=
  nth_error l i = Some x /\ forall j, (j < i)%nat -> nth_error l j <> Some x.
(** What the tables show as positive numbers, altogether. *)
Definition positive (v : num) : Q := match v with Some q => if Qle_bool q 0 then 0 else q | None => 0 end.
Definition shown_total (sk : dict table) : Q :=
  fold_right (fun e s => fold_right (fun r s =>
    positive (cell Chemical (snd r)) + positive (cell Physical (snd r)) + positive (cell Massless (snd r)) + s) s (snd e)) 0 sk.
(** Categories of all rows are among [C]. *)
Definition in_categories (C : list string) (sk : dict table) : Prop :=
  forall g t k v, In (g, t) sk -> In (k, v) t -> In (snd k) C.
(** The size of a row. *)
Definition size (v : vec) : Q := Qabs (amount (cell Chemical v)) + Qabs (amount (cell Physical v)) + Qabs (amount (cell Massless v)).
(** A link from node to node. *)
Definition joins (order : list string) (s t : string) (src tgt : nat) : Prop := nth_error order src = Some s /\ nth_error order tgt = Some t.

(** What leaves a node and what enters it, by column. *)
Definition outflow (c : column) (g : string) (sk : dict table) : Q :=
  fold_right (fun r s => amount (cell c (snd r)) + s) 0 (table_of g sk).
Definition inflow (c : column) (g : string) (sk : dict table) : Q :=
  fold_right (fun e s => fold_right (fun r s => (if String.eqb (fst (fst r)) g then amount (cell c (snd r)) else 0) + s) 0 (snd e) + s) 0 sk.
(** The three numbers of a row and their sum. *)
Definition all_numbers (v : vec) : Prop := forall c, cell c v <> None.
Definition row_sum (v : vec) : Q := amount (cell Chemical v) + amount (cell Physical v) + amount (cell Massless v).
(** As much enters as leaves. *)
Definition node_balance (g : string) (sk : dict table) : Prop := forall c, inflow c g sk == outflow c g sk.
(** The sum of one row of the table of [g]. *)
Definition entry (g : string) (k : string * string) (sk : dict table) : Q :=
  match tget k (table_of g sk) with Some v => row_sum v | None => 0 end.
(** The row exists and its columns are numbers. *)
Definition has_numbers (g : string) (k : string * string) (sk : dict table) : Prop :=
  exists v, tget k (table_of g sk) = Some v /\ all_numbers v.
(** A connection from group [g] to group [h] with the category. *)
Definition in_group (ks : list comp) (g label : string) : bool :=
  existsb (fun k => (String.eqb (k_label k) label && String.eqb (k_group k) g)%bool) ks.
Definition between (ks : list comp) (g h cat : string) (l : link) : bool :=
  (in_group ks g (n_src l) && in_group ks h (n_tgt l) && String.eqb (n_cat l) cat)%bool.
Definition carried (c : column) (l : link) : Q := match c with Chemical => n_chem l | Physical => n_phys l | Massless => 0 end.
