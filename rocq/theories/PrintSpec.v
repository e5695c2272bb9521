(** What a reader finds in the printed tables. *)
From Coq Require Import QArith.
From Verif Require Import Base PrintModel.

(** A row with a label and these cells is in the table with this title. *)
Definition shows (l : list section) (title label : string) (cells : list cell) : Prop :=
  exists s, In s l /\ s_title s = title /\ In (label, cells) (s_rows s).

(** A label is in the table with this title. *)
Definition mentions (l : list section) (title label : string) : Prop :=
  exists cells, shows l title label cells.

(** Labels of components and connections are unique (Network.check_network, C13, C14); the
    tables hold the components of their type and only numbers. *)
Record well_formed (n : pnet) : Prop := {
  wf_comps : NoDup (map pc_label (n_comps n));
  wf_conns : NoDup (map cn_label (n_conns n));
  wf_numbers : forall c t l vs, In c (n_comps n) -> dget (pc_type c) (n_results n) = Some t ->
    In (l, vs) (t_rows t) -> length vs = length (t_cols t) /\ Forall (fun v => exists q, v = Num q) vs
}.

(** The value is outside of the limits by more than the tolerance. *)
Definition off_limits (p : pparam) (v : option Q) : Prop :=
  exists q, v = Some q /\ (q < q_min p - (1 # 1000000) \/ q_max p + (1 # 1000000) < q)%Q.

(** Titles of tables of busses differ from the ones of components and connections. *)
Definition not_bus_title (s : string) : Prop := forall b, s <> ("Bus: " ++ b)%string.
