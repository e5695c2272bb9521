(** Vocabulary of the statements about tables over the life of a network. *)
From Verif Require Import Base SpecTabModel.
Open Scope string_scope.
Open Scope list_scope.

(** The network has a component of this label and class. *)
Definition has (n : net) (k l : string) : Prop := exists c, dget l (n_comps n) = Some c /\ o_class c = k.
(** No component is removed. *)
Definition no_removal (os : list op) : Prop := forall l, ~ In (Remove l) os.
(** The specification tables of a class show for a component what is specified. *)
Definition shows (Q : string -> cls) (t : tabs) (l : string) (c : comp) : Prop :=
  let q := Q (o_class c) in
  (forall p, In p (q_params q) -> exists r r', dget l (t_props t) = Some r /\ dget p r = Some (o_set c p)
     /\ dget l (t_vars t) = Some r' /\ dget p r' = Some (o_var c p))
  /\ (forall g, In g (keys (q_groups q)) -> exists r, dget l (t_groups t) = Some r /\ dget g r = Some (o_set c g))
  /\ (forall g, In g (q_chars q) -> exists r, dget l (t_chars t) = Some r /\ dget g r = Some (o_set c g)).
(** A class has columns of any kind in the table of the report. *)
Definition has_columns (q : cls) : Prop := q_params q <> [] \/ q_groups q <> [] \/ q_chars q <> [].
