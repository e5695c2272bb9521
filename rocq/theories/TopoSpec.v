(** Vocabulary for statements about the connection and component tables. *)
From Verif Require Import TopoModel.
Open Scope string_scope.

(** The connections and components a network holds. *)
Definition has_conn (n : net) (c : nat) : Prop := exists l, In (l, c) (n_conns n).
Definition has_comp (n : net) (k : nat) : Prop := exists l, In (l, k) (n_comps n).

(** Component [k] is an end of one of the network's connections. *)
Definition attached (W : world) (n : net) (k : nat) : Prop :=
  exists c, has_conn n c /\ (w_source W c = k \/ w_target W c = k).

(** The table of connections: one row per label, each row under the label of its object. *)
Definition conns_ok (W : world) (n : net) : Prop :=
  NoDup (keys (n_conns n)) /\ forall l c, In (l, c) (n_conns n) -> w_label W c = l.

(** Likewise for components, and the table lists exactly the attached ones. *)
Definition comps_ok (W : world) (n : net) : Prop :=
  NoDup (keys (n_comps n)) /\ forall l k, In (l, k) (n_comps n) -> w_clabel W k = l.
Definition mirrored (W : world) (n : net) : Prop :=
  forall k, has_comp n k <-> attached W n k.

(** Set iteration order: any function listing each element once. *)
Definition set_order (order : list nat -> list nat) : Prop :=
  forall l, NoDup (order l) /\ forall x, In x (order l) <-> In x l.

(** Operations of a user on the topology. *)
Inductive op := Add (args : list arg) | Del (cs : list nat) | Check.

Definition run_op (W : world) (order : list nat -> list nat) (check : net -> net) (o : op) (n : net)
  : net * option pyerr :=
  match o with
  | Add args => add_conns W order args n
  | Del cs => del_conns W order cs n
  | Check => (check n, None)
  end.

(** State after a history; exceptions are caught by the user, who goes on. *)
Definition history (W : world) order check (ops : list op) (n : net) : net :=
  fold_left (fun n o => fst (run_op W order check o n)) ops n.

(** A history in which no call raises and only connections of the network are deleted. *)
Fixpoint clean (W : world) order check (ops : list op) (n : net) : Prop :=
  match ops with
  | [] => True
  | o :: ops' =>
      snd (run_op W order check o n) = None /\
      (forall cs, o = Del cs -> forall c, In c cs -> has_conn n c) /\
      clean W order check ops' (fst (run_op W order check o n))
  end.

(** A network check leaves the tables alone. *)
Definition check_frame (check : net -> net) : Prop :=
  forall n, n_conns (check n) = n_conns n /\ n_comps (check n) = n_comps n.

(** Ports: connection [c] of the network uses outlet [p] of [k], or inlet [p]. *)
Definition uses_outlet (W : world) (n : net) (k : nat) (p : string) (c : nat) : Prop :=
  has_conn n c /\ w_source W c = k /\ w_source_id W c = p.
Definition uses_inlet (W : world) (n : net) (k : nat) (p : string) (c : nat) : Prop :=
  has_conn n c /\ w_target W c = k /\ w_target_id W c = p.

(** Every declared port of [k] is used by exactly one connection. *)
Definition fully_connected (W : world) (n : net) (k : nat) : Prop :=
  (forall p, In p (w_outlets W k) -> exists! c, uses_outlet W n k p c) /\
  (forall p, In p (w_inlets W k) -> exists! c, uses_inlet W n k p c).

(** Connections were created by the constructor; port names of a component are distinct. *)
Definition world_ok (W : world) (n : net) : Prop :=
  (forall c, has_conn n c ->
     create_conn W (w_source W c) (w_source_id W c) (w_target W c) (w_target_id W c) = None) /\
  forall k, NoDup (w_outlets W k) /\ NoDup (w_inlets W k).
