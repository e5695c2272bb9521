(** Vocabulary for fluid wrapper branches: fluids are followed through component ports. *)
From Coq Require Import Relations.
From Verif Require Import TopoModel TopoSpec BranchModel BranchSpec.
Open Scope string_scope.

Section W.
Variable W : world.
Variable n : net.

(** Fluid on connection [a] gets to connection [b] in one component. *)
Definition fluid_next (a b : nat) : Prop :=
  has_conn n a /\ has_conn n b /\ w_target W a = w_source W b /\
  match kind_of W (w_target W a) with
  | Through => paired W a b
  | Node | Separator | Drum | Merge | Combustion => True
  | Engine => (paired W a b /\ (w_target_id W a = "in1" \/ w_target_id W a = "in2")) \/
              ((w_target_id W a = "in3" \/ w_target_id W a = "in4") /\ w_source_id W b = "out3")
  | FuelCell | Electrolyzer => w_target_id W a = "in1" /\ w_source_id W b = "out1"
  | Source | Sink | CycleCloser => False
  end.
Definition fluid_reach := clos_refl_trans nat fluid_next.

(** New fluids begin on [a]. *)
Definition fluid_starts (a : nat) : Prop :=
  has_conn n a /\
  match kind_of W (w_source W a) with
  | Source | CycleCloser => True
  | FuelCell => w_source_id W a = "out2"
  | Electrolyzer => w_source_id W a = "out2" \/ w_source_id W a = "out3"
  | _ => False
  end.

(** One source of fluid supplies both connections. *)
Definition same_fluid (c d : nat) : Prop := exists s, fluid_starts s /\ fluid_reach s c /\ fluid_reach s d.

(** No combustion engines; NodeBase is the base class of nodes, not a component. *)
Definition no_engine : Prop := forall k, has_comp n k -> kind_of W k <> Engine /\ w_class W k <> "NodeBase".
End W.

(** Branches hold a connection. *)
Definition held (bs : dict (list nat * list nat)) (c : nat) : Prop := exists l b, In (l, b) bs /\ In c (fst b).
(** One branch holds two connections. *)
Definition together (bs : dict (list nat * list nat)) (c d : nat) : Prop := exists l b, In (l, b) bs /\ In c (fst b) /\ In d (fst b).
(** Two connections are linked by a chain of branches that overlap. *)
Definition linked (bs : dict (list nat * list nat)) : nat -> nat -> Prop := clos_refl_trans nat (together bs).
