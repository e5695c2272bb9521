(** C52, C154, C155: fluid wrapper branches. *)
From Coq Require Import Relations.
From Verif Require Import TopoModel TopoSpec BranchModel BranchSpec BranchProofs WrapModel WrapSpec WrapProofs WrapWitness.
Open Scope nat_scope.
Open Scope string_scope.
Open Scope list_scope.

(** C52 – before merging there is one branch per connection on which fluid begins, under
    its label; it lists, each once, exactly the connections the fluid gets to. *)
Theorem C52_branches : forall W n f,
  accepted W n -> no_engine W n -> length (n_conns n) < f ->
  exists bs, wrapper_branches W n f = Ok bs /\ NoDup (keys bs) /\
    (forall s, fluid_starts W n s -> exists b, dget (w_label W s) bs = Some b) /\
    (forall l b, dget l bs = Some b -> exists s, fluid_starts W n s /\ w_label W s = l /\ NoDup (fst b) /\ forall x, In x (fst b) <-> fluid_reach W n s x).
Proof. exact wrapper_unmerged. Qed.
Print Assumptions C52_branches.

(** C52 – after merging: the branches hold exactly the connections supplied with fluid, all
    connections of one source of fluid stay in one branch, and connections in one branch
    are linked by fluids that meet. *)
Theorem C52_merged : forall W n order f,
  accepted W n -> no_engine W n -> set_order order -> length (n_conns n) < f ->
  exists ms, create_fluid_wrapper_branches W n order f = Ok ms /\
    (forall c, held ms c <-> exists s, fluid_starts W n s /\ fluid_reach W n s c) /\
    (forall s, fluid_starts W n s -> exists l b, In (l, b) ms /\ forall c, fluid_reach W n s c -> In c (fst b)) /\
    (forall c d, together ms c d -> clos_refl_trans nat (same_fluid W n) c d).
Proof. exact wrapper_merged. Qed.
Print Assumptions C52_merged.

Example C52_ex : accepted overlapW overlapN /\ no_engine overlapW overlapN /\
  rmap (@length _) (wrapper_branches overlapW overlapN 20) = Ok 5 /\ keys overlap_result = ["q"; "r"].
Proof. split; [apply overlap_accepted|]. split; [apply overlap_no_engine|]. split; vm_compute; reflexivity. Qed.

(** A closed loop has no branch. *)
Example C52_loop : accepted loopW loopN /\ no_engine loopW loopN /\
  create_fluid_wrapper_branches loopW loopN (nodup Nat.eq_dec) 20 = Ok [("a", ([0], [0; 1]))].
Proof. split; [apply loop_accepted|]. split; [apply loop_no_engine|]. vm_compute; reflexivity. Qed.

(** C154 – a connection can be in two of the merged branches: of two branches met later only
    the first is merged. *)
Theorem C154_disjoint_refuted : exists W n order f ms l b l' b' c, accepted W n /\ no_engine W n /\ set_order order /\ length (n_conns n) < f /\
  create_fluid_wrapper_branches W n order f = Ok ms /\ In (l, b) ms /\ In (l', b') ms /\ l <> l' /\ In c (fst b) /\ In c (fst b').
Proof. exact overlap_shared. Qed.
Print Assumptions C154_disjoint_refuted.

(** C154 – fluids that never meet keep branches of their own. Missing: fluids that meet. *)
Theorem C154_apart_partial : forall W n order f,
  accepted W n -> no_engine W n -> length (n_conns n) < f ->
  (forall s s' c, fluid_starts W n s -> fluid_starts W n s' -> fluid_reach W n s c -> fluid_reach W n s' c -> s = s') ->
  exists ms, create_fluid_wrapper_branches W n order f = Ok ms /\ NoDup (keys ms) /\
    (forall s, fluid_starts W n s -> exists b, dget (w_label W s) ms = Some b) /\
    (forall l b, dget l ms = Some b -> exists s, fluid_starts W n s /\ w_label W s = l /\ NoDup (fst b) /\ forall x, In x (fst b) <-> fluid_reach W n s x).
Proof. exact wrapper_apart. Qed.
Print Assumptions C154_apart_partial.

(** C155 – a source that feeds the cooling and the fuel inlet of a combustion engine: the
    exhaust gas is not in its branch. *)
Theorem C155_engine_refuted : exists W n order f ms s c, accepted W n /\ set_order order /\ length (n_conns n) < f /\
  create_fluid_wrapper_branches W n order f = Ok ms /\ fluid_starts W n s /\ fluid_reach W n s c /\ ~ together ms s c.
Proof. exact engine_split. Qed.
Print Assumptions C155_engine_refuted.
