From Coq Require Import QArith.
From Verif Require Import Base MassModel MassSpec FluidModel FluidSpec MarkModel MarkSpec MarkProofs MarkProofs2 MarkWitness.
From Verif Require DocModel.
Open Scope nat_scope.
Open Scope string_scope.
Open Scope list_scope.

(** C272 – after a successful preparation everything the user gave at a connection is marked in the tables of specifications; properties
    other than mass flow, the fluid balance and references are marked exactly if they are given. *)
Theorem C272_given_is_marked : forall mref mbs fbs k fluids ms fs t,
  labelled k -> fluids_ok fluids -> mass_setup k mbs ms -> fluid_setup k fbs fs -> prepare mref mbs fbs k fluids ms fs = Ok t ->
  forall c, In c (n_ids k) ->
  (gives_m ms c -> marked (fst t) (n_label k c) "m" = true)
  /\ (forall v, In v fpd -> v <> "m" -> marked (fst t) (n_label k c) v = n_flag k c v)
  /\ (forall f, In f fluids -> In f (fset fs c) -> marked (fst t) (n_label k c) f = true)
  /\ marked (fst t) (n_label k c) "balance" = n_balance k c
  /\ forall v, In v ref_cols -> marked (snd t) (n_label k c) v = n_ref k c v.
Proof. exact mark_given. Qed.
Print Assumptions C272_given_is_marked.

(** C272 – the mass flow of a connection is marked exactly if it is given somewhere in its branch. *)
Theorem C272_mass_flow : forall mref mbs fbs k fluids ms fs t,
  labelled k -> mass_setup k mbs ms -> prepare mref mbs fbs k fluids ms fs = Ok t ->
  forall b c, In b mbs -> In c b -> (marked (fst t) (n_label k c) "m" = true <-> exists d, In d b /\ gives_m ms d).
Proof. exact mark_m. Qed.
Print Assumptions C272_mass_flow.

(** C272 – a fluid of a connection is marked exactly if its fraction is settled in the branch: given there, or following from what is
    given since the given fractions add up to one or it is the only fluid left. *)
Theorem C272_fluid : forall mref mbs fbs k fluids ms fs t fs0,
  labelled k -> fluids_ok fluids -> fluid_setup k fbs fs ->
  prepare mref mbs fbs k fluids ms fs = Ok t -> propagate (n_ids k) fs = (fs0, None) ->
  forall b c f, In b fbs -> In c b -> In f fluids -> (marked (fst t) (n_label k c) f = true <-> settled fs0 c b f).
Proof. exact mark_fluid. Qed.
Print Assumptions C272_fluid.

(** Example: the hypotheses hold of a network with a merge; given values and nothing else of the other properties are marked. *)
Example C272_hyps : labelled ex_net /\ fluids_ok ex_fluids /\ mass_setup ex_net ex_bs ex_ms /\ fluid_setup ex_net ex_bs ex_fs
  /\ prepare (fun _ => None) ex_bs ex_bs ex_net ex_fluids ex_ms ex_fs = Ok ex_tables.
Proof. exact (conj ex_labelled (conj ex_fluids_ok (conj ex_mass (conj ex_fluid_setup ex_ok)))). Qed.
Example C272_ex :
  map (fun l => map (marked (fst ex_tables) l) ["m"; "p"; "h"; "air"; "water"; "balance"]) ["c1"; "c2"; "c3"]
  = [[true; true; false; true; true; false]; [true; false; false; true; true; false]; [false; false; false; true; true; false]]
  /\ map (fun l => marked (snd ex_tables) l "T_ref") ["c1"; "c2"; "c3"] = [false; false; true].
Proof. split; vm_compute; reflexivity. Qed.

(** C273 – false: a mass flow printed bold in the report, or marked in the table, is one that the user gave at that connection. *)
Theorem C273_mass_flow_refuted : exists mref mbs fbs k fluids ms fs t c,
  labelled k /\ fluids_ok fluids /\ mass_setup k mbs ms /\ fluid_setup k fbs fs /\ prepare mref mbs fbs k fluids ms fs = Ok t
  /\ In c (n_ids k) /\ ~ gives_m ms c /\ marked (fst t) (n_label k c) "m" = true
  /\ exists s r v, let '(_, _, cells, _) := report s t r in cells (n_label k c) "m" = DocModel.Bold v.
Proof. exact bold_mass_flow. Qed.
Print Assumptions C273_mass_flow_refuted.

(** C273 – false: a fluid that is printed bold was given somewhere in the branch; the remaining fluid of a branch is marked although
    no connection of the branch has it among its specifications. *)
Theorem C273_fluid_refuted : exists mref mbs fbs k fluids ms fs t b c f,
  labelled k /\ fluids_ok fluids /\ mass_setup k mbs ms /\ fluid_setup k fbs fs /\ prepare mref mbs fbs k fluids ms fs = Ok t
  /\ In b fbs /\ In c b /\ (forall d, In d b -> ~ In f (fset fs d)) /\ marked (fst t) (n_label k c) f = true
  /\ exists s r v, let '(_, _, cells, _) := report s t r in cells (n_label k c) f = DocModel.Bold v.
Proof. exact bold_fluid. Qed.
Print Assumptions C273_fluid_refuted.
