(** What the marks of a report are to say. *)
From Verif Require Import Base MassModel MassSpec FluidModel FluidSpec MarkModel.

(** Labels of connections are distinct. *)
Definition labelled (k : cnet) : Prop := forall c d, In c (n_ids k) -> In d (n_ids k) -> n_label k c = n_label k d -> c = d.
(** No fluid has the name of a property. *)
Definition fluids_ok (fluids : list string) : Prop := NoDup fluids /\ forall f, In f fluids -> ~ In f fpd /\ f <> "balance"%string.
(** The mass flow of a connection is given by the user. *)
Definition gives_m (ms : mstate) (c : nat) : Prop := mspec ms c <> None.
(** The fluid branches as the preparation finds them. *)
Definition fluid_setup (k : cnet) (fbs : list (list nat)) (fs : fstate) : Prop :=
  sound_conns fs (n_ids k) /\ own_fluid fs (n_ids k) /\ separate fs fbs /\ NoDup (concat fbs) /\ ~ In [] fbs
  /\ (forall c, In c (concat fbs) <-> In c (n_ids k)).
(** The mass flow branches as the preparation finds them; every connection is in one. *)
Definition mass_setup (k : cnet) (mbs : list (list nat)) (ms : mstate) : Prop :=
  NoDup (n_ids k) /\ branches_ok mbs (n_ids k) /\ own (n_ids k) ms /\ forall c, In c (n_ids k) -> exists b, In b mbs /\ In c b.
(** After the propagation of fluids the fraction of [f] in the branch [b] of [c] is known: it is given in the branch, or some fluid
    is given and the given fractions add up to one or [f] is the only fluid left. *)
Definition settled (s : fstate) (c : nat) (b : list nat) (f : string) : Prop :=
  (exists d, In d b /\ In f (fset s d))
  \/ (~ no_specs s b /\ open_fluid s c b f /\ ((1 - ERR <= total s b)%Q \/ forall g, open_fluid s c b g -> g = f)).
