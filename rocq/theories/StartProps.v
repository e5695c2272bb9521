From Coq Require Import QArith.
From Verif Require Import Base MassModel FluidModel FluidSpec StartSpec StartProofs StartProofs2 StartWitness.
Open Scope nat_scope.
Open Scope string_scope.
Open Scope list_scope.

(** C274 – in a network with several fluids, an unknown fraction that has no value yet starts everywhere in a branch with the value given
    as fluid0 at the first connection of the branch, and with one over the number of fluids if none is given there. *)
Theorem C274_first_connection : forall conns bs s s' fluids,
  sound_conns s conns -> own_fluid s conns -> own_values s conns -> branches_of conns bs ->
  fluids_of s conns fluids -> 1 < length fluids -> composed conns bs s s' ->
  forall main others c f, In (main :: others) bs -> In c (main :: others) -> In f (fvar s' c) -> ~ In f (keys (frac s main)) -> In f fluids ->
  dget f (frac s' c) = Some (start_value s fluids main f).
Proof. exact composed_start. Qed.
Print Assumptions C274_first_connection.

(** C274 – a fraction that has a value keeps it when the fluids are propagated, whatever starting values are given. *)
Theorem C274_values_stay : forall conns s s0 c f q,
  sound_conns s conns -> propagate conns s = (s0, None) ->
  (exists g h, g <> h /\ occurs s conns g /\ occurs s conns h) -> In c conns -> dget f (frac s c) = Some q -> dget f (frac s0 c) = Some q.
Proof. exact start_ignored. Qed.
Print Assumptions C274_values_stay.

(** Example: the hypotheses hold of a merge; air starts with 3/10 as given at the first connection, water with 1/2. *)
Example C274_hyps : sound_conns ex_new ex_conns /\ own_fluid ex_new ex_conns /\ own_values ex_new ex_conns /\ branches_of ex_conns ex_bs
  /\ fluids_of ex_new ex_conns ex_fluids.
Proof. exact (new_setup ex_new (or_introl eq_refl)). Qed.
Example C274_ex : composed ex_conns ex_bs ex_new (ex_prep ex_new)
  /\ map (fun c => (dget "air" (frac (ex_prep ex_new) c), dget "water" (frac (ex_prep ex_new) c))) [0; 1]
     = [(Some (3 # 10)%Q, Some (1 # 2)%Q); (Some (3 # 10)%Q, Some (1 # 2)%Q)].
Proof. split; [exact (ex_composed ex_new (or_introl eq_refl))|vm_compute; reflexivity]. Qed.

(** C275 – false: a starting value given at any connection of a branch is used. *)
Theorem C275_other_connection_refuted : exists conns bs s s' fluids b c f q,
  sound_conns s conns /\ own_fluid s conns /\ own_values s conns /\ branches_of conns bs /\ fluids_of s conns fluids /\ composed conns bs s s'
  /\ In b bs /\ In c b /\ In f (fvar s' c) /\ dget f (fc_val0 (cont_of s c)) = Some q
  /\ exists q', dget f (frac s' c) = Some q' /\ ~ (q' == q)%Q.
Proof. exact other_ignored. Qed.
Print Assumptions C275_other_connection_refuted.

(** C275 – false: a starting value given at the first connection of a branch after a calculation is used by the next one. *)
Theorem C275_later_refuted : exists conns bs work s s1 main others f q s2,
  sound_conns s conns /\ own_fluid s conns /\ own_values s conns /\ branches_of conns bs
  /\ solve_fluids conns bs work s = (s1, None) /\ In (main :: others) bs
  /\ composed conns bs (set_fluid0 main [(f, q)] s1) s2 /\ In f (fvar s2 main) /\ exists q', dget f (frac s2 main) = Some q' /\ ~ (q' == q)%Q.
Proof. exact later_ignored. Qed.
Print Assumptions C275_later_refuted.

(** C275 – once every fluid has a value everywhere, as after a calculation, no starting value given later at any connection has an effect on
    the compositions a calculation starts from. *)
Theorem C275_later_always : forall conns s c d s0,
  sound_conns s conns -> calculated s conns -> (exists g h, g <> h /\ occurs s conns g /\ occurs s conns h) ->
  propagate conns s = (s0, None) ->
  exists s1, propagate conns (set_fluid0 c d s) = (s1, None)
  /\ forall x, In x conns -> frac s1 x = frac s0 x /\ frac s1 x = frac s x /\ fset s1 x = fset s0 x /\ fvar s1 x = fvar s0 x.
Proof. exact later_always. Qed.
Print Assumptions C275_later_always.
Example C275_hyps : sound_conns ex_solved ex_conns /\ calculated ex_solved ex_conns
  /\ (exists g h, g <> h /\ occurs ex_solved ex_conns g /\ occurs ex_solved ex_conns h) /\ snd (propagate ex_conns ex_solved) = None.
Proof. exact solved_setup. Qed.

(** C275 – false: a fluid given with a starting value is a fluid of the connection. *)
Theorem C275_new_fluid_refuted : exists conns bs s s' fluids main others f q,
  sound_conns s conns /\ own_fluid s conns /\ own_values s conns /\ branches_of conns bs /\ fluids_of s conns fluids /\ composed conns bs s s'
  /\ In (main :: others) bs /\ dget f (fc_val0 (cont_of s main)) = Some q /\ (0 < q)%Q /\ ~ In f (keys (frac s' main)).
Proof. exact third_ignored. Qed.
Print Assumptions C275_new_fluid_refuted.
