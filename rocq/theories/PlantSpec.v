(** Vocabulary of the statements about whole plants. *)
From Coq Require Import Reals List String Bool Arith Permutation.
From Verif Require Import Base EqnModel JacModel PlantModel EqnSpec.
Import ListNotations.
Open Scope R_scope.

Definition plant := list part.

(** Every connection leaves one component and enters one component: the list of all inlets is
    the list of all outlets in another order. *)
Definition wired (pl : plant) : Prop :=
  Permutation (flat_map inlets pl) (flat_map outlets pl).

(** The state solves the mandatory equations of all components. *)
Definition solved (isv : qty -> bool) (pl : plant) (e : env) : Prop :=
  Forall (fun p => shares_mass p /\ all_zero (residuals isv p e)) pl.

(** What the equations rely on: mass fractions at merges without mass balance add up to one,
    and the reactors have enough unknown mass flows for both stoichiometric equations. *)
Definition regular (isv : qty -> bool) (e : env) (p : part) : Prop :=
  match p with
  | PMerge ins o =>
      merge_num_mass_eq isv ins o <> 1%nat ->
      forall c, In c (ins ++ [o]) -> normalised e (ckeys o) c
  | PFuelCell r _ i1 i2 _ o1 _ =>
      r_Mo r + 2 * r_Mh r <> 0 /\
      (isv (QM (cm o1)) = true \/ (isv (QM (cm i1)) = true /\ isv (QM (cm i2)) = true))
  | PElectrolyzer r _ i1 _ o1 o2 _ =>
      r_Mo r + 2 * r_Mh r <> 0 /\
      (isv (QM (cm i1)) = true \/ (isv (QM (cm o1)) = true /\ isv (QM (cm o2)) = true))
  | _ => True
  end.

Definition sources (pl : plant) : list conn :=
  flat_map (fun p => match p with PSource o => [o] | _ => [] end) pl.
Definition sinks (pl : plant) : list conn :=
  flat_map (fun p => match p with PSink i => [i] | _ => [] end) pl.
Definition closers (pl : plant) : list (conn * conn) :=
  flat_map (fun p => match p with PCloser i o => [(i, o)] | _ => [] end) pl.

(** Deviations reported by the cycle closers. *)
Definition reported_deviations (pl : plant) (e : env) : list R :=
  map (fun io => mass_deviation (fst io) (snd io) e) (closers pl).

(** Heat and power given to the streams inside a component: what the one-stream components
    report, the heat released in combustion (relative to the reference enthalpies), the power and heat
    loss of an engine, the electricity of an electrolyser less the enthalpy of reaction. *)
Definition supplied (p : part) (e : env) : R :=
  match p with
  | PFlow i o => duty i o e
  | PChamber b ins o eta =>
      ti (b_lhv b) (b_fuels b) ins [o] e * pval e eta
      - rsum (map (fun c => vm e c * pref (b_props b) c (xs e c)) ins)
      + vm e o * pref (b_props b) o (xs e o)
  | PEngine b _ _ _ _ ins o Pw Ql =>
      ti (b_lhv b) (b_fuels b) ins [o] e
      - rsum (map (fun c => vm e c * pref (b_props b) c (xs e c)) ins)
      + vm e o * pref (b_props b) o (xs e o)
      + pval e Pw + pval e Ql
  | PElectrolyzer r _ i1 _ o1 o2 P =>
      pval e P - vm e o2 * r_e0 r
      + (vm e o1 * r_ho r + vm e o2 * r_hh r - vm e i1 * r_hw r)
  | _ => 0
  end.

(** Streams whose enthalpy is the mass weighted sum of enthalpies depending on temperature only
    (ideal mixing), the fluids being balanced one by one or all but one. *)
Definition ideal (e : env) (p : part) : Prop :=
  match p with
  | PSeparator i outl fl T =>
      exists (fluids : list string) (hf : string -> R -> R),
        (forall c, In c (i :: outl) ->
           vh e c = rsum (map (fun f => vx e c f * hf f (T c (vp e c) (vh e c))) fluids)) /\
        (forall f, In f fluids ->
           In f fl \/ forall c, In c (i :: outl) -> normalised e (fl ++ [f]) c)
  | _ => True
  end.

Definition is_fuel_cell (p : part) : bool :=
  match p with PFuelCell _ _ _ _ _ _ _ => true | _ => false end.
Definition is_reacting (p : part) : bool :=
  match p with
  | PChamber _ _ _ _ | PEngine _ _ _ _ _ _ _ _ _
  | PFuelCell _ _ _ _ _ _ _ | PElectrolyzer _ _ _ _ _ _ _ => true
  | _ => false
  end.

(** The composition of a plant is passed on, fluid [f] is balanced at the merges and
    separators, and a drum receives one composition. *)
Definition carries (f : string) (e : env) (p : part) : Prop :=
  shares_fluid p /\
  match p with
  | PMerge _ o => In f (ckeys o)
  | PSeparator i outl fl _ =>
      In f fl \/ forall c, In c (i :: outl) -> normalised e (fl ++ [f]) c
  | PDrum i0 i1 _ _ => vx e i1 f = vx e i0 f
  | _ => True
  end.
