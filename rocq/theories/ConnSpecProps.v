(** C09, C10, C11, C47, C48, C49: connection specifications. *)
From Verif Require Import ConnSpecModel ConnSpecSpec ConnSpecProofs ConnSpecProofs2 ConnSpecWitness.
Open Scope string_scope.
Open Scope list_scope.

(** C09 – after a call that returns normally a property that was named has the
    value given (None: no value; a reference: value untouched), one that was not
    named is as before. Holds for every connection state, every keyword
    combination and whatever Python's float makes of strings. *)
Theorem C09_values :
  forall parse kw c c' p,
    settable p -> NoDup (keys kw) -> set_attr parse kw c = (c', None) ->
    value_spec c' p = match dget p kw with
                      | None => value_spec c p
                      | Some PNone => None
                      | Some (PRef _ _ _) => value_spec c p
                      | Some v => Some v
                      end.
Proof.
  exact (fun parse kw c c' p Hp Hn H =>
    eq_trans (value_spec_set_attr parse p kw c c' Hp Hn H)
      (match dget p kw as o return
         match o with None | Some (PRef _ _ _) => value_spec c p | Some PNone => None | Some v => Some v end =
         match o with None => value_spec c p | Some PNone => None | Some (PRef _ _ _) => value_spec c p | Some v => Some v end
       with None => eq_refl | Some PNone => eq_refl | Some (PRef _ _ _) => eq_refl
       | Some (PNum _) => eq_refl | Some (PBool _) => eq_refl | Some (PStr _) => eq_refl
       | Some (PList _) => eq_refl | Some (PDict _) => eq_refl | Some PObj => eq_refl end)).
Qed.
Print Assumptions C09_values.

(** C09 – references likewise. *)
Theorem C09_references :
  forall parse kw c c' p,
    referable p -> NoDup (keys kw) -> dget (p ++ "_ref")%string kw = None ->
    set_attr parse kw c = (c', None) ->
    ref_spec c' p = match dget p kw with
                    | Some PNone => None
                    | Some (PRef o f d) => Some (o, f, d)
                    | _ => ref_spec c p
                    end.
Proof. exact (fun parse kw c c' p => ref_spec_set_attr parse p kw c c'). Qed.
Print Assumptions C09_references.

(** C09 – starting values are set by the keyword with a trailing 0 and by
    nothing else. *)
Theorem C09_starting_values :
  forall parse kw c c' p,
    settable p -> NoDup (keys kw) -> set_attr parse kw c = (c', None) ->
    start_value c' p = match dget (p ++ "0")%string kw with Some v => v | None => start_value c p end.
Proof. exact (fun parse kw c c' p => start_value_set_attr parse p kw c c'). Qed.
Print Assumptions C09_starting_values.

(** C09 – all other attributes: as given when named, otherwise as before. *)
Theorem C09_other_attributes :
  forall parse kw c c',
    NoDup (keys kw) -> set_attr parse kw c = (c', None) ->
    c_design c' = match dget "design" kw with Some (PList l) => l | _ => c_design c end /\
    c_offdesign c' = match dget "offdesign" kw with Some (PList l) => l | _ => c_offdesign c end /\
    c_printout c' = match dget "printout" kw with Some (PBool b) => b | _ => c_printout c end /\
    c_local_design c' = match dget "local_design" kw with Some (PBool b) => b | _ => c_local_design c end /\
    c_local_offdesign c' = match dget "local_offdesign" kw with Some (PBool b) => b | _ => c_local_offdesign c end /\
    c_mixing c' = match dget "mixing_rule" kw with Some v => v | _ => c_mixing c end /\
    c_balance c' = match dget "fluid_balance" kw with Some (PBool b) => b | _ => c_balance c end /\
    state_spec c' = match dget "state" kw with
                    | Some (PStr s) => Some s | Some PNone => None | _ => state_spec c end /\
    (c_design_path c', c_new_design c') =
      match dget "design_path" kw with Some v => (v, true) | _ => (c_design_path c, c_new_design c) end.
Proof.
  exact (fun parse kw c c' Hn H =>
    conj (design_set_attr parse kw c c' Hn H) (conj (offdesign_set_attr parse kw c c' Hn H)
    (conj (printout_set_attr parse kw c c' Hn H) (conj (local_design_set_attr parse kw c c' Hn H)
    (conj (local_offdesign_set_attr parse kw c c' Hn H) (conj (mixing_set_attr parse kw c c' Hn H)
    (conj (balance_set_attr parse kw c c' Hn H) (conj (state_set_attr parse kw c c' Hn H)
    (design_path_set_attr parse kw c c' Hn H))))))))).
Qed.
Print Assumptions C09_other_attributes.

(** C09 – any number of successive calls: the last number or None given for a
    property decides. *)
Theorem C09_last_call_wins :
  forall parse p calls c,
    settable p -> Forall (fun kw => NoDup (keys kw)) calls -> all_succeed parse calls c ->
    value_spec (set_attr_history parse calls c) p = value_after (given_for p calls) (value_spec c p).
Proof. exact (fun parse p calls c Hp Hn => value_history parse p calls Hp Hn c). Qed.
Print Assumptions C09_last_call_wins.

Theorem C09_last_reference_wins :
  forall parse p calls c,
    referable p -> Forall (fun kw => NoDup (keys kw)) calls ->
    Forall (fun kw => dget (p ++ "_ref")%string kw = None) calls -> all_succeed parse calls c ->
    ref_spec (set_attr_history parse calls c) p = ref_after (given_for p calls) (ref_spec c p).
Proof. exact (fun parse p calls c Hp Hn Hr => ref_history parse p calls Hp Hn Hr c). Qed.
Print Assumptions C09_last_reference_wins.

(** C09 – after any history, raising calls included, mass flow, pressure and
    enthalpy are unknowns of the problem exactly when no value is in force. *)
Theorem C09_unknown_iff_unset :
  forall parse calls p,
    In p ["m"; "p"; "h"] ->
    let c := set_attr_history parse calls conn_default in
    fp_is_var (c_prop c p) = true <-> value_spec c p = None.
Proof. exact history_unknown. Qed.
Print Assumptions C09_unknown_iff_unset.

Example C09_case :
  NoDup (keys ex_kw) /\ snd (set_attr ex_parse ex_kw conn_default) = None /\
  all_succeed ex_parse [ex_kw; [("m", PNone); ("x", PNum (Fin 1))]] conn_default /\
  value_spec (set_attr_history ex_parse [ex_kw; [("m", PNone); ("x", PNum (Fin 1))]] conn_default) "m" = None.
Proof.
  split; [|vm_compute; tauto].
  cbn. repeat constructor; cbn; intuition discriminate.
Qed.

(** C10 – None withdraws value and reference, whatever was set before, and makes
    mass flow, pressure and enthalpy unknowns again. *)
Theorem C10_none_unsets :
  forall parse c c' p,
    settable p -> set_attr parse [(p, PNone)] c = (c', None) ->
    value_spec c' p = None /\ (referable p -> ref_spec c' p = None) /\
    (In p ["m"; "p"; "h"] -> fp_is_var (c_prop c' p) = true).
Proof. exact none_unsets. Qed.
Print Assumptions C10_none_unsets.

(** C10 – unsetting never fails. *)
Theorem C10_none_accepted :
  forall parse c p, settable p -> exists c', set_attr parse [(p, PNone)] c = (c', None).
Proof. exact none_accepted. Qed.
Print Assumptions C10_none_accepted.

Example C10_case :
  exists c', set_attr ex_parse [("h", PNone)] (fst (set_attr ex_parse ex_kw conn_default)) = (c', None) /\
    ref_spec (fst (set_attr ex_parse ex_kw conn_default)) "h" <> None /\ ref_spec c' "h" = None.
Proof. eexists. split; [reflexivity|]. split; [vm_compute; discriminate|reflexivity]. Qed.

(** C47 – "at most one specification per property" is false: a number followed by
    a reference leaves both in force. *)
Theorem C47_one_specification_refuted :
  exists parse calls p, all_succeed parse calls conn_default /\
    value_spec (set_attr_history parse calls conn_default) p <> None /\
    ref_spec (set_attr_history parse calls conn_default) p <> None.
Proof.
  exact (ex_intro _ (fun _ => None) (ex_intro _ [[("m", PNum (Fin 5))]; [("m", PRef 1 2 0)]]
    (ex_intro _ "m" both_in_force))).
Qed.
Print Assumptions C47_one_specification_refuted.

(** C47 – what does hold: both are in force only if both were given and no None
    came in between. *)
Theorem C47_both_only_if_given_partial :
  forall parse p calls,
    referable p -> Forall (fun kw => NoDup (keys kw)) calls ->
    Forall (fun kw => dget (p ++ "_ref")%string kw = None) calls -> all_succeed parse calls conn_default ->
    value_spec (set_attr_history parse calls conn_default) p <> None ->
    ref_spec (set_attr_history parse calls conn_default) p <> None ->
    exists before since, given_for p calls = (before ++ since)%list /\ ~ In PNone since /\
      (exists o f d, In (PRef o f d) since) /\
      (exists v, In v since /\ v <> PNone /\ forall o f d, v <> PRef o f d).
Proof. exact both_only_if_given. Qed.
Print Assumptions C47_both_only_if_given_partial.

(** C48 – "numpy.nan unsets a value" (class documentation) is false: the
    property counts as specified, with nan as its value, and a mass flow,
    pressure or enthalpy stops being an unknown. *)
Theorem C48_nan_unsets_refuted :
  exists parse c c', set_attr parse [("p", PNum NaN)] c = (c', None) /\
    value_spec c' "p" = Some (PNum NaN) /\ fp_is_var (c_prop c' "p") = false.
Proof. exact nan_sets. Qed.
Print Assumptions C48_nan_unsets_refuted.

(** C11 – after any history of successful calls: a fluid is fixed iff its latest
    entry gave a fraction; its fraction and back end are those of its latest
    entry with a fraction. *)
Theorem C11_fluids_after_history :
  forall parse calls fluid,
    Forall (fun kw => NoDup (keys kw)) calls -> all_succeed parse calls conn_default ->
    let f := c_fluid (set_attr_history parse calls conn_default) in
    (In fluid (fl_is_set f) <-> fixed_after (given_entries fluid calls) false = true) /\
    dget fluid (fl_val f) = fraction_after (given_entries fluid calls) None /\
    dget fluid (fl_back_end f) = back_end_after (given_entries fluid calls) None.
Proof. exact fluid_history_default. Qed.
Print Assumptions C11_fluids_after_history.

(** C11 – consistency after any history, raising calls included. *)
Theorem C11_consistent :
  forall parse calls, fluid_ok (c_fluid (set_attr_history parse calls conn_default)).
Proof. exact (fun parse calls => history_fluid_ok parse calls conn_default default_fluid_ok). Qed.
Print Assumptions C11_consistent.

(** C11 – names of fluids: without colons they are the fluid, with one "::" back end and fluid;
    several separators are rejected. *)
Theorem C11_names : forall be fluid rest, no_colon be -> no_colon fluid ->
  split_back_end fluid = Ok (None, fluid)
  /\ split_back_end (be ++ "::" ++ fluid)%string = Ok (Some be, fluid)
  /\ split_back_end (be ++ "::" ++ fluid ++ "::" ++ rest)%string = Err ValueError.
Proof. exact back_end_names. Qed.
Print Assumptions C11_names.

Example C11_names_ex : split_back_end "INCOMP::T66" = Ok (Some "INCOMP", "T66") /\ no_colon "INCOMP" /\ no_colon "T66".
Proof. repeat split; try reflexivity; discriminate. Qed.

(** C11 – engines: the mapping given last is the one in force. *)
Theorem C11_engines :
  forall parse kw c c',
    NoDup (keys kw) -> set_attr parse kw c = (c', None) ->
    fl_engine (c_fluid c') =
      match dget "fluid_engines" kw with Some (PDict d) => d | _ => fl_engine (c_fluid c) end.
Proof. exact engines_set_attr. Qed.
Print Assumptions C11_engines.

Example C11_case :
  Forall (fun kw => NoDup (keys kw)) ex_fluids /\ all_succeed ex_parse ex_fluids conn_default /\
  fl_is_set (c_fluid (set_attr_history ex_parse ex_fluids conn_default)) = ["air"] /\
  fl_is_var (c_fluid (set_attr_history ex_parse ex_fluids conn_default)) = ["water"].
Proof.
  split; [|vm_compute; tauto].
  repeat constructor; cbn; intuition discriminate.
Qed.

(** C49 – "a new composition replaces the old one" is false: fractions of fluids
    that the new composition does not mention stay fixed. *)
Theorem C49_composition_replaced_refuted :
  exists parse calls, all_succeed parse calls conn_default /\
    given_for "fluid" calls = [PDict [("H2O", DNum (Fin 1))]; PDict [("N2", DNum (Fin 1))]] /\
    In "H2O" (fl_is_set (c_fluid (set_attr_history parse calls conn_default))) /\
    In "N2" (fl_is_set (c_fluid (set_attr_history parse calls conn_default))).
Proof. exact composition_accumulates. Qed.
Print Assumptions C49_composition_replaced_refuted.
