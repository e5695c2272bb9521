(** C122, C123: malformed and rejected calls of set_attr. *)
From Verif Require Import ConnSpecModel CompSpecModel ConnSpecSpec CompSpecSpec SetAttrSpec SetAttrProofs SetAttrWitness.
Open Scope string_scope.
Open Scope list_scope.

(** C122 – a call on a connection that returns normally named only keywords of
    connections, with values of the right type; names in design and offdesign
    are names of properties. *)
Theorem C122_connection_keywords :
  forall parse kw c c', set_attr parse kw c = (c', None) ->
    forall k v, In (k, v) kw -> In k connection_keywords /\ well_typed k v.
Proof. exact conn_keywords. Qed.
Print Assumptions C122_connection_keywords.

(** C122 – the label of a connection cannot be changed. *)
Theorem C122_label_protected :
  forall parse kw c, In "label" (keys kw) -> snd (set_attr parse kw c) <> None.
Proof. exact label_protected. Qed.
Print Assumptions C122_label_protected.

(** C122 – the same for components: keywords are parameters or settings, names in
    design and offdesign are parameters of the component, flags are booleans. *)
Theorem C122_component_keywords :
  forall parse kw c c', cset_attr parse kw c = (c', None) ->
    forall k v, In (k, v) kw ->
    (In k (keys (k_params c)) \/ In k component_settings) /\
    (~ In k (keys (k_params c)) -> In k ["design"; "offdesign"] ->
       exists l, v = CV (PList l) /\ forall x, In x l -> In x (keys (k_params c))) /\
    (~ In k (keys (k_params c)) -> In k ["local_design"; "local_offdesign"; "printout"; "char_warnings"] -> exists b, v = CV (PBool b)).
Proof. exact comp_settings. Qed.
Print Assumptions C122_component_keywords.

(** C122 – dictionaries only write fields the parameter has, ordinary parameters
    take no characteristics, characteristics take nothing but characteristics. *)
Theorem C122_component_fields :
  forall parse kw c c', cset_attr parse kw c = (c', None) ->
    forall k q, dget k (k_params c) = Some q ->
    (forall fs, In (k, CDict fs) kw -> q_kind q <> KSimple -> forall f, In f fs -> has_field (q_kind q) f) /\
    (q_kind q = KCp -> forall i, ~ In (k, CChar i) kw) /\
    (has_curve (q_kind q) -> forall v, In (k, v) kw -> v = CV PNone \/ exists x, v = CChar x \/ exists fs, v = CDict fs).
Proof. exact comp_fields. Qed.
Print Assumptions C122_component_fields.

(** C122 – a design path given to a component is stored and marked as not yet read. *)
Theorem C122_component_design_path :
  forall parse kw c c' v, cset_attr parse kw c = (c', None) -> NoDup (keys kw) ->
    dget "design_path" (k_params c) = None -> dget "design_path" kw = Some v ->
    k_design_path c' = v /\ k_new_design c' = true.
Proof. exact path_given. Qed.
Print Assumptions C122_component_design_path.

Example C122_case :
  snd (set_attr (fun _ => None) [("design", PList ["m"; "T"]); ("state", PStr "g")] conn_default) = None /\
  snd (set_attr (fun _ => None) [("design", PList ["m"; "eta_s"])] conn_default) = Some ValueError /\
  exists c', cset_attr (fun _ => None)
     [("eta_s", CDict [FVal (PNum (Fin 1)); FIsSet true]); ("design", CV (PList ["eta_s"])); ("design_path", CV (PStr "d"))] ex_comp = (c', None) /\
    k_design c' = ["eta_s"] /\ k_new_design c' = true.
Proof. split; [reflexivity|]. split; [reflexivity|]. eexists. split; [reflexivity|]. split; reflexivity. Qed.

(** C123 – "a rejected call changes nothing" is false: keywords before the
    misspelt one stay in force. *)
Theorem C123_rejected_call_changes_nothing_refuted :
  exists parse kw c c' e, set_attr parse kw c = (c', Some e) /\ value_spec c "m" = None /\
    value_spec c' "m" = Some (PNum (Fin 5)).
Proof. exact not_atomic. Qed.
Print Assumptions C123_rejected_call_changes_nothing_refuted.

(** C123 – not even for a single keyword: a number for a reference is rejected, but
    the reference counts as specified from then on, without an object to refer to. *)
Theorem C123_rejected_reference_refuted :
  exists parse k v c c' e, set_attr parse [(k, v)] c = (c', Some e) /\
    rp_is_set (c_ref c k) = false /\ rp_is_set (c_ref c' k) = true /\ rp_ref (c_ref c' k) = None.
Proof. exact reference_flagged. Qed.
Print Assumptions C123_rejected_reference_refuted.

(** C123 – what does hold: exactly the keywords before the rejected one take
    effect, unless that one is a composition or a reference. *)
Theorem C123_keywords_before_partial :
  forall parse kw c c' e, set_attr parse kw c = (c', Some e) ->
    exists before k v after c1, kw = before ++ (k, v) :: after /\ set_attr parse before c = (c1, None) /\
      snd (set_attr parse [(k, v)] c1) = Some e /\
      (~ In k ["fluid"; "m_ref"; "p_ref"; "h_ref"; "T_ref"; "v_ref"] -> c' = c1).
Proof. exact rejected_call. Qed.
Print Assumptions C123_keywords_before_partial.

Example C123_case :
  exists c', set_attr (fun _ => None) [("T", PNum (Fin 300)); ("state", PStr "s"); ("m", PNum (Fin 5))] conn_default = (c', Some TypeError) /\
    value_spec c' "T" = Some (PNum (Fin 300)) /\ value_spec c' "m" = None.
Proof. eexists. split; [reflexivity|]. split; reflexivity. Qed.
