(** C12, C50: component specifications and parameter groups. *)
From Verif Require Import CompSpecModel CompSpecSpec CompSpecProofs CompSpecWitness.
Open Scope string_scope.
Open Scope list_scope.

(** C12 – after any history of calls, a call that returns normally puts exactly
    the specification it names into force: a number fixes the parameter, 'var'
    makes it a variable, None withdraws it (also from the variables). *)
Theorem C12_specification_in_force :
  forall parse calls c p v kw c',
    NoDup (keys kw) -> parse "var" = None -> ordinary c p -> dget p kw = Some (CV v) ->
    cset_attr parse kw (cset_attr_history parse calls c) = (c', None) ->
    spec_in_force c' p = Some (match v with
      | PNone => SUnset
      | PStr s => if String.eqb s "var" then SVariable else SFixed v
      | _ => SFixed v
      end).
Proof. exact specify_all. Qed.
Print Assumptions C12_specification_in_force.

(** C12 – parameters that are not named keep every field, also when the call raises. *)
Theorem C12_frame :
  forall parse p kw c, dget p kw = None ->
    dget p (k_params (fst (cset_attr parse kw c))) = dget p (k_params c).
Proof. exact cset_attr_frame. Qed.
Print Assumptions C12_frame.

(** C12 – a property group is active exactly if all its elements are specified. *)
Theorem C12_group_iff_complete :
  forall mandatory c c' n p es,
    groups_ok c -> NoDup (keys (k_params c)) -> preprocess mandatory c = Ok (c', n) -> group_of c p es ->
    (is_specified c' p <-> forall e, In e es -> is_specified c' e).
Proof. exact preprocess_group. Qed.
Print Assumptions C12_group_iff_complete.

(** C12 – preprocessing changes nothing but group flags. *)
Theorem C12_preprocess_frame :
  forall mandatory c c' n p,
    groups_ok c -> NoDup (keys (k_params c)) -> preprocess mandatory c = Ok (c', n) ->
    (forall es, ~ group_of c p es) -> dget p (k_params c') = dget p (k_params c).
Proof. exact preprocess_other. Qed.
Print Assumptions C12_preprocess_frame.

(** C12 – the number of equations reported is that of the mandatory constraints
    plus that of all specified parameters and complete groups with an equation. *)
Theorem C12_equation_count :
  forall mandatory c c' n,
    groups_ok c -> NoDup (keys (k_params c)) -> preprocess mandatory c = Ok (c', n) ->
    n = mandatory + list_sum (map (fun kq => contribution (snd kq)) (k_params c')).
Proof. exact preprocess_count. Qed.
Print Assumptions C12_equation_count.

(** C12 – the variable parameters, and only they, get columns; the columns are
    consecutive and each parameter gets one. *)
Theorem C12_columns :
  forall first c, NoDup (keys (k_params c)) ->
    let cols := component_columns first c in
    NoDup (map fst cols) /\ map snd cols = seq first (length cols) /\
    forall p, In p (map fst cols) <->
      exists q, dget p (k_params c) = Some q /\ q_kind q = KCp /\ q_is_var q = true.
Proof. exact columns_spec. Qed.
Print Assumptions C12_columns.

(** C12 – without dictionary arguments a variable is always a specified ordinary
    parameter, whatever calls were made, raising ones included. *)
Theorem C12_variables_are_specified :
  forall parse calls c, (forall kw, In kw calls -> no_dicts kw) ->
    var_ok c -> var_ok (cset_attr_history parse calls c).
Proof. exact history_inv. Qed.
Print Assumptions C12_variables_are_specified.

Example C12_case :
  let c := cset_attr_history noparse
    [[("L", CV (PNum (Fin 100))); ("ks", CV (PNum (Fin (1#1000)))); ("D", CV (PStr "var"))];
     [("pr", CV (PNum (Fin (9#10)))); ("bogus", CV PNone)]] pipe in
  spec_in_force c "L" = Some (SFixed (PNum (Fin 100))) /\ spec_in_force c "D" = Some SVariable /\
  component_columns 7 c = [("D", 7)] /\
  match preprocess 3 c with Ok (c', n) => n = 5 /\ spec_in_force c' "darcy_group" <> Some SUnset | Err _ => False end /\
  match preprocess 3 (fst (cset_attr noparse [("D", CV PNone)] c)) with
  | Ok (c', n) => n = 4 /\ spec_in_force c' "darcy_group" = Some SUnset
  | Err _ => False end.
Proof. vm_compute. repeat split; congruence. Qed.

(** The hypotheses on the component hold of this one. *)
Example C12_hypotheses : groups_ok pipe /\ NoDup (keys (k_params pipe)) /\ var_ok pipe /\ ordinary pipe "L".
Proof.
  split; [|split; [|split]].
  - intros p es e (q & Hq & K) He. apply dget_In in Hq. cbn in Hq.
    decompose [or] Hq; try tauto;
    match goal with H : (_, _) = (p, q) |- _ => injection H as <- <-; cbn in K; try discriminate K end.
    injection K as <-. cbn in He. decompose [or] He; try tauto; subst; cbn;
    eexists; (split; [reflexivity|]); discriminate.
  - cbn. repeat constructor; cbn; intuition discriminate.
  - intros p q Hq. apply dget_In in Hq. cbn in Hq. decompose [or] Hq; try tauto;
    match goal with H : (_, _) = (p, q) |- _ => injection H as <- <-; discriminate end.
  - eexists. split; reflexivity.
Qed.

(** C50 – it is not the case that an accepted keyword has an effect: a number
    passed for a parameter group is accepted and ignored (no branch of
    component.py 165-212 applies). *)
Theorem C50_accepted_keyword_has_effect_refuted :
  exists parse c key v, group_of c key ["L"; "ks"; "D"] /\ v <> CV PNone /\
    cset_attr parse [(key, v)] c = (c, None).
Proof.
  exact (ex_intro _ noparse (ex_intro _ pipe (ex_intro _ "darcy_group" (ex_intro _ (CV (PNum (Fin 5)))
    (conj (ex_intro _ _ (conj eq_refl eq_refl))
      (conj (fun H => eq_ind (CV (PNum (Fin 5))) (fun x => match x with CV PNone => False | _ => True end) I _ H)
         eq_refl)))))).
Qed.
Print Assumptions C50_accepted_keyword_has_effect_refuted.
