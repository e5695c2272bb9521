(** What a user sees of a component's specifications. *)
From Verif Require Import CompSpecModel.
Open Scope string_scope.

Inductive cspec := SUnset | SFixed (v : pv) | SVariable.

(** The specification in force for a parameter. *)
Definition spec_in_force (c : comp) (p : string) : option cspec :=
  match dget p (k_params c) with
  | None => None
  | Some q => Some (if q_is_set q then if q_is_var q then SVariable else SFixed (q_val q) else SUnset)
  end.

(** [p] is an ordinary parameter (number or 'var'). *)
Definition ordinary (c : comp) (p : string) : Prop :=
  exists q, dget p (k_params c) = Some q /\ q_kind q = KCp.

(** [p] is a group with the given elements. *)
Definition group_of (c : comp) (p : string) (es : list string) : Prop :=
  exists q, dget p (k_params c) = Some q /\ q_kind q = KGcp es.

Definition is_specified (c : comp) (p : string) : Prop :=
  exists q, dget p (k_params c) = Some q /\ q_is_set q = true.

(** Equations contributed by one parameter. *)
Definition contribution (q : param) : nat := if (q_is_set q && q_func q)%bool then q_num_eq q else 0.

(** Elements of groups are parameters of the component and not groups
    themselves (true of all components in the library). *)
Definition groups_ok (c : comp) : Prop :=
  forall p es e, group_of c p es -> In e es ->
    exists q, dget e (k_params c) = Some q /\ forall es', q_kind q <> KGcp es'.

Definition no_dicts (kw : dict carg) : Prop := forall k d, ~ In (k, CDict d) kw.

(** Variable parameters are specified ordinary ones. *)
Definition var_ok (c : comp) : Prop := forall p q, dget p (k_params c) = Some q ->
  q_is_var q = true -> q_is_set q = true /\ q_kind q = KCp.
