(** Statement vocabulary for the numbering of unknowns. *)
From Verif Require Import Base MassModel VarSpaceModel.
Open Scope nat_scope.
Open Scope list_scope.

(** The state of the fluid at a connection is known in advance: enthalpy from
    pressure and one further state property, or both from T and x. *)
Definition h_pinned (heap : nat -> vcont) (c : vconn) : Prop :=
  k_known c = true /\ v_set (heap (k_h c)) = false /\
  ((v_set (heap (k_p c)) = true /\ (k_T c = true \/ k_x c = true \/ k_Td c = true)) \/
   (v_set (heap (k_p c)) = false /\ k_T c = true /\ k_x c = true)).
Definition p_pinned (heap : nat -> vcont) (c : vconn) : Prop :=
  k_known c = true /\ v_set (heap (k_h c)) = false /\ v_set (heap (k_p c)) = false /\
  k_T c = true /\ k_x c = true.

(** The unknowns of a network: the open fractions of each fluid branch, the
    mass flows, pressures and enthalpies neither specified nor known in
    advance, and the component parameters declared variable. *)
Definition is_unknown (bs : list (nat * list string)) (cs : list vconn) (cps : list (nat * list (string * bool)))
    (heap : nat -> vcont) (u : unknown) : Prop :=
  match u with
  | UFluid b f => exists fs, In (b, fs) bs /\ In f fs
  | UConn x => exists c, In c cs /\ v_set (heap x) = false /\
      (x = k_m c \/ (x = k_p c /\ ~ p_pinned heap c) \/ (x = k_h c /\ ~ h_pinned heap c))
  | UComp cp p => exists ps, In (cp, ps) cps /\ In (p, true) ps
  end.

(** The column stored in the object that holds the unknown. *)
Definition column (s : vstate) (u : unknown) : option nat :=
  match u with
  | UFluid b f => vs_fcol s b f
  | UConn x => v_jcol (vs_heap s x)
  | UComp cp p => vs_ccol s cp p
  end.

(** Objects are distinct: pressure and enthalpy containers belong to one
    connection each, and no leftover mark of an earlier presolve. *)
Definition ph (c : vconn) : list nat := [k_p c; k_h c].
Definition wf_net (bs : list (nat * list string)) (cs : list vconn) (cps : list (nat * list (string * bool)))
    (heap : nat -> vcont) : Prop :=
  NoDup (map fst bs) /\ (forall b fs, In (b, fs) bs -> NoDup fs) /\
  NoDup (map fst cps) /\ (forall cp ps, In (cp, ps) cps -> NoDup (map fst ps)) /\
  NoDup (flat_map ph cs) /\ (forall c c', In c cs -> In c' cs -> ~ In (k_m c) (ph c')) /\
  (forall x, v_solved (heap x) = false).

(** Number of state specifications of a connection. *)
Definition num_specs (heap : nat -> vcont) (c : vconn) : nat :=
  b2n (v_set (heap (k_m c))) + b2n (v_set (heap (k_p c))) + b2n (v_set (heap (k_h c))) +
  b2n (k_T c) + b2n (k_x c) + b2n (k_Td c) + b2n (k_v c).

(** Number of equations the user asks for at a connection. *)
Definition asked (c : vconn) : nat := b2n (k_T c) + b2n (k_v c) + b2n (k_x c) + b2n (k_Td c) + length (k_others c).
