(** Statement vocabulary for the assembly. *)
From Coq Require Import QArith.
From Verif Require Import Base AssemblyModel.
Open Scope nat_scope.
Open Scope list_scope.

(** Entry of a Jacobian dictionary. *)
Fixpoint entry (d : list ((nat * nat) * Q)) (r c : nat) : option Q :=
  match d with
  | [] => None
  | ((r', c'), v) :: d' => if Nat.eqb r r' && Nat.eqb c c' then Some v else entry d' r c
  end.

(** All equation objects in the order of their rows. *)
Definition objects (n : snapshot) : list eqobj := sn_comps n ++ sn_conns n ++ sn_busses n ++ sn_udes n.

(** A well formed object: as many residuals as equations, dictionary keys
    distinct and within its rows. *)
Definition wf_obj (o : eqobj) : Prop :=
  length (eo_res o) = eo_num o /\ NoDup (map fst (eo_jac o)) /\
  forall r c v, In ((r, c), v) (eo_jac o) -> r < eo_num o.
Definition wf_snapshot (n : snapshot) : Prop :=
  Forall wf_obj (objects n) /\ (forall o, In o (sn_busses n ++ sn_udes n) -> eo_num o = 1).

(** Every component, connection and user defined equation with equations
    depends on at least one unknown. *)
Definition has_unknown (o : eqobj) : Prop := eo_num o = 0 \/ eo_jac o <> [].
Definition all_have_unknowns (n : snapshot) : Prop :=
  forall o, In o (sn_comps n ++ sn_conns n ++ sn_udes n) -> has_unknown o.

(** Same layout and no dictionary key lost from one iteration to the next. *)
Definition grows (n n' : snapshot) : Prop :=
  Forall2 (fun o o' => eo_num o = eo_num o' /\ forall k, In k (map fst (eo_jac o)) -> In k (map fst (eo_jac o')))
    (objects n) (objects n') /\
  length (sn_comps n) = length (sn_comps n') /\ length (sn_conns n) = length (sn_conns n') /\
  length (sn_busses n) = length (sn_busses n').
Fixpoint chain (n : snapshot) (ns : list snapshot) : Prop :=
  match ns with [] => True | n' :: ns' => grows n n' /\ chain n' ns' end.
