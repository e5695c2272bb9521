(** Vocabulary for C43: what a nested dictionary holds at a path of keys. *)
From Verif Require Import DictModel.

(** The object found by following the keys of [p]. *)
Fixpoint at_path (p : list string) (t : tree) : option tree :=
  match p with
  | [] => Some t
  | k :: p' =>
      match t with
      | Leaf _ => None
      | Node d => match dget k d with Some s => at_path p' s | None => None end
      end
  end.

(** The value (not a dictionary) found at [p]. *)
Definition value_at (p : list string) (t : tree) : option Z :=
  match at_path p t with Some (Leaf z) => Some z | _ => None end.

Definition prefix_of (q p : list string) : Prop := exists s, p = q ++ s.

(** A Python dictionary holds each key once, at every level. *)
Inductive wf_dict : tree -> Prop :=
| wf_leaf : forall z, wf_dict (Leaf z)
| wf_node : forall d, NoDup (keys d) -> (forall k t, In (k, t) d -> wf_dict t) -> wf_dict (Node d).

(** [t1] holds a plain value where [t2] has entries underneath. *)
Definition conflict (t1 t2 : tree) : Prop :=
  exists p k, value_at p t1 <> None /\ at_path (p ++ [k]) t2 <> None.
