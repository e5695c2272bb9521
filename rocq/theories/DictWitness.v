(** Objects used in the examples and refutations of DictProps.v. *)
From Verif Require Import DictModel DictSpec DictProofs.
Open Scope string_scope.
Open Scope list_scope.

Definition ex_user : tree :=
  Node [("Connections", Node [("1", Node [("p", Leaf 7)])]); ("x", Leaf 1)].
Definition ex_default : tree :=
  Node [("Connections", Node []); ("Components", Node []); ("x", Leaf 2)].
