(** Objects used in the examples and refutations of CharProps.v. *)
From Coq Require Import Qabs Sorting.Sorted.
From Verif Require Import CharModel CharSpec CharProofs CharMapProofs.
Open Scope Q_scope.

Definition sample_line : list (Q * Q) := [(0, 1); (1#2, 3#4); (2, 9#10)].
