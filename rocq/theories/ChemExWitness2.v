(** Objects used in the examples and refutations of ChemExProps.v. *)
From Coq Require Import QArith Lqa.
From Verif Require Import Base MixModel MixSpec ChemExModel ChemExSpec ChemExProofs ChemExWitness.
Open Scope Q_scope.

Lemma two_valid : valid (two n2 h2o).
Proof.
  split; [repeat constructor; cbn; intuition congruence |]. split; [| vm_compute; reflexivity].
  intros k e D. apply dget_In in D. destruct D as [E | [E | []]]; injection E as <- <-; split; vm_compute; congruence.
Qed.
