(** C201, C202: progress of the iteration. *)
From Coq Require Import Reals ZArith Lra.
From Verif Require Import ProgressModel ProgressProofs.
Open Scope R_scope.

(** C201 – between 0 and 100. *)
Theorem C201_range : forall r, (0 <= progress (Some r) <= 100)%Z.
Proof. exact progress_range. Qed.
Print Assumptions C201_range.

(** C201 – 100 exactly if the norm of the residuals is at most the tolerance of the convergence check (network.py 2040). *)
Theorem C201_complete : forall r, progress (Some r) = 100%Z <-> r <= sqrt ERR.
Proof. exact progress_complete. Qed.
Print Assumptions C201_complete.

(** C201 – smaller residuals, more progress. *)
Theorem C201_antitone : forall r r', r <= r' -> (progress (Some r') <= progress (Some r))%Z.
Proof. exact progress_antitone. Qed.
Print Assumptions C201_antitone.

(** C201 – no progress with a norm of a million and more. *)
Theorem C201_start : forall r, 1 / ERR <= r -> progress (Some r) = 0%Z.
Proof. exact progress_none. Qed.
Print Assumptions C201_start.

(** C202 – without a norm the logger receives -1. *)
Theorem C202_nan_refuted : exists r, ~ (0 <= progress r <= 100)%Z.
Proof. exact progress_nan. Qed.
Print Assumptions C202_nan_refuted.

Example C201_ex : progress (Some (/ 2000)) = 100%Z /\ progress (Some 2000000) = 0%Z.
Proof.
  split.
  - apply C201_complete. rewrite sqrt_ERR. lra.
  - apply C201_start. unfold ERR. lra.
Qed.
