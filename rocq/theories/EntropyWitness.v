(** An ideal gas for the entropy balances. *)
From Coq Require Import Reals Lra.
From Verif Require Import Base ReportModel EntropyModel EntropySpec EntropyProofs.
Open Scope R_scope.

(** Entropy, temperature and specific volume of an ideal gas. *)
Definition gas_s (p h : R) : R := 1000 * ln h - 300 * ln p.
Definition gas_T (p h : R) : R := h / 1000.
Definition gas_v (p h : R) : R := 300 * gas_T p h / p.

Lemma gas_gibbs : gibbs gas_s gas_T gas_v.
Proof.
  split.
  - intros p h P H. unfold gas_s, gas_T.
    replace (1 / (h / 1000)) with (1000 * / h - 0) by (field; lra).
    apply derivable_pt_lim_minus; [|apply derivable_pt_lim_const].
    apply (derivable_pt_lim_scal ln). now apply derivable_pt_lim_ln.
  - intros p h P H. unfold gas_s, gas_v, gas_T.
    replace (- (300 * (h / 1000) / p) / (h / 1000)) with (0 - 300 * / p) by (field; lra).
    apply (derivable_pt_lim_minus (fun _ => 1000 * ln h) (fun p => 300 * ln p)); [apply derivable_pt_lim_const|].
    apply (derivable_pt_lim_scal ln). now apply derivable_pt_lim_ln.
  - intros p h P H. unfold gas_T. lra.
  - intros p h P H. unfold gas_v, gas_T. apply Rdiv_lt_0_compat; lra.
Qed.
Lemma gas_heating : heating gas_T.
Proof. intros p h h' _ _ H. unfold gas_T. lra. Qed.

(** A state of the gas. *)
Definition gas (m p h : R) : eport := {| e_m := m; e_p := p; e_h := h; e_s := gas_s p h |}.
Lemma gas_consistent m p h : consistent gas_s (gas m p h).
Proof. reflexivity. Qed.
