(** Lemmas about separators and the number of mass balances of merges. *)
From Coq Require Import Reals List String Bool Arith Lra Lia.
From Verif Require Import Base EqnModel EqnSpec EqnProofs.
Import ListNotations.
Open Scope R_scope.

Lemma separator_temperatures T i0 outl e : all_zero (separator_energy_func T i0 outl e) <->
  forall o, In o outl -> T o (vp e o) (vh e o) = T i0 (vp e i0) (vh e i0).
Proof.
  unfold all_zero, separator_energy_func. rewrite Forall_map, Forall_forall. split; intros H o O; specialize (H o O); lra.
Qed.

Lemma dm_l f c x d : derivable_pt_lim f x d -> derivable_pt_lim (fun t => f t - c) x d.
Proof. intros H. rewrite <- (Rminus_0_r d). apply (derivable_pt_lim_minus f (fun _ => c)); [exact H|apply derivable_pt_lim_const]. Qed.
Lemma dm_r f c x d : derivable_pt_lim f x d -> derivable_pt_lim (fun t => c - f t) x (- d).
Proof. intros H. rewrite <- (Rminus_0_l d). apply (derivable_pt_lim_minus (fun _ => c) f); [apply derivable_pt_lim_const|exact H]. Qed.

Lemma separator_row T Tp Th isv i0 outl o k e : cid i0 <> cid o -> nth_error outl k = Some o ->
  (forall c p h, derivable_pt_lim (fun t => T c t h) p (Tp c p h)) ->
  (forall c p h, derivable_pt_lim (fun t => T c p t) h (Th c p h)) ->
  forall q, isv q = true -> (forall a f, q <> QF a f) ->
  partial_is (fun e => nth k (separator_energy_func T i0 outl e) 0) e q (entry (separator_energy_row isv Tp Th i0 o e) q).
Proof.
  intros N K DP DH q V F.
  apply (p_ext (fun e => T i0 (vp e i0) (vh e i0) - T o (vp e o) (vh e o))).
  { intros e'. unfold separator_energy_func. symmetry. apply nth_error_nth. rewrite nth_error_map, K. reflexivity. }
  unfold partial_is, entry, separator_energy_row, run_writes, is_variable, wr, vp, vh, upd.
  assert (NB : Nat.eqb (cid o) (cid i0) = false /\ Nat.eqb (cid i0) (cid o) = false) by (split; apply Nat.eqb_neq; congruence).
  destruct NB as (NB1 & NB2).
  destruct q as [a|c|c|a f|v]; [| | |exfalso; now apply (F a f)|].
  - simpl. apply (p_const e (QM a)) || idtac. rewrite ?andb_true_r.
    destruct (isv (QP (cid i0))), (isv (QH (cid i0))); simpl; unfold set_entry, empty_row; simpl; apply derivable_pt_lim_const.
  - simpl. rewrite ?andb_true_r. destruct (Nat.eqb (cid i0) c) eqn:A; [|destruct (Nat.eqb (cid o) c) eqn:B].
    + apply Nat.eqb_eq in A. subst c. rewrite V, NB1. destruct (isv (QH (cid i0))); simpl; unfold set_entry, empty_row; simpl; rewrite ?Nat.eqb_refl, ?NB2;
      (apply (dm_l (fun t => T i0 t (e (QH (cid i0))))); apply DP).
    + apply Nat.eqb_eq in B. subst c. destruct (isv (QP (cid i0))), (isv (QH (cid i0))); simpl; unfold set_entry, empty_row; simpl; rewrite ?Nat.eqb_refl, ?NB1;
      (apply (dm_r (fun t => T o t (e (QH (cid o))))); apply DP).
    + assert (A' : Nat.eqb c (cid i0) = false) by (rewrite Nat.eqb_sym; exact A). assert (B' : Nat.eqb c (cid o) = false) by (rewrite Nat.eqb_sym; exact B).
      destruct (isv (QP (cid i0))), (isv (QH (cid i0))); simpl; unfold set_entry, empty_row; simpl; rewrite ?A', ?B'; apply derivable_pt_lim_const.
  - simpl. rewrite ?andb_true_r. destruct (Nat.eqb (cid i0) c) eqn:A; [|destruct (Nat.eqb (cid o) c) eqn:B].
    + apply Nat.eqb_eq in A. subst c. rewrite V, NB1. destruct (isv (QP (cid i0))); simpl; unfold set_entry, empty_row; simpl; rewrite ?Nat.eqb_refl, ?NB2;
      (apply (dm_l (fun t => T i0 (e (QP (cid i0))) t)); apply DH).
    + apply Nat.eqb_eq in B. subst c. destruct (isv (QP (cid i0))), (isv (QH (cid i0))); simpl; unfold set_entry, empty_row; simpl; rewrite ?Nat.eqb_refl, ?NB1;
      (apply (dm_r (fun t => T o (e (QP (cid o))) t)); apply DH).
    + assert (A' : Nat.eqb c (cid i0) = false) by (rewrite Nat.eqb_sym; exact A). assert (B' : Nat.eqb c (cid o) = false) by (rewrite Nat.eqb_sym; exact B).
      destruct (isv (QP (cid i0))), (isv (QH (cid i0))); simpl; unfold set_entry, empty_row; simpl; rewrite ?A', ?B'; apply derivable_pt_lim_const.
  - simpl. rewrite ?andb_true_r. destruct (isv (QP (cid i0))), (isv (QH (cid i0))); simpl; unfold set_entry, empty_row; simpl; apply derivable_pt_lim_const.
Qed.

Lemma merge_mass_count isv inl o :
  (merge_num_mass_eq isv inl o = 1%nat <-> exists c f, In c (inl ++ [o]) /\ In f (ckeys c) /\ isv (QF (cf c) f) = true) /\
  (merge_num_mass_eq isv inl o = 0%nat <-> forall c f, In c (inl ++ [o]) -> In f (ckeys c) -> isv (QF (cf c) f) = false).
Proof.
  assert (X : forall f, In f (merge_variable_fluids isv inl o) <-> exists c, In c (inl ++ [o]) /\ In f (ckeys c) /\ isv (QF (cf c) f) = true).
  { intros f. unfold merge_variable_fluids, var_fluids. rewrite nodup_In, in_flat_map. split.
    - intros (c & C & F). apply filter_In in F. exists c. tauto.
    - intros (c & C & F). exists c. split; [exact C|]. apply filter_In. tauto. }
  unfold merge_num_mass_eq. destruct (merge_variable_fluids isv inl o) as [|f l]; simpl.
  - split; split; intros H; try discriminate; try reflexivity.
    + destruct H as (c & f & H). exfalso. apply (proj2 (X f)). now exists c.
    + intros c f C K. destruct (isv (QF (cf c) f)) eqn:E; [|reflexivity]. exfalso. apply (proj2 (X f)). now exists c.
  - destruct (proj1 (X f) (or_introl eq_refl)) as (c & C & K & V). split; split; intros H; try discriminate; try reflexivity.
    + now exists c, f.
    + rewrite (H c f C K) in V. discriminate.
Qed.

(** The vapour fraction of the inlet leaves at the second outlet. *)
Lemma droplet_split hs i o0 o1 e x : node_mass_func [i] [o0; o1] e = 0 -> droplet_energy_func [i] [o0; o1] e = 0 ->
  all_zero (node_pressure_func i (node_others [i] [o0; o1]) e) -> all_zero (droplet_outlet_func hs o0 o1 e) ->
  hs 0 (vp e i) < hs 1 (vp e i) -> vh e i = hs 0 (vp e i) + x * (hs 1 (vp e i) - hs 0 (vp e i)) ->
  vm e o1 = x * vm e i /\ vm e o0 = (1 - x) * vm e i /\ vh e o0 = hs 0 (vp e i) /\ vh e o1 = hs 1 (vp e i).
Proof.
  unfold node_mass_func, droplet_energy_func, acc_add, acc_sub, node_pressure_func, node_others, droplet_outlet_func, all_zero. simpl.
  intros M E P O L X. inversion P as [|? ? P0 P']; subst. inversion P' as [|? ? P1 _]; subst. inversion O as [|? ? O0 O']; subst. inversion O' as [|? ? O1 _]; subst.
  assert (E0 : vp e o0 = vp e i) by lra. assert (E1 : vp e o1 = vp e i) by lra. rewrite E0 in *. rewrite E1 in *.
  assert (H0 : vh e o0 = hs 0 (vp e i)) by lra. assert (H1 : vh e o1 = hs 1 (vp e i)) by lra. rewrite H0, H1, X in E.
  assert (M0 : vm e o0 = vm e i - vm e o1) by lra. rewrite M0 in E.
  assert (Z : (hs 1 (vp e i) - hs 0 (vp e i)) * (x * vm e i - vm e o1) = 0).
  { transitivity (0 + vm e i * (hs 0 (vp e i) + x * (hs 1 (vp e i) - hs 0 (vp e i))) - (vm e i - vm e o1) * hs 0 (vp e i) - vm e o1 * hs 1 (vp e i)); [ring|exact E]. }
  apply Rmult_integral in Z. destruct Z as [Z|Z]; [lra|]. repeat split; lra.
Qed.
