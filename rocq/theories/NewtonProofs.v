(** Lemmas about the scalar Newton solver. *)
From Coq Require Import Lqa.
From Verif Require Import NewtonModel.
Open Scope Q_scope.

Lemma Qle_bool_false' a b : Qle_bool a b = false -> b < a.
Proof.
  intros H. destruct (Qlt_le_dec b a) as [L|L]; [auto|].
  apply Qle_bool_iff in L; congruence.
Qed.

Lemma clamp_bounds lo hi x : lo <= hi -> lo <= clamp lo hi x <= hi.
Proof.
  intros H. unfold clamp.
  destruct (Qle_bool lo x) eqn:E1; [apply Qle_bool_iff in E1|apply Qle_bool_false' in E1].
  - destruct (Qle_bool x hi) eqn:E2; [apply Qle_bool_iff in E2|apply Qle_bool_false' in E2]; lra.
  - destruct (Qle_bool lo hi) eqn:E2; [apply Qle_bool_iff in E2|apply Qle_bool_false' in E2]; lra.
Qed.

Lemma clamp_id lo hi x y : lo <= y -> y <= hi -> x == y -> clamp lo hi x == y.
Proof.
  intros H1 H2 E. unfold clamp.
  destruct (Qle_bool lo x) eqn:E1; [apply Qle_bool_iff in E1|apply Qle_bool_false' in E1].
  - destruct (Qle_bool x hi) eqn:E2; [auto|apply Qle_bool_false' in E2]. lra.
  - destruct (Qle_bool lo hi) eqn:E2; [apply Qle_bool_iff in E2|apply Qle_bool_false' in E2]; lra.
Qed.

(** Iterations still possible: at most 13 in total, whatever max_iter. *)
Lemma newton_loop_terminates fuel a x it relax mi :
  (it <= 12)%nat -> ((5 <= it)%nat -> mi = 12%nat) -> (13 - it < fuel)%nat ->
  newton_loop fuel a x it relax mi <> None.
Proof.
  revert x it relax mi; induction fuel as [|fuel IH]; intros x it relax mi H1 H2 H3; [lia|].
  cbn [newton_loop].
  destruct (nk_f a x) as [fx|e]; [|congruence].
  destruct (nk_df a x) as [dfx|e]; [|congruence].
  destruct (Qeq_bool dfx 0); [congruence|].
  destruct (Nat.eqb (S it) 5) eqn:E5.
  - apply Nat.eqb_eq in E5.
    destruct (Nat.ltb 12 (S it)); [congruence|].
    destruct (not_converged a _); [|congruence].
    apply IH; [lia|auto|lia].
  - apply Nat.eqb_neq in E5.
    destruct (Nat.ltb mi (S it)) eqn:EL; [congruence|]. apply Nat.ltb_ge in EL.
    destruct (not_converged a _); [|congruence].
    destruct (le_lt_dec 5 it) as [G|G].
    + specialize (H2 G). apply IH; [lia|auto|lia].
    + apply IH; [lia|lia|lia].
Qed.

Lemma newton_terminates a val0 mi : newton 14 a val0 mi <> None.
Proof. apply newton_loop_terminates; lia. Qed.

Lemma newton_loop_fuel fuel a x it relax mi r :
  newton_loop fuel a x it relax mi = Some r ->
  newton_loop (S fuel) a x it relax mi = Some r.
Proof.
  revert x it relax mi; induction fuel as [|fuel IH]; intros x it relax mi H; [discriminate|].
  cbn [newton_loop] in H.
  remember (S fuel) as f' eqn:Ef. cbn [newton_loop].
  destruct (nk_f a x) as [fx|e]; [|auto].
  destruct (nk_df a x) as [dfx|e]; [|auto].
  destruct (Qeq_bool dfx 0); [auto|].
  destruct (if Nat.eqb (S it) 5 then ((3#4)%Q, 12%nat) else (relax, mi)) as [relax' mi'].
  destruct (Nat.ltb mi' (S it)); [auto|].
  destruct (not_converged a _); [|auto].
  subst f'. apply IH in H. exact H.
Qed.

(** Everything known about a run that ends normally. *)
Lemma newton_loop_spec fuel a x it relax mi o :
  (it <= 12)%nat -> ((5 <= it)%nat -> mi = 12%nat) ->
  newton_loop fuel a x it relax mi = Some (Ok o) ->
  (nk_valmin a <= nk_valmax a -> nk_valmin a <= no_x o <= nk_valmax a) /\
  (no_iter o <= 13)%nat /\ (it < no_iter o)%nat /\
  (exists fx, nk_f a (no_prev o) = Ok fx /\ no_residual o = nk_target a - fx) /\
  (no_exhausted o = false -> not_converged a (no_residual o) = false).
Proof.
  revert x it relax mi; induction fuel as [|fuel IH]; intros x it relax mi H1 H2 H; [discriminate|].
  cbn [newton_loop] in H.
  destruct (nk_f a x) as [fx|e] eqn:Ef; [|discriminate].
  destruct (nk_df a x) as [dfx|e]; [|discriminate].
  destruct (Qeq_bool dfx 0); [discriminate|].
  assert (B : nk_valmin a <= nk_valmax a ->
    nk_valmin a <= clamp (nk_valmin a) (nk_valmax a) (x + (nk_target a - fx) / dfx * relax) <= nk_valmax a)
    by apply clamp_bounds.
  destruct (Nat.eqb (S it) 5) eqn:E5.
  - apply Nat.eqb_eq in E5. destruct (Nat.ltb 12 (S it)) eqn:EL.
    + apply Nat.ltb_lt in EL. lia.
    + destruct (not_converged a (nk_target a - fx)) eqn:EC.
      * apply IH in H; [|lia|auto]. destruct H as (A1 & A2 & A3 & A4 & A5).
        repeat split; auto; try lia; apply A1; auto.
      * inversion H; subst o; cbn. split; [auto|]. repeat split; try lia; eauto.
  - apply Nat.eqb_neq in E5.
    destruct (Nat.ltb mi (S it)) eqn:EL.
    + apply Nat.ltb_lt in EL. inversion H; subst o; cbn. split; [auto|].
      repeat split; eauto; try lia; try discriminate.
    + apply Nat.ltb_ge in EL. destruct (not_converged a (nk_target a - fx)) eqn:EC.
      * destruct (le_lt_dec 5 it) as [G|G].
        -- specialize (H2 G). apply IH in H; [|lia|auto]. destruct H as (A1 & A2 & A3 & A4 & A5).
           repeat split; auto; try lia; apply A1; auto.
        -- apply IH in H; [|lia|lia]. destruct H as (A1 & A2 & A3 & A4 & A5).
           repeat split; auto; try lia; apply A1; auto.
      * inversion H; subst o; cbn. split; [auto|]. repeat split; eauto; try lia.
Qed.

From Verif Require Import NewtonSpec.

Lemma not_converged_false a r : not_converged a r = false -> tolerance_met a r.
Proof.
  unfold not_converged, tolerance_met, eff_mode.
  destruct (nk_mode a).
  - destruct (Qle_bool (Qabs (nk_target a)) (2 * nk_tol_rel a)) eqn:E1; cbn [orb].
    + apply Qle_bool_iff in E1. intros H. apply Qle_bool_false' in H.
      split; [auto|]. intros H2; exfalso; lra.
    + apply Qle_bool_false' in E1.
      destruct (Qeq_bool (nk_target a) 0) eqn:E0.
      * apply Qeq_bool_eq in E0. intros H. apply Qle_bool_false' in H. split; [auto|]. intros _ H0; tauto.
      * apply Qeq_bool_neq in E0. intros H. apply Qle_bool_false' in H.
        split; [intros [G|G]; [lra|tauto]|auto].
  - cbn [orb]. intros H. now apply Qle_bool_false' in H.
  - cbn [orb]. destruct (Qeq_bool (nk_target a) 0) eqn:E0.
    + apply Qeq_bool_eq in E0. intros H. apply Qle_bool_false' in H. split; [auto|tauto].
    + apply Qeq_bool_neq in E0. intros H. apply orb_false_elim in H. destruct H as [H1 H2].
      apply Qle_bool_false' in H1, H2. split; [tauto|auto].
Qed.

Lemma zero_residual_converged a r :
  0 < nk_tol_rel a -> 0 < nk_tol_abs a -> r == 0 -> not_converged a r = false.
Proof.
  intros H1 H2 E. unfold not_converged.
  assert (A : Qle_bool (nk_tol_abs a) (Qabs r) = false).
  { destruct (Qle_bool (nk_tol_abs a) (Qabs r)) eqn:B; [|auto]. apply Qle_bool_iff in B.
    rewrite E in B. cbn in B. lra. }
  assert (R : Qle_bool (nk_tol_rel a) (Qabs (r / nk_target a)) = false).
  { destruct (Qle_bool (nk_tol_rel a) (Qabs (r / nk_target a))) eqn:B; [|auto]. apply Qle_bool_iff in B.
    assert (Z : r / nk_target a == 0) by (rewrite E; unfold Qdiv; ring). rewrite Z in B. cbn in B. lra. }
  rewrite A, R. destruct (_ || _); [auto|]. destruct (eff_mode a); auto.
Qed.

Lemma newton_affine s b t lo hi tr ta m x0 mi r :
  ~ s == 0 -> s * r + b == t -> lo <= r -> r <= hi -> 0 < tr -> 0 < ta ->
  exists o, newton 14 (affine_args s b t lo hi tr ta m) x0 mi = Some (Ok o) /\
            no_x o == r /\ (no_iter o <= 2)%nat.
Proof.
  intros Hs Hr Hlo Hhi Htr Hta. unfold newton.
  set (a := affine_args s b t lo hi tr ta m).
  assert (Hs' : Qeq_bool s 0 = false).
  { destruct (Qeq_bool s 0) eqn:E; [apply Qeq_bool_eq in E; tauto|auto]. }
  assert (Step : forall x, x + (t - (s * x + b)) / s * 1 == r).
  { intros x. rewrite <- Hr. field. auto. }
  assert (C1 : forall x, clamp lo hi (x + (t - (s * x + b)) / s * 1) == r).
  { intros x. apply clamp_id; auto. }
  change 14%nat with (S (S 12)).
  cbn [newton_loop nk_f nk_df a affine_args nk_target nk_valmin nk_valmax].
  rewrite Hs'. cbn [Nat.eqb].
  destruct (Nat.ltb mi 1) eqn:E1.
  { eexists; split; [reflexivity|]. cbn. split; [apply C1|lia]. }
  fold a. destruct (not_converged a (t - (s * x0 + b))) eqn:EC.
  2:{ eexists; split; [reflexivity|]. cbn. split; [apply C1|lia]. }
  destruct (Nat.ltb mi 2) eqn:E2.
  { eexists; split; [reflexivity|]. cbn. split; [apply C1|lia]. }
  rewrite zero_residual_converged; auto.
  - eexists; split; [reflexivity|]. cbn. split; [apply C1|lia].
  - rewrite C1. rewrite <- Hr. ring.
Qed.

(** ** Refutation witnesses *)

(** A function without the requested value: the constant 0, target 1. *)
Definition wit_const : newton_args :=
  {| nk_f := fun _ => Ok 0; nk_df := fun _ => Ok 1; nk_target := 1;
     nk_valmin := 0; nk_valmax := 100; nk_tol_rel := 1 # 1000000;
     nk_tol_abs := 1 # 1000000000000; nk_mode := ModeRel |}.

Lemma wit_const_4 :
  exists o, newton 14 wit_const 5 4 = Some (Ok o) /\ (no_iter o > 4 + 1)%nat.
Proof. eexists; split; [vm_compute; reflexivity|cbn; lia]. Qed.

Lemma wit_const_50 :
  exists o, newton 14 wit_const 5 50 = Some (Ok o) /\ no_iter o = 13%nat /\ no_exhausted o = true.
Proof. eexists; split; [vm_compute; reflexivity|]. split; reflexivity. Qed.

(** Normal exit (not by the iteration limit) at a value far from the target:
    the tested residual belongs to the previous iterate. *)
Definition wit_jump : newton_args :=
  {| nk_f := fun x => Ok (if Qle_bool x 300 then 1 - (1 # 10000000) else 5);
     nk_df := fun _ => Ok (1 # 100000000); nk_target := 1;
     nk_valmin := 70; nk_valmax := 3000; nk_tol_rel := 1 # 1000000;
     nk_tol_abs := 1 # 1000000000000; nk_mode := ModeRel |}.

Lemma wit_jump_result :
  exists o, newton 14 wit_jump 300 10 = Some (Ok o) /\ no_exhausted o = false /\
    exists fx, nk_f wit_jump (no_x o) = Ok fx /\ ~ tolerance_met wit_jump (nk_target wit_jump - fx).
Proof.
  eexists; split; [vm_compute; reflexivity|]. split; [reflexivity|].
  eexists; split; [vm_compute; reflexivity|].
  intros [_ H]. assert (C : Qabs ((nk_target wit_jump - 5) / nk_target wit_jump) < nk_tol_rel wit_jump).
  { apply H; vm_compute; [reflexivity|discriminate]. }
  vm_compute in C. discriminate.
Qed.

Lemma newton_spec a val0 mi :
  (exists e, newton 14 a val0 mi = Some (Err e)) \/
  (exists o, newton 14 a val0 mi = Some (Ok o) /\
     (nk_valmin a <= nk_valmax a -> nk_valmin a <= no_x o <= nk_valmax a) /\
     (1 <= no_iter o <= 13)%nat /\
     (no_exhausted o = false ->
        exists fx, nk_f a (no_prev o) = Ok fx /\ tolerance_met a (nk_target a - fx))).
Proof.
  pose proof (newton_terminates a val0 mi) as T.
  destruct (newton 14 a val0 mi) as [[o|e]|] eqn:E; [right|left; eauto|congruence].
  exists o. split; [auto|].
  apply newton_loop_spec in E; [|lia|lia]. destruct E as (A1 & A2 & A3 & (fx & A4 & A4') & A5).
  split; [auto|]. split; [lia|]. intros H. exists fx. split; [auto|].
  rewrite <- A4'. apply not_converged_false. auto.
Qed.

Lemma newton_loop_limit fuel a x it relax mi o :
  (mi <= 3)%nat -> (it <= mi)%nat ->
  newton_loop fuel a x it relax mi = Some (Ok o) -> (no_iter o <= mi + 1)%nat.
Proof.
  revert x it relax; induction fuel as [|fuel IH]; intros x it relax H1 H2 H; [discriminate|].
  cbn [newton_loop] in H.
  destruct (nk_f a x) as [fx|e]; [|discriminate].
  destruct (nk_df a x) as [dfx|e]; [|discriminate].
  destruct (Qeq_bool dfx 0); [discriminate|].
  destruct (Nat.eqb (S it) 5) eqn:E5; [apply Nat.eqb_eq in E5; lia|].
  destruct (Nat.ltb mi (S it)) eqn:EL.
  - inversion H; subst o; cbn. lia.
  - apply Nat.ltb_ge in EL. destruct (not_converged a (nk_target a - fx)).
    + apply IH in H; auto; lia.
    + inversion H; subst o; cbn. lia.
Qed.

Lemma newton_limit fuel a x mi o :
  (mi <= 3)%nat -> newton fuel a x mi = Some (Ok o) -> (no_iter o <= mi + 1)%nat.
Proof. intros H. apply newton_loop_limit; lia. Qed.
