(** Lemmas about the cone law. *)
From Coq Require Import Reals Lra Psatz.
From Verif Require Import ConeModel ConeSpec.
Open Scope R_scope.

Definition flow (d : cdesign) (s : cstate) : R := d_m d * c_p s / d_p d * sqrt (d_p d * d_v d / (c_p s * c_v s)) * sqrt (Rabs ((1 - (c_po s / c_p s) ^ 2) / (1 - d_pr d ^ 2))).
Lemma cone_flow d s : cone_func d s = 0 <-> c_m s = flow d s.
Proof. unfold cone_func, flow. split; intros H; lra. Qed.
Lemma pr2 d : expands d -> 0 < 1 - d_pr d ^ 2.
Proof. intros (_ & _ & _ & A & B). nra. Qed.

Lemma ratio_sq s : gas s -> c_po s <= c_p s -> 0 <= 1 - (c_po s / c_p s) ^ 2.
Proof.
  intros (A & B & C) L. assert (0 <= c_po s / c_p s <= 1).
  { split; [apply Rmult_le_pos; [lra|left; apply Rinv_0_lt_compat; lra]|]. apply (Rmult_le_reg_r (c_p s)); [lra|]. unfold Rdiv. rewrite Rmult_assoc, Rinv_l; lra. }
  nra.
Qed.
Lemma flow_nonneg d s : expands d -> gas s -> 0 <= flow d s.
Proof.
  intros (A & B & C & D) (E & F & G). unfold flow. apply Rmult_le_pos; [|apply sqrt_pos]. apply Rmult_le_pos; [|apply sqrt_pos].
  unfold Rdiv. apply Rmult_le_pos; [nra|]. left. now apply Rinv_0_lt_compat.
Qed.
Lemma flow_ellipse d s : expands d -> gas s -> c_po s <= c_p s -> flow d s ^ 2 * (c_p s * c_v s * (d_p d ^ 2 * (1 - d_pr d ^ 2))) = d_m d ^ 2 * (d_p d * d_v d * (c_p s ^ 2 - c_po s ^ 2)).
Proof.
  intros E G L. pose proof (pr2 d E) as P. pose proof (ratio_sq s G L) as RS. destruct E as (A & B & C & D). destruct G as (F & V & _).
  unfold flow. rewrite Rabs_right; [|apply Rle_ge; apply Rmult_le_pos; [exact RS|left; now apply Rinv_0_lt_compat]].
  rewrite !Rpow_mult_distr. rewrite !pow2_sqrt.
  - field. repeat split; lra.
  - apply Rmult_le_pos; [exact RS|left; now apply Rinv_0_lt_compat].
  - apply Rmult_le_pos; [nra|left; apply Rinv_0_lt_compat; nra].
Qed.
(** The equation is the law of the ellipse, for flows in the direction of the expansion. *)
Lemma cone_ellipse d s : expands d -> gas s -> c_po s <= c_p s -> (cone_func d s = 0 <-> 0 <= c_m s /\ ellipse d s).
Proof.
  intros E G L. rewrite cone_flow. pose proof (flow_nonneg d s E G) as N. pose proof (flow_ellipse d s E G L) as FE. unfold ellipse. split.
  - intros ->. split; [exact N|exact FE].
  - intros (M & H). rewrite <- FE in H. apply Rmult_eq_reg_r in H.
    + apply Rsqr_inj; auto. unfold Rsqr. simpl in H. lra.
    + pose proof (pr2 d E). destruct E as (A & B & C & D). destruct G as (F & V & _). apply Rgt_not_eq. assert (0 < c_p s * c_v s) by nra. assert (0 < d_p d ^ 2) by nra. apply Rmult_lt_0_compat; [assumption|]. nra.
Qed.
Lemma cone_design d m : expands d -> (cone_func d {| c_m := m; c_p := d_p d; c_v := d_v d; c_po := d_pr d * d_p d |} = 0 <-> m = d_m d).
Proof.
  intros E. pose proof (pr2 d E) as P. pose proof E as (A & B & C & D1 & D2). set (s := {| c_m := m; c_p := d_p d; c_v := d_v d; c_po := d_pr d * d_p d |}).
  assert (G : gas s) by (repeat split; cbn; nra). assert (L : c_po s <= c_p s) by (cbn; nra). rewrite (cone_ellipse d s E G L). unfold ellipse. cbn [c_m c_p c_v c_po s]. split.
  - intros (M & H). replace (d_m d ^ 2 * (d_p d * d_v d * (d_p d ^ 2 - (d_pr d * d_p d) ^ 2))) with (d_m d ^ 2 * (d_p d * d_v d * (d_p d ^ 2 * (1 - d_pr d ^ 2)))) in H by ring.
    apply Rmult_eq_reg_r in H; [apply Rsqr_inj; [exact M|lra|]; unfold Rsqr; simpl in H; lra|]. apply Rgt_not_eq. assert (0 < d_p d * d_v d) by nra. assert (0 < d_p d ^ 2) by nra. apply Rmult_lt_0_compat; [assumption|]. nra.
  - intros ->. split; [lra|ring].
Qed.
(** A lower outlet pressure lets more through. *)
Lemma cone_monotone d s s' : expands d -> gas s -> gas s' -> c_p s' = c_p s -> c_v s' = c_v s -> c_po s' < c_po s -> c_po s <= c_p s ->
  cone_func d s = 0 -> cone_func d s' = 0 -> c_m s < c_m s'.
Proof.
  intros E G G' P V O L H H'. apply (cone_ellipse d s E G L) in H. apply (cone_ellipse d s' E G') in H'; [|rewrite P; lra]. destruct H as (M & H), H' as (M' & H'). unfold ellipse in *.
  rewrite P, V in H'. pose proof (pr2 d E) as PR. destruct E as (A & B & C & D). destruct G as (F & W & PO). destruct G' as (_ & _ & PO').
  set (k := c_p s * c_v s * (d_p d ^ 2 * (1 - d_pr d ^ 2))) in *. assert (K : 0 < k). { unfold k. apply Rmult_lt_0_compat; [nra|]. apply Rmult_lt_0_compat; nra. }
  assert (LT : c_m s ^ 2 * k < c_m s' ^ 2 * k).
  { rewrite H, H'. apply Rmult_lt_compat_l; [nra|]. apply Rmult_lt_compat_l; [nra|]. nra. }
  apply Rmult_lt_reg_r in LT; [|exact K]. nra.
Qed.
(** The absolute value: a turbine that would have to be driven backwards. *)
Lemma cone_reverse : exists d s, expands d /\ gas s /\ c_p s < c_po s /\ 0 < c_m s /\ cone_func d s = 0.
Proof.
  set (d := {| d_m := 1; d_p := 1; d_v := 1; d_pr := 0 |}). exists d, {| c_m := flow d {| c_m := 0; c_p := 1; c_v := 1; c_po := 2 |}; c_p := 1; c_v := 1; c_po := 2 |}.
  split; [repeat split; cbn; lra|]. split; [repeat split; cbn; lra|]. split; [cbn; lra|]. split.
  - cbn [c_m]. unfold flow. cbn. apply Rmult_lt_0_compat; [apply Rmult_lt_0_compat; [lra|]|]; apply sqrt_lt_R0; [lra|]. apply Rabs_pos_lt. lra.
  - apply cone_flow. reflexivity.
Qed.

(** Documentation and code. *)
Lemma cone_documented d s : expands d -> gas s -> c_po s <= c_p s -> c_v s = d_v d -> documented d s = cone_func d s.
Proof.
  intros E G L V. pose proof (pr2 d E) as P. pose proof (ratio_sq s G L) as RS. unfold documented, cone_func. rewrite V.
  rewrite Rabs_right; [ring|]. apply Rle_ge. apply Rmult_le_pos; [exact RS|left; now apply Rinv_0_lt_compat].
Qed.
Lemma cone_undocumented : exists d s, expands d /\ gas s /\ c_po s <= c_p s /\ cone_func d s = 0 /\ documented d s <> 0.
Proof.
  set (d := {| d_m := 1; d_p := 1; d_v := 1; d_pr := 0 |}). exists d, {| c_m := / 2; c_p := 1; c_v := 4; c_po := 0 |}.
  assert (S4 : sqrt 4 = 2) by (replace 4 with (2 * 2) by ring; apply sqrt_square; lra).
  split; [repeat split; cbn; lra|]. split; [repeat split; cbn; lra|]. split; [cbn; lra|]. unfold cone_func, documented. cbn [c_m c_p c_v c_po d_m d_p d_v d_pr d].
  replace ((1 - (0 / 1) ^ 2) / (1 - 0 ^ 2)) with 1 by field. rewrite Rabs_R1, sqrt_1. split.
  - replace (1 * 1 / (1 * 4)) with ((/ 2) * (/ 2)) by field. rewrite sqrt_square by lra. lra.
  - replace (1 * 4 / (1 * 1)) with (2 * 2) by field. rewrite sqrt_square by lra. lra.
Qed.
