From Coq Require Import Reals ZArith Lra Lia.
From Verif Require Import ProgressModel.
Open Scope R_scope.

Lemma sqrt_ERR : sqrt ERR = / 1000.
Proof.
  unfold ERR. replace (/ 1000000) with (/ 1000 * / 1000) by lra. apply sqrt_square. lra.
Qed.
Lemma ERR_half : ln ERR = 2 * ln (/ 1000).
Proof.
  unfold ERR. replace (/ 1000000) with (/ 1000 * / 1000) by lra. rewrite ln_mult by lra. lra.
Qed.
Lemma L_neg : ln (/ 1000) < 0.
Proof. rewrite <- ln_1. apply ln_increasing; lra. Qed.

Lemma scaled_eq r : scaled r = (ln (Rmax r ERR) / ln (/ 1000) + 2) / 3.
Proof.
  unfold scaled. cbv zeta. rewrite sqrt_ERR, ERR_half. pose proof L_neg. field. lra.
Qed.

Lemma Rmax_ERR_pos r : 0 < Rmax r ERR.
Proof. apply Rlt_le_trans with ERR; [unfold ERR; lra|apply Rmax_r]. Qed.

Lemma ln_le a b : 0 < a -> a <= b -> ln a <= ln b.
Proof. intros A [H|H]; [left; now apply ln_increasing|subst; right; reflexivity]. Qed.

Lemma scaled_antitone r r' : r <= r' -> scaled r' <= scaled r.
Proof.
  intros H. rewrite !scaled_eq. pose proof L_neg as L.
  assert (M : ln (Rmax r ERR) <= ln (Rmax r' ERR)).
  { apply ln_le; [apply Rmax_ERR_pos|]. apply Rle_max_compat_r. assumption. }
  assert (D : ln (Rmax r' ERR) / ln (/ 1000) <= ln (Rmax r ERR) / ln (/ 1000)).
  { apply Ropp_le_cancel. unfold Rdiv. rewrite !Ropp_mult_distr_r, <- !Rinv_opp.
    apply Rmult_le_compat_r; [|assumption]. apply Rlt_le, Rinv_0_lt_compat. lra. }
  lra.
Qed.

Lemma scaled_one : scaled (/ 1000) = 1.
Proof.
  rewrite scaled_eq. rewrite Rmax_left by (unfold ERR; lra). pose proof L_neg. field. lra.
Qed.
Lemma scaled_strict r : / 1000 < r -> scaled r < 1.
Proof.
  intros H. rewrite scaled_eq. pose proof L_neg as L.
  rewrite Rmax_left by (unfold ERR; lra).
  assert (M : ln (/ 1000) < ln r) by (apply ln_increasing; lra).
  assert (D : ln r / ln (/ 1000) < 1).
  { replace 1 with (ln (/ 1000) / ln (/ 1000)) by (field; lra).
    apply Ropp_lt_cancel. unfold Rdiv. rewrite !Ropp_mult_distr_r, <- !Rinv_opp.
    apply Rmult_lt_compat_r; [|assumption]. apply Rinv_0_lt_compat. lra. }
  lra.
Qed.
Lemma scaled_zero : scaled 1000000 = 0.
Proof.
  rewrite scaled_eq. rewrite Rmax_left by (unfold ERR; lra).
  replace 1000000 with (/ (/ 1000 * / 1000)) by lra. rewrite ln_Rinv by lra. rewrite ln_mult by lra.
  pose proof L_neg. field. lra.
Qed.

Lemma clamp_range x : 0 <= Rmax 0 (Rmin 1 x) <= 1.
Proof. unfold Rmax, Rmin. repeat destruct (Rle_dec _ _); lra. Qed.
Lemma clamp_mono x y : x <= y -> Rmax 0 (Rmin 1 x) <= Rmax 0 (Rmin 1 y).
Proof. intros H. unfold Rmax, Rmin. repeat destruct (Rle_dec _ _); lra. Qed.

Lemma Int_part_le a b : a <= b -> (Int_part a <= Int_part b)%Z.
Proof.
  intros H. destruct (base_Int_part a) as [A1 A2]. destruct (base_Int_part b) as [B1 B2].
  apply Znot_gt_le. intros G. assert (K : (Int_part b + 1 <= Int_part a)%Z) by lia.
  apply IZR_le in K. rewrite plus_IZR in K. lra.
Qed.
Lemma Int_part_IZR z : Int_part (IZR z) = z.
Proof.
  destruct (base_Int_part (IZR z)) as [A1 A2]. apply le_IZR in A1.
  assert (IZR z < IZR (Int_part (IZR z) + 1)) by (rewrite plus_IZR; lra).
  apply lt_IZR in H. lia.
Qed.

Lemma progress_range : forall r, (0 <= progress (Some r) <= 100)%Z.
Proof.
  intros r. unfold progress. destruct (Rlt_dec _ _); [|lia].
  pose proof (clamp_range (scaled r)) as C. split.
  - apply Z.le_trans with (Int_part (IZR 0)); [rewrite Int_part_IZR; lia|]. apply Int_part_le. lra.
  - apply Z.le_trans with (Int_part (IZR 100)); [|rewrite Int_part_IZR; lia]. apply Int_part_le. lra.
Qed.

Lemma progress_complete : forall r, progress (Some r) = 100%Z <-> r <= sqrt ERR.
Proof.
  intros r. rewrite sqrt_ERR. unfold progress. destruct (Rlt_dec (EPS * 100) r) as [H|H].
  - split; intros K.
    + apply Rnot_lt_le. intros G. pose proof (scaled_strict r G) as S.
      destruct (base_Int_part (Rmax 0 (Rmin 1 (scaled r)) * 100)) as [A _]. rewrite K in A.
      unfold Rmax, Rmin in A. repeat (match type of A with context [Rle_dec ?a ?b] => destruct (Rle_dec a b) end); lra.
    + assert (S : 1 <= scaled r) by (rewrite <- scaled_one; now apply scaled_antitone).
      rewrite Rmin_left by assumption. rewrite Rmax_right by lra.
      replace (1 * 100) with (IZR 100) by lra. apply Int_part_IZR.
  - split; intros _; [|reflexivity]. unfold EPS in H. lra.
Qed.

Lemma progress_antitone : forall r r', r <= r' -> (progress (Some r') <= progress (Some r))%Z.
Proof.
  intros r r' H. unfold progress.
  destruct (Rlt_dec (EPS * 100) r) as [A|A].
  - destruct (Rlt_dec (EPS * 100) r') as [B|B]; [|lra].
    apply Int_part_le. apply Rmult_le_compat_r; [lra|]. apply clamp_mono. now apply scaled_antitone.
  - pose proof (progress_range r') as C. unfold progress in C. lia.
Qed.

Lemma progress_none : forall r, 1 / ERR <= r -> progress (Some r) = 0%Z.
Proof.
  intros r H. unfold ERR in H. unfold progress. destruct (Rlt_dec (EPS * 100) r) as [A|A]; [|unfold EPS in A; lra].
  assert (S : scaled r <= 0) by (rewrite <- scaled_zero; apply scaled_antitone; lra).
  rewrite Rmin_right by lra. rewrite Rmax_left by lra. replace (0 * 100) with (IZR 0) by lra. apply Int_part_IZR.
Qed.

(** Progress never decreases when the residual norm of the next iteration is not larger,
    so the last value of a converged run is the largest. *)
Lemma progress_nan : exists r, ~ (0 <= progress r <= 100)%Z.
Proof. exists None. cbn. lia. Qed.
