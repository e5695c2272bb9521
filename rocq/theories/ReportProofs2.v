(** Proofs about the Darcy friction factor. *)
From Coq Require Import Reals Lra Ranalysis5.
From Verif Require Import Base ReportModel ReportSpec ReportProofs.
Open Scope R_scope.

Lemma ln10_pos : 0 < ln 10.
Proof. apply ln_pos. lra. Qed.

Lemma log10_lt : forall a b, 0 < a -> a < b -> log10 a < log10 b.
Proof.
  intros a b A L. unfold log10. apply Rmult_lt_compat_r; [apply Rinv_0_lt_compat, ln10_pos |].
  apply ln_increasing; assumption.
Qed.
Lemma log10_le : forall a b, 0 < a -> a <= b -> log10 a <= log10 b.
Proof.
  intros a b A [L | ->]; [apply Rlt_le, log10_lt; assumption | apply Rle_refl].
Qed.
Lemma log10_1 : log10 1 = 0.
Proof. unfold log10. rewrite ln_1. field. assert (H := ln10_pos). lra. Qed.
Lemma log10_pow : forall n, log10 (10 ^ n) = INR n.
Proof.
  intro n. unfold log10. induction n as [| n IH].
  - cbn [pow INR]. rewrite ln_1. field. assert (H := ln10_pos). lra.
  - cbn [pow]. rewrite ln_mult; [| lra | apply pow_lt; lra].
    rewrite S_INR, <- IH. field. assert (H := ln10_pos). lra.
Qed.

(** the square root as the code writes it *)
Lemma root_pos : forall l, 0 < Rpower l (1 / 2).
Proof. intro. apply rpower_pos. Qed.
Lemma root_lt : forall a b, 0 < a -> a < b -> Rpower a (1 / 2) < Rpower b (1 / 2).
Proof.
  intros a b A L. unfold Rpower. apply exp_increasing.
  apply Rmult_lt_compat_l; [lra | apply ln_increasing; assumption].
Qed.
Lemma root_sqr : forall x, 0 < x -> Rpower (x * x) (1 / 2) = x.
Proof.
  intros x P. unfold Rpower. rewrite ln_mult by assumption.
  replace (1 / 2 * (ln x + ln x)) with (ln x) by field. apply exp_ln. exact P.
Qed.

Lemma one_over : forall x, 1 / x = / x.
Proof. intro. unfold Rdiv. apply Rmult_1_l. Qed.

Lemma inv_root_lt : forall a b, 0 < a -> a < b ->
  1 / Rpower b (1 / 2) < 1 / Rpower a (1 / 2).
Proof.
  intros a b A L. assert (H := root_lt a b A L).
  assert (P := root_pos a). rewrite (one_over (Rpower a (1 / 2))), (one_over (Rpower b (1 / 2))).
  apply Rinv_lt_contravar; [apply Rmult_lt_0_compat; [exact P | apply root_pos] | exact H].
Qed.

Lemma pk_increasing : forall re, 0 < re -> strictly_increasing_pos (prandtl_karman re).
Proof.
  intros re HR x y X L. unfold prandtl_karman.
  assert (A := inv_root_lt x y X L). assert (B := root_lt x y X L). assert (P := root_pos x).
  assert (C : log10 (re * Rpower x (1 / 2)) < log10 (re * Rpower y (1 / 2))).
  { apply log10_lt; [apply Rmult_lt_0_compat; assumption | apply Rmult_lt_compat_l; assumption]. }
  lra.
Qed.

Lemma cb_decreasing : forall re ks d, 0 < re -> 0 <= ks -> 0 < d ->
  strictly_decreasing_pos (colebrook re ks d).
Proof.
  intros re ks d HR HK HD x y X L. unfold colebrook.
  assert (A := inv_root_lt x y X L). assert (B := root_lt x y X L).
  assert (P := root_pos x). assert (Q := root_pos y).
  assert (K : 0 <= ks / (371 / 100 * d)).
  { apply Rmult_le_pos; [exact HK | apply Rlt_le, Rinv_0_lt_compat; lra]. }
  assert (C : 251 / 100 / (re * Rpower y (1 / 2)) < 251 / 100 / (re * Rpower x (1 / 2))).
  { apply Rmult_lt_compat_l; [lra |]. apply Rinv_lt_contravar.
    - apply Rmult_lt_0_compat; apply Rmult_lt_0_compat; assumption.
    - apply Rmult_lt_compat_l; assumption. }
  assert (C' : 0 < 251 / 100 / (re * Rpower y (1 / 2))).
  { apply Rdiv_lt_0_compat; [lra | apply Rmult_lt_0_compat; assumption]. }
  assert (E := log10_lt (251 / 100 / (re * Rpower y (1 / 2)) + ks / (371 / 100 * d))
                        (251 / 100 / (re * Rpower x (1 / 2)) + ks / (371 / 100 * d))).
  specialize (E ltac:(lra) ltac:(lra)). lra.
Qed.

(* ------------------------------------------------------------------ derivatives *)

Lemma d_ln : forall x, 0 < x -> derivable_pt_lim ln x (/ x).
Proof. exact derivable_pt_lim_ln. Qed.

Lemma d_root : forall l, 0 < l ->
  derivable_pt_lim (fun x => Rpower x (1 / 2)) l (1 / 2 * Rpower l (1 / 2 - 1)).
Proof. intros l P. apply derivable_pt_lim_power. exact P. Qed.

Lemma d_inv_root : forall l, 0 < l ->
  derivable_pt_lim (fun x => 1 / Rpower x (1 / 2)) l (- (5 / 10) * Rpower l (- (15 / 10))).
Proof.
  intros l P.
  assert (D : derivable_pt_lim (fun x => Rpower x (- (1 / 2))) l (- (1 / 2) * Rpower l (- (1 / 2) - 1)))
    by (apply derivable_pt_lim_power; exact P).
  replace (- (5 / 10) * Rpower l (- (15 / 10))) with (- (1 / 2) * Rpower l (- (1 / 2) - 1)).
  - intros eps E. destruct (D eps E) as (del & H). exists del. intros h N L.
    rewrite (one_over (Rpower l (1 / 2))), (one_over (Rpower (l + h) (1 / 2))).
    rewrite <- !Rpower_Ropp. apply H; assumption.
  - replace (- (1 / 2) - 1) with (- (15 / 10)) by field. field.
Qed.

Lemma log_root : forall re l, 0 < re -> 0 < l ->
  log10 (re * Rpower l (1 / 2)) = ln re / ln 10 + 1 / 2 * ln l / ln 10.
Proof.
  intros re l HR P. unfold log10. rewrite ln_mult; [| exact HR | apply root_pos].
  unfold Rpower at 1. rewrite ln_exp. field. assert (H := ln10_pos). lra.
Qed.

Lemma pk_eq : forall re l, 0 < re -> 0 < l ->
  prandtl_karman re l =
  (2 * (ln re / ln 10) - 8 / 10) + / ln 10 * ln l - 1 / Rpower l (1 / 2).
Proof.
  intros re l HR P. unfold prandtl_karman. rewrite log_root by assumption. field.
  split; [assert (H := root_pos l); lra | assert (H := ln10_pos); lra].
Qed.

(** a function that agrees with [f] near [x] has the same derivative *)
Lemma d_local : forall f g x d, 0 < x -> (forall y, 0 < y -> f y = g y) ->
  derivable_pt_lim g x d -> derivable_pt_lim f x d.
Proof.
  intros f g x d P E D eps He. destruct (D eps He) as (del & H).
  assert (M : 0 < Rmin del x) by (apply Rmin_pos; [apply cond_pos | exact P]).
  exists (mkposreal _ M). intros h N L. cbn in L.
  assert (L1 : Rabs h < del) by (eapply Rlt_le_trans; [exact L | apply Rmin_l]).
  assert (L2 : Rabs h < x) by (eapply Rlt_le_trans; [exact L | apply Rmin_r]).
  rewrite !E; [apply H; assumption | exact P |].
  unfold Rabs in L2. destruct (Rcase_abs h); lra.
Qed.

Lemma pk_derivative : forall re l, 0 < re -> 0 < l ->
  derivable_pt_lim (prandtl_karman re) l (prandtl_karman_derivative re l).
Proof.
  intros re l HR P.
  apply (d_local _ _ _ _ P (fun y Y => pk_eq re y HR Y)).
  unfold prandtl_karman_derivative.
  replace (1 / (l * ln 10) + 5 / 10 * Rpower l (- (15 / 10)))
    with ((0 + / ln 10 * / l) - (- (5 / 10) * Rpower l (- (15 / 10))))
    by (field; split; [assert (H := ln10_pos); lra | lra]).
  apply (derivable_pt_lim_minus (fun y => 2 * (ln re / ln 10) - 8 / 10 + / ln 10 * ln y)
           (fun y => 1 / Rpower y (1 / 2))); [| apply d_inv_root; exact P].
  apply (derivable_pt_lim_plus (fun _ => 2 * (ln re / ln 10) - 8 / 10) (fun y => / ln 10 * ln y));
    [apply derivable_pt_lim_const |].
  apply (derivable_pt_lim_scal ln). apply d_ln. exact P.
Qed.

Lemma d_cont : forall f x d, derivable_pt_lim f x d -> continuity_pt f x.
Proof. intros f x d D. apply derivable_continuous_pt. exists d. exact D. Qed.

Lemma cb_cont : forall re ks d l, 0 < re -> 0 <= ks -> 0 < d -> 0 < l ->
  continuity_pt (colebrook re ks d) l.
Proof.
  intros re ks d l HR HK HD P. unfold colebrook, log10.
  assert (Q := root_pos l).
  assert (K : 0 <= ks / (371 / 100 * d)).
  { apply Rmult_le_pos; [exact HK | apply Rlt_le, Rinv_0_lt_compat; lra]. }
  assert (C : 0 < 251 / 100 / (re * Rpower l (1 / 2))).
  { apply Rdiv_lt_0_compat; [lra | apply Rmult_lt_0_compat; assumption]. }
  assert (RC : continuity_pt (fun x => Rpower x (1 / 2)) l) by (eapply d_cont, d_root; exact P).
  apply (continuity_pt_plus (fun x => 2 * (ln (251 / 100 / (re * Rpower x (1 / 2)) + ks / (371 / 100 * d)) / ln 10))
           (fun x => 1 / Rpower x (1 / 2))); [| eapply d_cont, d_inv_root; exact P].
  apply (continuity_pt_scal (fun x => ln (251 / 100 / (re * Rpower x (1 / 2)) + ks / (371 / 100 * d)) / ln 10)).
  apply (continuity_pt_mult (fun x => ln (251 / 100 / (re * Rpower x (1 / 2)) + ks / (371 / 100 * d)))
           (fun _ => / ln 10)); [| apply continuity_pt_const; intros ? ?; reflexivity].
  apply (continuity_pt_comp (fun x => 251 / 100 / (re * Rpower x (1 / 2)) + ks / (371 / 100 * d)) ln).
  - apply (continuity_pt_plus (fun x => 251 / 100 / (re * Rpower x (1 / 2))) (fun _ => ks / (371 / 100 * d)));
      [| apply continuity_pt_const; intros ? ?; reflexivity].
    apply (continuity_pt_mult (fun _ => 251 / 100) (fun x => / (re * Rpower x (1 / 2))));
      [apply continuity_pt_const; intros ? ?; reflexivity |].
    apply (continuity_pt_inv (fun x => re * Rpower x (1 / 2))).
    + apply (continuity_pt_scal (fun x => Rpower x (1 / 2))). exact RC.
    + assert (0 < re * Rpower l (1 / 2)) by (apply Rmult_lt_0_compat; assumption). lra.
  - eapply d_cont, d_ln. lra.
Qed.

(* ------------------------------------------------------------------- existence *)

Lemma increasing_one_zero : forall f a b, strictly_increasing_pos f ->
  (forall x, 0 < x -> continuity_pt f x) -> 0 < a -> a < b -> f a < 0 -> 0 < f b ->
  exists x, a <= x <= b /\ f x = 0 /\ forall y, 0 < y -> f y = 0 -> y = x.
Proof.
  intros f a b I C A L FA FB.
  destruct (IVT_interv f a b) as (x & X & Z); [| exact L | exact FA | exact FB |].
  - intros z Hz. apply C. lra.
  - exists x. split; [exact X | split; [exact Z |]]. intros y Y E.
    destruct (Rtotal_order x y) as [H | [-> | H]]; [| reflexivity |].
    + assert (K := I x y ltac:(lra) H). lra.
    + assert (K := I y x Y H). lra.
Qed.

Lemma pk_one_zero : forall re, 1000000 <= re ->
  exists l, 0 < l <= 2 / 10 /\ prandtl_karman re l = 0 /\
    forall l', 0 < l' -> prandtl_karman re l' = 0 -> l' = l.
Proof.
  intros re HR. assert (RP : 0 < re) by lra.
  set (a := / re * / re).
  assert (IR : 0 < / re) by (apply Rinv_0_lt_compat; lra).
  assert (IR1 : / re <= / 1000000) by (apply Rinv_le_contravar; lra).
  assert (AP : 0 < a) by (apply Rmult_lt_0_compat; assumption).
  assert (AL : a <= 1 / 1000000).
  { unfold a. apply Rle_trans with (/ 1000000 * / 1000000); [apply Rmult_le_compat; lra | lra]. }
  assert (FA : prandtl_karman re a < 0).
  { unfold prandtl_karman, a. rewrite root_sqr by exact IR. rewrite Rinv_r by lra.
    rewrite log10_1. rewrite one_over, Rinv_inv. lra. }
  assert (FB : 0 < prandtl_karman re (2 / 10)).
  { unfold prandtl_karman.
    assert (R4 : 4 / 10 < Rpower (2 / 10) (1 / 2)).
    { rewrite <- (root_sqr (4 / 10)) at 1 by lra. apply root_lt; lra. }
    assert (I4 : 1 / Rpower (2 / 10) (1 / 2) < 10 / 4).
    { rewrite one_over. replace (10 / 4) with (/ (4 / 10)) by field.
      apply Rinv_lt_contravar; [apply Rmult_lt_0_compat; lra | exact R4]. }
    assert (G : log10 (10 ^ 5) <= log10 (re * Rpower (2 / 10) (1 / 2))).
    { apply log10_le; [apply pow_lt; lra |].
      apply Rle_trans with (1000000 * (4 / 10)); [lra |].
      apply Rmult_le_compat; lra. }
    rewrite log10_pow in G. replace (INR 5) with 5 in G by (cbn; lra). lra. }
  destruct (increasing_one_zero (prandtl_karman re) a (2 / 10)) as (l & X & Z & U);
    [apply pk_increasing; exact RP | | exact AP | lra | exact FA | exact FB |].
  - intros x P. eapply d_cont, pk_derivative; assumption.
  - exists l. split; [lra | split; [exact Z | exact U]].
Qed.

Lemma cb_one_zero : forall re ks d, 0 < re -> 0 < ks -> 0 < d -> ks < 371 / 100 * d ->
  one_positive_zero (colebrook re ks d).
Proof.
  intros re ks d HR HK HD HS.
  set (k := ks / (371 / 100 * d)).
  assert (K0 : 0 < k) by (apply Rdiv_lt_0_compat; lra).
  assert (K1 : k < 1).
  { unfold k. apply (Rmult_lt_reg_r (371 / 100 * d)); [lra |].
    unfold Rdiv at 1. rewrite Rmult_assoc, Rinv_l by lra. lra. }
  set (c := (1 + k) / 2). assert (C0 : k < c) by (unfold c; lra). assert (C1 : c < 1) by (unfold c; lra).
  assert (LC : log10 c < 0) by (rewrite <- log10_1; apply log10_lt; lra).
  (* large friction factor: 1/sqrt = x *)
  set (x := Rmin (re * (c - k) / (251 / 100)) (- log10 c)).
  assert (X0 : 0 < x).
  { apply Rmin_pos; [| lra]. apply Rdiv_lt_0_compat; [apply Rmult_lt_0_compat; lra | lra]. }
  assert (X1 : x <= re * (c - k) / (251 / 100)) by apply Rmin_l.
  assert (X2 : x <= - log10 c) by apply Rmin_r.
  assert (IX : 0 < / x) by (apply Rinv_0_lt_compat; exact X0).
  set (b := / x * / x).
  assert (B0 : 0 < b) by (apply Rmult_lt_0_compat; assumption).
  assert (FB : colebrook re ks d b < 0).
  { unfold colebrook, b. rewrite root_sqr by exact IX. fold k.
    rewrite (one_over (/ x)), Rinv_inv.
    assert (E : 251 / 100 / (re * / x) <= c - k).
    { replace (251 / 100 / (re * / x)) with (x * (251 / 100 / re)) by (field; lra).
      apply Rle_trans with (re * (c - k) / (251 / 100) * (251 / 100 / re)).
      - apply Rmult_le_compat_r; [apply Rlt_le, Rdiv_lt_0_compat; lra | exact X1].
      - apply Req_le. field. lra. }
    assert (P : 0 < 251 / 100 / (re * / x)).
    { apply Rdiv_lt_0_compat; [lra | apply Rmult_lt_0_compat; lra]. }
    assert (G := log10_le (251 / 100 / (re * / x) + k) c ltac:(lra) ltac:(lra)). lra. }
  (* small friction factor *)
  set (y := Rmin (251 / 100 / re) (/ x / 2)).
  assert (Y0 : 0 < y).
  { apply Rmin_pos; [apply Rdiv_lt_0_compat; lra | lra]. }
  assert (Y1 : y <= 251 / 100 / re) by apply Rmin_l.
  assert (Y2 : y <= / x / 2) by apply Rmin_r.
  set (a := y * y). assert (A0 : 0 < a) by (apply Rmult_lt_0_compat; assumption).
  assert (AB : a < b).
  { unfold a, b. apply Rmult_le_0_lt_compat; lra. }
  assert (FA : 0 < colebrook re ks d a).
  { unfold colebrook, a. rewrite root_sqr by exact Y0. fold k.
    assert (E : 1 <= 251 / 100 / (re * y)).
    { assert (RY : 0 < re * y) by (apply Rmult_lt_0_compat; assumption).
      apply (Rmult_le_reg_r (re * y)); [exact RY |].
      unfold Rdiv at 1. rewrite Rmult_assoc, Rinv_l by lra. rewrite Rmult_1_l, Rmult_1_r.
      apply Rle_trans with (re * (251 / 100 / re)); [apply Rmult_le_compat_l; lra |].
      apply Req_le. field. lra. }
    assert (G := log10_le 1 (251 / 100 / (re * y) + k) ltac:(lra) ltac:(lra)). rewrite log10_1 in G.
    assert (0 < 1 / y) by (apply Rdiv_lt_0_compat; lra). lra. }
  destruct (increasing_one_zero (fun l => - colebrook re ks d l) a b) as (l & X & Z & U).
  - intros u v Hu Hv. assert (D := cb_decreasing re ks d HR (Rlt_le _ _ HK) HD u v Hu Hv). lra.
  - intros u Hu. apply (continuity_pt_opp (colebrook re ks d)). apply cb_cont; lra.
  - exact A0.
  - exact AB.
  - lra.
  - lra.
  - exists l. split; [lra | split; [lra |]]. intros l' P E. apply U; [exact P | lra].
Qed.

Lemma friction_direct_positive : forall re ks d l, 0 < re ->
  darcy_friction_factor re ks d = Direct l -> 0 < l.
Proof.
  intros re ks d l HR. unfold darcy_friction_factor.
  destruct (Rle_dec re 2320) as [A | A].
  - rewrite leb_t by exact A. intro E. injection E as <-. apply Rdiv_lt_0_compat; lra.
  - rewrite leb_f by lra. destruct (ltb (re * ks / d) 65); [| discriminate].
    destruct (Rle_dec re 10000) as [B | B].
    + rewrite leb_t by exact B. intro E. injection E as <-. unfold blasius.
      apply Rmult_lt_0_compat; [lra | apply rpower_pos].
    + rewrite leb_f by lra. destruct (ltb re 1000000); [| discriminate].
      intro E. injection E as <-. unfold hanakov. apply Rinv_0_lt_compat, pow_lt.
      assert (G : log10 (10 ^ 4) <= log10 re) by (apply log10_le; [apply pow_lt; lra | lra]).
      rewrite log10_pow in G. replace (INR 4) with 4 in G by (cbn; lra). lra.
Qed.

Lemma friction_search_one_zero : forall re ks d f, 0 < d -> 0 <= ks -> ks < 371 / 100 * d ->
  darcy_friction_factor re ks d = Zero_of f -> one_positive_zero f.
Proof.
  intros re ks d f HD HK HS. unfold darcy_friction_factor.
  destruct (Rle_dec re 2320) as [A | A].
  - rewrite leb_t by exact A. discriminate.
  - rewrite leb_f by lra. destruct (Rlt_dec (re * ks / d) 65) as [B | B].
    + rewrite ltb_t by exact B. destruct (leb re 10000); [discriminate |].
      destruct (Rlt_dec re 1000000) as [C | C]; [rewrite ltb_t by exact C; discriminate |].
      rewrite ltb_f by lra. intro E. injection E as <-.
      destruct (pk_one_zero re) as (l & L & Z & U); [lra |].
      exists l. split; [lra | split; [exact Z | exact U]].
    + rewrite ltb_f by lra. intro E. injection E as <-. apply cb_one_zero; try lra.
      destruct HK as [HK | HK]; [exact HK |]. subst ks. exfalso. apply B.
      unfold Rdiv. rewrite Rmult_0_r, Rmult_0_l. lra.
Qed.
