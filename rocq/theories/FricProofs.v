(** Lemmas about pressure losses of pipes over the flow. *)
From Coq Require Import Reals Lra.
From Verif Require Import ReportModel ReportSpec ReportProofs ReportProofs2 FricSpec.
Open Scope R_scope.

Lemma sq_lt a b : 0 < a -> a < b -> a * a < b * b.
Proof. intros A B. apply Rmult_gt_0_lt_compat; lra. Qed.
Lemma sq_root l : 0 < l -> Rpower l (1 / 2) * Rpower l (1 / 2) = l.
Proof. intros L. rewrite <- Rpower_plus. replace (1 / 2 + 1 / 2) with 1 by lra. now apply Rpower_1. Qed.

(** [re * sqrt l] squared *)
Lemma turb re l : 0 < l -> (re * Rpower l (1 / 2)) * (re * Rpower l (1 / 2)) = l * (re * re).
Proof. intros L. transitivity (Rpower l (1 / 2) * Rpower l (1 / 2) * (re * re)); [ring|]. now rewrite sq_root. Qed.

Lemma log10_sub a b : 0 < a -> 0 < b -> log10 (a / b) = log10 a - log10 b.
Proof. intros A B. unfold log10. rewrite ln_quot by assumption. field. assert (H := ln10_pos). lra. Qed.

(* ---- Prandtl and Karman ---- *)
Lemma pk_y re l : 0 < re -> 0 < l -> prandtl_karman re l = 0 ->
  let y := re * Rpower l (1 / 2) in 0 < y /\ re = y * (2 * log10 y - 8 / 10).
Proof.
  intros R L H y. assert (P := root_pos l). assert (Y : 0 < y) by (apply Rmult_lt_0_compat; assumption). split; [exact Y|].
  unfold prandtl_karman in H. fold y in H. assert (E : 2 * log10 y - 8 / 10 = 1 / Rpower l (1 / 2)) by lra. rewrite E. unfold y. field. lra.
Qed.
Lemma pk_mono re re' l l' : 0 < re -> re < re' -> 0 < l -> 0 < l' -> prandtl_karman re l = 0 -> prandtl_karman re' l' = 0 ->
  l * (re * re) < l' * (re' * re').
Proof.
  intros R R' L L' H H'. destruct (pk_y re l R L H) as (Y & E). destruct (pk_y re' l' ltac:(lra) L' H') as (Y' & E').
  cbv zeta in *. rewrite <- !turb by assumption. set (y := re * Rpower l (1 / 2)) in *. set (y' := re' * Rpower l' (1 / 2)) in *. clearbody y y'.
  apply sq_lt; [exact Y|]. destruct (Rlt_dec y y') as [|N]; [assumption|]. exfalso. assert (LE : y' <= y) by lra.
  pose proof (log10_le y' y Y' LE) as LL. assert (A : 0 < 2 * log10 y' - 8 / 10). { apply (Rmult_lt_reg_l y'); [exact Y'|]. rewrite <- E'. lra. }
  assert (y' * (2 * log10 y' - 8 / 10) <= y * (2 * log10 y - 8 / 10)) by (apply Rmult_le_compat; lra). lra.
Qed.

(* ---- Colebrook ---- *)
Lemma cb_y re ks d l : 0 < re -> 0 < l -> colebrook re ks d l = 0 ->
  let y := re * Rpower l (1 / 2) in 0 < y /\ re = y * (- (2 * log10 (251 / 100 / y + ks / (371 / 100 * d)))).
Proof.
  intros R L H y. assert (P := root_pos l). assert (Y : 0 < y) by (apply Rmult_lt_0_compat; assumption). split; [exact Y|].
  unfold colebrook in H. fold y in H. assert (E : - (2 * log10 (251 / 100 / y + ks / (371 / 100 * d))) = 1 / Rpower l (1 / 2)) by lra.
  rewrite E. unfold y. field. lra.
Qed.
Lemma rough_nonneg ks d : 0 <= ks -> 0 < d -> 0 <= ks / (371 / 100 * d).
Proof. intros K D. apply Rmult_le_pos; [exact K|]. apply Rlt_le, Rinv_0_lt_compat. lra. Qed.
Lemma cb_mono re re' ks d l l' : 0 <= ks -> 0 < d -> 0 < re -> re < re' -> 0 < l -> 0 < l' -> colebrook re ks d l = 0 -> colebrook re' ks d l' = 0 ->
  l * (re * re) < l' * (re' * re').
Proof.
  intros K D R R' L L' H H'. destruct (cb_y re ks d l R L H) as (Y & E). destruct (cb_y re' ks d l' ltac:(lra) L' H') as (Y' & E').
  cbv zeta in *. rewrite <- !turb by assumption. set (y := re * Rpower l (1 / 2)) in *. set (y' := re' * Rpower l' (1 / 2)) in *. clearbody y y'.
  pose proof (rough_nonneg ks d K D) as KN. set (k := ks / (371 / 100 * d)) in *. clearbody k.
  apply sq_lt; [exact Y|]. destruct (Rlt_dec y y') as [|N]; [assumption|]. exfalso. assert (LE : y' <= y) by lra.
  assert (Q0 : 0 < 251 / 100 / y) by (apply Rdiv_lt_0_compat; lra).
  assert (Q : 251 / 100 / y <= 251 / 100 / y'). { apply Rmult_le_compat_l; [lra|]. apply Rinv_le_contravar; assumption. }
  pose proof (log10_le (251 / 100 / y + k) (251 / 100 / y' + k) ltac:(lra) ltac:(lra)) as LL.
  assert (A : 0 < - (2 * log10 (251 / 100 / y' + k))). { apply (Rmult_lt_reg_l y'); [exact Y'|]. rewrite <- E'. lra. }
  assert (y' * (- (2 * log10 (251 / 100 / y' + k))) <= y * (- (2 * log10 (251 / 100 / y + k)))) by (apply Rmult_le_compat; lra). lra.
Qed.

(* ---- Hanakov ---- *)
Lemma ln10_gt1 : 1 < ln 10.
Proof. assert (H := exp_le_3). apply Rle_lt_trans with (ln (exp 1)); [rewrite ln_exp; lra|]. apply ln_increasing; [apply exp_pos|lra]. Qed.

Lemma log10_step x y : 0 < x -> x < y -> log10 y - log10 x < (y - x) / x.
Proof.
  intros X L. assert (Q : 1 < y / x) by (apply (Rmult_lt_reg_r x); [exact X|]; unfold Rdiv; rewrite Rmult_assoc, Rinv_l by lra; lra).
  rewrite <- log10_sub by lra. pose proof (ln_upper (y / x) ltac:(lra)) as U. pose proof (ln_pos _ Q) as P. pose proof ln10_gt1 as T.
  assert (E : (y - x) / x = y / x - 1) by (field; lra). rewrite E. apply Rlt_le_trans with (ln (y / x)); [|exact U].
  unfold log10. apply (Rmult_lt_reg_r (ln 10)); [lra|]. unfold Rdiv at 1. rewrite Rmult_assoc, Rinv_l by lra. rewrite Rmult_1_r.
  rewrite <- (Rmult_1_r (ln (y / x))) at 1. apply Rmult_lt_compat_l; assumption.
Qed.
Lemma hanakov_val re : 0 < 18 / 10 * log10 re - 15 / 10 ->
  hanakov re * (re * re) = (re / (18 / 10 * log10 re - 15 / 10)) * (re / (18 / 10 * log10 re - 15 / 10)).
Proof. intros P. unfold hanakov. field. lra. Qed.
Lemma log10_4 re : 10000 < re -> 4 < log10 re.
Proof. intros H. pose proof (log10_pow 4) as E. cbn in E. apply Rle_lt_trans with (log10 10000); [|apply log10_lt; lra]. replace 10000 with (10 * (10 * (10 * (10 * 1)))) by lra. rewrite E. lra. Qed.
Lemma hanakov_ratio x y : 10000 <= x -> x < y -> x / (18 / 10 * log10 x - 15 / 10) < y / (18 / 10 * log10 y - 15 / 10).
Proof.
  intros X L. assert (A : 4 <= log10 x).
  { destruct (Req_dec x 10000) as [->|N]; [|apply Rlt_le, log10_4; lra]. pose proof (log10_pow 4) as E. cbn in E.
    replace 10000 with (10 * (10 * (10 * (10 * 1)))) by lra. rewrite E. lra. }
  pose proof (log10_4 y ltac:(lra)) as B. pose proof (log10_step x y ltac:(lra) L) as ST.
  set (u := log10 x) in *. set (v := log10 y) in *. clearbody u v.
  assert (ST' : (v - u) * x < y - x). { apply (Rmult_lt_compat_r x) in ST; [|lra]. unfold Rdiv in ST. rewrite Rmult_assoc, Rinv_l in ST by lra. lra. }
  apply (Rmult_lt_reg_r (18 / 10 * u - 15 / 10)); [lra|]. apply (Rmult_lt_reg_r (18 / 10 * v - 15 / 10)); [lra|].
  replace (x / (18 / 10 * u - 15 / 10) * (18 / 10 * u - 15 / 10) * (18 / 10 * v - 15 / 10)) with (x * (18 / 10 * v - 15 / 10)) by (field; lra).
  replace (y / (18 / 10 * v - 15 / 10) * (18 / 10 * u - 15 / 10) * (18 / 10 * v - 15 / 10)) with (y * (18 / 10 * u - 15 / 10)) by (field; lra).
  assert (Z : 0 <= (y - x) * (u - 4)) by (apply Rmult_le_pos; lra). nra.
Qed.
Lemma hanakov_mono re re' : 10000 < re -> re < re' -> hanakov re * (re * re) < hanakov re' * (re' * re').
Proof.
  intros X L. pose proof (log10_4 re X). pose proof (log10_4 re' ltac:(lra)). rewrite !hanakov_val by lra.
  apply sq_lt; [apply Rdiv_lt_0_compat; lra|]. apply hanakov_ratio; lra.
Qed.

(* ---- Blasius ---- *)
Lemma blasius_val re : 0 < re -> blasius re * (re * re) = 3164 / 10000 * Rpower re (7 / 4).
Proof.
  intros P. unfold blasius. replace (re * re) with (Rpower re 2). 2: { replace 2 with (1 + 1) by lra. rewrite Rpower_plus, Rpower_1 by assumption. reflexivity. }
  rewrite Rmult_assoc, <- Rpower_plus. f_equal. f_equal. lra.
Qed.
Lemma rpower_lt_l a b c : 0 < c -> 0 < a -> a < b -> Rpower a c < Rpower b c.
Proof. intros C A L. unfold Rpower. apply exp_increasing. apply Rmult_lt_compat_l; [exact C|]. now apply ln_increasing. Qed.
Lemma blasius_mono re re' : 0 < re -> re < re' -> blasius re * (re * re) < blasius re' * (re' * re').
Proof. intros P L. rewrite !blasius_val by lra. apply Rmult_lt_compat_l; [lra|]. apply rpower_lt_l; lra. Qed.
Lemma blasius_big re : 2320 < re -> 150000 < blasius re * (re * re).
Proof.
  intros H. rewrite blasius_val by lra. replace (7 / 4) with (1 + 3 / 4) by lra. rewrite Rpower_plus, Rpower_1 by lra.
  assert (A : 216 < Rpower re (3 / 4)).
  { apply Rle_lt_trans with (Rpower 1296 (3 / 4)); [|apply rpower_lt_l; lra]. replace 1296 with (6 ^ 4) by lra.
    rewrite <- (Rpower_pow 4 6) by lra. rewrite Rpower_mult. replace (INR 4 * (3 / 4)) with (INR 3) by (cbn; lra). rewrite Rpower_pow by lra. lra. }
  assert (B : 2320 * 216 < re * Rpower re (3 / 4)) by (apply Rmult_gt_0_lt_compat; lra). lra.
Qed.
Lemma hanakov_big re : 10000 < re -> 150000 < hanakov re * (re * re).
Proof.
  intros H. pose proof (log10_4 re H) as B. rewrite hanakov_val by lra. pose proof (hanakov_ratio 10000 re ltac:(lra) H) as M.
  assert (E : log10 10000 = 4). { pose proof (log10_pow 4) as E. cbn in E. replace 10000 with (10 * (10 * (10 * (10 * 1)))) by lra. rewrite E. lra. }
  rewrite E in M. set (y := re / _) in *. clearbody y. assert (388 < y) by lra. assert (388 * 388 < y * y) by (apply sq_lt; lra). lra.
Qed.
Lemma log10_3 y : 0 < y -> y <= 1000 -> log10 y <= 3.
Proof. intros P H. pose proof (log10_le y 1000 P H) as L. pose proof (log10_pow 3) as E. cbn in E. replace (10 * (10 * (10 * 1))) with 1000 in E by lra. lra. Qed.
Lemma pk_big re l : 2320 < re -> 0 < l -> prandtl_karman re l = 0 -> 150000 < l * (re * re).
Proof.
  intros R L H. destruct (pk_y re l ltac:(lra) L H) as (Y & E). cbv zeta in *. rewrite <- turb by assumption. set (y := re * Rpower l (1 / 2)) in *. clearbody y.
  assert (388 < y). { destruct (Rlt_dec 388 y) as [|N]; [assumption|]. exfalso. pose proof (log10_3 y Y ltac:(lra)). assert (P : 0 < 2 * log10 y - 8 / 10) by (apply (Rmult_lt_reg_l y); lra).
    assert (y * (2 * log10 y - 8 / 10) <= 388 * (2 * 3 - 8 / 10)) by (apply Rmult_le_compat; lra). lra. }
  assert (388 * 388 < y * y) by (apply sq_lt; lra). lra.
Qed.
Lemma log10_half y : 0 < y -> y <= 155 -> log10 y <= 5 / 2.
Proof.
  intros P H. assert (E : 2 * log10 y = log10 (y * y)). { unfold log10. rewrite ln_mult by assumption. field. pose proof ln10_pos. lra. }
  assert (Q : y * y <= 155 * 155) by (apply Rmult_le_compat; lra). pose proof (log10_le (y * y) 100000 ltac:(apply Rmult_lt_0_compat; lra) ltac:(lra)) as M.
  pose proof (log10_pow 5) as F. cbn in F. replace (10 * (10 * (10 * (10 * (10 * 1))))) with 100000 in F by lra. lra.
Qed.
Lemma cb_big re ks d l : 0 <= ks -> 0 < d -> 2320 < re -> 0 < l -> colebrook re ks d l = 0 -> 150000 < l * (re * re).
Proof.
  intros K D R L H. destruct (cb_y re ks d l ltac:(lra) L H) as (Y & E). cbv zeta in *. rewrite <- turb by assumption. set (y := re * Rpower l (1 / 2)) in *. clearbody y.
  pose proof (rough_nonneg ks d K D) as KN. set (k := ks / (371 / 100 * d)) in *. clearbody k.
  assert (388 < y). { destruct (Rlt_dec 388 y) as [|N]; [assumption|]. exfalso.
    assert (Q0 : 0 < 251 / 100 / y) by (apply Rdiv_lt_0_compat; lra).
    pose proof (log10_le (251 / 100 / y) (251 / 100 / y + k) Q0 ltac:(lra)) as M.
    assert (V : log10 (251 / 100 / y) = - log10 (y / (251 / 100))) by (rewrite !log10_sub by lra; lra).
    pose proof (log10_half (y / (251 / 100)) ltac:(apply Rdiv_lt_0_compat; lra) ltac:(lra)) as W.
    assert (P : 0 < - (2 * log10 (251 / 100 / y + k))) by (apply (Rmult_lt_reg_l y); lra).
    assert (y * (- (2 * log10 (251 / 100 / y + k))) <= 388 * 5) by (apply Rmult_le_compat; lra). lra. }
  assert (388 * 388 < y * y) by (apply sq_lt; lra). lra.
Qed.

(* ---- pressure drop ---- *)
Definition coeff (L D visc vs : R) : R := 8 * (PI * D * (visc / 2) / 4) * (PI * D * (visc / 2) / 4) * vs / 2 * L / (PI ^ 2 * D ^ 5).
Lemma coeff_pos L D visc vs : 0 < L -> 0 < D -> 0 < visc -> 0 < vs -> 0 < coeff L D visc vs.
Proof.
  intros A B C V. unfold coeff. pose proof PI_RGT_0 as P. assert (X : 0 < PI * D * (visc / 2) / 4).
  { apply Rdiv_lt_0_compat; [|lra]. apply Rmult_lt_0_compat; [apply Rmult_lt_0_compat; assumption|lra]. }
  apply Rdiv_lt_0_compat; [|apply Rmult_lt_0_compat; apply pow_lt; assumption].
  apply Rmult_lt_0_compat; [|exact A]. apply Rdiv_lt_0_compat; [|lra]. apply Rmult_lt_0_compat; [|exact V]. apply Rmult_lt_0_compat; [|exact X].
  apply Rmult_lt_0_compat; [lra|exact X].
Qed.
Lemma reynolds_pos m D visc : 0 < D -> 0 < visc -> 0 < m -> 0 < reynolds m D visc.
Proof.
  intros B C M. unfold reynolds. rewrite Rabs_right by lra. pose proof PI_RGT_0 as P.
  apply Rdiv_lt_0_compat; [lra|]. apply Rmult_lt_0_compat; [apply Rmult_lt_0_compat; assumption|lra].
Qed.
Lemma drop_re l L D visc m vs : 0 < D -> 0 < visc -> 0 < m ->
  darcy_drop (fun _ => l) L D visc m vs = coeff L D visc vs * (l * (reynolds m D visc * reynolds m D visc)).
Proof.
  intros B C M. unfold darcy_drop, coeff, reynolds. rewrite Rabs_right by lra. pose proof PI_RGT_0 as P. field. repeat split; lra.
Qed.

Lemma factor_cases re ks d l : is_factor re ks d l ->
  (re <= 2320 /\ l = 64 / re) \/
  (2320 < re /\ re * ks / d < 65 /\ re <= 10000 /\ l = blasius re) \/
  (10000 < re < 1000000 /\ re * ks / d < 65 /\ l = hanakov re) \/
  (1000000 <= re /\ re * ks / d < 65 /\ 0 < l /\ prandtl_karman re l = 0) \/
  (2320 < re /\ 65 <= re * ks / d /\ 0 < l /\ colebrook re ks d l = 0).
Proof.
  unfold is_factor, darcy_friction_factor. destruct (Rle_dec re 2320) as [A|A].
  - rewrite leb_t by exact A. auto.
  - rewrite leb_f by lra. destruct (Rlt_dec (re * ks / d) 65) as [B|B].
    + rewrite ltb_t by exact B. destruct (Rle_dec re 10000) as [C|C].
      * rewrite leb_t by exact C. intros ->. right; left. repeat split; lra.
      * rewrite leb_f by lra. destruct (Rlt_dec re 1000000) as [E|E].
        -- rewrite ltb_t by exact E. intros ->. right; right; left. repeat split; lra.
        -- rewrite ltb_f by lra. intros (X & Y). right; right; right; left. repeat split; lra.
    + rewrite ltb_f by lra. intros (X & Y). right; right; right; right. repeat split; lra.
Qed.

Lemma factor_gap re ks d l : 0 < re -> 0 <= ks -> 0 < d -> is_factor re ks d l -> l * (re * re) <> 150000.
Proof.
  intros R K D F. destruct (factor_cases _ _ _ _ F) as [(A & ->)|[(A & B & C & ->)|[(A & B & ->)|[(A & B & L & H)|(A & B & L & H)]]]].
  - replace (64 / re * (re * re)) with (64 * re) by (field; lra). lra.
  - pose proof (blasius_big re A). lra.
  - pose proof (hanakov_big re (proj1 A)). lra.
  - pose proof (pk_big re l ltac:(lra) L H). lra.
  - pose proof (cb_big re ks d l K D A L H). lra.
Qed.

Lemma no_flow L D ks visc vs p_i : 0 < L -> 0 < D -> 0 <= ks -> 0 < visc -> 0 < vs ->
  exists p_o, p_o < p_i /\ forall m l, is_factor (reynolds m D visc) ks D l -> 0 < l -> darcy_eq (fun _ => l) L D visc m vs p_i p_o <> 0.
Proof.
  intros HL HD HK HV HS. pose proof (coeff_pos L D visc vs HL HD HV HS) as C. exists (p_i - coeff L D visc vs * 150000).
  split; [assert (0 < coeff L D visc vs * 150000) by (apply Rmult_lt_0_compat; lra); lra|]. intros m l F LP H.
  assert (CP : 0 < coeff L D visc vs * 150000) by (apply Rmult_lt_0_compat; lra).
  destruct (Rlt_dec (Rabs m) m_min) as [S|S].
  - unfold darcy_eq in H. rewrite ltb_t in H by exact S. lra.
  - pose proof m_min_pos as MP. pose proof (darcy_direction (fun _ => l) L D visc m vs p_i _ (fun _ _ => LP) HL HD HV HS ltac:(lra) H) as (_ & DN).
    destruct (Rtotal_order m 0) as [N|[N|N]]; [specialize (DN N); lra|subst m; rewrite Rabs_R0 in S; lra|].
    apply darcy_iff in H; [|lra]. rewrite drop_re in H by assumption.
    assert (E : l * (reynolds m D visc * reynolds m D visc) = 150000) by (apply (Rmult_eq_reg_l (coeff L D visc vs)); lra).
    now apply (factor_gap (reynolds m D visc) ks D l (reynolds_pos m D visc HD HV N) HK HD F).
Qed.

Lemma regime_mono g re re' ks d l l' : 0 <= ks -> 0 < d -> 0 < re -> re < re' -> in_regime g re ks d -> in_regime g re' ks d ->
  is_factor re ks d l -> is_factor re' ks d l' -> l * (re * re) < l' * (re' * re').
Proof.
  intros K D R L G G' F F'.
  destruct (factor_cases _ _ _ _ F) as [(A & ->)|[(A & B & C & ->)|[(A & B & ->)|[(A & B & P & H)|(A & B & P & H)]]]];
  destruct (factor_cases _ _ _ _ F') as [(A' & ->)|[(A' & B' & C' & ->)|[(A' & B' & ->)|[(A' & B' & P' & H')|(A' & B' & P' & H')]]]];
  try (exfalso; destruct g; cbn in *; lra).
  - replace (64 / re * (re * re)) with (64 * re) by (field; lra). replace (64 / re' * (re' * re')) with (64 * re') by (field; lra). lra.
  - now apply blasius_mono.
  - apply hanakov_mono; lra.
  - now apply pk_mono.
  - now apply cb_mono with (ks := ks) (d := d).
Qed.

Lemma same_regime g L D ks visc vs m m' l l' : 0 < L -> 0 < D -> 0 <= ks -> 0 < visc -> 0 < vs -> m_min <= m -> m < m' ->
  in_regime g (reynolds m D visc) ks D -> in_regime g (reynolds m' D visc) ks D ->
  is_factor (reynolds m D visc) ks D l -> is_factor (reynolds m' D visc) ks D l' ->
  forall p_i p_o p_o', darcy_eq (fun _ => l) L D visc m vs p_i p_o = 0 -> darcy_eq (fun _ => l') L D visc m' vs p_i p_o' = 0 -> p_o' < p_o.
Proof.
  intros HL HD HK HV HS M LT G G' F F' p_i p_o p_o' H H'. pose proof m_min_pos as MP.
  apply darcy_iff in H; [|rewrite Rabs_right by lra; exact M]. apply darcy_iff in H'; [|rewrite Rabs_right by lra; lra].
  rewrite drop_re in H by lra. rewrite drop_re in H' by lra.
  assert (RL : reynolds m D visc < reynolds m' D visc).
  { unfold reynolds. rewrite !Rabs_right by lra. apply Rmult_lt_compat_r; [|lra]. apply Rinv_0_lt_compat. pose proof PI_RGT_0.
    apply Rmult_lt_0_compat; [apply Rmult_lt_0_compat; assumption|lra]. }
  pose proof (regime_mono g _ _ ks D l l' HK HD (reynolds_pos m D visc HD HV ltac:(lra)) RL G G' F F') as X.
  apply (Rmult_lt_compat_l (coeff L D visc vs)) in X; [lra|]. now apply coeff_pos.
Qed.

(** Smooth pipe around Reynolds number 10000: diameter 4 / pi, sum of viscosities 2 / 1000 *)
Lemma more_flow : exists L D ks visc vs m m' l l' p_i p_o p_o',
  0 < L /\ 0 < D /\ 0 <= ks /\ 0 < visc /\ 0 < vs /\ 0 < m /\ m < m' /\
  is_factor (reynolds m D visc) ks D l /\ is_factor (reynolds m' D visc) ks D l' /\
  darcy_eq (fun _ => l) L D visc m vs p_i p_o = 0 /\ darcy_eq (fun _ => l') L D visc m' vs p_i p_o' = 0 /\ p_o < p_o'.
Proof.
  pose proof PI_RGT_0 as P. assert (RE : forall m, 0 < m -> reynolds m (4 / PI) (2 / 1000) = 1000 * m).
  { intros m M. unfold reynolds. rewrite Rabs_right by lra. field. lra. }
  assert (D0 : 0 < 4 / PI) by (apply Rdiv_lt_0_compat; lra). pose proof (coeff_pos 1 (4 / PI) (2 / 1000) 1 ltac:(lra) D0 ltac:(lra) ltac:(lra)) as C.
  assert (B : blasius 10000 = 3164 / 100000).
  { unfold blasius. replace 10000 with (10 ^ 4) at 2 by lra. rewrite <- (Rpower_pow 4 10) by lra. rewrite Rpower_mult. replace (INR 4 * - (1 / 4)) with (- (1)) by (cbn; lra).
    rewrite Rpower_Ropp, Rpower_1 by lra. lra. }
  assert (H : hanakov 10001 < 31 / 1000).
  { pose proof (log10_4 10001 ltac:(lra)) as X. unfold hanakov. set (u := log10 10001) in *. clearbody u.
    apply Rlt_le_trans with (/ (57 / 10) ^ 2); [|lra]. apply Rinv_lt_contravar; [apply Rmult_lt_0_compat; apply pow_lt; lra|].
    replace ((57 / 10) ^ 2) with (57 / 10 * (57 / 10)) by lra. replace ((18 / 10 * u - 15 / 10) ^ 2) with ((18 / 10 * u - 15 / 10) * (18 / 10 * u - 15 / 10)) by ring.
    apply sq_lt; lra. }
  pose proof m_min_pos as MM. assert (MV : m_min < 1) by (unfold m_min; lra).
  exists 1, (4 / PI), 0, (2 / 1000), 1, 10, (10001 / 1000), (blasius 10000), (hanakov 10001), 0,
    (0 - darcy_drop (fun _ => blasius 10000) 1 (4 / PI) (2 / 1000) 10 1), (0 - darcy_drop (fun _ => hanakov 10001) 1 (4 / PI) (2 / 1000) (10001 / 1000) 1).
  assert (R1 : 1000 * 10 = 10000) by lra. assert (R2 : 1000 * (10001 / 1000) = 10001) by lra.
  assert (Z : forall re, re * 0 / (4 / PI) < 65) by (intros re; unfold Rdiv; rewrite Rmult_0_r, Rmult_0_l; lra).
  split; [lra|]. split; [exact D0|]. split; [lra|]. split; [lra|]. split; [lra|]. split; [lra|]. split; [lra|].
  split. { rewrite RE, R1 by lra. unfold is_factor, darcy_friction_factor. rewrite leb_f by lra. rewrite ltb_t by apply Z. rewrite leb_t by lra. reflexivity. }
  split. { rewrite RE, R2 by lra. unfold is_factor, darcy_friction_factor. rewrite leb_f by lra. rewrite ltb_t by apply Z. rewrite leb_f by lra. rewrite ltb_t by lra. reflexivity. }
  split. { apply darcy_iff; [rewrite Rabs_right by lra; lra|ring]. } split. { apply darcy_iff; [rewrite Rabs_right by lra; lra|ring]. }
  rewrite !drop_re by lra. rewrite !RE, R1, R2, B by lra.
  assert (X : hanakov 10001 * (10001 * 10001) < 3164 / 100000 * (10000 * 10000)) by lra.
  apply (Rmult_lt_compat_l (coeff 1 (4 / PI) (2 / 1000) 1)) in X; [lra|exact C].
Qed.

(** Only the factor at the Reynolds number of the flow matters *)
Lemma darcy_at lam L D visc m vs p_i p_o : 0 < D -> 0 < visc ->
  darcy_eq lam L D visc m vs p_i p_o = darcy_eq (fun _ => lam (reynolds m D visc)) L D visc m vs p_i p_o.
Proof.
  intros HD HV. unfold darcy_eq, reynolds. pose proof PI_RGT_0. replace (PI * D * (visc / 2)) with (PI * D * visc / 2) by field. reflexivity.
Qed.
Lemma factor_positive re ks d l : 0 < re -> is_factor re ks d l -> 0 < l.
Proof.
  intros R F. pose proof F as G. unfold is_factor in F. destruct (darcy_friction_factor re ks d) as [x|f] eqn:E; [subst l; now apply (friction_direct_positive re ks d)|tauto].
Qed.

Lemma pressure_without_flow L D ks visc vs p_i : 0 < L -> 0 < D -> 0 <= ks -> 0 < visc -> 0 < vs ->
  exists p_o, p_o < p_i /\ forall m lam, is_factor (reynolds m D visc) ks D (lam (reynolds m D visc)) -> darcy_eq lam L D visc m vs p_i p_o <> 0.
Proof.
  intros HL HD HK HV HS. destruct (no_flow L D ks visc vs p_i HL HD HK HV HS) as (p_o & P & N). exists p_o. split; [exact P|]. intros m lam F.
  rewrite darcy_at by assumption. destruct (Req_dec m 0) as [->|M].
  - unfold darcy_eq. rewrite ltb_t by (rewrite Rabs_R0; apply m_min_pos). lra.
  - apply N; [exact F|]. apply factor_positive with (reynolds m D visc) ks D; [|exact F].
    unfold reynolds. pose proof PI_RGT_0. apply Rdiv_lt_0_compat; [assert (0 < Rabs m) by (now apply Rabs_pos_lt); lra|].
    apply Rmult_lt_0_compat; [apply Rmult_lt_0_compat; assumption|lra].
Qed.

Lemma more_flow_same_regime g L D ks visc vs m m' lam p_i p_o p_o' : 0 < L -> 0 < D -> 0 <= ks -> 0 < visc -> 0 < vs -> m_min <= m -> m < m' ->
  in_regime g (reynolds m D visc) ks D -> in_regime g (reynolds m' D visc) ks D ->
  is_factor (reynolds m D visc) ks D (lam (reynolds m D visc)) -> is_factor (reynolds m' D visc) ks D (lam (reynolds m' D visc)) ->
  darcy_eq lam L D visc m vs p_i p_o = 0 -> darcy_eq lam L D visc m' vs p_i p_o' = 0 -> p_o' < p_o.
Proof.
  intros HL HD HK HV HS M LT G G' F F' H H'. rewrite darcy_at in H by assumption. rewrite darcy_at in H' by assumption.
  exact (same_regime g L D ks visc vs m m' _ _ HL HD HK HV HS M LT G G' F F' p_i p_o p_o' H H').
Qed.

Lemma more_flow_less_drop : exists L D ks visc vs m m' lam p_i p_o p_o',
  0 < L /\ 0 < D /\ 0 <= ks /\ 0 < visc /\ 0 < vs /\ 0 < m /\ m < m' /\
  is_factor (reynolds m D visc) ks D (lam (reynolds m D visc)) /\ is_factor (reynolds m' D visc) ks D (lam (reynolds m' D visc)) /\
  darcy_eq lam L D visc m vs p_i p_o = 0 /\ darcy_eq lam L D visc m' vs p_i p_o' = 0 /\ p_o < p_o'.
Proof.
  destruct more_flow as (L & D & ks & visc & vs & m & m' & l & l' & p_i & p_o & p_o' & HL & HD & HK & HV & HS & M & LT & F & F' & H & H' & LE).
  assert (RL : reynolds m D visc < reynolds m' D visc).
  { unfold reynolds. rewrite !Rabs_right by lra. apply Rmult_lt_compat_r; [|lra]. apply Rinv_0_lt_compat. pose proof PI_RGT_0.
    apply Rmult_lt_0_compat; [apply Rmult_lt_0_compat; assumption|lra]. }
  set (r := reynolds m D visc) in *. set (r' := reynolds m' D visc) in *.
  exists L, D, ks, visc, vs, m, m', (fun x => if Rle_dec x r then l else l'), p_i, p_o, p_o'.
  assert (E1 : (if Rle_dec r r then l else l') = l) by (destruct (Rle_dec r r); lra).
  assert (E2 : (if Rle_dec r' r then l else l') = l') by (destruct (Rle_dec r' r); lra).
  fold r r'. cbv beta. rewrite E1, E2. split; [exact HL|]. split; [exact HD|]. split; [exact HK|]. split; [exact HV|]. split; [exact HS|]. split; [exact M|]. split; [exact LT|].
  split; [exact F|]. split; [exact F'|]. rewrite (darcy_at _ L D visc m), (darcy_at _ L D visc m') by assumption. fold r r'. cbv beta. rewrite E1, E2. auto.
Qed.
