From Coq Require Import Reals List String Bool Lra.
From Verif Require Import Base ReportModel SolarModel ConeModel EqnModel JacModel EqnSpec EqnProofs JacSolvedSpec.
Import ListNotations.
Open Scope R_scope.

Lemma ltb_false a b : b <= a -> ReportModel.ltb a b = false.
Proof. intros H. unfold ReportModel.ltb. destruct (Rlt_dec a b); [lra|reflexivity]. Qed.
Lemma ltb_true a b : a < b -> ReportModel.ltb a b = true.
Proof. intros H. unfold ReportModel.ltb. destruct (Rlt_dec a b); [reflexivity|lra]. Qed.
Lemma leb_false a b : b < a -> ReportModel.leb a b = false.
Proof. intros H. unfold ReportModel.leb. destruct (Rle_dec a b); [lra|reflexivity]. Qed.
Lemma eqb_false a b : a <> b -> ReportModel.eqb a b = false.
Proof. intros H. unfold ReportModel.eqb. destruct (Req_EM_T a b); [contradiction|reflexivity]. Qed.

Lemma fdiv_ok a b : b <> 0 -> fdiv a b = Ok (a / b).
Proof. intros H. unfold fdiv. destruct (Req_EM_T b 0); [contradiction|reflexivity]. Qed.
Lemma flog_ok a : 0 < a -> flog a = Ok (ln a).
Proof. intros H. unfold flog. destruct (Rlt_dec 0 a); [reflexivity|contradiction]. Qed.

Lemma m_min_pos : 0 < m_min.
Proof. unfold m_min. lra. Qed.

Lemma mean_log a b : 0 < a -> 0 < b -> a <> b ->
  td_log_of a b = Ok ((a - b) / ln (a / b)) /\ ln (a / b) <> 0.
Proof.
  intros A B N. unfold td_log_of. rewrite eqb_false by auto.
  rewrite fdiv_ok by lra. cbn [rbind].
  assert (Q : 0 < a / b) by (apply Rdiv_lt_0_compat; lra).
  rewrite flog_ok by lra. cbn [rbind].
  assert (L : ln (a / b) <> 0).
  { intros Z. rewrite <- ln_1 in Z. apply ln_inv in Z; [|lra|lra].
    apply N. apply (Rmult_eq_reg_r (/ b)); [|apply Rinv_neq_0_compat; lra].
    unfold Rdiv in Z. rewrite Z. field. lra. }
  rewrite fdiv_ok by assumption. split; [reflexivity|assumption].
Qed.

(** Pressure losses. *)
Lemma zeta_solved : forall P i o zeta e,
  m_min <= Rabs (vm e i) -> 0 < cvol P e i + cvol P e o ->
  (zeta_func P i o zeta e = 0 <->
   vp e i - vp e o
   = pval e zeta * (8 * Rabs (vm e i) * vm e i * ((cvol P e i + cvol P e o) / 2)) / PI ^ 2).
Proof.
  intros P i o zeta e M V. unfold zeta_func, zeta_eq. rewrite ltb_false by assumption.
  pose proof PI_RGT_0 as Pi. pose proof m_min_pos as Mp.
  assert (Mz : vm e i <> 0) by (intros Z; rewrite Z, Rabs_R0 in M; lra).
  assert (Ma : Rabs (vm e i) <> 0) by lra.
  set (v := cvol P e i + cvol P e o) in *. set (dp := vp e i - vp e o).
  set (m := vm e i) in *. set (z := pval e zeta). split; intros H.
  - assert (Z : z = dp * PI ^ 2 / (8 * Rabs m * m * v / 2)) by lra. rewrite Z. field. lra.
  - rewrite H. field. lra.
Qed.

Lemma small_flow_solved : forall P i o zeta L D ks e,
  Rabs (vm e i) < m_min ->
  (zeta_func P i o zeta e = 0 <-> vp e i = vp e o) /\
  (darcy_func P i o L D ks e = 0 <-> vp e i = vp e o) /\
  (hw_func P i o L D ks e = 0 <-> vp e i = vp e o).
Proof.
  intros. unfold zeta_func, zeta_eq, darcy_func, darcy_eq, hw_func, hw_eq.
  rewrite !ltb_true by assumption. repeat split; lra.
Qed.

Lemma darcy_solved : forall P i o L D ks e,
  m_min <= Rabs (vm e i) ->
  (darcy_func P i o L D ks e = 0 <->
   let v := (cvol P e i + cvol P e o) / 2 in
   let mu := (cvisc P e i + cvisc P e o) / 2 in
   let re := 4 * Rabs (vm e i) / (PI * pval e D * mu) in
   vp e i - vp e o
   = 8 * Rabs (vm e i) * vm e i * v * pval e L * pdff P re (pval e ks) (pval e D)
     / (PI ^ 2 * pval e D ^ 5)).
Proof.
  intros P i o L D ks e M. unfold darcy_func, darcy_eq. rewrite ltb_false by assumption. cbv zeta.
  replace (PI * pval e D * (cvisc P e i + cvisc P e o) / 2)
    with (PI * pval e D * ((cvisc P e i + cvisc P e o) / 2)) by lra.
  replace (8 * Rabs (vm e i) * vm e i * (cvol P e i + cvol P e o) / 2)
    with (8 * Rabs (vm e i) * vm e i * ((cvol P e i + cvol P e o) / 2)) by lra.
  split; lra.
Qed.

Lemma valve_solved : forall P i o k d e,
  valve_func P i o k d e = 0 <-> vp e i - vp e o = k_fun k (char_expr P k d i o e).
Proof. intros. unfold valve_func, char_val. lra. Qed.
Lemma pump_flow_solved : forall P i o k d e,
  pump_flow_func P i o k d e = 0 <-> vp e o - vp e i = k_fun k (char_expr P k d i o e).
Proof. intros. unfold pump_flow_func, char_val. lra. Qed.

(** Temperature differences. *)
Lemma ttd_solved : forall P i1 i2 o1 o2 t e,
  (ttd_u_func P i1 o2 t e = 0 <-> cT P e i1 - cT P e o2 = pval e t) /\
  (cond_ttd_u_func P i1 o2 t e = 0 <-> cTs P e i1 - cT P e o2 = pval e t) /\
  (ttd_l_func P i2 o1 t e = 0 <-> cT P e o1 - cT P e i2 = pval e t) /\
  (ttd_min_func P i1 i2 o1 o2 t e = 0 <->
   (cT P e i1 - cT P e o2 = pval e t /\ pval e t <= cT P e o1 - cT P e i2) \/
   (cT P e o1 - cT P e i2 = pval e t /\ pval e t <= cT P e i1 - cT P e o2)).
Proof.
  intros. unfold ttd_u_func, cond_ttd_u_func, ttd_l_func, ttd_min_func, ttd_u_eq, ttd_l_eq, ttd_min_eq.
  split; [split; lra|]. split; [split; lra|]. split; [split; lra|].
  unfold Rmin. destruct (Rle_dec _ _); split; intros H; lra.
Qed.

(** Effectiveness. *)
Lemma eff_solved : forall P i1 i2 o1 o2 t e,
  dh_cold P i1 i2 o2 e <> 0 -> dh_hot P i1 i2 o1 e <> 0 ->
  let ec := (vh e o2 - vh e i2) / dh_cold P i1 i2 o2 e in
  let eh := (vh e o1 - vh e i1) / dh_hot P i1 i2 o1 e in
  (eff_cold_func P i1 i2 o2 t e = 0 <-> ec = pval e t) /\
  (eff_hot_func P i1 i2 o1 t e = 0 <-> eh = pval e t) /\
  (eff_max_func P i1 i2 o1 o2 t e = 0 <->
   (ec = pval e t /\ eh <= pval e t) \/ (eh = pval e t /\ ec <= pval e t)).
Proof.
  intros P i1 i2 o1 o2 t e C H. cbv zeta.
  unfold eff_cold_func, eff_hot_func, eff_max_func, eff_eq, eff_max_eq, eff_report.
  rewrite !fdiv_ok by assumption. cbn [rbind tot].
  set (dc := dh_cold P i1 i2 o2 e) in *. set (dh := dh_hot P i1 i2 o1 e) in *.
  set (x := vh e o2 - vh e i2). set (y := vh e o1 - vh e i1).
  assert (A : forall d z q, d <> 0 -> (q * d - z = 0 <-> z / d = q)).
  { intros d z q D. split; intros E.
    - assert (z = q * d) by lra. subst z. field. assumption.
    - subst q. field. assumption. }
  split; [now apply A|]. split; [now apply A|].
  unfold Rmax. destruct (Rle_dec _ _); split; intros E; lra.
Qed.

(** Heat transfer. *)
Lemma hx_td P i1 i2 o1 o2 e :
  cT P e o2 < cT P e i1 -> cT P e i2 < cT P e o1 ->
  cT P e o1 - cT P e i2 <> cT P e i1 - cT P e o2 ->
  tot (hx_td_log (cT P e i1) (cT P e i2) (cT P e o1) (cT P e o2))
  = lmtd (cT P e o1 - cT P e i2) (cT P e i1 - cT P e o2).
Proof.
  intros A B N. unfold hx_td_log. cbv zeta.
  rewrite (leb_false (cT P e i1) (cT P e o2)) by lra. cbv iota.
  rewrite (leb_false (cT P e i1) (cT P e o2)) by lra. cbv iota.
  repeat (rewrite (leb_false (cT P e i1) (cT P e o2)) by lra; cbv iota).
  rewrite (leb_false (cT P e o1) (cT P e i2)) by lra. cbv iota.
  destruct (mean_log (cT P e o1 - cT P e i2) (cT P e i1 - cT P e o2)) as [-> _];
    [lra|lra|exact N|]. reflexivity.
Qed.

Lemma kA_solved : forall P i1 i2 o1 o2 kA e,
  cT P e o2 < cT P e i1 -> cT P e i2 < cT P e o1 ->
  cT P e o1 - cT P e i2 <> cT P e i1 - cT P e o2 ->
  (kA_func P i1 i2 o1 o2 kA e = 0 <->
   vm e i1 * (vh e i1 - vh e o1)
   = pval e kA * lmtd (cT P e o1 - cT P e i2) (cT P e i1 - cT P e o2)).
Proof.
  intros P i1 i2 o1 o2 kA e A B N. unfold kA_func. rewrite (hx_td P i1 i2 o1 o2 e A B N). split; lra.
Qed.

Lemma kA_char_solved : forall P i1 i2 o1 o2 k1 k2 d1 d2 kA e,
  cT P e o2 < cT P e i1 -> cT P e i2 < cT P e o1 ->
  cT P e o1 - cT P e i2 <> cT P e i1 - cT P e o2 ->
  let f1 := k_fun k1 (char_expr P k1 d1 i1 o1 e) in
  let f2 := k_fun k2 (char_expr P k2 d2 i2 o2 e) in
  0 < f1 -> 0 < f2 ->
  (kA_char_func P i1 i2 o1 o2 k1 k2 d1 d2 kA e = 0 <->
   vm e i1 * (vh e i1 - vh e o1)
   = kA * (2 * f1 * f2 / (f1 + f2)) * lmtd (cT P e o1 - cT P e i2) (cT P e i1 - cT P e o2)).
Proof.
  intros P i1 i2 o1 o2 k1 k2 d1 d2 kA e A B N f1 f2 F1 F2. unfold kA_char_func.
  rewrite (hx_td P i1 i2 o1 o2 e A B N). unfold char_val. fold f1 f2.
  replace (2 / (1 / f1 + 1 / f2)) with (2 * f1 * f2 / (f1 + f2)) by (field; lra).
  split; lra.
Qed.

Lemma simple_td P i o e Tamb :
  0 < (cT P e i - Tamb) / (cT P e o - Tamb) -> cT P e o <> Tamb -> cT P e i <> cT P e o ->
  0 < cT P e o - Tamb ->
  tot (simple_td_log (cT P e i) (cT P e o) Tamb) = lmtd (cT P e i - Tamb) (cT P e o - Tamb).
Proof.
  intros Q Z N Pos. unfold simple_td_log.
  set (a := cT P e i - Tamb) in *. set (b := cT P e o - Tamb) in *.
  assert (Pa : 0 < a).
  { assert (E : a = a / b * b) by (field; lra). rewrite E. apply Rmult_lt_0_compat; lra. }
  assert (Nab : a <> b) by (unfold a, b; intros E; apply N; lra).
  rewrite fdiv_ok by lra. cbn [rbind].
  rewrite ltb_false by lra. cbn [rbind].
  destruct (Rlt_dec b a) as [L|L].
  - rewrite ltb_true by lra. rewrite ?fdiv_ok by lra. cbn [rbind].
    rewrite flog_ok by lra. cbn [rbind].
    destruct (mean_log a b Pa Pos Nab) as [_ L0]. rewrite fdiv_ok by assumption. reflexivity.
  - rewrite ltb_false by lra. rewrite ltb_true by lra. rewrite ?fdiv_ok by lra. cbn [rbind].
    assert (Qb : 0 < b / a) by (apply Rdiv_lt_0_compat; lra).
    rewrite flog_ok by lra. cbn [rbind].
    destruct (mean_log b a Pos Pa (not_eq_sym Nab)) as [_ L0]. rewrite fdiv_ok by assumption.
    cbn [tot]. unfold lmtd. destruct (mean_log a b Pa Pos Nab) as [_ L1].
    replace (ln (b / a)) with (- ln (a / b)).
    + field. assumption.
    + rewrite <- ln_Rinv by lra. f_equal. field. lra.
Qed.

Lemma kA_group_solved : forall P i o kA Tamb e,
  Tamb < cT P e i -> Tamb < cT P e o -> cT P e i <> cT P e o ->
  (kA_group_func P i o kA Tamb e = 0 <->
   vm e i * (vh e i - vh e o) = pval e kA * lmtd (cT P e i - Tamb) (cT P e o - Tamb)).
Proof.
  intros P i o kA Tamb e A B N. unfold kA_group_func. rewrite simple_td.
  - split; lra.
  - apply Rdiv_lt_0_compat; lra.
  - lra.
  - exact N.
  - lra.
Qed.

Lemma kA_char_group_solved : forall P i o k d kA Tamb e,
  Tamb < cT P e i -> Tamb < cT P e o -> cT P e i <> cT P e o ->
  let f := k_fun k (char_expr P k d i o e) in 0 < f ->
  (kA_char_group_func P i o k d kA Tamb e = 0 <->
   vm e i * (vh e i - vh e o)
   = kA * (2 * f / (f + 1)) * lmtd (cT P e i - Tamb) (cT P e o - Tamb)).
Proof.
  intros P i o k d kA Tamb e A B N f F. unfold kA_char_group_func. rewrite simple_td.
  - unfold char_val. fold f. replace (2 / (1 + 1 / f)) with (2 * f / (f + 1)) by (field; lra).
    split; lra.
  - apply Rdiv_lt_0_compat; lra.
  - lra.
  - exact N.
  - lra.
Qed.

(** Turbomachines. *)
Lemma quot_iff a b q : b <> 0 -> (a = q * b <-> a / b = q).
Proof. intros B. split; intros H; [subst a|subst q]; field; assumption. Qed.

Lemma pump_solved : forall P i o eta e,
  vh e o <> vh e i ->
  (pump_func P i o eta e = 0 <-> (cis P e i o - vh e i) / (vh e o - vh e i) = pval e eta).
Proof.
  intros P i o eta e N. unfold pump_func, pump_eta_eq. rewrite <- quot_iff by lra. lra.
Qed.
Lemma turbine_solved : forall P i o eta e,
  cis P e i o <> vh e i ->
  (turbine_func P i o eta e = 0 <-> (vh e o - vh e i) / (cis P e i o - vh e i) = pval e eta).
Proof.
  intros P i o eta e N. unfold turbine_func, turbine_eta_eq. rewrite <- quot_iff by lra. lra.
Qed.
Lemma pump_char_solved : forall P i o k d eta e,
  vh e o <> vh e i -> eta <> 0 ->
  (pump_char_func P i o k d eta e = 0 <->
   (cis P e i o - vh e i) / (vh e o - vh e i) / eta = k_fun k (char_expr P k d i o e)).
Proof.
  intros P i o k d eta e N Z. unfold pump_char_func, char_val. rewrite <- quot_iff by assumption.
  rewrite <- quot_iff by lra. split; lra.
Qed.
Lemma turbine_char_solved : forall P i o k d eta e,
  cis P e i o <> vh e i -> eta <> 0 ->
  (turbine_char_func P i o k d eta e = 0 <->
   (vh e o - vh e i) / (cis P e i o - vh e i) / eta = k_fun k (char_expr P k d i o e)).
Proof.
  intros P i o k d eta e N Z. unfold turbine_char_func, char_val. rewrite <- quot_iff by assumption.
  rewrite <- quot_iff by lra. split; lra.
Qed.
Lemma map_solved : forall P g Td pd md prd eta i o igva e,
  prd <> 0 -> eta <> 0 ->
  let x := sqrt (Td / cT P e i) in
  let y := vm e i * pd / (md * vp e i * x) in
  (map_pr_func P g Td pd md prd i o igva e = 0 <->
     vp e o / vp e i / prd = g x y (pval e igva)) /\
  (map_eta_func P g Td pd md eta i o igva e = 0 <->
     (cis P e i o - vh e i) / (vh e o - vh e i) / eta = g x y (pval e igva)).
Proof.
  intros P g Td pd md prd eta i o igva e Pn En x y.
  unfold map_pr_func, map_eta_func, map_y, map_x. fold x. fold y.
  split.
  - rewrite <- (quot_iff (vp e o / vp e i)) by assumption. clearbody y x; split; intros H; lra.
  - rewrite <- (quot_iff ((cis P e i o - vh e i) / (vh e o - vh e i))) by assumption. clearbody y x; split; intros H; lra.
Qed.

(** Reactors. *)
Lemma heat_solved : forall i o Q e,
  (fc_heat_func i o Q e = 0 <-> pval e Q = - (vm e i * (vh e o - vh e i))) /\
  (el_heat_func i o Q e = 0 <-> pval e Q = - (vm e i * (vh e o - vh e i))) /\
  (engine_Q_func i o Q e = 0 <-> pval e Q = - (vm e i * (vh e o - vh e i))).
Proof.
  intros. unfold fc_heat_func, el_heat_func, engine_Q_func, fuel_cell_heat_eq, electrolyzer_heat_eq.
  repeat split; lra.
Qed.
Lemma gas_solved : forall P o1 o2 a b e,
  (gas_T_func P o1 o2 e = 0 <-> cT P e o1 = cT P e o2) /\
  (reactor_p_func a b e = 0 <-> vp e a = vp e b).
Proof. intros. unfold gas_T_func, reactor_p_func. repeat split; lra. Qed.
Lemma el_char_solved : forall P i0 o2 k d e0 eta Pw e,
  let c := k_fun k (char_expr P k d i0 o2 e) in
  eta * c <> 0 -> pval e Pw <> 0 ->
  (el_char_func P i0 o2 k d e0 eta Pw e = 0 <-> vm e o2 * e0 / pval e Pw = eta * c).
Proof.
  intros P i0 o2 k d e0 eta Pw e c N W. unfold el_char_func, char_val. fold c.
  rewrite <- quot_iff by assumption. set (x := vm e o2 * e0). set (p := pval e Pw) in *.
  clearbody x p c. split; intros H.
  - assert (E : p = x / (eta * c)) by lra. rewrite E. field.
    split; intros Z; rewrite Z in N; apply N; ring.
  - rewrite H. field. split; intros Z; rewrite Z in N; apply N; ring.
Qed.

(** Combustion. *)
Lemma fuel_sum (g : string -> conn -> R) inl : forall l s,
  fold_left (fun s f => acc_add (g f) inl s) l s
  = s + rsum (map (fun f => rsum (map (g f) inl)) l).
Proof.
  induction l as [|f l IH]; intros s; simpl; [lra|]. rewrite IH, acc_add_sum. lra.
Qed.

Lemma lambda_solved : forall M nH nC fuels o2 inl lamb e,
  let supply := rsum (map (fun i => vm e i * vx e i o2 / M o2) inl) in
  let demand := rsum (map (fun f => rsum (map (fun i => vm e i * vx e i f / M f) inl)
                                    * (nH f / 4 + nC f)) fuels) in
  demand <> 0 ->
  (lambda_func M nH nC fuels o2 inl lamb e = 0 <-> supply / demand = pval e lamb).
Proof.
  intros M nH nC fuels o2 inl lamb e supply demand D. unfold lambda_func.
  rewrite (fuel_sum (fun f i => vm e i * vx e i f / M f * nH f)).
  rewrite (fuel_sum (fun f i => vm e i * vx e i f / M f * nC f)).
  rewrite acc_add_sum, !Rplus_0_l. fold supply.
  assert (E : rsum (map (fun f => rsum (map (fun i => vm e i * vx e i f / M f * nH f) inl)) fuels) / 4
     + rsum (map (fun f => rsum (map (fun i => vm e i * vx e i f / M f * nC f) inl)) fuels) = demand).
  { unfold demand. clear D demand supply.
    assert (S : forall f k, rsum (map (fun i => vm e i * vx e i f / M f * k) inl)
      = rsum (map (fun i => vm e i * vx e i f / M f) inl) * k).
    { intros f k. induction inl as [|i l IH]; simpl; [lra|]. rewrite IH. lra. }
    induction fuels as [|f l IH]; simpl; [lra|].
    rewrite <- IH. rewrite !S. lra. }
  rewrite E. split; lra.
Qed.

Lemma ti_value : forall lhv fuels inl outl e,
  ti lhv fuels inl outl e
  = rsum (map (fun f => (species_total e f inl - species_total e f outl) * lhv f) fuels).
Proof.
  intros lhv fuels inl outl e. unfold ti.
  assert (A : forall l s, fold_left (fun t f => t + acc_sub (fun o => vm e o * vx e o f) outl
                (acc_add (fun i => vm e i * vx e i f) inl 0) * lhv f) l s
     = s + rsum (map (fun f => (species_total e f inl - species_total e f outl) * lhv f) l)).
  { induction l as [|f l IH]; intros s; simpl; [lra|]. rewrite IH, acc_sub_sum, acc_add_sum.
    unfold species_total.
    assert (C : forall k, rsum (map (fun c => vm e c * vx e c f) k) = rsum (map (fun c => vx e c f * vm e c) k)).
    { induction k; simpl; [reflexivity|]. rewrite IHk. lra. }
    rewrite !C. lra. }
  rewrite A. lra.
Qed.

Lemma engine_solved : forall lhv fuels inl o iw ow Pd gP gQ Pw Ql e,
  let t := rsum (map (fun f => (species_total e f inl - species_total e f [o]) * lhv f) fuels) in
  let x := match Pd with None => 1 | Some d => pval e Pw / d end in
  gP x <> 0 ->
  (tiP_func lhv fuels inl o Pd gP Pw e = 0 <-> - pval e Pw = t / gP x) /\
  (Qchar_func lhv fuels iw ow inl o Pd gQ gP Pw e = 0 <->
     vm e iw * (vh e ow - vh e iw) = t * gQ x / gP x) /\
  (Qloss_func lhv fuels inl o Pd gQ gP Pw Ql e = 0 <-> - pval e Ql = t * gQ x / gP x).
Proof.
  intros lhv fuels inl o iw ow Pd gP gQ Pw Ql e t x G.
  unfold tiP_func, Qchar_func, Qloss_func, load. fold x. rewrite !ti_value. fold t.
  assert (A : forall a b, b = a / gP x <-> a = b * gP x).
  { intros a b. split; intros H; [subst b|subst a]; field; assumption. }
  rewrite !A. repeat split; lra.
Qed.

(** Connections. *)
Lemma connection_solved : forall P c T v t e,
  (T_func P c T e = 0 <-> cT P e c = T) /\
  (vol_func P c v e = 0 <-> vm e c * cvol P e c = v) /\
  (Td_func P c t e = 0 <-> cT P e c = cTs P e c + t).
Proof. intros. unfold T_func, vol_func, Td_func. repeat split; lra. Qed.

(** Solar components. *)
Lemma solar_solved : forall P i o E eta lin quad A Tamb e,
  solar_func P i o E eta lin quad A Tamb e = 0 <->
  let dT := (cT P e i + cT P e o) / 2 - Tamb in
  vm e i * (vh e o - vh e i)
  = pval e A * (pval e eta * pval e E - pval e lin * dT - pval e quad * dT ^ 2).
Proof.
  intros. unfold solar_func, collector_eq. cbv zeta.
  replace (1 / 2 * (cT P e i + cT P e o)) with ((cT P e i + cT P e o) / 2) by lra. split; lra.
Qed.
Lemma trough_solved : forall P i o E eta aoi doc c1 c2 iam1 iam2 A Tamb e,
  0 < pval e doc ->
  (trough_func P i o E eta aoi doc c1 c2 iam1 iam2 A Tamb e = 0 <->
   let dT := (cT P e i + cT P e o) / 2 - Tamb in
   let k := 1 - pval e iam1 * Rabs (pval e aoi) - pval e iam2 * pval e aoi ^ 2 in
   vm e i * (vh e o - vh e i)
   = pval e A * (pval e eta * pval e E * Rpower (pval e doc) (3 / 2) * k
                 - pval e c1 * dT - pval e c2 * dT ^ 2)).
Proof.
  intros P i o E eta aoi doc c1 c2 iam1 iam2 A Tamb e D.
  unfold trough_func, trough_eq, pow15, iam. cbv zeta.
  destruct (Req_EM_T (pval e doc) 0) as [Z|_]; [lra|].
  replace (1 / 2 * (cT P e i + cT P e o)) with ((cT P e i + cT P e o) / 2) by lra. split; lra.
Qed.

(** Law of the cone: flow coefficients in the ratio of the Stodola terms. *)
Lemma cone_solved : forall P d i o e,
  0 < vp e i -> 0 < cvol P e i -> 0 < d_p d -> 0 < d_v d -> 0 < d_m d ->
  0 < d_pr d < 1 -> 0 < vp e o < vp e i ->
  (cone_residual P d i o e = 0 <->
   vm e i / sqrt (vp e i / cvol P e i)
   = d_m d / sqrt (d_p d / d_v d)
     * sqrt ((1 - (vp e o / vp e i) ^ 2) / (1 - d_pr d ^ 2))).
Proof.
  intros P d i o e Hp Hv Hpd Hvd Hmd Hr Ho. unfold cone_residual, ConeModel.cone_func. cbn [c_m c_p c_v c_po].
  set (p := vp e i) in *. set (v := cvol P e i) in *. set (m := vm e i).
  assert (R0 : 0 < vp e o / p < 1).
  { split; [apply Rdiv_lt_0_compat; lra|]. apply (Rmult_lt_reg_r p); [lra|]. 
    replace (vp e o / p * p) with (vp e o) by (field; lra). lra. }
  set (r := vp e o / p) in *.
  assert (S1 : 0 < 1 - r ^ 2) by nra.
  assert (S2 : 0 < 1 - d_pr d ^ 2) by nra.
  rewrite Rabs_pos_eq by (apply Rlt_le, Rdiv_lt_0_compat; lra).
  set (S := sqrt ((1 - r ^ 2) / (1 - d_pr d ^ 2))).
  assert (X : sqrt (d_p d * d_v d / (p * v)) * p / d_p d = sqrt (p / v) / sqrt (d_p d / d_v d)).
  { rewrite <- sqrt_div_alt by (apply Rdiv_lt_0_compat; lra).
    replace (p / v / (d_p d / d_v d)) with (d_p d * d_v d / (p * v) * (p / d_p d) ^ 2) by (field; lra).
    rewrite sqrt_mult_alt by (apply Rlt_le, Rdiv_lt_0_compat; nra).
    rewrite sqrt_pow2 by (apply Rlt_le, Rdiv_lt_0_compat; lra). field. lra. }
  assert (Q1 : 0 < sqrt (p / v)) by (apply sqrt_lt_R0, Rdiv_lt_0_compat; lra).
  assert (Q2 : 0 < sqrt (d_p d / d_v d)) by (apply sqrt_lt_R0, Rdiv_lt_0_compat; lra).
  replace (d_m d * p / d_p d * sqrt (d_p d * d_v d / (p * v)) * S)
    with (d_m d * (sqrt (d_p d * d_v d / (p * v)) * p / d_p d) * S) by (field; lra).
  rewrite X. set (a := sqrt (p / v)) in *. set (b := sqrt (d_p d / d_v d)) in *.
  clearbody a b S m. split; intros H.
  - assert (E : m = d_m d * (a / b) * S) by lra. rewrite E. field. lra.
  - assert (E : m = m / a * a) by (field; lra). rewrite E, H. field. lra.
Qed.

Lemma hw_solved : forall P i o L D ks e,
  m_min <= vm e i -> vp e o <= vp e i ->
  (hw_func P i o L D ks e = 0 <->
   vp e i - vp e o
   = (10 + 67 / 100) * Rpower (vm e i) (1852 / 1000) * pval e L
     / (Rpower (pval e ks) (1852 / 1000) * Rpower (pval e D) (4871 / 1000))
     * (9 + 81 / 100) * Rpower ((cvol P e i + cvol P e o) / 2) (852 / 1000)).
Proof.
  intros P i o L D ks e M Dp. pose proof m_min_pos as Mp. unfold hw_func, hw_eq, copysign.
  rewrite (Rabs_pos_eq (vm e i)) by lra. rewrite !ltb_false by lra.
  rewrite Rabs_pos_eq by lra. rewrite <- Rmult_assoc. split; lra.
Qed.
