(** Where a printed equation is not the equation solved, and when they agree. *)
From Coq Require Import Reals List String Bool Lra Psatz.
From Verif Require Import Base EqnModel DocEqModel DocEqProofs.
From Verif Require ReportModel JacModel ConeModel.
Import ListNotations.
Open Scope R_scope.

(* more equal ones *)
Lemma comb_pressure : forall i1 i2 o e,
  d_comb_pressure (vp e i1) (vp e i2) (vp e o)
  <-> JacModel.reactor_p_func i1 o e = 0 /\ JacModel.reactor_p_func i2 o e = 0.
Proof. intros. unfold d_comb_pressure, JacModel.reactor_p_func. split; intros [A B]; split; lra. Qed.
Lemma reactor_pressure : forall a b c e,
  (d_fc_pressure (vp e a) (vp e b) (vp e c) <-> JacModel.reactor_p_func c a e = 0 /\ JacModel.reactor_p_func c b e = 0)
  /\ (d_el_pressure (vp e a) (vp e b) (vp e c) <-> JacModel.reactor_p_func a b e = 0 /\ JacModel.reactor_p_func a c e = 0).
Proof. intros. unfold d_fc_pressure, d_el_pressure, JacModel.reactor_p_func. split; split; intros [A B]; split; lra. Qed.
Lemma gas_T : forall P o1 o2 e, d_el_T (JacModel.cT P e o1) (JacModel.cT P e o2) <-> JacModel.gas_T_func P o1 o2 e = 0.
Proof. intros. apply zero_iff. reflexivity. Qed.
Lemma el_char : forall P i0 o2 k d e0 eta Pw e,
  d_el_char (pval e Pw) (vm e o2) e0 eta (JacModel.char_val P k d i0 o2 e)
  <-> JacModel.el_char_func P i0 o2 k d e0 eta Pw e = 0.
Proof. intros. apply zero_iff. unfold JacModel.el_char_func, Rdiv. ring. Qed.

(* the separator *)
Definition w_e (n : nat) (v w : R) (q : qty) : R :=
  match q with QM k => if Nat.eqb k n then v else w | QF _ _ => 1 | _ => 0 end.
Definition w_c (k : nat) : conn := Conn k k k nil.
Lemma separator_false : exists i0 outl f e,
  separator_fluid_eq i0 outl f e = 0 /\ Forall (fun c => 0 < vm e c) (i0 :: outl)
  /\ ~ d_separator (vm e i0, vx e i0 f) (map (fun o => (vm e o, vx e o f)) outl).
Proof.
  exists (w_c 0), [w_c 1; w_c 2], "water"%string, (w_e 0 2 1). split; [|split].
  - unfold separator_fluid_eq, acc_sub, vx, vm, w_e, w_c; cbn. lra.
  - repeat constructor; unfold vm, w_e; cbn; lra.
  - intros H. specialize (H (1, 1)). cbn in H. assert (X : 0 = 2 * 1 - 1 * 1) by (apply H; left; reflexivity). lra.
Qed.
Lemma separator_one : forall i0 o f e,
  d_separator (vm e i0, vx e i0 f) [(vm e o, vx e o f)] <-> separator_fluid_eq i0 [o] f e = 0.
Proof.
  intros. unfold d_separator, separator_fluid_eq, acc_sub. cbn. split.
  - intros H. specialize (H _ (or_introl eq_refl)). cbn in H. lra.
  - intros H x [<-|[]]. cbn. lra.
Qed.

(* friction *)
Lemma small : ReportModel.ltb (Rabs (1 / 20000)) ReportModel.m_min = true.
Proof.
  unfold ReportModel.ltb, ReportModel.m_min. destruct (Rlt_dec _ _) as [|N]; [reflexivity|].
  rewrite Rabs_right in N by lra. lra.
Qed.
Lemma darcy_false : exists lam L D e1 e2 m v1 v2 p_i p_o,
  0 < m /\ 0 < L /\ 0 < D /\ 0 < v1 /\ 0 < v2 /\ (forall re, 0 < lam re)
  /\ ReportModel.darcy_eq lam L D (e1 + e2) m (v1 + v2) p_i p_o = 0
  /\ ~ d_darcy lam L D e1 e2 m v1 v2 p_i p_o.
Proof.
  exists (fun _ => 1), 1, 1, 1, 1, (1 / 20000), 1, 1, 1, 1. repeat split; try (intros; lra).
  - unfold ReportModel.darcy_eq. rewrite small. lra.
  - unfold d_darcy. rewrite Rabs_right by lra. intros H.
    assert (P : 0 < 8 * (1 / 20000) * (1 / 20000) * ((1 + 1) / 2) * 1 * 1 / (PI ^ 2 * 1 ^ 5)).
    { apply Rdiv_lt_0_compat; [lra|]. pose proof PI_RGT_0. nra. }
    lra.
Qed.
Lemma not_small m : 1 / 10000 <= Rabs m -> ReportModel.ltb (Rabs m) ReportModel.m_min = false.
Proof. intros H. unfold ReportModel.ltb, ReportModel.m_min. destruct (Rlt_dec _ _); [lra|reflexivity]. Qed.
Lemma darcy_large : forall lam L D e1 e2 m v1 v2 p_i p_o, 1 / 10000 <= Rabs m ->
  (d_darcy lam L D e1 e2 m v1 v2 p_i p_o <-> ReportModel.darcy_eq lam L D (e1 + e2) m (v1 + v2) p_i p_o = 0).
Proof.
  intros. unfold ReportModel.darcy_eq. rewrite not_small by assumption. unfold d_darcy. cbv zeta. apply zero_iff.
  replace (PI * D * ((e1 + e2) / 2)) with (PI * D * (e1 + e2) / 2) by lra.
  replace (8 * Rabs m * m * ((v1 + v2) / 2)) with (8 * Rabs m * m * (v1 + v2) / 2) by lra. reflexivity.
Qed.
Lemma hw_false : exists L ks D m v1 v2 p_i p_o,
  0 < m /\ 0 < L /\ 0 < ks /\ 0 < D /\ 0 < v1 /\ 0 < v2
  /\ ReportModel.hw_eq L ks D m (v1 + v2) p_i p_o = 0 /\ ~ d_hw L ks D m v1 v2 p_i p_o.
Proof.
  exists 1, 1, 1, (1 / 20000), 1, 1, 1, 1. repeat split; try lra.
  - unfold ReportModel.hw_eq. rewrite small. lra.
  - unfold d_hw. intros H.
    assert (P : 0 < (10 + 67 / 100) * Rpower (Rabs (1 / 20000)) (1852 / 1000) * 1
        / (Rpower 1 (1852 / 1000) * Rpower 1 (4871 / 1000)) * (9 + 81 / 100) * Rpower ((1 + 1) / 2) (852 / 1000)).
    { assert (X : forall a b, 0 < Rpower a b) by (intros; apply exp_pos).
      repeat apply Rmult_lt_0_compat; try apply X; try lra. apply Rinv_0_lt_compat, Rmult_lt_0_compat; apply X. }
    lra.
Qed.
(** against the direction of the flow: no pressures solve the equation, the printed one has a
    solution *)
Lemma hw_backward : forall L ks D m v1 v2 p_i p_o, m <= - (1 / 10000) -> 0 < L ->
  ReportModel.hw_eq L ks D m (v1 + v2) p_i p_o <> 0.
Proof.
  intros L ks D m v1 v2 p_i p_o M HL. unfold ReportModel.hw_eq. rewrite not_small by (rewrite Rabs_left; lra).
  unfold ReportModel.copysign, ReportModel.ltb. destruct (Rlt_dec m 0); [|lra].
  assert (X : forall a b, 0 < Rpower a b) by (intros; apply exp_pos).
  assert (P : 0 < (10 + 67 / 100) * Rpower (Rabs m) (1852 / 1000) * L
        / (Rpower ks (1852 / 1000) * Rpower D (4871 / 1000)) * ((9 + 81 / 100) * Rpower ((v1 + v2) / 2) (852 / 1000))).
  { repeat apply Rmult_lt_0_compat; try apply X; try lra. apply Rinv_0_lt_compat, Rmult_lt_0_compat; apply X. }
  pose proof (Rabs_pos (p_i - p_o)). lra.
Qed.
Lemma hw_printed_backward : forall L ks D m v1 v2 p_o, exists p_i, d_hw L ks D m v1 v2 p_i p_o.
Proof.
  intros. unfold d_hw. match goal with |- exists p, 0 = p - p_o - ?c => exists (p_o + c); generalize c end. intros. lra.
Qed.
Lemma hw_forward : forall L ks D m v1 v2 p_i p_o, 1 / 10000 <= m -> p_o <= p_i ->
  (d_hw L ks D m v1 v2 p_i p_o <-> ReportModel.hw_eq L ks D m (v1 + v2) p_i p_o = 0).
Proof.
  intros. unfold ReportModel.hw_eq. rewrite not_small by (rewrite Rabs_right; lra).
  unfold ReportModel.copysign, ReportModel.ltb. destruct (Rlt_dec m 0); [lra|]. rewrite (Rabs_right (p_i - p_o)) by lra.
  apply zero_iff. ring.
Qed.

(* simple heat exchanger *)
Lemma simple_kA_false : exists kA m hi ho T_i T_o Tamb,
  0 < kA /\ 0 < m /\ Tamb < T_i /\ Tamb < T_o
  /\ ReportModel.simple_kA_eq kA m hi ho T_i T_o Tamb = Ok 0 /\ ~ d_simple_kA m hi ho kA T_i T_o Tamb.
Proof.
  exists 1, 1, 10, 0, 310, 310, 300. repeat split; try lra.
  - unfold ReportModel.simple_kA_eq, ReportModel.simple_td_log, ReportModel.fdiv, ReportModel.ltb.
    destruct (Req_EM_T (310 - 300) 0); [lra|]. cbn [rbind].
    assert (Q : (310 - 300) / (310 - 300) = 1) by lra. rewrite Q.
    repeat (destruct (Rlt_dec _ _); [lra|]). cbn. f_equal. lra.
  - unfold d_simple_kA, d_lmtd. repeat (destruct (Rlt_dec _ _); [lra|]). lra.
Qed.
Lemma lmtd_hot : forall T_i T_o Tamb, Tamb < T_o -> T_o < T_i ->
  ReportModel.simple_td_log T_i T_o Tamb = Ok (d_lmtd T_i T_o Tamb).
Proof.
  intros T_i T_o Tamb A B. unfold ReportModel.simple_td_log, d_lmtd. cbv zeta.
  destruct (Rlt_dec T_o T_i) as [_|]; [|lra].
  destruct (td_log_value (T_i - Tamb) (T_o - Tamb)) as [_ L]; [lra|lra|lra|].
  assert (Q : 0 < (T_i - Tamb) / (T_o - Tamb)) by (apply Rdiv_lt_0_compat; lra).
  unfold ReportModel.fdiv at 1.  destruct (Req_EM_T (T_o - Tamb) 0); [lra|]. cbn [rbind].
  unfold ReportModel.ltb at 1. destruct (Rlt_dec _ 0); [lra|]. unfold ReportModel.ltb at 1. destruct (Rlt_dec (T_o - Tamb) (T_i - Tamb)); [|lra].
  unfold ReportModel.fdiv at 1.  destruct (Req_EM_T (T_o - Tamb) 0); [lra|]. cbn [rbind].
  unfold ReportModel.flog. destruct (Rlt_dec 0 _); [|contradiction]. cbn [rbind].
  unfold ReportModel.fdiv. destruct (Req_EM_T _ 0); [contradiction|]. f_equal. f_equal; ring.
Qed.
Lemma lmtd_cold : forall T_i T_o Tamb, Tamb < T_i -> T_i < T_o ->
  ReportModel.simple_td_log T_i T_o Tamb = Ok (d_lmtd T_i T_o Tamb).
Proof.
  intros T_i T_o Tamb A B. unfold ReportModel.simple_td_log, d_lmtd. cbv zeta.
  destruct (Rlt_dec T_o T_i) as [|_]; [lra|]. destruct (Rlt_dec T_i T_o) as [_|]; [|lra].
  destruct (td_log_value (T_o - Tamb) (T_i - Tamb)) as [_ L]; [lra|lra|lra|].
  assert (Q0 : 0 < (T_i - Tamb) / (T_o - Tamb)) by (apply Rdiv_lt_0_compat; lra).
  assert (Q : 0 < (T_o - Tamb) / (T_i - Tamb)) by (apply Rdiv_lt_0_compat; lra).
  unfold ReportModel.fdiv at 1.  destruct (Req_EM_T (T_o - Tamb) 0); [lra|]. cbn [rbind].
  unfold ReportModel.ltb at 1. destruct (Rlt_dec _ 0); [lra|]. unfold ReportModel.ltb at 1. destruct (Rlt_dec (T_o - Tamb) (T_i - Tamb)); [lra|].
  unfold ReportModel.ltb at 1. destruct (Rlt_dec (T_i - Tamb) (T_o - Tamb)); [|lra].
  unfold ReportModel.fdiv at 1.  destruct (Req_EM_T (T_i - Tamb) 0); [lra|]. cbn [rbind].
  unfold ReportModel.flog. destruct (Rlt_dec 0 _); [|contradiction]. cbn [rbind].
  unfold ReportModel.fdiv. destruct (Req_EM_T _ 0); [contradiction|]. f_equal. f_equal; ring.
Qed.
Lemma simple_kA_above : forall kA m hi ho T_i T_o Tamb, Tamb < T_i -> Tamb < T_o -> T_i <> T_o ->
  exists r, ReportModel.simple_kA_eq kA m hi ho T_i T_o Tamb = Ok r
            /\ (d_simple_kA m hi ho kA T_i T_o Tamb <-> r = 0).
Proof.
  intros kA m hi ho T_i T_o Tamb A B N. unfold ReportModel.simple_kA_eq.
  assert (L : ReportModel.simple_td_log T_i T_o Tamb = Ok (d_lmtd T_i T_o Tamb)).
  { destruct (Rlt_dec T_o T_i); [apply lmtd_hot; lra|apply lmtd_cold; lra]. }
  rewrite L. cbn [rbind]. eexists. split; [reflexivity|]. apply zero_iff. reflexivity.
Qed.

(* cone law *)
Lemma cone_false : exists m0 p0 v0 po0 m p v po,
  0 < po0 /\ po0 < p0 /\ 0 < v0 /\ 0 < m0 /\ 0 < po /\ po < p /\ 0 < v /\ 0 < m
  /\ ConeModel.cone_func (ConeModel.Build_cdesign m0 p0 v0 (po0 / p0)) (ConeModel.Build_cstate m p v po) = 0
  /\ ~ d_cone m0 p0 v0 po0 m p v po.
Proof.
  exists 1, 2, 1, 1, (1 / 2), 2, 4, 1.
  assert (S4 : sqrt 4 = 2) by (replace 4 with (2 * 2) by lra; apply sqrt_square; lra).
  assert (S1 : sqrt (1 / 4) = 1 / 2) by (replace (1 / 4) with ((1 / 2) * (1 / 2)) by lra; apply sqrt_square; lra).
  repeat split; try lra.
  - unfold ConeModel.cone_func. cbn [ConeModel.c_m ConeModel.c_p ConeModel.c_v ConeModel.c_po ConeModel.d_m ConeModel.d_p ConeModel.d_v ConeModel.d_pr].
    replace (2 * 1 / (2 * 4)) with (1 / 4) by lra. rewrite S1.
    replace ((1 - (1 / 2) ^ 2) / (1 - (1 / 2) ^ 2)) with 1 by (field; lra). rewrite Rabs_R1, sqrt_1. lra.
  - unfold d_cone. replace (2 * 4 / (2 * 1) * ((1 - (1 / 2) ^ 2) / (1 - (1 / 2) ^ 2))) with 4 by (field; lra). rewrite S4. lra.
Qed.
Lemma cone_same_volume : forall m0 p0 v po0 m p po,
  0 < p0 -> 0 < p -> 0 < v -> 0 <= (1 - (po / p) ^ 2) / (1 - (po0 / p0) ^ 2) ->
  (d_cone m0 p0 v po0 m p v po
   <-> ConeModel.cone_func (ConeModel.Build_cdesign m0 p0 v (po0 / p0)) (ConeModel.Build_cstate m p v po) = 0).
Proof.
  intros m0 p0 v po0 m p po P0 P V H. apply zero_iff. unfold ConeModel.cone_func.
  cbn [ConeModel.c_m ConeModel.c_p ConeModel.c_v ConeModel.c_po ConeModel.d_m ConeModel.d_p ConeModel.d_v ConeModel.d_pr].
  assert (A : 0 <= p0 * v / (p * v)). { apply Rlt_le, Rdiv_lt_0_compat; apply Rmult_lt_0_compat; lra. }
  rewrite sqrt_mult by assumption. rewrite (Rabs_right _ (Rle_ge _ _ H)). ring.
Qed.

(* reactors *)
Definition w_fc (q : qty) : R := match q with QM 5 => 3 | QM 6 => 9 | QM 1 => 8 | QM 2 => 1 | _ => 0 end.
Lemma fc_mass_false : exists isv Mo2 Mh2 i2 i3 o1 o2 e,
  Forall (fun c => isv (QM (cm c)) = true) [i2; i3; o1; o2] /\ 0 < Mo2 /\ 0 < Mh2
  /\ Forall (fun r => r = 0) (fuel_cell_mass_func isv Mo2 Mh2 i2 i3 o2 e)
  /\ ~ d_fc_mass Mo2 Mh2 (vm e o1) (vm e o2) (vm e i2) (vm e i3).
Proof.
  exists (fun _ => true), 32, 2, (w_c 1), (w_c 2), (w_c 5), (w_c 6), w_fc. repeat split; try lra.
  - repeat constructor.
  - unfold fuel_cell_mass_func, o2_share, vm, w_fc, w_c. cbn. repeat constructor; lra.
  - unfold d_fc_mass, vm, w_fc, w_c. cbn. intros [A _]. lra.
Qed.
Lemma fc_mass_equal : forall (isv : qty -> bool) Mo2 Mh2 i2 i3 o1 o2 e, isv (QM (cm o2)) = true -> vm e o1 = vm e o2 ->
  (d_fc_mass Mo2 Mh2 (vm e o1) (vm e o2) (vm e i2) (vm e i3)
   <-> Forall (fun r => r = 0) (fuel_cell_mass_func isv Mo2 Mh2 i2 i3 o2 e)).
Proof.
  intros isv Mo2 Mh2 i2 i3 o1 o2 e H E. unfold d_fc_mass, fuel_cell_mass_func, o2_share. rewrite H, E, !orb_true_r. cbn. split.
  - intros [A B]. repeat constructor; lra.
  - intros F. inversion F as [|? ? A F']; inversion F' as [|? ? B _]. split; lra.
Qed.
Definition w_el (q : qty) : R := match q with QM 4 => 1 | QC _ => 7 | _ => 0 end.
Lemma el_energy_false : exists hw ho hh e0 i1 i2 o1 o2 o3 P e,
  0 < e0 /\ 0 < vm e o3 /\ 0 < pval e P
  /\ electrolyzer_energy_func hw ho hh e0 i1 i2 o1 o2 o3 P e = 0
  /\ ~ d_el_energy (pval e P) (vm e i2) (vh e i2) hw (vm e i1) (vh e o1) (vh e i1) (vm e o2) (vh e o2) ho (vm e o3) (vh e o3) hh e0.
Proof.
  exists 0, 0, 0, 7, (w_c 0), (w_c 1), (w_c 2), (w_c 3), (w_c 4), (PVar 0), w_el.
  unfold electrolyzer_energy_func, d_el_energy, vm, vh, pval, w_el, w_c; cbn. repeat split; lra.
Qed.
Lemma el_energy_same : forall hw ho hh e0 i1 i2 o1 o2 o3 P e, vm e o3 * (vh e o3 - hh + e0) = 0 ->
  (d_el_energy (pval e P) (vm e i2) (vh e i2) hw (vm e i1) (vh e o1) (vh e i1) (vm e o2) (vh e o2) ho (vm e o3) (vh e o3) hh e0
   <-> electrolyzer_energy_func hw ho hh e0 i1 i2 o1 o2 o3 P e = 0).
Proof. intros. unfold d_el_energy, electrolyzer_energy_func. split; intros; lra. Qed.

(* connections *)
Lemma ref_false : exists q r factor delta e, ref_func q r factor delta e = 0 /\ ~ d_ref (e q) (e r) factor delta.
Proof. exists (QM 0), (QM 1), 1, 1, (fun q => match q with QM 0 => 3 | _ => 2 end). unfold ref_func, d_ref. split; lra. Qed.
Lemma ref_sign : forall q r factor delta e,
  (d_ref (e q) (e r) factor delta <-> ref_func q r factor (- delta) e = 0)
  /\ (d_ref (e q) (e r) factor 0 <-> ref_func q r factor 0 e = 0).
Proof. intros. unfold d_ref, ref_func. split; split; intros; lra. Qed.

Lemma engine_Q_false : exists i o Q e, 0 < vm e i /\ 0 < vh e i /\ 0 < vh e o
  /\ JacModel.engine_Q_func i o Q e = 0 /\ ~ d_engine_Q (vm e i) (vh e i) (vh e o) (pval e Q).
Proof.
  exists (w_c 0), (w_c 1), (PVar 0), (fun q => match q with QM _ => 1 | QH 0 => 1 | QH _ => 3 | QC _ => -2 | _ => 0 end).
  unfold JacModel.engine_Q_func, d_engine_Q, vm, vh, pval, w_c; cbn. repeat split; lra.
Qed.
Lemma engine_Q_same : forall i o Q e, vm e i * vh e i = 0 ->
  (d_engine_Q (vm e i) (vh e i) (vh e o) (pval e Q) <-> JacModel.engine_Q_func i o Q e = 0).
Proof. intros. unfold d_engine_Q, JacModel.engine_Q_func. split; intros; lra. Qed.

(** Whenever the equation is solved, the printed one holds only at twice the boiling point *)
Lemma Td_bp_printed : forall P c e t, JacModel.Td_func P c t e = 0 ->
  (d_Td_bp t (JacModel.cTs P e c) <-> JacModel.cT P e c = 2 * JacModel.cTs P e c).
Proof. intros P c e t H. unfold d_Td_bp. unfold JacModel.Td_func in H. split; intros; lra. Qed.
Definition w_P : JacModel.props :=
  {| JacModel.pT := fun _ _ _ _ => 400; JacModel.pTs := fun _ _ _ => 390; JacModel.pv := fun _ _ _ _ => 1;
     JacModel.pvisc := fun _ _ _ _ => 1; JacModel.pis := fun _ _ _ _ _ => 1; JacModel.phT := fun _ _ _ _ => 1;
     JacModel.phQ := fun _ _ _ _ => 1; JacModel.pref := fun _ _ => 0; JacModel.pdff := fun _ _ _ => 1 |}.
Lemma Td_bp_false : exists P c t e, 0 < t /\ 0 < JacModel.cTs P e c
  /\ JacModel.Td_func P c t e = 0 /\ ~ d_Td_bp t (JacModel.cTs P e c).
Proof.
  exists w_P, (w_c 0), 10, (fun _ => 1). unfold JacModel.Td_func, JacModel.cT, JacModel.cTs, d_Td_bp; cbn. repeat split; lra.
Qed.
