(** The equations printed in the report against the equations solved. *)
From Coq Require Import Reals List String Bool Lra.
From Verif Require Import Base EqnModel DocEqModel.
From Verif Require ReportModel JacModel SolarModel ConeModel.
Import ListNotations.
Open Scope R_scope.

Lemma zero_iff a b : a = b -> (0 = a <-> b = 0).
Proof. intros ->. split; auto. Qed.
Lemma fold_add {A} (f : A -> R) l : forall r, fold_left (fun r c => r + f c) l r = r + rsum (map f l).
Proof. induction l as [|a l IH]; intros r; cbn; [lra|]. rewrite IH. unfold rsum. lra. Qed.
Lemma fold_sub {A} (f : A -> R) l : forall r, fold_left (fun r c => r - f c) l r = r - rsum (map f l).
Proof. induction l as [|a l IH]; intros r; cbn; [lra|]. rewrite IH. unfold rsum. lra. Qed.
Lemma add_sum (f : conn -> R) l r : acc_add f l r = r + rsum (map f l).
Proof. apply fold_add. Qed.
Lemma sub_sum (f : conn -> R) l r : acc_sub f l r = r - rsum (map f l).
Proof. apply fold_sub. Qed.
Lemma all_in_map {A B} (f : A -> B) (P : B -> Prop) l : (forall y, In y (map f l) -> P y) <-> (forall x, In x l -> P (f x)).
Proof.
  split; intros H x I; [apply H, in_map, I|]. apply in_map_iff in I as (y & <- & I). auto.
Qed.

(* nodes *)
Lemma node_mass : forall inl outl e, d_mass (map (vm e) inl) (map (vm e) outl) <-> node_mass_func inl outl e = 0.
Proof. intros. unfold d_mass, node_mass_func. rewrite sub_sum, add_sum. apply zero_iff. lra. Qed.
Lemma node_pressure : forall i0 ins outs e,
  d_node_pressure (vp e i0) (map (vp e) ins) (map (vp e) outs)
  <-> (forall r, In r (node_pressure_func i0 (ins ++ outs) e) -> r = 0).
Proof.
  intros. unfold d_node_pressure, node_pressure_func. rewrite !all_in_map. split.
  - intros [A B] x I. apply in_app_iff in I as [I|I]; [specialize (A _ I)|specialize (B _ I)]; lra.
  - intros H. split; intros x I; specialize (H x ltac:(apply in_app_iff; auto)); lra.
Qed.
Lemma merge_fluid : forall inl o f e,
  d_merge (map (fun i => (vm e i, vx e i f)) inl) (vm e o, vx e o f) <-> merge_fluid_eq inl o f e = 0.
Proof.
  intros. unfold d_merge, merge_fluid_eq. rewrite add_sum, map_map. cbn. apply zero_iff.
  rewrite (map_ext (fun x => vm e x * vx e x f) (fun x => vx e x f * vm e x)) by (intros; lra). lra.
Qed.
Lemma merge_energy : forall inl o e,
  d_merge (map (fun i => (vm e i, vh e i)) inl) (vm e o, vh e o) <-> merge_energy_func inl o e = 0.
Proof.
  intros. unfold d_merge, merge_energy_func. rewrite add_sum, map_map. cbn. apply zero_iff. lra.
Qed.
Lemma droplet : forall inl outl e,
  d_droplet (map (fun i => (vm e i, vh e i)) inl) (map (fun o => (vm e o, vh e o)) outl)
  <-> droplet_energy_func inl outl e = 0.
Proof. intros. unfold d_droplet, droplet_energy_func. rewrite sub_sum, add_sum, !map_map. cbn. apply zero_iff. lra. Qed.
Lemma outlets : forall hs o0 o1 e,
  d_outlets hs (vp e o0) (vh e o0) (vp e o1) (vh e o1)
  <-> (forall r, In r (droplet_outlet_func hs o0 o1 e) -> r = 0).
Proof.
  intros. unfold d_outlets, droplet_outlet_func. split.
  - intros [A B] r [<-|[<-|[]]]; lra.
  - intros H. pose proof (H _ (or_introl eq_refl)). pose proof (H _ (or_intror (or_introl eq_refl))). lra.
Qed.
Lemma splitter : forall i0 outl e,
  d_split (vh e i0) (map (vh e) outl) <-> (forall r, In r (splitter_energy_func i0 outl e) -> r = 0).
Proof. intros. unfold d_split, splitter_energy_func. rewrite !all_in_map. split; intros H x I; specialize (H x I); lra. Qed.
Lemma separator_T : forall (T : conn -> R -> R -> R) i0 outl e,
  d_split (T i0 (vp e i0) (vh e i0)) (map (fun o => T o (vp e o) (vh e o)) outl)
  <-> (forall r, In r (separator_energy_func T i0 outl e) -> r = 0).
Proof. intros. unfold d_split, separator_energy_func. rewrite !all_in_map. split; intros H x I; specialize (H x I); lra. Qed.

(* equal values, ratios *)
Lemma equal_pressures : forall ports e,
  d_equal (map (fun io => (vp e (fst io), vp e (snd io))) ports)
  <-> (forall r, In r (pressure_equality_func ports e) -> r = 0).
Proof. intros. unfold d_equal, pressure_equality_func. rewrite !all_in_map. cbn. split; intros H x I; specialize (H x I); lra. Qed.
Lemma equal_enthalpies : forall ports e,
  d_equal (map (fun io => (vh e (fst io), vh e (snd io))) ports)
  <-> (forall r, In r (enthalpy_equality_func ports e) -> r = 0).
Proof. intros. unfold d_equal, enthalpy_equality_func. rewrite !all_in_map. cbn. split; intros H x I; specialize (H x I); lra. Qed.
Lemma ratio : forall pr p_i p_o, d_pr p_i pr p_o <-> ReportModel.pr_eq pr p_i p_o = 0.
Proof. intros. apply zero_iff. reflexivity. Qed.
Lemma zeta_printed : forall z m v_i v_o p_i p_o,
  d_zeta p_i p_o m v_i v_o z <-> ReportModel.zeta_eq z m (v_i + v_o) p_i p_o = 0.
Proof.
  intros. unfold d_zeta, ReportModel.zeta_eq, ReportModel.ltb, ReportModel.m_min. destruct (Rlt_dec (Rabs m) (1 / 10000)) as [L|L].
  - split; [intros [A _]; specialize (A L); lra|]. intros H. split; [intros _; lra|intros; lra].
  - assert (X : 8 * m * Rabs m * ((v_i + v_o) / 2) = 8 * Rabs m * m * (v_i + v_o) / 2) by lra. rewrite X. split.
    + intros [_ B]. specialize (B ltac:(lra)). lra.
    + intros H. split; intros; lra.
Qed.
Lemma power : forall P m h_i h_o, d_power m h_i h_o P <-> ReportModel.power_eq P m h_i h_o = 0.
Proof. intros. apply zero_iff. reflexivity. Qed.

(* heat exchangers *)
Lemma hx_energy : forall i1 i2 o1 o2 e,
  d_hx_energy (vm e i1) (vh e i1) (vh e o1) (vm e i2) (vh e i2) (vh e o2) <-> hx_energy_func i1 i2 o1 o2 e = 0.
Proof. intros. apply zero_iff. unfold hx_energy_func. lra. Qed.
Lemma td_log_value a b : 0 < a -> 0 < b -> a <> b ->
  ReportModel.td_log_of a b = Ok ((a - b) / ln (a / b)) /\ ln (a / b) <> 0.
Proof.
  intros A B N. assert (Q : 0 < a / b) by now apply Rdiv_lt_0_compat.
  assert (L : ln (a / b) <> 0). { intros H. rewrite <- ln_1 in H. apply ln_inv in H; [|exact Q|lra]. apply N. apply (f_equal (fun x => x * b)) in H. unfold Rdiv in H. rewrite Rmult_assoc, Rinv_l in H; lra. }
  split; [|exact L]. unfold ReportModel.td_log_of, ReportModel.eqb, ReportModel.fdiv, ReportModel.flog.
  destruct (Req_EM_T b a); [congruence|]. destruct (Req_EM_T b 0); [lra|]. cbn [rbind].
  destruct (Rlt_dec 0 (a / b)); [|contradiction]. cbn [rbind]. destruct (Req_EM_T (ln (a / b)) 0); [contradiction|reflexivity].
Qed.
Lemma leb_false a b : b < a -> ReportModel.leb a b = false.
Proof. intros H. unfold ReportModel.leb. destruct (Rle_dec a b); [lra|reflexivity]. Qed.
Lemma kA : forall kA m h_i h_o T_i1 T_i2 T_o1 T_o2,
  T_o2 < T_i1 -> T_i2 < T_o1 -> T_o1 - T_i2 <> T_i1 - T_o2 ->
  exists r, ReportModel.hx_kA_eq kA m h_i h_o T_i1 T_i2 T_o1 T_o2 = Ok r
            /\ (d_kA m h_i h_o kA T_i1 T_i2 T_o1 T_o2 <-> r = 0).
Proof.
  intros kA m h_i h_o T_i1 T_i2 T_o1 T_o2 A B N. unfold ReportModel.hx_kA_eq, ReportModel.hx_td_log.
  cbv zeta. rewrite (leb_false T_i1 T_o2 A). cbv iota. rewrite (leb_false T_i1 T_o2 A). cbv iota. rewrite (leb_false T_i1 T_o2 A), (leb_false T_o1 T_i2 B).
  destruct (td_log_value (T_o1 - T_i2) (T_i1 - T_o2)) as [E _]; [lra|lra|exact N|]. rewrite E. cbn [rbind].
  eexists. split; [reflexivity|]. unfold d_kA. apply zero_iff. do 3 f_equal. lra.
Qed.
Lemma kA_cond : forall s_i1 s_i2 s_o1 s_o2 kA m h_i h_o Ts T_i2 T_o1 T_o2,
  T_o2 < Ts -> T_i2 < T_o1 -> T_o1 - T_i2 <> Ts - T_o2 ->
  exists r, ReportModel.cond_kA_eq s_i1 s_i2 s_o1 s_o2 kA m h_i h_o Ts T_i2 T_o1 T_o2 = Ok r
            /\ (d_kA m h_i h_o kA Ts T_i2 T_o1 T_o2 <-> r = 0).
Proof.
  intros s1 s2 s3 s4 kA m h_i h_o T_i1 T_i2 T_o1 T_o2 A B N. unfold ReportModel.cond_kA_eq, ReportModel.cond_td_log.
  cbv zeta. rewrite (leb_false T_i1 T_o2 A), (leb_false T_o1 T_i2 B). cbn [andb].
  rewrite (leb_false T_i1 T_o2 A), (leb_false T_o1 T_i2 B). cbn [andb].
  destruct (td_log_value (T_o1 - T_i2) (T_i1 - T_o2)) as [E _]; [lra|lra|exact N|]. rewrite E. cbn [rbind].
  eexists. split; [reflexivity|]. unfold d_kA. apply zero_iff. do 3 f_equal. lra.
Qed.
Lemma ttd : forall ttd a b, (d_ttd_u ttd a b <-> ReportModel.ttd_u_eq ttd a b = 0) /\ (d_ttd_l ttd a b <-> ReportModel.ttd_l_eq ttd a b = 0).
Proof. intros. split; apply zero_iff; reflexivity. Qed.
Lemma sat : forall hs o e, d_sat hs (vp e o) (vh e o) <-> sat_func hs o e = 0.
Proof. intros. apply zero_iff. reflexivity. Qed.
Lemma collector : forall A E eta a1 a2 Tamb m hi ho Ti To,
  d_collector A E eta a1 a2 Tamb m hi ho Ti To <-> SolarModel.collector_eq A E eta a1 a2 Tamb m hi ho Ti To = 0.
Proof. intros. unfold d_collector, SolarModel.collector_eq. apply zero_iff. replace (1 / 2 * (Ti + To)) with ((To + Ti) / 2) by lra. ring. Qed.
Lemma trough : forall A E eta doc iam1 iam2 aoi c1 c2 Tamb m hi ho Ti To,
  0 < doc ->
  d_trough A E eta (Rpower doc (3 / 2)) iam1 iam2 aoi c1 c2 Tamb m hi ho Ti To
  <-> SolarModel.trough_eq A E eta doc iam1 iam2 aoi c1 c2 Tamb m hi ho Ti To = 0.
Proof.
  intros. unfold d_trough, SolarModel.trough_eq, SolarModel.pow15, SolarModel.iam. destruct (Req_EM_T doc 0); [lra|].
  apply zero_iff. replace (1 / 2 * (Ti + To)) with ((To + Ti) / 2) by lra. ring.
Qed.

(* turbomachines *)
Lemma eta_s : forall eta h_i h_o h_s,
  (d_pump_eta eta h_i h_o h_s <-> ReportModel.pump_eta_eq eta h_i h_o h_s = 0)
  /\ (d_turbine_eta eta h_i h_o h_s <-> ReportModel.turbine_eta_eq eta h_i h_o h_s = 0).
Proof.
  intros. split; [|apply zero_iff; reflexivity]. unfold d_pump_eta, ReportModel.pump_eta_eq. split; intros; lra.
Qed.

(* reactors *)
Lemma reactor_values : forall P eta m e0 e Q hi ho,
  (d_fc_eta P eta m e0 <-> ReportModel.fc_eta_eq P eta m e0 = 0)
  /\ (d_fc_heat Q m hi ho <-> ReportModel.fuel_cell_heat_eq Q m hi ho = 0)
  /\ (d_spec_energy P m e <-> ReportModel.fc_e_eq P e m = 0)
  /\ (d_el_eta P eta m e0 <-> ReportModel.el_eta_eq P eta m e0 = 0)
  /\ (d_el_heat Q m hi ho <-> ReportModel.electrolyzer_heat_eq Q m hi ho = 0)
  /\ (d_spec_energy P m e <-> ReportModel.el_e_eq P e m = 0).
Proof. intros. repeat split; intros H; unfold d_fc_eta, d_fc_heat, d_spec_energy, d_el_eta, d_el_heat, ReportModel.fc_eta_eq, ReportModel.fuel_cell_heat_eq, ReportModel.fc_e_eq, ReportModel.el_eta_eq, ReportModel.electrolyzer_heat_eq, ReportModel.el_e_eq in *; lra. Qed.
Lemma fc_energy : forall hw ho hh e0 i0 i1 i2 o0 o1 P e,
  d_fc_energy (pval e P) (vm e o1) (vh e o1) hw (vm e i0) (vh e o0) (vh e i0) (vm e i1) (vh e i1) ho (vm e i2) (vh e i2) hh e0
  <-> fuel_cell_energy_func hw ho hh e0 i0 i1 i2 o0 o1 P e = 0.
Proof. intros. unfold d_fc_energy, fuel_cell_energy_func. apply zero_iff. ring. Qed.
Lemma el_mass : forall (isv : qty -> bool) Mo2 Mh2 i0 i1 o0 o1 o2 e,
  isv (QM (cm i1)) = true -> cm i0 = cm o0 ->
  (d_el_mass Mo2 Mh2 (vm e i0) (vm e o0) (vm e i1) (vm e o1) (vm e o2)
   <-> forall r, In r (electrolyzer_mass_func isv Mo2 Mh2 i1 o1 o2 e) -> r = 0).
Proof.
  intros isv Mo2 Mh2 i0 i1 o0 o1 o2 e V C. unfold electrolyzer_mass_func. rewrite V. cbn. unfold d_el_mass, o2_share. split.
  - intros (A & B & D) r [<-|[<-|[]]]; lra.
  - intros H. pose proof (H _ (or_introl eq_refl)). pose proof (H _ (or_intror (or_introl eq_refl))).
    split; [unfold vm; rewrite C; lra|]. lra.
Qed.

(* connections *)
Lemma connections : forall P c e t v,
  (d_T (JacModel.cT P e c) t <-> JacModel.T_func P c t e = 0)
  /\ (d_v (vm e c) (JacModel.cvol P e c) v <-> JacModel.vol_func P c v e = 0).
Proof. intros. unfold d_T, d_v, JacModel.T_func, JacModel.vol_func. split; apply zero_iff; [reflexivity|ring]. Qed.
Lemma quality : forall hq c e, d_x (vh e c) (hq (vp e c)) <-> x_func hq c e = 0.
Proof. intros. unfold d_x, x_func. apply zero_iff. ring. Qed.
Lemma balance : forall a fixed vars e,
  d_balance (map (fun f => e (QF a f)) (fixed ++ vars)) <-> fluid_balance_func a fixed vars e = 0.
Proof.
  intros. unfold d_balance, fluid_balance_func. apply zero_iff.
  rewrite !(fold_add (fun x => x)), !map_id, map_app. assert (X : forall a b, rsum (a ++ b) = rsum a + rsum b).
  { intros u. induction u as [|x u IH]; intros w; unfold rsum in *; cbn [app fold_right]; [lra|]. rewrite IH. lra. }
  rewrite X. lra.
Qed.
