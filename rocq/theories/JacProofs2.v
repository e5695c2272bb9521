From Coq Require Import Reals List String Bool Arith Lra.
From Verif Require Import Base ReportModel SolarModel ConeModel EqnModel JacModel EqnSpec EqnProofs JacSpec JacProofs.
Import ListNotations.
Open Scope R_scope.

(* --------------------------------------------------------- turbomachinery *)
Lemma valve_matches : forall isv filt P ds i o k d e, k_param k <> Cpr -> cm o = cm i -> cid i <> cid o ->
  row_matches no_fraction isv filt ds (valve_func P i o k d) (valve_deriv isv filt P i o k d e) e.
Proof.
  intros isv filt P ds i o k d e HC E N. unfold valve_deriv.
  destruct k as [p r g]; cbn [k_param] in *.  destruct p; try contradiction.
  - rows ([QM (cm i); QP (cid i); QP (cid o)]).
    + hand. unfold valve_func, char_val, char_expr. cbn [k_param k_rel k_fun]. ups.
      instantiate (1 := - vp e o - g (if r then vm e i / g_m d else vm e i)). ring.
    + hand. unfold valve_func, char_val, char_expr. cbn [k_param k_rel k_fun]. ups.
      instantiate (1 := vp e i - g (if r then vm e i / g_m d else vm e i)). ring.
  - rows ([QM (cm i); QM (cm o); QP (cid i); QP (cid o)]).
    + hand. unfold valve_func, char_val, char_expr. cbn [k_param k_rel k_fun]. ups.
      instantiate (1 := - vp e o - g (if r then vm e o / g_mo d else vm e o)). ring.
    + hand. unfold valve_func, char_val, char_expr. cbn [k_param k_rel k_fun]. ups.
      instantiate (1 := vp e i - g (if r then vm e o / g_mo d else vm e o)). ring.
  - rewrite <- ?app_assoc. rows ([QM (cm i); QP (cid i); QH (cid i); QP (cid o)] ++ xc i).
    hand. unfold valve_func, char_val, char_expr, cvol. cbn [k_param k_rel k_fun]. ups.
      instantiate (1 := vp e i - g (if r then vm e i * pv P i (vp e i) (vh e i) (xs e i) / g_v d else vm e i * pv P i (vp e i) (vh e i) (xs e i))). ring.
Qed.

Lemma pump_matches : forall isv filt P ds i o eta e, fixed eta -> cid i <> cid o ->
  row_matches no_fraction isv filt ds (pump_func P i o eta) (pump_deriv isv filt P i o eta e) e.
Proof.
  intros isv filt P ds i o t e HC N. destruct t as [|t]; [destruct HC|]. unfold pump_deriv.
  rows ([QP (cid i); QH (cid i); QP (cid o); QH (cid o)] ++ xc i).
  hand. unfold pump_func, pump_eta_eq, cis. ups. cbn [pval].
  instantiate (1 := - vh e i * t - (pis P i (vp e i) (vh e i) (vp e o) (xs e i) - vh e i)). ring.
Qed.

Lemma turbine_matches : forall isv filt P ds i o eta e, fixed eta -> cid i <> cid o ->
  row_matches no_fraction isv filt ds (turbine_func P i o eta) (turbine_deriv isv filt P i o eta e) e.
Proof.
  intros isv filt P ds i o t e HC N. destruct t as [|t]; [destruct HC|]. unfold turbine_deriv.
  rows ([QP (cid i); QH (cid i); QP (cid o); QH (cid o)] ++ xc i).
  hand. unfold turbine_func, turbine_eta_eq, cis. ups. cbn [pval].
  instantiate (1 := vh e i + (pis P i (vp e i) (vh e i) (vp e o) (xs e i) - vh e i) * t). ring.
Qed.

Lemma pump_char_matches : forall isv filt P ds i o k d eta e, cm o = cm i ->
  row_matches no_fraction isv filt ds (pump_char_func P i o k d eta) (pump_char_deriv isv filt P i o k d eta e) e.
Proof.
  intros isv filt P ds i o k d eta e E. unfold pump_char_deriv, five.
  rows ([QM (cm i); QM (cm o); QP (cid i); QH (cid i); QP (cid o); QH (cid o)] ++ xc i).
Qed.

Lemma turbine_char_matches : forall isv filt P ds i o k d eta e, cm o = cm i ->
  row_matches no_fraction isv filt ds (turbine_char_func P i o k d eta) (turbine_char_deriv isv filt P i o k d eta e) e.
Proof.
  intros isv filt P ds i o k d eta e E. unfold turbine_char_deriv, five.
  rows ([QM (cm i); QM (cm o); QP (cid i); QH (cid i); QP (cid o); QH (cid o)] ++ xc i).
Qed.

Lemma pump_flow_matches : forall isv filt P ds i o k d e, cm o = cm i ->
  row_matches no_fraction isv filt ds (pump_flow_func P i o k d) (pump_flow_deriv isv filt P i o k d e) e.
Proof.
  intros isv filt P ds i o k d e E. unfold pump_flow_deriv.
  rows ([QM (cm i); QM (cm o); QP (cid i); QH (cid i); QP (cid o)] ++ xc i).
Qed.

Lemma map_pr_matches : forall isv filt P ds g Td pd md prd i o igva e, has_column isv igva -> cid i <> cid o ->
  row_matches no_fraction isv filt ds (map_pr_func P g Td pd md prd i o igva)
    (map_pr_deriv isv filt P ds g Td pd md prd i o igva e) e.
Proof.
  intros isv filt P ds g Td pd md prd i o t e HC N. unfold map_pr_deriv.
  rows ([QM (cm i); QP (cid i); QH (cid i); QP (cid o)] ++ xc i ++ pc t).
  hand. unfold map_pr_func, map_y, map_x, cT. ups.
  instantiate (1 := - (g (sqrt (Td / pT P i (vp e i) (vh e i) (xs e i)))
    (vm e i * pd / (md * vp e i * sqrt (Td / pT P i (vp e i) (vh e i) (xs e i)))) (pval e t) * prd)).
  unfold Rdiv. ring.
Qed.

Lemma map_eta_matches : forall isv filt P ds g Td pd md eta i o igva e, has_column isv igva ->
  row_matches no_fraction isv filt ds (map_eta_func P g Td pd md eta i o igva)
    (map_eta_deriv isv filt P ds g Td pd md eta i o igva e) e.
Proof.
  intros isv filt P ds g Td pd md eta i o t e HC. unfold map_eta_deriv, five. rewrite <- ?app_assoc.
  rows ([QM (cm i); QP (cid i); QH (cid i); QP (cid o); QH (cid o)] ++ xc i ++ pc t).
Qed.

Lemma cone_matches : forall isv filt P ds d i o e,
  row_matches no_fraction isv filt ds (cone_residual P d i o) (cone_deriv isv filt P d i o e) e.
Proof.
  intros isv filt P ds d i o e. unfold cone_deriv.
  rows ([QM (cm i); QP (cid i); QH (cid i); QP (cid o)] ++ xc i).
  hand. unfold cone_residual, ConeModel.cone_func, cvol. cbn [c_m c_p c_v c_po]. ups.
  replace (- t) with (-1 * t) by ring. reflexivity.
Qed.

Lemma wet_matches : forall isv filt ds w i o eta alpha e, fixed eta -> fixed alpha ->
  row_matches no_fraction isv filt ds (wet_func w i o eta alpha) (wet_deriv isv filt w i o eta alpha e) e.
Proof.
  intros isv filt ds w i o t u e HC HD. destruct t as [|t]; [destruct HC|]. destruct u as [|u]; [destruct HD|].
  unfold wet_deriv.
  rows ([QP (cid i); QH (cid i); QP (cid o); QH (cid o)] ++ xc i ++ xc o).
Qed.

(* ---------------------------------------------------------------- moving boundary *)
Lemma in_ports {A} (g : conn -> list A) c l q : In c l -> In q (g c) -> In q (flat_map g l).
Proof. intros H I. apply in_flat_map. eauto. Qed.

Lemma mb_reads g l t : reads (mb_func g l (PVal t))
  (flat_map (fun c => [QM (cm c); QP (cid c); QH (cid c)] ++ xc c) l).
Proof.
  intros e1 e2 H. unfold mb_func. cbn [pval].
  assert (E : map (pstate e1) l = map (pstate e2) l); [|now rewrite E].
  apply map_ext_in. intros c Hc. unfold pstate, vm, vp, vh.
  assert (I : forall q, In q ([QM (cm c); QP (cid c); QH (cid c)] ++ xc c) -> e1 q = e2 q).
  { intros q Hq. apply H. apply (in_ports _ c); auto. }
  rewrite (xs_agree e1 e2 c); [|intros; apply I; inc].
  now rewrite (I (QM (cm c))), (I (QP (cid c))), (I (QH (cid c))) by inc.
Qed.

Lemma map_flat_map {A B C} (h : B -> C) (g : A -> list B) l :
  map h (flat_map g l) = flat_map (fun c => map h (g c)) l.
Proof. induction l; cbn; auto. now rewrite map_app, IHl. Qed.

Lemma UA_matches : forall isv filt ds g l t e, fixed t ->
  row_matches no_fraction isv filt ds (mb_func g l t) (UA_deriv isv g l t e) e.
Proof.
  intros isv filt ds g l t e HC. destruct t as [|t]; [destruct HC|]. unfold UA_deriv.
  eapply matches_intro; [apply mb_reads| |].
  - intros q I Kq V F. apply in_flat_map in I as (c & Hc & I).
    rewrite map_flat_map. apply (in_ports _ c); auto. revert q I Kq V F. covering.
  - apply okw_flat. intros c Hc. okws.
Qed.

Lemma td_pinch_matches : forall isv filt ds g l t e, fixed t ->
  row_matches no_fraction isv filt ds (mb_func g l t) (td_pinch_deriv isv filt g l t e) e.
Proof.
  intros isv filt ds g l t e HC. destruct t as [|t]; [destruct HC|]. unfold td_pinch_deriv.
  eapply matches_intro; [apply mb_reads| |].
  - intros q I Kq V F. apply in_flat_map in I as (c & Hc & I).
    rewrite map_flat_map. apply (in_ports _ c); auto. revert q I Kq V F. covering.
  - apply okw_flat. intros c Hc. okws.
Qed.

(* ------------------------------------------------------------------- reactors *)
Lemma fc_heat_matches : forall isv filt ds i o Q e, fixed Q -> cid i <> cid o ->
  row_matches any isv filt ds (fc_heat_func i o Q) (heat_deriv isv i o e) e.
Proof.
  intros isv filt ds i o t e HC N. destruct t as [|t]; [destruct HC|]. unfold heat_deriv.
  rows ([QM (cm i); QH (cid i); QH (cid o)]).
  all: hand; unfold fc_heat_func, fuel_cell_heat_eq; ups; cbn [pval].
  - instantiate (1 := t). ring.
  - instantiate (1 := t + vm e i * vh e o). ring.
  - instantiate (1 := t - vm e i * vh e i). ring.
Qed.

Lemma el_heat_matches : forall isv filt ds i o Q e, fixed Q -> cid i <> cid o ->
  row_matches any isv filt ds (el_heat_func i o Q) (heat_deriv isv i o e) e.
Proof.
  intros isv filt ds i o t e HC N. destruct t as [|t]; [destruct HC|]. unfold heat_deriv.
  rows ([QM (cm i); QH (cid i); QH (cid o)]).
  all: hand; unfold el_heat_func, electrolyzer_heat_eq; ups; cbn [pval].
  - instantiate (1 := t). ring.
  - instantiate (1 := t + vm e i * vh e o). ring.
  - instantiate (1 := t - vm e i * vh e i). ring.
Qed.

Lemma el_pressure_matches : forall isv filt ds i o e, cid i <> cid o ->
  row_matches any isv filt ds (reactor_p_func i o) (el_pressure_deriv isv i o) e.
Proof.
  intros isv filt ds i o e N. unfold el_pressure_deriv.
  rows ([QP (cid i); QP (cid o)]).
  all: hand; unfold reactor_p_func; ups.
  - instantiate (1 := - vp e o). ring.
  - instantiate (1 := vp e i). ring.
Qed.

Lemma comb_pressure_matches : forall isv filt ds i o e, cid i <> cid o ->
  row_matches any isv filt ds (reactor_p_func i o) (comb_pressure_deriv isv i o) e.
Proof. exact el_pressure_matches. Qed.

Lemma comb_mass_matches : forall isv filt ds i1 i2 o e, cm i1 <> cm i2 -> cm i1 <> cm o -> cm i2 <> cm o ->
  row_matches any isv filt ds (comb_mass_func i1 i2 o) (comb_mass_deriv isv i1 i2 o) e.
Proof.
  intros isv filt ds i1 i2 o e N1 N2 N3. unfold comb_mass_deriv; cbn [flat_map]. rewrite <- ?app_assoc.
  rows ([QM (cm i1); QM (cm i2); QM (cm o)]).
  all: hand; unfold comb_mass_func; ups.
  - instantiate (1 := vm e i2 - vm e o). ring.
  - instantiate (1 := vm e i1 - vm e o). ring.
  - instantiate (1 := vm e i1 + vm e i2). ring.
Qed.

Lemma fc_pressure_matches : forall isv filt ds o i e, cid i <> cid o ->
  row_matches any isv filt ds (reactor_p_func o i) (fc_pressure_deriv isv o i) e.
Proof.
  intros isv filt ds o i e N. unfold fc_pressure_deriv.
  rows ([QP (cid i); QP (cid o)]).
  all: hand; unfold reactor_p_func; ups.
  - instantiate (1 := vp e o). ring.
  - instantiate (1 := - vp e i). ring.
Qed.

Lemma gas_T_matches : forall isv filt P ds o1 o2 e, cid o1 <> cid o2 ->
  row_matches no_fraction isv filt ds (gas_T_func P o1 o2) (gas_T_deriv isv filt P o1 o2 e) e.
Proof.
  intros isv filt P ds o1 o2 e N. unfold gas_T_deriv.
  rows ([QP (cid o1); QH (cid o1); QP (cid o2); QH (cid o2)] ++ xc o1 ++ xc o2).
  all: apply okw_wr; [intros; eauto using isv_variable|intros _ _; right];
       unfold quotient, gas_T_func, dT_dp, dT_dh, cT; ups; cbn [step]; unfold step_ph;
       unfold vp, vh; field.
Qed.

Lemma el_char_matches : forall isv filt P ds i0 o2 k d e0 eta Pw e, k_param k = Cmout -> has_column isv Pw ->
  row_matches any isv filt ds (el_char_func P i0 o2 k d e0 eta Pw) (el_char_deriv isv P i0 o2 k d e0 eta Pw e) e.
Proof.
  intros isv filt P ds i0 o2 k d e0 eta t e HC HD. unfold el_char_deriv.
  rows ([QM (cm o2)] ++ pc t).
  - rewrite HC. rd e1 e2 H.
  - intros q v I. destruct t as [n|x]; [|destruct I]. destruct I as [I|[]]. injection I as <- <-.
    split; [exact HD|]. intros _; left. apply (linear_partial _ _ _ _ (- (vm e o2 * e0 / (eta * char_val P k d i0 o2 e)))).
    intros t. unfold el_char_func. cbn [pval]. rewrite upd_eq. unfold char_val, char_expr. rewrite HC. ups. ring.
Qed.

(* -------------------------------------------------------------- connections *)
Lemma with_x_upd e c f x : xs (upd e (QF (cf c) f) x) c = with_x f x (xs e c).
Proof.
  unfold xs, with_x. rewrite map_map. apply map_ext. intros g. cbn [fst]. unfold vx, upd. cbn [qty_eqb].
  rewrite Nat.eqb_refl. cbn [andb]. now destruct (String.eqb g f).
Qed.

Lemma T_matches : forall isv filt P ds c T e,
  row_matches any isv filt ds (T_func P c T) (T_deriv isv P c e) e.
Proof.
  intros isv filt P ds c T e. unfold T_deriv.
  intros; eapply (matches_intro _ _ _ _ _ _ _ ([QP (cid c); QH (cid c)] ++ xc c)).
  - reading.
  - intros q I _ V F. repeat (rewrite in_app_iff in I); cbn [In] in I.
    destruct I as [[<-|[<-|[]]]|I]; repeat (rewrite map_app || rewrite in_app_iff).
    + left. eapply cov_wri; eassumption.
    + right; left. eapply cov_wri; eassumption.
    + right; right. apply in_map_iff in I as (f & <- & I). rewrite map_map. cbn [fst].
      apply in_map_iff. exists f. split; auto. apply filter_In. auto.
  - repeat apply okw_app.
    + apply okw_wr; [auto|intros _ _; right].
      unfold quotient, T_func, dT_dp, cT; ups; cbn [step]; unfold step_ph, vp; field.
    + apply okw_wr; [auto|intros _ _; right].
      unfold quotient, T_func, dT_dh, cT; ups; cbn [step]; unfold step_ph, vh; field.
    + intros q v I. apply in_map_iff in I as (f & E & I). injection E as <- <-.
      apply filter_In in I as [I V]. split; [exact V|]. intros _; right.
      unfold quotient, T_func, dT_dx, cT. cbn [step]. rewrite !with_x_upd. ups. unfold vx. field.
Qed.

Lemma vol_matches : forall isv filt P ds c v e,
  row_matches no_fraction isv filt ds (vol_func P c v) (vol_deriv isv P c e) e.
Proof.
  intros isv filt P ds c v e. unfold vol_deriv.
  rows ([QM (cm c); QP (cid c); QH (cid c)] ++ xc c).
  - hand. unfold vol_func, cvol. ups. instantiate (1 := - v). unfold cvol. ring.
  - apply okw_wr; [auto|intros _ _; right].
    unfold quotient, vol_func, dv_dp, cvol; ups; cbn [step]; unfold step_ph, vp; field.
  - apply okw_wr; [auto|intros _ _; right].
    unfold quotient, vol_func, dv_dh, cvol; ups; cbn [step]; unfold step_ph, vh; field.
Qed.

Lemma Td_row : forall isv P c t e,
  isv (QP (cid c)) = true -> isv (QH (cid c)) = true ->
  run_writes empty_row (Td_deriv isv P c e) (QP (cid c))
    = Some (quotient_at (1 / 10) (fun e => cT P e c) e (QP (cid c))
            - quotient_at (1 / 100) (fun e => cTs P e c) e (QP (cid c))) /\
  run_writes empty_row (Td_deriv isv P c e) (QH (cid c)) = Some (quotient_at (1 / 10) (Td_func P c t) e (QH (cid c))) /\
  (forall q, no_fraction q -> isv q = true -> run_writes empty_row (Td_deriv isv P c e) q = None ->
     independent (Td_func P c t) e q).
Proof.
  intros isv P c t e V1 V2. unfold Td_deriv, wr. rewrite V1, V2. cbn [app run_writes fold_left].
  split; [|split].
  - unfold set_entry. cbn [fst snd qty_eqb]. rewrite Nat.eqb_refl.
    f_equal. unfold quotient_at, cT, cTs, dT_dp, dTs_dp. ups. unfold step_ph, vp. field.
  - unfold set_entry. cbn [fst snd qty_eqb]. rewrite Nat.eqb_refl.
    f_equal. unfold quotient_at, Td_func, cT, cTs, dT_dh. ups. unfold step_ph, vh. field.
  - intros q Kq V N. apply (reads_indep _ ([QP (cid c); QH (cid c)] ++ xc c)); [reading|].
    intros I. apply in_app_iff in I as [I|I]; [|eapply xc_no_fraction; eassumption].
    unfold set_entry in N. cbn [fst snd] in N.
    destruct I as [<-|[<-|[]]]; cbn [qty_eqb] in N; rewrite ?Nat.eqb_refl in N; discriminate.
Qed.
