From Coq Require Import Reals List String Bool Arith Lra.
From Verif Require Import Base ReportModel EqnModel JacModel EqnSpec EqnProofs JacSpec JacWitness JacProofs JacProofs2.
Import ListNotations.
Open Scope R_scope.

(** An unknown without entry the residual depends on. *)
Lemma missing (K : qty -> Prop) ds f ws e q t :
  run_writes empty_row ws q = None -> K q -> f (upd e q t) <> f e ->
  ~ row_matches K all_unknown nothing_skipped ds f ws e.
Proof.
  intros N Kq D [H _]. specialize (H q Kq eq_refl eq_refl). rewrite N in H. apply D, H.
Qed.

(** An entry that differs from the slope of a residual linear in the unknown. *)
Lemma wrong (K : qty -> Prop) ds f ws e q v a b :
  run_writes empty_row ws q = Some v -> K q -> (forall t, f (upd e q t) = a * t + b) -> v <> a ->
  step ds q <> 0 ->
  ~ row_matches K all_unknown nothing_skipped ds f ws e.
Proof.
  intros N Kq L D S0 [H _]. specialize (H q Kq eq_refl eq_refl). rewrite N in H. destruct H as [H|H].
  - apply D. eapply uniqueness_limite; [exact H|]. exact (linear_partial _ _ _ _ _ L).
  - apply D. rewrite H. unfold quotient. rewrite !L. field. exact S0.
Qed.

Lemma ttd_u_fractions : ~ row_matches any all_unknown nothing_skipped ds0
  (ttd_u_func wP wi wo2 (PVal 5)) (ttd_u_deriv all_unknown nothing_skipped wP wi wo2 (PVal 5) we) we.
Proof.
  apply (missing _ _ _ _ _ (QF 0 "a"%string) 1); [reflexivity|exact I|].
  unfold ttd_u_func, ttd_u_eq, cT, xs, vx, we. cbn. lra.
Qed.

Lemma zeta_fractions : ~ row_matches any all_unknown nothing_skipped ds0
  (zeta_func wP wi wo (PVal 5)) (zeta_deriv all_unknown nothing_skipped wP ds0 wi wo (PVal 5) we) we.
Proof.
  apply (missing _ _ _ _ _ (QF 0 "a"%string) 1); [reflexivity|exact I|].
  unfold zeta_func, zeta_eq, cvol, xs, vx, vm, vp, we. cbn.
  unfold ReportModel.ltb, m_min. destruct (Rlt_dec _ _) as [A|A].
  - rewrite Rabs_R1 in A. exfalso. lra.
  - rewrite Rabs_R1. pose proof PI_RGT_0 as P0.
    assert (Q0 : PI * (PI * 1) > 0) by (apply Rmult_lt_0_compat; lra).
    intros E. set (z := PI * (PI * 1)) in *.
    match type of E with ?a = ?b => assert (E2 : a - b = z * (1/14 - 1/12) * (-1) ) by (field) end. lra.
Qed.

Lemma pump_fractions : ~ row_matches any all_unknown nothing_skipped ds0
  (pump_func wP wi wo (PVal (1 / 2))) (pump_deriv all_unknown nothing_skipped wP wi wo (PVal (1 / 2)) we) we.
Proof.
  apply (missing _ _ _ _ _ (QF 0 "a"%string) 1); [reflexivity|exact I|].
  unfold pump_func, pump_eta_eq, cis, xs, vx, vh, vp, we. cbn. lra.
Qed.

Lemma vol_fractions : ~ row_matches any all_unknown nothing_skipped ds0
  (vol_func wP wi 2) (vol_deriv all_unknown wP wi we) we.
Proof.
  apply (missing _ _ _ _ _ (QF 0 "a"%string) 1); [reflexivity|exact I|].
  unfold vol_func, cvol, xs, vx, vm, vp, vh, we. cbn. lra.
Qed.

Lemma ttd_u_variable : ~ row_matches no_fraction all_unknown nothing_skipped ds0
  (ttd_u_func wP wi wo2 (PVar 0)) (ttd_u_deriv all_unknown nothing_skipped wP wi wo2 (PVar 0) we) we.
Proof.
  apply (missing _ _ _ _ _ (QC 0) 7); [reflexivity|exact I|].
  unfold ttd_u_func, ttd_u_eq, cT, xs, vx, we. cbn. lra.
Qed.

Lemma kA_variable : ~ row_matches no_fraction all_unknown nothing_skipped ds0
  (kA_func wP wi wi2 wo wo2 (PVar 0)) (kA_deriv all_unknown wP wi wi2 wo wo2 (PVar 0) we2) we2.
Proof.
  apply (missing _ _ _ _ _ (QC 0) 7); [reflexivity|exact I|].
  assert (T : forall e, vp e wi = 11 -> vp e wo = 11 -> vp e wi2 = 1 -> vp e wo2 = 1 ->
    (forall c, In c [wi; wo; wi2; wo2] -> xs e c = [("a"%string, 1 / 2)]) ->
    tot (hx_td_log (cT wP e wi) (cT wP e wi2) (cT wP e wo) (cT wP e wo2)) = 10).
  { intros e A B C D X. unfold cT. rewrite A, B, C, D, !X by (cbn; auto). cbn [pT wP first_x].
    assert (F : forall a b, a > b -> ReportModel.leb a b = false)
      by (intros a b G; unfold ReportModel.leb; destruct (Rle_dec a b); [exfalso; lra|reflexivity]).
    unfold hx_td_log. cbv zeta.
    repeat (rewrite (F (300 + 11 + 1 / 2) (300 + 1 + 1 / 2)) by lra; cbv iota).
    unfold td_log_of, ReportModel.eqb. destruct (Req_EM_T _ _) as [E|E]; [|exfalso; apply E; lra]. cbn. lra. }
  unfold kA_func. rewrite !T.
  - unfold vm, vh, we2. cbn. lra.
  - reflexivity. - reflexivity. - reflexivity. - reflexivity.
  - intros c H. repeat (destruct H as [<-|H]; [reflexivity|]). destruct H.
  - reflexivity. - reflexivity. - reflexivity. - reflexivity.
  - intros c H. repeat (destruct H as [<-|H]; [reflexivity|]). destruct H.
Qed.

Lemma UA_variable : forall g, ~ row_matches no_fraction all_unknown nothing_skipped ds0
  (mb_func g [wi; wi2; wo; wo2] (PVar 0)) (UA_deriv all_unknown g [wi; wi2; wo; wo2] (PVar 0) we) we.
Proof.
  intros g. apply (missing _ _ _ _ _ (QC 0) 7); [reflexivity|exact I|].
  unfold mb_func. change (7 - g (map (pstate we) [wi; wi2; wo; wo2]) <> 1 - g (map (pstate we) [wi; wi2; wo; wo2])). lra.
Qed.

Lemma lambda_variable : forall M nH nC fuels, ~ row_matches no_fraction all_unknown nothing_skipped ds0
  (lambda_func M nH nC fuels "O2" [wi; wi2] (PVar 0))
  (lambda_deriv all_unknown nothing_skipped M nH nC fuels "O2" [wi; wi2] (PVar 0) we) we.
Proof.
  intros M nH nC fs. apply (missing _ _ _ _ _ (QC 0) 7); [reflexivity|exact I|].
  unfold lambda_func. cbn [pval]. rewrite upd_eq.
  match goal with |- ?a - _ <> ?b - _ => assert (E : a = b) by reflexivity end.
  rewrite E. unfold we. lra.
Qed.

Lemma eta_variable : ~ row_matches no_fraction all_unknown nothing_skipped ds0
  (comb_energy wP (fun _ => 100) ["a"%string] [wi; wi2] [Conn 5 5 5 []] (PVar 0))
  (comb_energy_deriv all_unknown nothing_skipped wP (fun _ => 100) ["a"%string] [wi; wi2] (Conn 5 5 5 []) (PVar 0) we) we.
Proof.
  apply (missing _ _ _ _ _ (QC 0) 7); [reflexivity|exact I|].
  unfold comb_energy, ti, acc_add, acc_sub, xs, vx, vm, vh, we. cbn. lra.
Qed.

Lemma wet_variable : forall ds w i o v alpha e t, 
  w (vp e i) (vh e i) (xs e i) (vp e o) (vh e o) (xs e o) t alpha
    <> w (vp e i) (vh e i) (xs e i) (vp e o) (vh e o) (xs e o) (e (QC v)) alpha ->
  ~ row_matches no_fraction all_unknown nothing_skipped ds (wet_func w i o (PVar v) (PVal alpha))
      (wet_deriv all_unknown nothing_skipped w i o (PVar v) (PVal alpha) e) e.
Proof.
  intros ds w i o v al e t D. apply (missing _ _ _ _ _ (QC v) t); [reflexivity|exact I|].
  unfold wet_func. cbn [pval]. rewrite upd_eq. exact D.
Qed.

Lemma valve_pr_wrong : ~ row_matches no_fraction all_unknown nothing_skipped ds0
  (valve_func wP wi wo {| k_param := Cpr; k_rel := false; k_fun := fun x => x |} (Build_cdes 1 1 1 1 1))
  (valve_deriv all_unknown nothing_skipped wP wi wo {| k_param := Cpr; k_rel := false; k_fun := fun x => x |} (Build_cdes 1 1 1 1 1) we) we.
Proof.
  apply (wrong _ _ _ _ _ (QP 1) (-1) (-3/2) 2); [reflexivity|exact I| |lra|cbn; lra].
  intros t. unfold valve_func, char_val, char_expr, vp, we. cbn. field.
Qed.

Lemma el_char_wrong : ~ row_matches any all_unknown nothing_skipped ds0
  (el_char_func wP wi wo2 {| k_param := Cm; k_rel := false; k_fun := fun x => x |} (Build_cdes 1 1 1 1 1) 100 (1/2) (PVal 5))
  (el_char_deriv all_unknown wP wi wo2 {| k_param := Cm; k_rel := false; k_fun := fun x => x |} (Build_cdes 1 1 1 1 1) 100 (1/2) (PVal 5) we) we.
Proof.
  apply (missing _ _ _ _ _ (QM 0) 2); [reflexivity|exact I|].
  unfold el_char_func, char_val, char_expr, vm, we. cbn. lra.
Qed.

Lemma engine_fuel_wrong : ~ row_matches any all_unknown nothing_skipped ds0
  (engine_energy wP (fun _ => 100) ["a"%string] (Conn 10 10 10 []) (Conn 11 11 11 []) (Conn 12 10 10 []) (Conn 13 11 11 [])
     [wi; wi2] (Conn 5 5 5 ["b"%string]) (PVal (-1)) (PVal (-1)))
  (engine_energy_deriv all_unknown nothing_skipped wP (fun _ => 100) ["a"%string] (Conn 10 10 10 []) (Conn 11 11 11 []) (Conn 12 10 10 []) (Conn 13 11 11 [])
     [wi; wi2] (Conn 5 5 5 ["b"%string]) (PVal (-1)) (PVal (-1)) we) we.
Proof.
  eapply (wrong _ _ _ _ _ (QF 0 "a"%string) _ 90); [reflexivity|exact I| | |cbn; lra].
  - intros t. unfold engine_energy, comb_energy, ti, acc_add, acc_sub, xs, vx, vm, vh, we. cbn.
    instantiate (1 := 1). field.
  - unfold vm, we. cbn. lra.
Qed.
