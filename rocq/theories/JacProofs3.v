From Coq Require Import Reals List String Bool Arith Lra.
From Verif Require Import Base ReportModel EqnModel JacModel EqnSpec EqnProofs JacSpec JacProofs JacProofs2.
Import ListNotations.
Open Scope R_scope.

(* ---------------------------------------------------------------- combustion *)
Lemma fold_ext_in {A} (f g : R -> A -> R) l : (forall a x, In x l -> f a x = g a x) ->
  forall a, fold_left f l a = fold_left g l a.
Proof.
  induction l as [|x l IH]; intros H a; cbn; auto.
  rewrite (H a x) by now left. apply IH. intros; apply H; now right.
Qed.

Lemma acc_add_ext (f g : conn -> R) l : (forall x, In x l -> f x = g x) -> forall a, acc_add f l a = acc_add g l a.
Proof. intros H. unfold acc_add. apply fold_ext_in. intros. now rewrite H. Qed.
Lemma acc_sub_ext (f g : conn -> R) l : (forall x, In x l -> f x = g x) -> forall a, acc_sub f l a = acc_sub g l a.
Proof. intros H. unfold acc_sub. apply fold_ext_in. intros. now rewrite H. Qed.

(** mass flow and listed fractions of the ports *)
Definition mxc (fs : list string) (l : list conn) : list qty :=
  flat_map (fun c => QM (cm c) :: map (QF (cf c)) fs) l.
Lemma mxc_m fs l c : In c l -> In (QM (cm c)) (mxc fs l).
Proof. intros H. apply (in_ports _ c); auto. now left. Qed.
Lemma mxc_x fs l c f : In c l -> In f fs -> In (QF (cf c) f) (mxc fs l).
Proof. intros H I. apply (in_ports _ c); auto. right. now apply in_map. Qed.

Lemma ti_agree e1 e2 lhv fs inl outl : (forall q, In q (mxc fs (inl ++ outl)) -> e1 q = e2 q) ->
  ti lhv fs inl outl e1 = ti lhv fs inl outl e2.
Proof.
  intros H. unfold ti. apply fold_ext_in. intros a f If. f_equal. f_equal.
  rewrite (acc_add_ext (fun i => vm e1 i * vx e1 i f) (fun i => vm e2 i * vx e2 i f)).
  - apply acc_sub_ext. intros o Io. unfold vm, vx.
    rewrite (H (QM (cm o))), (H (QF (cf o) f)); auto; [apply mxc_x|apply mxc_m]; auto; apply in_or_app; auto.
  - intros o Io. unfold vm, vx.
    rewrite (H (QM (cm o))), (H (QF (cf o) f)); auto; [apply mxc_x|apply mxc_m]; auto; apply in_or_app; auto.
Qed.

Lemma cov_mxc isv filt f e fs gs l q : isv q = true -> filt q = false ->
  incl fs gs -> In q (mxc fs l) -> In q (map fst (flat_map (fun c => nm isv filt f e c ++ nx isv f e c gs) l)).
Proof.
  intros V F G I. apply in_flat_map in I as (c & Hc & I). rewrite map_flat_map.
  apply (in_ports _ c); auto. rewrite map_app. apply in_or_app.
  destruct I as [<-|I]; [left; now apply cov_nm|right].
  apply in_map_iff in I as (x & <- & I). eapply cov_nx; eauto.
Qed.

Lemma okw_ti (K : qty -> Prop) isv filt ds f e fs l : inner_of fs e l ->
  okw K isv filt ds f e (flat_map (fun c => nm isv filt f e c ++ nx isv f e c fs) l).
Proof.
  intros H. apply okw_flat. intros c Hc. apply okw_app; [apply okw_nm|apply okw_nx].
  intros x I. now apply H.
Qed.

Lemma stoich_matches : forall isv filt ds s l fl e, inner_fractions e l ->
  row_matches any isv filt ds (stoich_func s l fl) (stoich_deriv isv filt s l fl e) e.
Proof.
  intros isv filt ds s l fl e H. unfold stoich_deriv.
  eapply (matches_intro _ _ _ _ _ _ _ (flat_map (fun c => QM (cm c) :: xc c) l)).
  - intros e1 e2 A. unfold stoich_func. f_equal. apply map_ext_in. intros c Hc. unfold mx, vm.
    rewrite (A (QM (cm c))), (xs_agree e1 e2 c); auto.
    + intros q Hq. apply A, (in_ports _ c); auto. now right.
    + apply (in_ports _ c); auto. now left.
  - intros q I _ V F. apply in_flat_map in I as (c & Hc & I). rewrite map_flat_map.
    apply (in_ports _ c); auto. rewrite map_app. apply in_or_app.
    destruct I as [<-|I]; [left; now apply cov_nm|right].
    apply in_map_iff in I as (x & <- & I). eapply cov_nx; eauto.
  - apply okw_flat. intros c Hc. apply okw_app; [apply okw_nm|apply okw_nx]. intros x I. now apply H.
Qed.

Lemma lambda_matches : forall isv filt ds M nH nC fuels o2 inl lamb e, fixed lamb ->
  inner_fractions e inl -> (forall c, In c inl -> incl (o2 :: fuels) (ckeys c)) ->
  row_matches any isv filt ds (lambda_func M nH nC fuels o2 inl lamb)
    (lambda_deriv isv filt M nH nC fuels o2 inl lamb e) e.
Proof.
  intros isv filt ds M nH nC fs o2 l t e HC H G. destruct t as [|t]; [destruct HC|]. unfold lambda_deriv.
  eapply (matches_intro _ _ _ _ _ _ _ (mxc (o2 :: fs) l)).
  - intros e1 e2 A. unfold lambda_func. cbn [pval].
    assert (P : forall f c, In f (o2 :: fs) -> In c l -> vm e1 c * vx e1 c f = vm e2 c * vx e2 c f).
    { intros f c If Ic. unfold vm, vx.
      rewrite (A (QM (cm c))), (A (QF (cf c) f)); auto; [now apply mxc_x|now apply mxc_m]. }
    assert (S : forall g : string -> R,
      fold_left (fun s f => acc_add (fun i => vm e1 i * vx e1 i f / M f * g f) l s) fs 0
      = fold_left (fun s f => acc_add (fun i => vm e2 i * vx e2 i f / M f * g f) l s) fs 0).
    { intros g. apply fold_ext_in. intros a f If. apply acc_add_ext. intros c Ic. rewrite P; auto. now right. }
    rewrite !S. f_equal. f_equal. apply acc_add_ext. intros c Ic. rewrite P; auto. now left.
  - intros q I _ V F. apply in_flat_map in I as (c & Hc & I). rewrite map_flat_map.
    apply (in_ports _ c); auto. rewrite map_app. apply in_or_app.
    destruct I as [<-|I]; [left; now apply cov_nm|right].
    apply in_map_iff in I as (x & <- & I). eapply cov_nx; eauto. now apply (G c).
  - apply okw_flat. intros c Hc. apply okw_app; [apply okw_nm|apply okw_nx]. intros x I. now apply H.
Qed.

Lemma load_agree e1 e2 Pd Pw : (forall q, In q (pc Pw) -> e1 q = e2 q) -> load Pd Pw e1 = load Pd Pw e2.
Proof. intros H. unfold load. destruct Pd; auto. now rewrite (pval_agree e1 e2). Qed.

Lemma tiP_matches : forall isv filt ds lhv fuels inl o Pd gP Pw e, has_column isv Pw ->
  inner_of fuels e (inl ++ [o]) ->
  row_matches any isv filt ds (tiP_func lhv fuels inl o Pd gP Pw)
    (tiP_deriv isv filt ds lhv fuels inl o Pd gP Pw e) e.
Proof.
  intros isv filt ds lhv fs l o Pd gP Pw e HC H. unfold tiP_deriv, ti_columns.
  eapply (matches_intro _ _ _ _ _ _ _ (mxc fs (l ++ [o]) ++ pc Pw)).
  - intros e1 e2 A. unfold tiP_func.
    rewrite (ti_agree e1 e2), (load_agree e1 e2), (pval_agree e1 e2); auto; intros; apply A; inc.
  - intros q I _ V F. rewrite map_app, in_app_iff. apply in_app_iff in I as [I|I].
    + left. eapply cov_mxc; eauto. apply incl_refl.
    + right. now apply cov_nc.
  - apply okw_app; [now apply okw_ti|now apply okw_nc].
Qed.

Lemma Qchar_matches : forall isv filt ds lhv fuels iw ow inl o Pd gQ gP Pw e, has_column isv Pw ->
  inner_of fuels e (inl ++ [o]) ->
  row_matches any isv filt ds (Qchar_func lhv fuels iw ow inl o Pd gQ gP Pw)
    (Qchar_deriv isv filt ds lhv fuels iw ow inl o Pd gQ gP Pw e) e.
Proof.
  intros isv filt ds lhv fs iw ow l o Pd gQ gP Pw e HC H. unfold Qchar_deriv, ti_columns.
  eapply (matches_intro _ _ _ _ _ _ _ ([QM (cm iw); QH (cid iw); QH (cid ow)] ++ mxc fs (l ++ [o]) ++ pc Pw)).
  - intros e1 e2 A. unfold Qchar_func.
    rewrite (ti_agree e1 e2), (load_agree e1 e2) by (intros; apply A; inc). rd e1 e2 A.
  - intros q I _ V F. rewrite !in_app_iff in I. repeat (rewrite map_app || rewrite in_app_iff).
    destruct I as [I|[I|I]].
    + destruct I as [<-|[<-|[<-|[]]]]; covs.
    + do 3 right. left. eapply cov_mxc; eauto. apply incl_refl.
    + do 4 right. now apply cov_nc.
  - okws. now apply okw_ti.
Qed.

Lemma Qloss_matches : forall isv filt ds lhv fuels inl o Pd gQ gP Pw Ql e, has_column isv Pw -> has_column isv Ql ->
  inner_of fuels e (inl ++ [o]) ->
  row_matches any isv filt ds (Qloss_func lhv fuels inl o Pd gQ gP Pw Ql)
    (Qloss_deriv isv filt ds lhv fuels inl o Pd gQ gP Pw Ql e) e.
Proof.
  intros isv filt ds lhv fs l o Pd gQ gP Pw Ql e HC HD H. unfold Qloss_deriv, ti_columns.
  eapply (matches_intro _ _ _ _ _ _ _ (mxc fs (l ++ [o]) ++ pc Pw ++ pc Ql)).
  - intros e1 e2 A. unfold Qloss_func.
    rewrite (ti_agree e1 e2), (load_agree e1 e2), (pval_agree e1 e2); auto; intros; apply A; inc.
  - intros q I _ V F. rewrite !in_app_iff in I. repeat (rewrite map_app || rewrite in_app_iff).
    destruct I as [I|[I|I]].
    + left. eapply cov_mxc; eauto. apply incl_refl.
    + right; left. now apply cov_nc.
    + right; right. now apply cov_nc.
  - okws. now apply okw_ti.
Qed.

Lemma engine_Q_matches : forall isv filt ds i o Q e, fixed Q -> cid i <> cid o ->
  row_matches any isv filt ds (engine_Q_func i o Q) (engine_Q_deriv isv filt i o e) e.
Proof.
  intros isv filt ds i o t e HC N. destruct t as [|t]; [destruct HC|]. unfold engine_Q_deriv.
  rows ([QM (cm i); QH (cid i); QH (cid o)]).
  all: hand; unfold engine_Q_func; ups; cbn [pval].
  - instantiate (1 := t). ring.
  - instantiate (1 := t + vm e i * vh e o). ring.
  - instantiate (1 := t - vm e i * vh e i). ring.
Qed.

(** The conversion of fuel does not depend on pressures and enthalpies. *)
Lemma ti_h e lhv fs inl outl n t : ti lhv fs inl outl (upd e (QH n) t) = ti lhv fs inl outl e.
Proof.
  apply ti_agree. intros q I. apply upd_neq. intros ->. apply in_flat_map in I as (c & _ & I).
  destruct I as [I|I]; [discriminate|]. apply in_map_iff in I as (x & I & _). discriminate.
Qed.

Lemma comb_reads P lhv fs i1 i2 o eta : reads (comb_energy P lhv fs [i1; i2] [o] eta)
  ([QM (cm i1); QM (cm i2); QM (cm o); QH (cid i1); QH (cid i2); QH (cid o)] ++ xc i1 ++ xc i2 ++ xc o ++ pc eta
   ++ mxc fs ([i1; i2] ++ [o])).
Proof.
  intros e1 e2 A. unfold comb_energy, acc_add, acc_sub. cbn [fold_left].
  rewrite (ti_agree e1 e2) by (intros; apply A; inc). rd e1 e2 A.
Qed.

Lemma mxc_no_fraction fs l q : In q (mxc fs l) -> no_fraction q -> exists c, In c l /\ q = QM (cm c).
Proof.
  intros I N. apply in_flat_map in I as (c & Hc & [<-|I]); [eauto|].
  apply in_map_iff in I as (x & <- & _). destruct N.
Qed.

Lemma comb_matches : forall isv filt P ds lhv fuels i1 i2 o eta e, fixed eta ->
  cid i1 <> cid i2 -> cid i1 <> cid o -> cid i2 <> cid o ->
  row_matches no_fraction isv filt ds (comb_energy P lhv fuels [i1; i2] [o] eta)
    (comb_energy_deriv isv filt P lhv fuels [i1; i2] o eta e) e.
Proof.
  intros isv filt P ds lhv fs i1 i2 o t e HC N1 N2 N3. destruct t as [|t]; [destruct HC|].
  unfold comb_energy_deriv. cbn [flat_map]. rewrite app_nil_r. rewrite <- ?app_assoc.
  eapply matches_intro; [apply comb_reads| |].
  - intros q I Kq V F. rewrite !in_app_iff in I.
    destruct I as [I|[I|[I|[I|[I|I]]]]];
      try (exfalso; (eapply xc_no_fraction; eassumption) || destruct I; fail).
    + cbn [In] in I. repeat match type of I with _ \/ _ => destruct I as [I|I] end; try contradiction; subst q; covs.
    + apply mxc_no_fraction in I as (c & Hc & ->); auto.
      cbn in Hc. destruct Hc as [<-|[<-|[<-|[]]]]; covs.
  - okws.
    + hand. unfold comb_energy, acc_add, acc_sub. cbn [fold_left]. rewrite ti_h. ups. cbn [pval].
      instantiate (1 := - vm e i1 * pref P i1 (xs e i1) + vm e i2 * (vh e i2 - pref P i2 (xs e i2))
        - vm e o * (vh e o - pref P o (xs e o)) + ti lhv fs [i1; i2] [o] e * t). ring.
    + hand. unfold comb_energy, acc_add, acc_sub. cbn [fold_left]. rewrite ti_h. ups. cbn [pval].
      instantiate (1 := - vm e i2 * pref P i2 (xs e i2) + vm e i1 * (vh e i1 - pref P i1 (xs e i1))
        - vm e o * (vh e o - pref P o (xs e o)) + ti lhv fs [i1; i2] [o] e * t). ring.
    + hand. unfold comb_energy, acc_add, acc_sub. cbn [fold_left]. rewrite ti_h. ups. cbn [pval].
      instantiate (1 := vm e i2 * (vh e i2 - pref P i2 (xs e i2)) + vm e i1 * (vh e i1 - pref P i1 (xs e i1))
        + vm e o * pref P o (xs e o) + ti lhv fs [i1; i2] [o] e * t). ring.
Qed.

(* -------------------------------------------------------------------- engine *)
Lemma linear0 f e q a : (forall t, f (upd e q t) = a * t + f (upd e q 0)) -> partial_is f e q a.
Proof. intros H. exact (linear_partial _ _ _ _ _ H). Qed.
Lemma pval_other e n t p : p <> PVar n -> pval (upd e (QC n) t) p = pval e p.
Proof. intros H. destruct p; cbn; auto. apply upd_neq. congruence. Qed.
Ltac hand0 := apply okw_wr; [intros; eauto using isv_variable | intros _ _; left; apply linear0; intros].

Lemma ti_m e lhv fs inl outl n t : (forall c, In c (inl ++ outl) -> cm c <> n) ->
  ti lhv fs inl outl (upd e (QM n) t) = ti lhv fs inl outl e.
Proof.
  intros H. apply ti_agree. intros q I. apply upd_neq. intros ->. apply in_flat_map in I as (c & Hc & I).
  destruct I as [I|I]; [injection I as I; now apply (H c)|]. apply in_map_iff in I as (x & I & _). discriminate.
Qed.
Lemma ti_c e lhv fs inl outl n t : ti lhv fs inl outl (upd e (QC n) t) = ti lhv fs inl outl e.
Proof.
  apply ti_agree. intros q I. apply upd_neq. intros ->. apply in_flat_map in I as (c & Hc & I).
  destruct I as [I|I]; [discriminate|]. apply in_map_iff in I as (x & I & _). discriminate.
Qed.

Lemma fuel_writes_none isv ds filt f e fs c g : okw no_fraction isv filt ds f e (fuel_writes isv fs c g).
Proof.
  intros q v I. apply in_map_iff in I as (x & E & I). injection E as <- <-. apply filter_In in I as [_ V].
  split; auto. intros [].
Qed.

Lemma engine_matches : forall isv filt P ds lhv fuels i1 i2 o1 o2 i3 i4 o Pw Ql e,
  has_column isv Pw -> has_column isv Ql -> (forall v, Pw = PVar v -> Ql <> PVar v) ->
  cm o1 = cm i1 -> cm o2 = cm i2 -> NoDup [cm i1; cm i2; cm i3; cm i4; cm o] ->
  NoDup [cid i1; cid i2; cid i3; cid i4; cid o1; cid o2; cid o] ->
  row_matches no_fraction isv filt ds (engine_energy P lhv fuels i1 i2 o1 o2 [i3; i4] o Pw Ql)
    (engine_energy_deriv isv filt P lhv fuels i1 i2 o1 o2 [i3; i4] o Pw Ql e) e.
Proof.
  intros isv filt P ds lhv fs i1 i2 o1 o2 i3 i4 o Pw Ql e H1 H2 D E1 E2 N M.
  unfold engine_energy_deriv. cbn [flat_map app]. rewrite ?app_nil_r. rewrite <- ?app_assoc.
  eapply (matches_intro _ _ _ _ _ _ _
    (([QM (cm i1); QM (cm i2); QM (cm i3); QM (cm i4); QM (cm o); QH (cid i1); QH (cid i2); QH (cid i3); QH (cid i4);
       QH (cid o1); QH (cid o2); QH (cid o)] ++ xc i3 ++ xc i4 ++ xc o ++ pc Pw ++ pc Ql) ++ mxc fs ([i3; i4] ++ [o]))).
  - intros e1 e2 A. unfold engine_energy. rewrite (comb_reads P lhv fs i3 i4 o (PVal 1) e1 e2).
    + rd e1 e2 A.
    + intros q I. apply A. revert I. rewrite !in_app_iff. cbn [In pc]. tauto.
  - intros q I Kq V F. rewrite !in_app_iff in I.
    destruct I as [[I|[I|[I|[I|[I|I]]]]]|I];
      try (exfalso; (eapply xc_no_fraction; eassumption); fail).
    + cbn [In] in I. repeat match type of I with _ \/ _ => destruct I as [I|I] end; try contradiction; subst q; covs.
    + repeat (rewrite map_app || rewrite in_app_iff). do 18 right. left. now apply cov_wrp.
    + repeat (rewrite map_app || rewrite in_app_iff). do 19 right. now apply cov_wrp.
    + apply mxc_no_fraction in I as (c & Hc & ->); auto.
      cbn in Hc. destruct Hc as [<-|[<-|[<-|[]]]]; covs.
  - repeat match goal with H : NoDup _ |- _ => apply NoDup_cons_iff in H; destruct H as [? H]; cbn [In] in * end.
    clear N M.
    repeat match goal with H : ~ (_ \/ _) |- _ => apply Decidable.not_or in H; destruct H end.
    assert (O1 : vm e o1 = vm e i1) by (unfold vm; now rewrite E1).
    assert (O2 : vm e o2 = vm e i2) by (unfold vm; now rewrite E2).
    okws; try apply fuel_writes_none.
    1-2: hand0; unfold engine_energy, comb_energy, acc_add, acc_sub; cbn [fold_left];
      rewrite !ti_m by (cbn; intros c [<-|[<-|[<-|[]]]]; congruence); ups; ring.
    1-7: hand0; unfold engine_energy, comb_energy, acc_add, acc_sub; cbn [fold_left];
      rewrite !ti_h; ups; rewrite ?O1, ?O2; ring.
    + intros q v I. destruct Pw as [n|x]; [|destruct I]. destruct I as [I|[]]. injection I as <- <-.
      split; [exact H1|]. intros _; left. eapply linear0; intros t.
      unfold engine_energy, comb_energy, acc_add, acc_sub; cbn [fold_left]. rewrite !ti_c. ups.
      cbn [pval]. rewrite !upd_eq. specialize (D n eq_refl).
      rewrite !(pval_other _ n _ Ql) by congruence. ring.
    + intros q v I. destruct Ql as [n|x]; [|destruct I]. destruct I as [I|[]]. injection I as <- <-.
      split; [exact H2|]. intros _; left. eapply linear0; intros t.
      unfold engine_energy, comb_energy, acc_add, acc_sub; cbn [fold_left]. rewrite !ti_c. ups.
      cbn [pval]. rewrite !upd_eq. assert (Pw <> PVar n) by (intros ->; now apply (D n)).
      rewrite !(pval_other _ n _ Pw) by congruence. ring.
Qed.
