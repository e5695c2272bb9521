From Coq Require Import Reals List String Bool Arith Lra.
From Verif Require Import Base ReportModel SolarModel ConeModel EqnModel JacModel EqnSpec EqnProofs JacSpec.
Import ListNotations.
Open Scope R_scope.

(* ------------------------------------------------------------- generic part *)
Definition reads (f : env -> R) (cells : list qty) : Prop :=
  forall e1 e2, (forall q, In q cells -> e1 q = e2 q) -> f e1 = f e2.

Lemma reads_indep f cells e q : reads f cells -> ~ In q cells -> independent f e q.
Proof.
  intros H N t. apply H. intros k Hk. unfold upd.
  destruct (qty_eqb k q) eqn:E; [|reflexivity]. apply qty_eqb_eq in E. subst. contradiction.
Qed.

Lemma run_writes_in ws : forall r q v, run_writes r ws q = Some v -> In (q, v) ws \/ r q = Some v.
Proof.
  induction ws as [|[a b] ws IH]; intros r q v H; cbn [run_writes fold_left] in H.
  - now right.
  - change (run_writes (set_entry r (a, b)) ws q = Some v) in H.
    destruct (IH _ _ _ H) as [A|A]; [left; now right|].
    unfold set_entry in A. cbn [fst snd] in A. destruct (qty_eqb q a) eqn:E.
    + injection A as A. apply qty_eqb_eq in E. subst. left; now left.
    + now right.
Qed.

Lemma run_writes_some ws : forall r q, In q (map fst ws) \/ r q <> None -> run_writes r ws q <> None.
Proof.
  induction ws as [|[a b] ws IH]; intros r q H; cbn [run_writes fold_left].
  - destruct H as [[]|H]; auto.
  - change (run_writes (set_entry r (a, b)) ws q <> None). apply IH.
    unfold set_entry. cbn [fst snd]. destruct (qty_eqb q a) eqn:E.
    + right; discriminate.
    + destruct H as [[H|H]|H]; [|now left|now right].
      cbn [fst] in H. subst. rewrite qty_eqb_refl in E. discriminate.
Qed.

Definition okw (K : qty -> Prop) (isv filt : qty -> bool) (ds : nat -> R) (f : env -> R) (e : env) (ws : list write) : Prop :=
  forall q v, In (q, v) ws -> isv q = true /\ (K q -> approximates ds f e q v).

Lemma matches_intro (K : qty -> Prop) isv filt ds f ws e cells :
  reads f cells ->
  (forall q, In q cells -> K q -> isv q = true -> filt q = false -> In q (map fst ws)) ->
  okw K isv filt ds f e ws -> row_matches K isv filt ds f ws e.
Proof.
  intros Rd Cv Ok. split.
  - intros q Kq Hq Fq. destruct (run_writes empty_row ws q) as [v|] eqn:E.
    + destruct (run_writes_in _ _ _ _ E) as [A|A]; [|discriminate].
      now apply (Ok q v A).
    + apply (reads_indep f cells); auto. intros I.
      apply (run_writes_some ws empty_row q); auto.
  - intros q v E. destruct (run_writes_in _ _ _ _ E) as [A|A]; [|discriminate].
    now apply (Ok q v A).
Qed.

Lemma okw_app (K : qty -> Prop) isv filt ds f e a b : okw K isv filt ds f e a -> okw K isv filt ds f e b ->
  okw K isv filt ds f e (a ++ b).
Proof. intros A B q v H. apply in_app_iff in H as [H|H]; auto. Qed.

Lemma okw_nil (K : qty -> Prop) isv filt ds f e : okw K isv filt ds f e [].
Proof. intros q v []. Qed.

Lemma okw_flat (K : qty -> Prop) isv filt ds f e {A} (g : A -> list write) l :
  (forall c, In c l -> okw K isv filt ds f e (g c)) -> okw K isv filt ds f e (flat_map g l).
Proof. intros H q v I. apply in_flat_map in I as (c & Ic & I). now apply (H c Ic). Qed.

Lemma okw_wr (K : qty -> Prop) isv filt ds f e b q v : (b = true -> isv q = true) ->
  (b = true -> K q -> approximates ds f e q v) -> okw K isv filt ds f e (wr b q v).
Proof.
  intros A B q' v' H. unfold wr in H. destruct b; [|destruct H].
  destruct H as [H|[]]. injection H as <- <-. auto.
Qed.

Lemma isv_variable isv o q : is_variable isv o q = true -> isv q = true.
Proof. unfold is_variable. intros H. now apply andb_true_iff in H. Qed.

Lemma variable_isv isv filt q : isv q = true -> filt q = false -> is_variable isv (Some filt) q = true.
Proof. unfold is_variable. now intros -> ->. Qed.

Lemma variable_isv0 isv q : isv q = true -> is_variable isv None q = true.
Proof. unfold is_variable. now intros ->. Qed.

Lemma num_quotient ds f e q d : step ds q = d -> num d f e q = quotient ds f e q.
Proof. intros <-. reflexivity. Qed.

Section G.
Variables (K : qty -> Prop) (isv filt : qty -> bool) (ds : nat -> R) (f : env -> R) (e : env).
Lemma okw_nm c : okw K isv filt ds f e (nm isv filt f e c).
Proof. apply okw_wr; intros H; [now apply isv_variable in H|]. intros _; right. now apply num_quotient. Qed.
Lemma okw_np c : okw K isv filt ds f e (np isv filt f e c).
Proof. apply okw_wr; intros H; [now apply isv_variable in H|]. intros _; right. now apply num_quotient. Qed.
Lemma okw_nh c : okw K isv filt ds f e (nh isv filt f e c).
Proof. apply okw_wr; intros H; [now apply isv_variable in H|]. intros _; right. now apply num_quotient. Qed.
Lemma okw_nm0 c : okw K isv filt ds f e (nm0 isv f e c).
Proof. apply okw_wr; intros H; [now apply isv_variable in H|]. intros _; right. now apply num_quotient. Qed.
Lemma okw_np0 c : okw K isv filt ds f e (np0 isv f e c).
Proof. apply okw_wr; intros H; [now apply isv_variable in H|]. intros _; right. now apply num_quotient. Qed.
Lemma okw_nh0 c : okw K isv filt ds f e (nh0 isv f e c).
Proof. apply okw_wr; intros H; [now apply isv_variable in H|]. intros _; right. now apply num_quotient. Qed.
Lemma okw_nc p : has_column isv p -> okw K isv filt ds f e (nc ds f e p).
Proof.
  intros H q v I. destruct p as [n|x]; [|destruct I]. destruct I as [I|[]]. injection I as <- <-.
  split; [exact H|]. intros _; right. now apply num_quotient.
Qed.
Lemma okw_nx c l : (forall x, In x l -> 1 / 100000 <= vx e c x <= 1 - 1 / 100000) ->
  okw K isv filt ds f e (nx isv f e c l).
Proof.
  intros H q v I. unfold nx in I. apply in_map_iff in I as (x & E & I). injection E as <- <-.
  apply filter_In in I as [I V]. split; [exact V|]. intros _; right.
  specialize (H x I). unfold vx in H. unfold num_x, quotient, ReportModel.leb. cbn [step].
  set (w := e (QF (cf c) x)) in *.
  destruct (Rle_dec (w + 1 / 100000) 1) as [A|A]; [|lra].
  destruct (Rle_dec 0 (w + 1 / 100000 - 2 * (1 / 100000))) as [B|B]; [|lra].
  replace (w + 1 / 100000 - 2 * (1 / 100000)) with (w - 1 / 100000) by lra. reflexivity.
Qed.

Section Cov.
Variable q : qty.
Hypothesis (V : isv q = true) (F : filt q = false).
Lemma cov_nm c : q = QM (cm c) -> In q (map fst (nm isv filt f e c)).
Proof. intros ->. unfold nm, wr. rewrite variable_isv by assumption. now left. Qed.
Lemma cov_np c : q = QP (cid c) -> In q (map fst (np isv filt f e c)).
Proof. intros ->. unfold np, wr. rewrite variable_isv by assumption. now left. Qed.
Lemma cov_nh c : q = QH (cid c) -> In q (map fst (nh isv filt f e c)).
Proof. intros ->. unfold nh, wr. rewrite variable_isv by assumption. now left. Qed.
Lemma cov_nm0 c : q = QM (cm c) -> In q (map fst (nm0 isv f e c)).
Proof. intros ->. unfold nm0, wr. rewrite variable_isv0 by assumption. now left. Qed.
Lemma cov_np0 c : q = QP (cid c) -> In q (map fst (np0 isv f e c)).
Proof. intros ->. unfold np0, wr. rewrite variable_isv0 by assumption. now left. Qed.
Lemma cov_nh0 c : q = QH (cid c) -> In q (map fst (nh0 isv f e c)).
Proof. intros ->. unfold nh0, wr. rewrite variable_isv0 by assumption. now left. Qed.
Lemma cov_wr v : In q (map fst (wr (is_variable isv (Some filt) q) q v)).
Proof. unfold wr. rewrite variable_isv by assumption. now left. Qed.
Lemma cov_wr0 v : In q (map fst (wr (is_variable isv None q) q v)).
Proof. unfold wr. rewrite variable_isv0 by assumption. now left. Qed.
Lemma cov_wri v : In q (map fst (wr (isv q) q v)).
Proof. unfold wr. rewrite V. now left. Qed.
Lemma cov_nx c l x : q = QF (cf c) x -> In x l -> In q (map fst (nx isv f e c l)).
Proof.
  intros -> I. unfold nx. rewrite map_map. cbn [fst]. apply in_map_iff. exists x. split; auto.
  apply filter_In. auto.
Qed.
End Cov.
End G.

(** Containers read, by kind. *)
Definition xc (c : conn) : list qty := map (QF (cf c)) (ckeys c).
Definition pc (p : param) : list qty := match p with PVar v => [QC v] | PVal _ => [] end.

Lemma cov_nc ds f e q p : In q (pc p) -> In q (map fst (nc ds f e p)).
Proof. destruct p as [n|x]; [|intros []]. intros [<-|[]]. now left. Qed.
Lemma cov_wrp q p v : In q (pc p) -> In q (map fst (wr_param p v)).
Proof. destruct p as [n|x]; [|intros []]. intros [<-|[]]. now left. Qed.
Lemma xc_no_fraction c q : In q (xc c) -> no_fraction q -> False.
Proof. intros I N. apply in_map_iff in I as (x & <- & _). exact N. Qed.
Lemma pc_no_parameter p q : In q (pc p) -> no_parameter q -> False.
Proof. destruct p; [|intros []]. intros [<-|[]] N. exact N. Qed.
Lemma xc_state c q : In q (xc c) -> state_var q -> False.
Proof. intros I N. apply in_map_iff in I as (x & <- & _). exact N. Qed.
Lemma pc_state p q : In q (pc p) -> state_var q -> False.
Proof. destruct p; [|intros []]. intros [<-|[]] N. exact N. Qed.

Lemma xs_agree e1 e2 c : (forall q, In q (xc c) -> e1 q = e2 q) -> xs e1 c = xs e2 c.
Proof.
  intros H. unfold xs. apply map_ext_in. intros f I. unfold vx. rewrite (H (QF (cf c) f)); auto.
  unfold xc. now apply in_map.
Qed.
Lemma pval_agree e1 e2 p : (forall q, In q (pc p) -> e1 q = e2 q) -> pval e1 p = pval e2 p.
Proof. intros H. destruct p as [n|x]; cbn; auto. apply H. now left. Qed.

Ltac inc := solve [repeat (rewrite in_app_iff); cbn [In]; auto 20; tauto].
Ltac rd e1 e2 H :=
  repeat match goal with
  | |- context [vm e1 ?c] => replace (vm e1 c) with (vm e2 c) by (symmetry; apply H; inc)
  | |- context [vp e1 ?c] => replace (vp e1 c) with (vp e2 c) by (symmetry; apply H; inc)
  | |- context [vh e1 ?c] => replace (vh e1 c) with (vh e2 c) by (symmetry; apply H; inc)
  | |- context [xs e1 ?c] => replace (xs e1 c) with (xs e2 c) by (symmetry; apply xs_agree; intros; apply H; inc)
  | |- context [pval e1 ?c] => replace (pval e1 c) with (pval e2 c) by (symmetry; apply pval_agree; intros; apply H; inc)
  end; try reflexivity.
Ltac reading := let e1 := fresh "e1" in let e2 := fresh "e2" in let H := fresh "H" in
  intros e1 e2 H; unfold zeta_func, darcy_func, hw_func, valve_func, ttd_u_func, cond_ttd_u_func, ttd_l_func, ttd_min_func, eff_cold_func, eff_hot_func, eff_max_func, kA_func, kA_char_func, cond_kA_func, cond_kA_char_func, cond_td, comb_mass_func, kA_group_func, kA_char_group_func, solar_func, trough_func, pump_func, turbine_func, pump_char_func, turbine_char_func, pump_flow_func, map_pr_func, map_eta_func, cone_residual, wet_func, fc_heat_func, el_heat_func, reactor_p_func, gas_T_func, el_char_func, engine_Q_func, T_func, vol_func, Td_func, char_val, char_expr, dh_cold, dh_hot, map_y, map_x, cT, cTs, cvol, cvisc, cis in *; rd e1 e2 H.

Ltac okws := repeat apply okw_app;
  first [ apply okw_nm | apply okw_np | apply okw_nh | apply okw_nm0 | apply okw_np0 | apply okw_nh0
        | apply okw_nil | apply okw_nc; assumption | idtac ].
Ltac covone := first
  [ solve [eapply cov_nm; first [eassumption | reflexivity | congruence]] | solve [eapply cov_np; first [eassumption | reflexivity]]
  | solve [eapply cov_nh; first [eassumption | reflexivity]] | solve [eapply cov_nm0; first [eassumption | reflexivity | congruence]]
  | solve [eapply cov_np0; first [eassumption | reflexivity]] | solve [eapply cov_nh0; first [eassumption | reflexivity]]
  | solve [eapply cov_wr; eassumption] | solve [eapply cov_wr0; eassumption] | solve [eapply cov_wri; eassumption]
  | solve [eapply cov_nc; eassumption] | solve [eapply cov_wrp; eassumption] ].
Ltac covs := repeat (rewrite map_app || rewrite in_app_iff);
  repeat first [covone | left; covone | right].
(** Goal: every container read of kind K has an entry. *)
Ltac covering := let q := fresh "q" in let I := fresh "I" in let Kq := fresh "Kq" in let V := fresh "V" in let F := fresh "F" in
  intros q I Kq V F; repeat (rewrite in_app_iff in I); cbn [In] in I;
  repeat match type of I with _ \/ _ => destruct I as [I|I] end;
  try (exfalso; (assumption || (eapply xc_no_fraction; eassumption) || (eapply pc_no_parameter; eassumption)
                 || (eapply xc_state; eassumption) || (eapply pc_state; eassumption)));
  try subst q; try solve [covs].
Ltac rows cells := intros; eapply (matches_intro _ _ _ _ _ _ _ cells); [ reading | covering | okws ].


(* -------------------------------------------------------- pressure losses *)
Lemma zeta_matches : forall isv filt P ds i o zeta e, has_column isv zeta ->
  row_matches no_fraction isv filt ds (zeta_func P i o zeta) (zeta_deriv isv filt P ds i o zeta e) e.
Proof.
  intros isv filt P ds i o zeta e HC. unfold zeta_deriv.
  rows ([QM (cm i); QP (cid i); QH (cid i); QP (cid o); QH (cid o)] ++ xc i ++ xc o ++ pc zeta).
Qed.

Lemma darcy_matches : forall isv filt P ds i o L D ks e,
  has_column isv L -> has_column isv D -> has_column isv ks ->
  row_matches no_fraction isv filt ds (darcy_func P i o L D ks) (darcy_deriv isv filt P ds i o L D ks e) e.
Proof.
  intros isv filt P ds i o L D ks e H1 H2 H3. unfold darcy_deriv.
  rows ([QM (cm i); QP (cid i); QH (cid i); QP (cid o); QH (cid o)] ++ xc i ++ xc o ++ pc L ++ pc D ++ pc ks).
Qed.

Lemma hw_matches : forall isv filt P ds i o L D ks e,
  has_column isv L -> has_column isv D -> has_column isv ks ->
  row_matches no_fraction isv filt ds (hw_func P i o L D ks) (hw_deriv isv filt P ds i o L D ks e) e.
Proof.
  intros isv filt P ds i o L D ks e H1 H2 H3. unfold hw_deriv.
  rows ([QM (cm i); QP (cid i); QH (cid i); QP (cid o); QH (cid o)] ++ xc i ++ xc o ++ pc L ++ pc D ++ pc ks).
Qed.

(* ---------------------------------------------------------- heat exchangers *)
Lemma ttd_u_matches : forall isv filt P ds i1 o2 t e, fixed t ->
  row_matches no_fraction isv filt ds (ttd_u_func P i1 o2 t) (ttd_u_deriv isv filt P i1 o2 t e) e.
Proof.
  intros isv filt P ds i1 o2 t e HC. destruct t as [|t]; [destruct HC|]. unfold ttd_u_deriv.
  rows ([QP (cid i1); QH (cid i1); QP (cid o2); QH (cid o2)] ++ xc i1 ++ xc o2).
Qed.
Lemma cond_ttd_u_matches : forall isv filt P ds i1 o2 t e, fixed t ->
  row_matches no_fraction isv filt ds (cond_ttd_u_func P i1 o2 t) (cond_ttd_u_deriv isv filt P i1 o2 t e) e.
Proof.
  intros isv filt P ds i1 o2 t e HC. destruct t as [|t]; [destruct HC|]. unfold cond_ttd_u_deriv.
  rows ([QP (cid i1); QP (cid o2); QH (cid o2)] ++ xc i1 ++ xc o2).
Qed.
Lemma ttd_l_matches : forall isv filt P ds i2 o1 t e, fixed t ->
  row_matches no_fraction isv filt ds (ttd_l_func P i2 o1 t) (ttd_l_deriv isv filt P i2 o1 t e) e.
Proof.
  intros isv filt P ds i2 o1 t e HC. destruct t as [|t]; [destruct HC|]. unfold ttd_l_deriv.
  rows ([QP (cid i2); QH (cid i2); QP (cid o1); QH (cid o1)] ++ xc i2 ++ xc o1).
Qed.

Lemma ttd_min_matches : forall isv filt P ds i1 i2 o1 o2 t e, fixed t ->
  row_matches no_fraction isv filt ds (ttd_min_func P i1 i2 o1 o2 t) (ttd_min_deriv isv filt P i1 i2 o1 o2 t e) e.
Proof.
  intros isv filt P ds i1 i2 o1 o2 t e HC. destruct t as [|t]; [destruct HC|].
  unfold ttd_min_deriv, all_ph; cbn [flat_map]. rewrite <- ?app_assoc.
  rows ([QP (cid i1); QH (cid i1); QP (cid i2); QH (cid i2); QP (cid o1); QH (cid o1); QP (cid o2); QH (cid o2)]
        ++ xc i1 ++ xc i2 ++ xc o1 ++ xc o2).
Qed.

(** The residual as a linear function of one container and a part that does not read it. *)
Lemma linear_partial f e q a b : (forall t, f (upd e q t) = a * t + b) -> partial_is f e q a.
Proof.
  intros H. unfold partial_is. intros eps He. exists (mkposreal 1 Rlt_0_1). intros h h0 _. rewrite !H.
  replace ((a * (e q + h) + b - (a * e q + b)) / h - a) with 0 by (field; exact h0). now rewrite Rabs_R0.
Qed.

Lemma upd_eq e q t : upd e q t q = t.
Proof. unfold upd. now rewrite qty_eqb_refl. Qed.
Lemma upd_neq e q t k : k <> q -> upd e q t k = e k.
Proof. intros H. unfold upd. destruct (qty_eqb k q) eqn:E; auto. apply qty_eqb_eq in E. contradiction. Qed.
Lemma xs_upd e q t c : (forall f, q <> QF (cf c) f) -> xs (upd e q t) c = xs e c.
Proof. intros H. unfold xs. apply map_ext. intros f. unfold vx. rewrite upd_neq; auto. Qed.
Lemma pval_upd e q t p : (forall v, q <> QC v) -> pval (upd e q t) p = pval e p.
Proof. intros H. destruct p; cbn; auto. rewrite upd_neq; auto. Qed.

Ltac ups := repeat first
  [ rewrite xs_upd by congruence | rewrite pval_upd by congruence
  | match goal with
    | |- context [vm (upd ?e ?q ?t) ?c] =>
        first [change (vm (upd e q t) c) with (upd e q t q); rewrite upd_eq
              | replace (vm (upd e q t) c) with (vm e c) by (symmetry; apply upd_neq; congruence)]
    | |- context [vp (upd ?e ?q ?t) ?c] =>
        first [change (vp (upd e q t) c) with (upd e q t q); rewrite upd_eq
              | replace (vp (upd e q t) c) with (vp e c) by (symmetry; apply upd_neq; congruence)]
    | |- context [vh (upd ?e ?q ?t) ?c] =>
        first [change (vh (upd e q t) c) with (upd e q t q); rewrite upd_eq
              | replace (vh (upd e q t) c) with (vh e c) by (symmetry; apply upd_neq; congruence)]
    end ].
(** A hand-written entry: the residual is linear in the container. *)
Ltac hand := apply okw_wr; [intros; eauto using isv_variable | intros _ _; left; eapply linear_partial; intros].

Lemma eff_cold_matches : forall isv filt P ds i1 i2 o2 t e, fixed t -> cid i2 <> cid i1 -> cid i2 <> cid o2 ->
  row_matches no_fraction isv filt ds (eff_cold_func P i1 i2 o2 t) (eff_cold_deriv isv filt P i1 i2 o2 t e) e.
Proof.
  intros isv filt P ds i1 i2 o2 t e HC N1 N2. destruct t as [|t]; [destruct HC|].
  unfold eff_cold_deriv, all_ph; cbn [flat_map]. rewrite <- ?app_assoc.
  rows ([QP (cid i1); QH (cid i1); QH (cid i2); QP (cid o2); QH (cid o2)] ++ xc i1 ++ xc o2).
  hand. unfold eff_cold_func, eff_eq, dh_cold, cT. ups. cbn [pval].
  instantiate (1 := t * phT P o2 (vp e o2) (pT P i1 (vp e i1) (vh e i1) (xs e i1)) (xs e o2) - vh e o2). ring.
Qed.

Lemma eff_hot_matches : forall isv filt P ds i1 i2 o1 t e, fixed t -> cid i1 <> cid i2 -> cid i1 <> cid o1 ->
  row_matches no_fraction isv filt ds (eff_hot_func P i1 i2 o1 t) (eff_hot_deriv isv filt P i1 i2 o1 t e) e.
Proof.
  intros isv filt P ds i1 i2 o1 t e HC N1 N2. destruct t as [|t]; [destruct HC|].
  unfold eff_hot_deriv, all_ph; cbn [flat_map]. rewrite <- ?app_assoc.
  rows ([QP (cid i2); QH (cid i2); QH (cid i1); QP (cid o1); QH (cid o1)] ++ xc i2 ++ xc o1).
  hand. unfold eff_hot_func, eff_eq, dh_hot, cT. ups. cbn [pval].
  instantiate (1 := t * phT P o1 (vp e o1) (pT P i2 (vp e i2) (vh e i2) (xs e i2)) (xs e o1) - vh e o1). ring.
Qed.

Lemma eff_max_matches : forall isv filt P ds i1 i2 o1 o2 t e, fixed t ->
  row_matches no_fraction isv filt ds (eff_max_func P i1 i2 o1 o2 t) (eff_max_deriv isv filt P i1 i2 o1 o2 t e) e.
Proof.
  intros isv filt P ds i1 i2 o1 o2 t e HC. destruct t as [|t]; [destruct HC|].
  unfold eff_max_deriv, all_ph; cbn [flat_map]. rewrite <- ?app_assoc.
  rows ([QP (cid i1); QH (cid i1); QP (cid i2); QH (cid i2); QP (cid o1); QH (cid o1); QP (cid o2); QH (cid o2)]
        ++ xc i1 ++ xc i2 ++ xc o1 ++ xc o2).
Qed.

Lemma kA_matches : forall isv filt P ds i1 i2 o1 o2 kA e, fixed kA ->
  row_matches no_fraction isv filt ds (kA_func P i1 i2 o1 o2 kA) (kA_deriv isv P i1 i2 o1 o2 kA e) e.
Proof.
  intros isv filt P ds i1 i2 o1 o2 t e HC. destruct t as [|t]; [destruct HC|].
  unfold kA_deriv, all_ph0; cbn [flat_map]. rewrite <- ?app_assoc.
  rows ([QM (cm i1); QP (cid i1); QH (cid i1); QP (cid i2); QH (cid i2); QP (cid o1); QH (cid o1); QP (cid o2); QH (cid o2)]
        ++ xc i1 ++ xc i2 ++ xc o1 ++ xc o2).
  hand. unfold kA_func, cT. ups. rewrite Rmult_comm. reflexivity.
Qed.

Lemma kA_char_matches : forall isv filt P ds i1 i2 o1 o2 k1 k2 d1 d2 kA e, cm o1 = cm i1 -> cm o2 = cm i2 ->
  row_matches no_fraction isv filt ds (kA_char_func P i1 i2 o1 o2 k1 k2 d1 d2 kA)
    (kA_char_deriv isv P i1 i2 o1 o2 k1 k2 d1 d2 kA e) e.
Proof.
  intros isv filt P ds i1 i2 o1 o2 k1 k2 d1 d2 kA e E1 E2.
  unfold kA_char_deriv, all_ph0; cbn [flat_map]. rewrite <- ?app_assoc.
  rows ([QM (cm i1); QM (cm i2); QM (cm o1); QM (cm o2); QP (cid i1); QH (cid i1); QP (cid i2); QH (cid i2); QP (cid o1); QH (cid o1); QP (cid o2); QH (cid o2)]
        ++ xc i1 ++ xc i2 ++ xc o1 ++ xc o2).
Qed.

Lemma cond_kA_matches : forall isv filt P ds b1 b2 b3 b4 i1 i2 o1 o2 kA e, fixed kA ->
  row_matches no_fraction isv filt ds (cond_kA_func P b1 b2 b3 b4 i1 i2 o1 o2 kA) (cond_kA_deriv isv P b1 b2 b3 b4 i1 i2 o1 o2 kA e) e.
Proof.
  intros isv filt P ds b1 b2 b3 b4 i1 i2 o1 o2 t e HC. destruct t as [|t]; [destruct HC|].
  unfold cond_kA_deriv, all_ph0; cbn [flat_map]. rewrite <- ?app_assoc.
  rows ([QM (cm i1); QP (cid i1); QH (cid i1); QP (cid i2); QH (cid i2); QP (cid o1); QH (cid o1); QP (cid o2); QH (cid o2)]
        ++ xc i1 ++ xc i2 ++ xc o1 ++ xc o2).
  hand. unfold cond_kA_func, cond_td, cT, cTs. ups. rewrite Rmult_comm. reflexivity.
Qed.

Lemma cond_kA_char_matches : forall isv filt P ds b1 b2 b3 b4 i1 i2 o1 o2 k1 k2 d1 d2 kA e, cm o1 = cm i1 -> cm o2 = cm i2 ->
  row_matches no_fraction isv filt ds (cond_kA_char_func P b1 b2 b3 b4 i1 i2 o1 o2 k1 k2 d1 d2 kA)
    (cond_kA_char_deriv isv P b1 b2 b3 b4 i1 i2 o1 o2 k1 k2 d1 d2 kA e) e.
Proof.
  intros isv filt P ds b1 b2 b3 b4 i1 i2 o1 o2 k1 k2 d1 d2 kA e E1 E2.
  unfold cond_kA_char_deriv, all_ph0; cbn [flat_map]. rewrite <- ?app_assoc.
  rows ([QM (cm i1); QM (cm i2); QM (cm o1); QM (cm o2); QP (cid i1); QH (cid i1); QP (cid i2); QH (cid i2); QP (cid o1); QH (cid o1); QP (cid o2); QH (cid o2)]
        ++ xc i1 ++ xc i2 ++ xc o1 ++ xc o2).
Qed.

Lemma kA_group_matches : forall isv filt P ds i o kA Tamb e, has_column isv kA ->
  row_matches no_fraction isv filt ds (kA_group_func P i o kA Tamb) (kA_group_deriv isv filt P ds i o kA Tamb e) e.
Proof.
  intros isv filt P ds i o kA Tamb e HC. unfold kA_group_deriv.
  rows ([QM (cm i); QP (cid i); QH (cid i); QP (cid o); QH (cid o)] ++ xc i ++ xc o ++ pc kA).
  hand. unfold kA_group_func, cT. ups. rewrite Rmult_comm. reflexivity.
Qed.

Lemma kA_char_group_matches : forall isv filt P ds i o k d kA Tamb e, cm o = cm i ->
  row_matches no_fraction isv filt ds (kA_char_group_func P i o k d kA Tamb)
    (kA_char_group_deriv isv filt P i o k d kA Tamb e) e.
Proof.
  intros isv filt P ds i o k d kA Tamb e E. unfold kA_char_group_deriv.
  rows ([QM (cm i); QM (cm o); QP (cid i); QH (cid i); QP (cid o); QH (cid o)] ++ xc i ++ xc o).
Qed.

Lemma solar_matches : forall isv filt P ds i o E eta lin quad A Tamb e,
  has_column isv E -> has_column isv eta -> has_column isv lin -> has_column isv quad -> has_column isv A ->
  row_matches no_fraction isv filt ds (solar_func P i o E eta lin quad A Tamb)
    (solar_deriv isv filt P ds i o E eta lin quad A Tamb e) e.
Proof.
  intros isv filt P ds i o E eta lin quad A Tamb e H1 H2 H3 H4 H5. unfold solar_deriv.
  rows ([QM (cm i); QP (cid i); QH (cid i); QP (cid o); QH (cid o)] ++ xc i ++ xc o
        ++ pc E ++ pc eta ++ pc lin ++ pc quad ++ pc A).
  hand. unfold solar_func, collector_eq, cT. ups. unfold Rminus at 1. rewrite Rmult_comm. reflexivity.
Qed.

Lemma trough_matches : forall isv filt P ds i o E eta aoi doc c1 c2 iam1 iam2 A Tamb e,
  has_column isv E -> has_column isv eta -> has_column isv aoi -> has_column isv doc ->
  has_column isv c1 -> has_column isv c2 -> has_column isv iam1 -> has_column isv iam2 -> has_column isv A ->
  row_matches no_fraction isv filt ds (trough_func P i o E eta aoi doc c1 c2 iam1 iam2 A Tamb)
    (trough_deriv isv filt P ds i o E eta aoi doc c1 c2 iam1 iam2 A Tamb e) e.
Proof.
  intros isv filt P ds i o E eta aoi doc c1 c2 iam1 iam2 A Tamb e H1 H2 H3 H4 H5 H6 H7 H8 H9. unfold trough_deriv.
  rows ([QM (cm i); QP (cid i); QH (cid i); QP (cid o); QH (cid o)] ++ xc i ++ xc o
        ++ pc E ++ pc eta ++ pc aoi ++ pc doc ++ pc c1 ++ pc c2 ++ pc iam1 ++ pc iam2 ++ pc A).
  hand. unfold trough_func, trough_eq, cT. ups. unfold Rminus at 1. rewrite Rmult_comm. reflexivity.
Qed.
