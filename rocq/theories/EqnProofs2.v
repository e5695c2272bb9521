From Coq Require Import Reals List String Bool Arith Lra Lia FunctionalExtensionality.
From Verif Require Import Base EqnModel EqnSpec EqnProofs.
Import ListNotations.
Open Scope R_scope.

(* ---------------------------------------------- single hand-written entries *)
Lemma wr_run b k v q w : run_writes empty_row (wr b k v) q = Some w ->
  q = k /\ w = v /\ b = true.
Proof.
  unfold wr. destruct b; simpl; [|discriminate]. unfold set_entry. simpl.
  destruct (qty_eqb q k) eqn:E; [|discriminate]. apply qty_eqb_eq in E.
  intros H. injection H as <-. auto.
Qed.

Lemma single_entry f e b k v : partial_is f e k v ->
  entries_correct f (wr b k v) e.
Proof. intros H q w R. apply wr_run in R as (-> & -> & _). exact H. Qed.

(** A two-assignment row whose columns differ. *)
Lemma two_entries f e b1 k1 v1 b2 k2 v2 : k1 <> k2 ->
  partial_is f e k1 v1 -> partial_is f e k2 v2 ->
  entries_correct f (wr b1 k1 v1 ++ wr b2 k2 v2) e.
Proof.
  intros N P1 P2 q w R. rewrite run_writes_app in R.
  destruct (qty_eqb q k2) eqn:E.
  - apply qty_eqb_eq in E. subst q. unfold wr at 2 in R. destruct b2; simpl in R.
    + unfold set_entry in R. simpl in R. rewrite qty_eqb_refl in R.
      injection R as <-. exact P2.
    + apply wr_run in R as (-> & -> & _). congruence.
  - rewrite run_writes0 in R.
    + apply wr_run in R as (-> & -> & _). exact P1.
    + pose proof (wcnt_wr b2 q k2 v2) as W. rewrite E in W. lia.
Qed.

(** A state read outside the changed container is not changed. *)
Lemma upd_other e q t k : qty_eqb k q = false -> upd e q t k = e k.
Proof. intros H. unfold upd. now rewrite H. Qed.

Section Entries.
Variable isv : qty -> bool.

Lemma hx_kA_entry_ok td i1 o1 kA e :
  (forall e1 e2, (forall c, e1 (QP c) = e2 (QP c)) ->
     (forall c, e1 (QH c) = e2 (QH c)) -> td e1 = td e2) ->
  entries_correct (hx_kA_func td i1 o1 kA) (hx_kA_entry isv i1 o1 e) e.
Proof.
  intros Htd. apply single_entry. eapply p_eq.
  - unfold hx_kA_func. apply p_add.
    + apply p_mul; [presp|presp|apply p_qty|apply p_sub; apply p_qty].
    + apply p_indep. intros t. f_equal. apply Htd; intros c; reflexivity.
  - unfold delta, vh. simpl. rewrite Nat.eqb_refl. lra.
Qed.

Lemma hx_eff_cold_entry_ok hpT Tph i1 i2 o2 eff e :
  cid i2 <> cid i1 -> cid i2 <> cid o2 ->
  entries_correct (hx_eff_cold_func hpT Tph i1 i2 o2 eff)
    (hx_eff_cold_entry isv i2 eff) e.
Proof.
  intros N1 N2. apply single_entry. eapply p_eq.
  - unfold hx_eff_cold_func. apply p_sub.
    + apply p_ext with (f := fun e => eff * hpT (vp e o2) (Tph (vp e i1) (vh e i1)) - eff * vh e i2).
      { intros; lra. }
      apply p_sub.
      * apply p_indep. intros t. unfold vp, vh.
        rewrite !upd_other; auto; simpl; apply Nat.eqb_neq; auto.
      * apply p_mul; [presp|presp|apply p_const|apply p_qty].
    + apply p_sub; apply p_qty.
  - unfold delta. simpl. rewrite Nat.eqb_refl.
    destruct (Nat.eqb (cid i2) (cid o2)) eqn:E; [apply Nat.eqb_eq in E; congruence|].
    lra.
Qed.

Lemma hx_eff_hot_entry_ok hpT Tph i1 i2 o1 eff e :
  cid i1 <> cid i2 -> cid i1 <> cid o1 ->
  entries_correct (hx_eff_hot_func hpT Tph i1 i2 o1 eff)
    (hx_eff_hot_entry isv i1 eff) e.
Proof.
  intros N1 N2.
  exact (hx_eff_cold_entry_ok hpT Tph i2 i1 o1 eff e N1 N2).
Qed.

Lemma sat_entry_ok hs o e : entries_correct (sat_func hs o) (sat_entry isv o) e.
Proof.
  apply single_entry. eapply p_eq.
  - unfold sat_func. apply p_sub; [apply p_qty|]. apply p_indep. intros t.
    reflexivity.
  - unfold delta. simpl. rewrite Nat.eqb_refl. lra.
Qed.

Lemma x_entry_ok hq c e : entries_correct (x_func hq c) (x_entry isv c) e.
Proof.
  apply single_entry. eapply p_eq.
  - unfold x_func. apply p_sub; [apply p_qty|]. apply p_indep. reflexivity.
  - unfold delta. rewrite qty_eqb_refl. lra.
Qed.

Lemma p_pval P e q : (forall v, P = PVar v -> qty_eqb q (QC v) = false) ->
  partial_is (fun e => pval e P) e q 0.
Proof.
  intros H. destruct P; simpl.
  - eapply p_eq; [apply p_qty|]. unfold delta. now rewrite (H v eq_refl).
  - apply p_const.
Qed.

Lemma r_pval P : respects (fun e => pval e P).
Proof. destruct P; simpl; [apply r_qty|apply r_const]. Qed.

Lemma pump_eta_entry_ok his filt i o eta e : cid i <> cid o ->
  entries_correct (pump_eta_func his i o eta) (pump_eta_entry isv filt o eta e) e.
Proof.
  intros N. apply single_entry. eapply p_eq.
  - unfold pump_eta_func. apply p_sub.
    + apply p_mul; [presp|apply r_pval|apply p_sub; apply p_qty|].
      apply p_pval. reflexivity.
    + apply p_indep. intros t. unfold vp, vh.
      rewrite !upd_other; auto; simpl; try reflexivity; apply Nat.eqb_neq; auto.
  - unfold delta. simpl. rewrite Nat.eqb_refl.
    destruct (Nat.eqb (cid o) (cid i)) eqn:E; [apply Nat.eqb_eq in E; congruence|].
    lra.
Qed.

Lemma turbine_eta_partial his i o eta e : cid i <> cid o ->
  partial_is (turbine_eta_func his i o eta) e (QH (cid o)) (-1).
Proof.
  intros N. eapply p_eq.
  - unfold turbine_eta_func. apply p_add.
    + apply p_opp. apply p_sub; apply p_qty.
    + apply p_indep. intros t. unfold vp, vh.
      assert (Z : pval (upd e (QH (cid o)) t) eta = pval e eta)
        by (destruct eta; reflexivity).
      rewrite Z, !upd_other; auto; simpl; try reflexivity; apply Nat.eqb_neq; auto.
  - unfold delta. simpl. rewrite Nat.eqb_refl.
    destruct (Nat.eqb (cid o) (cid i)) eqn:E; [apply Nat.eqb_eq in E; congruence|].
    lra.
Qed.

(** entries written in the first iteration only stay valid *)
Lemma first_only_row (q : qty) b v (rest : nat -> env -> list write) states n :
  (forall it e, wcnt q (rest it e) = 0%nat) -> b = true ->
  row_after (fun it e => rest it e ++ wr (b && Nat.eqb it 0) q v) states n q = Some v.
Proof.
  intros Hr ->. induction n as [|n IH]; simpl.
  - rewrite run_writes_app. simpl. unfold set_entry. simpl. now rewrite qty_eqb_refl.
  - rewrite app_nil_r. rewrite run_writes0 by apply Hr. exact IH.
Qed.

Lemma turbine_eta_row_ok his i o eta states n : cid i <> cid o ->
  isv (QH (cid o)) = true ->
  exists v, row_after (fun it _ => turbine_eta_entry isv o it) states n (QH (cid o)) = Some v
    /\ partial_is (turbine_eta_func his i o eta) (states n) (QH (cid o)) v.
Proof.
  intros N V. exists (-1). split; [|now apply turbine_eta_partial].
  exact (first_only_row (QH (cid o)) (isv (QH (cid o))) (-1) (fun _ _ => []) states n
           (fun _ _ => eq_refl) V).
Qed.

Lemma droplet_outlet_row_ok hs dhs q o states n :
  isv (QH (cid o)) = true ->
  exists v, row_after (fun it e => droplet_outlet_row isv dhs q o it e) states n (QH (cid o)) = Some v
    /\ partial_is (fun e => hs q (vp e o) - vh e o) (states n) (QH (cid o)) v.
Proof.
  intros V. exists (-1). split.
  - apply (first_only_row (QH (cid o)) (isv (QH (cid o))) (-1)
      (fun _ e => wr (isv (QP (cid o))) (QP (cid o)) (dhs q (vp e o))) states n); auto.
    intros _ e. pose proof (wcnt_wr (isv (QP (cid o))) (QH (cid o)) (QP (cid o)) (dhs q (vp e o))) as W.
    simpl in W. lia.
  - eapply p_eq.
    + apply p_sub; [|apply p_qty]. apply p_indep. reflexivity.
    + unfold delta. rewrite qty_eqb_refl. lra.
Qed.

Lemma cone_entry_ok g i o e : entries_correct (cone_func g i o) (cone_entry isv i) e.
Proof.
  apply single_entry. eapply p_eq.
  - unfold cone_func. apply p_add; [apply p_opp; apply p_qty|].
    apply p_indep. reflexivity.
  - unfold delta. rewrite qty_eqb_refl. lra.
Qed.

Lemma char_map_pr_entry_ok g prd filt i o e : cid i <> cid o ->
  entries_correct (char_map_pr_func g prd i o) (char_map_pr_entry isv filt i o e) e.
Proof.
  intros N. apply single_entry. eapply p_eq.
  - unfold char_map_pr_func. apply p_sub.
    + apply p_ext with (f := fun e => vp e o * / vp e i); [reflexivity|].
      assert (X : forall e', vp (upd e (QP (cid o)) e') i = vp e i).
      { intros e'. unfold vp. rewrite upd_other; auto. simpl. now apply Nat.eqb_neq. }
      unfold partial_is. 
      assert (Y : derivable_pt_lim (fun t => vp (upd e (QP (cid o)) t) o * / vp e i) (e (QP (cid o)))
                    (1 * / vp e i)).
      { pose proof (p_mul (fun e => vp e o) (fun _ => / vp e i) e (QP (cid o)) _ _
           (r_qty _) (r_const _) (p_qty _ _ _) (p_const _ _ _)) as Z.
        unfold partial_is in Z. unfold delta in Z. rewrite qty_eqb_refl in Z.
        replace (1 * / vp e i) with (1 * / vp e i + vp e o * 0) by lra. exact Z. }
      intros eps He. destruct (Y eps He) as [d D]. exists d. intros h h0 hd.
      rewrite !X. exact (D h h0 hd).
    + apply p_indep. intros t. unfold vm, vp, vh.
      rewrite !upd_other; auto; simpl; try reflexivity. now apply Nat.eqb_neq.
  - lra.
Qed.

Lemma dp_char_entries_ok g filt i o e : cid i <> cid o ->
  entries_correct (dp_char_func g i o) (dp_char_entries isv filt i o) e.
Proof.
  intros N. apply two_entries.
  - congruence.
  - eapply p_eq.
    + unfold dp_char_func. apply p_sub; [apply p_sub; apply p_qty|].
      apply p_indep. reflexivity.
    + unfold delta. rewrite qty_eqb_refl. simpl.
      destruct (Nat.eqb (cid i) (cid o)) eqn:E; [apply Nat.eqb_eq in E; congruence|]. lra.
  - eapply p_eq.
    + unfold dp_char_func. apply p_sub; [apply p_sub; apply p_qty|].
      apply p_indep. reflexivity.
    + unfold delta. rewrite qty_eqb_refl. simpl.
      destruct (Nat.eqb (cid o) (cid i)) eqn:E; [apply Nat.eqb_eq in E; congruence|]. lra.
Qed.

Lemma v_entry_ok vol c v e : entries_correct (v_func vol c v) (v_entry isv vol c e) e.
Proof.
  apply single_entry. eapply p_eq.
  - unfold v_func. apply p_sub; [|apply p_const].
    apply p_ext with (f := fun e => vm e c * vol (vp e c) (vh e c)); [intros; lra|].
    assert (R1 : respects (fun e => vol (vp e c) (vh e c))).
    { intros e1 e2 H. unfold vp, vh. now rewrite !H. }
    apply p_mul; [presp|exact R1|apply p_qty|]. apply p_indep. reflexivity.
  - unfold delta. rewrite qty_eqb_refl. lra.
Qed.

Lemma vref_entries_ok volc volr c r factor dl e : cm c <> cm r ->
  entries_correct (vref_func volc volr c r factor dl)
    (vref_entries isv volc volr c r factor e) e.
Proof.
  intros N.
  assert (R1 : respects (fun e => volc (vp e c) (vh e c))).
  { intros e1 e2 H. unfold vp, vh. now rewrite !H. }
  assert (R2 : respects (fun e => volr (vp e r) (vh e r))).
  { intros e1 e2 H. unfold vp, vh. now rewrite !H. }
  assert (P : forall a, partial_is (vref_func volc volr c r factor dl) e (QM a)
     (delta (QM a) (QM (cm c)) * volc (vp e c) (vh e c)
      - delta (QM a) (QM (cm r)) * volr (vp e r) (vh e r) * factor)).
  { intros a. eapply p_eq.
    - unfold vref_func. apply p_sub.
      + apply p_mul; [exact R1|presp| |apply p_qty]. apply p_indep. reflexivity.
      + apply p_add; [|apply p_const].
        apply p_mul; [apply r_mul; [exact R2|presp]|presp| |apply p_const].
        apply p_mul; [exact R2|presp| |apply p_qty]. apply p_indep. reflexivity.
    - lra. }
  apply two_entries.
  - congruence.
  - eapply p_eq; [apply P|]. unfold delta. rewrite qty_eqb_refl. simpl.
    destruct (Nat.eqb (cm c) (cm r)) eqn:E; [apply Nat.eqb_eq in E; congruence|]. lra.
  - eapply p_eq; [apply P|]. unfold delta. rewrite qty_eqb_refl. simpl.
    destruct (Nat.eqb (cm r) (cm c)) eqn:E; [apply Nat.eqb_eq in E; congruence|]. lra.
Qed.

(* ---------------------------------------------------------------- reactors *)
Lemma p_param P e q : partial_is (fun e => pval e P) e q
  match P with PVar w => delta q (QC w) | PVal _ => 0 end.
Proof. destruct P; simpl; [apply p_qty|apply p_const]. Qed.

Ltac wcnts q :=
  rewrite ?wcnt_app;
  repeat match goal with
  | |- context[wcnt q (wr ?b ?k ?v)] =>
      let W := fresh "W" in
      pose proof (wcnt_wr b q k v) as W;
      let n := fresh "n" in
      set (n := wcnt q (wr b k v)) in *; clearbody n
  end.

Ltac nodups H x :=
  let N := fresh "N" in
  pose proof (nodup_ocount _ x H) as N; cbn [map app] in N;
  rewrite ?ocount_cons in N.

Ltac pbil := apply p_mul; [presp|presp|apply p_qty|pderiv].

Lemma fuel_cell_energy_gradient hw ho hh e0 i0 i1 i2 o0 o1 P e :
  NoDup (map cm [i0; i1; i2; o1]) -> NoDup (map cid [i0; i1; i2; o0; o1]) ->
  row_is_gradient isv (fuel_cell_energy_func hw ho hh e0 i0 i1 i2 o0 o1 P)
    (fuel_cell_energy_writes isv hw ho hh e0 i0 i1 i2 o0 o1 P e) e.
Proof.
  intros Nm Nc. apply gradient_by_sum.
  - intros q Hq. eapply p_eq.
    + unfold fuel_cell_energy_func. apply p_sub; [apply p_param|].
      apply p_sub; [apply p_sub; [apply p_add|]|]; pbil.
    + unfold fuel_cell_energy_writes. rewrite !wsum_app, !wsum_wr by exact Hq.
      rewrite wsum_pcol. unfold vm, vh. lra.
  - intros q _. unfold fuel_cell_energy_writes. rewrite !wcnt_app.
    pose proof (wcnt_pcol q P 1) as Wp.
    set (np := wcnt q (wr_param P 1)) in *.
    clearbody np. wcnts q. destruct q; simpl in *; try lia.
    + nodups Nm a. unfold ocount in N; simpl in N. lia.
    + nodups Nc c. unfold ocount in N; simpl in N. lia.
Qed.

Lemma electrolyzer_energy_gradient hw ho hh e0 i0 i1 o0 o1 o2 P e :
  NoDup (map cm [i0; i1; o1; o2]) -> NoDup (map cid [i0; i1; o0; o1; o2]) ->
  row_is_gradient isv (electrolyzer_energy_func hw ho hh e0 i0 i1 o0 o1 o2 P)
    (electrolyzer_energy_writes isv hw ho hh e0 i0 i1 o0 o1 o2 P e) e.
Proof.
  intros Nm Nc. apply gradient_by_sum.
  - intros q Hq. eapply p_eq.
    + unfold electrolyzer_energy_func. apply p_sub; [apply p_param|].
      apply p_add; [apply p_add; [apply p_add|]|].
      * apply p_mul; [presp|presp|apply p_opp; apply p_qty|pderiv].
      * pbil.
      * pbil.
      * pbil.
    + unfold electrolyzer_energy_writes. rewrite !wsum_app, !wsum_wr by exact Hq.
      rewrite wsum_pcol. unfold vm, vh. lra.
  - intros q _. unfold electrolyzer_energy_writes. rewrite !wcnt_app.
    pose proof (wcnt_pcol q P 1) as Wp.
    set (np := wcnt q (wr_param P 1)) in *.
    clearbody np. wcnts q. destruct q; simpl in *; try lia.
    + nodups Nm a. unfold ocount in N; simpl in N. lia.
    + nodups Nc c. unfold ocount in N; simpl in N. lia.
Qed.

Lemma spec_energy_gradient hc P en e :
  (forall v w, P = PVar v -> en = PVar w -> v <> w) ->
  row_is_gradient isv (spec_energy_func hc P en) (spec_energy_writes isv hc P en e) e.
Proof.
  intros N. apply gradient_by_sum.
  - intros q Hq. eapply p_eq.
    + unfold spec_energy_func. apply p_sub; [apply p_param|].
      apply p_mul; [presp|apply r_pval|apply p_qty|apply p_param].
    + unfold spec_energy_writes. rewrite !wsum_app, wsum_wr by exact Hq.
      rewrite !wsum_pcol. unfold vm. lra.
  - intros q _. unfold spec_energy_writes. rewrite !wcnt_app.
    pose proof (wcnt_wr (isv (QM (cm hc))) q (QM (cm hc)) (- pval e en)) as W1.
    pose proof (wcnt_pcol q P 1) as W2. pose proof (wcnt_pcol q en (- vm e hc)) as W3.
    destruct q as [a|a|a|a f|u]; cbn [qty_eqb] in W1; cbn iota in W2, W3; try lia.
    destruct (Nat.eqb a (cm hc)); lia.
    assert (Z : (wcnt (QC u) (wr (isv (QM (cm hc))) (QM (cm hc)) (- pval e en)) = 0)%nat) by lia.
    rewrite Z. destruct P as [v|x], en as [w|y]; try (rewrite !wcnt_nil in *; lia).
    unfold wcnt. simpl.
    destruct (Nat.eqb u v) eqn:A, (Nat.eqb u w) eqn:B; simpl; try lia.
    apply Nat.eqb_eq in A, B. subst. exfalso. now apply (N w w).
Qed.

Lemma fuel_cell_eta_gradient e0 hc P eta e :
  (forall v, eta = PVar v -> False) ->
  row_is_gradient isv (fuel_cell_eta_func e0 hc P eta)
    (fuel_cell_eta_writes isv e0 hc P eta e) e.
Proof.
  intros N. destruct eta as [v|eta]; [now destruct (N v)|]. apply gradient_by_sum.
  - intros q Hq. eapply p_eq.
    + unfold fuel_cell_eta_func. apply p_sub; [apply p_param|].
      apply p_mul; [presp|presp| |apply p_const].
      apply p_mul; [presp|presp|apply (p_param (PVal eta))|apply p_qty].
    + unfold fuel_cell_eta_writes. rewrite !wsum_app, wsum_wr by exact Hq.
      rewrite wsum_pcol. simpl. lra.
  - intros q _. unfold fuel_cell_eta_writes. rewrite wcnt_app.
    pose proof (wcnt_pcol q P 1) as W2.
    pose proof (wcnt_wr (isv (QM (cm hc))) q (QM (cm hc)) (- pval e (PVal eta) * e0)) as W1.
    destruct q as [a|a|a|a f|u]; cbn [qty_eqb] in W1; cbn iota in W2; try lia.
    destruct (Nat.eqb a (cm hc)); lia.
Qed.

Lemma electrolyzer_eta_gradient e0 hc P eta e :
  (forall v, eta = PVar v -> False) ->
  row_is_gradient isv (electrolyzer_eta_func e0 hc P eta)
    (electrolyzer_eta_writes isv e0 hc P eta e) e.
Proof.
  intros N. destruct eta as [v|eta]; [now destruct (N v)|]. apply gradient_by_sum.
  - intros q Hq. eapply p_eq.
    + unfold electrolyzer_eta_func. apply p_sub.
      * apply p_mul; [apply r_pval|presp|apply p_param|apply (p_param (PVal eta))].
      * apply p_mul; [presp|presp|apply p_qty|apply p_const].
    + unfold electrolyzer_eta_writes. rewrite !wsum_app, wsum_wr by exact Hq.
      rewrite wsum_pcol. simpl. lra.
  - intros q _. unfold electrolyzer_eta_writes. rewrite wcnt_app.
    pose proof (wcnt_pcol q P (pval e (PVal eta))) as W2.
    pose proof (wcnt_wr (isv (QM (cm hc))) q (QM (cm hc)) (- e0)) as W1.
    destruct q as [a|a|a|a f|u]; cbn [qty_eqb] in W1; cbn iota in W2; try lia.
    destruct (Nat.eqb a (cm hc)); lia.
Qed.

(** Mass rows of the reactors: row j of the routine is the gradient of residual
    j. *)
Lemma pair_gradient a b u v e : a <> b ->
  row_is_gradient isv (fun e => u * e a - e b)
    (wr (isv a) a u ++ wr (isv b) b v) e <-> (isv b = true -> v = -1).
Proof.
  intros N. split.
  - intros H V. pose proof (H b V) as D.
    assert (D2 : partial_is (fun e => u * e a - e b) e b (-1)).
    { eapply p_eq.
      - apply p_sub; [|apply p_qty]. apply p_mul; [presp|presp|apply p_const|apply p_qty].
      - unfold delta. rewrite qty_eqb_refl.
        destruct (qty_eqb b a) eqn:E; [apply qty_eqb_eq in E; congruence|]. lra. }
    pose proof (uniqueness_limite _ _ _ _ D D2) as U.
    unfold entry in U. rewrite run_writes_app, V in U. simpl in U.
    unfold set_entry in U. simpl in U. rewrite qty_eqb_refl in U. exact U.
  - intros H. apply gradient_by_sum.
    + intros q Hq. eapply p_eq.
      * apply p_sub; [|apply p_qty]. apply p_mul; [presp|presp|apply p_const|apply p_qty].
      * rewrite wsum_app, !wsum_wr by exact Hq. unfold delta.
        destruct (qty_eqb q b) eqn:E; [|lra]. apply qty_eqb_eq in E. subst q.
        rewrite (H Hq). lra.
    + intros q _. rewrite wcnt_app.
      pose proof (wcnt_wr (isv a) q a u). pose proof (wcnt_wr (isv b) q b v).
      destruct (qty_eqb q a) eqn:A, (qty_eqb q b) eqn:B; try lia.
      apply qty_eqb_eq in A. apply qty_eqb_eq in B. congruence.
Qed.

Lemma pair_gradient' a b u e : a <> b ->
  row_is_gradient isv (fun e => u * e a - e b)
    (wr (isv b) b (-1) ++ wr (isv a) a u) e.
Proof.
  intros N. apply gradient_by_sum.
  + intros q Hq. eapply p_eq.
    * apply p_sub; [|apply p_qty]. apply p_mul; [presp|presp|apply p_const|apply p_qty].
    * rewrite wsum_app, !wsum_wr by exact Hq. lra.
  + intros q _. rewrite wcnt_app.
    pose proof (wcnt_wr (isv a) q a u). pose proof (wcnt_wr (isv b) q b (-1)).
    destruct (qty_eqb q a) eqn:A, (qty_eqb q b) eqn:B; try lia.
    apply qty_eqb_eq in A. apply qty_eqb_eq in B. congruence.
Qed.

Lemma fuel_cell_mass_gradient Mo2 Mh2 i1 i2 o1 e j :
  NoDup (map cm [i1; i2; o1]) ->
  (j < List.length (fuel_cell_mass_func isv Mo2 Mh2 i1 i2 o1 e))%nat ->
  row_is_gradient isv (fun e => nth j (fuel_cell_mass_func isv Mo2 Mh2 i1 i2 o1 e) 0)
    (nth j (fuel_cell_mass_rows isv Mo2 Mh2 i1 i2 o1) []) e.
Proof.
  intros N. inversion N as [|? ? N1 N']; subst. inversion N' as [|? ? N2 _]; subst.
  simpl in N1, N2.
  assert (A : QM (cm o1) <> QM (cm i1)) by (intros X; injection X; tauto).
  assert (B : QM (cm o1) <> QM (cm i2)) by (intros X; injection X; tauto).
  unfold fuel_cell_mass_func, fuel_cell_mass_rows.
  destruct (isv (QM (cm i1)) || isv (QM (cm o1))) eqn:C1;
  destruct (isv (QM (cm i2)) || isv (QM (cm o1))) eqn:C2; simpl; intros L.
  - destruct j as [|[|j]]; [| |lia]; simpl.
    + exact (pair_gradient' _ _ (o2_share Mo2 Mh2) e A).
    + refine (proj2 (pair_gradient _ _ (1 - o2_share Mo2 Mh2) (-1) e B) _). auto.
  - destruct j; [|lia]. simpl. exact (pair_gradient' _ _ (o2_share Mo2 Mh2) e A).
  - destruct j; [|lia]. simpl.
    refine (proj2 (pair_gradient _ _ (1 - o2_share Mo2 Mh2) (-1) e B) _). auto.
  - lia.
Qed.

Lemma electrolyzer_mass_gradient Mo2 Mh2 i1 o1 o2 e j :
  NoDup (map cm [i1; o1; o2]) ->
  (j < List.length (electrolyzer_mass_func isv Mo2 Mh2 i1 o1 o2 e))%nat ->
  row_is_gradient isv (fun e => nth j (electrolyzer_mass_func isv Mo2 Mh2 i1 o1 o2 e) 0)
    (nth j (electrolyzer_mass_rows isv Mo2 Mh2 i1 o1 o2) []) e.
Proof.
  intros N. inversion N as [|? ? N1 N']; subst. simpl in N1.
  assert (A : QM (cm i1) <> QM (cm o1)) by (intros X; injection X; intros; apply N1; auto).
  assert (B : QM (cm i1) <> QM (cm o2)) by (intros X; injection X; intros; apply N1; auto).
  unfold electrolyzer_mass_func, electrolyzer_mass_rows.
  destruct (isv (QM (cm i1)) || isv (QM (cm o1))) eqn:C1;
  destruct (isv (QM (cm i1)) || isv (QM (cm o2))) eqn:C2; simpl; intros L.
  - destruct j as [|[|j]]; [| |lia]; simpl.
    + refine (proj2 (pair_gradient _ _ (o2_share Mo2 Mh2) (-1) e A) _). auto.
    + refine (proj2 (pair_gradient _ _ (1 - o2_share Mo2 Mh2) (-1) e B) _). auto.
  - destruct j; [|lia]. simpl.
    refine (proj2 (pair_gradient _ _ (o2_share Mo2 Mh2) (-1) e A) _). auto.
  - destruct j; [|lia]. simpl.
    refine (proj2 (pair_gradient _ _ (1 - o2_share Mo2 Mh2) (-1) e B) _). auto.
  - lia.
Qed.

(* ------------------------------------------------------------- pressure ratio *)
Definition flat_writes (l : list (option qty * R)) : list write :=
  flat_map (fun w => match fst w with Some q => [(q, snd w)] | None => [] end) l.

Lemma flat_some ws : flat_writes (map (fun w : write => (Some (fst w), snd w)) ws) = ws.
Proof. induction ws as [|[q v] ws IH]; simpl; auto. unfold flat_writes in *. simpl. now rewrite IH. Qed.

End Entries.
