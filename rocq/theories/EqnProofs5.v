(** What solved equations of specified values mean. *)
From Coq Require Import Reals List String Bool Arith Lra Lia.
From Verif Require Import Base EqnModel EqnSpec EqnProofs.
Import ListNotations.
Open Scope R_scope.

Lemma quotient_iff a b q : b <> 0 -> (a = q * b <-> a / b = q).
Proof. intros B. split; intros H; [rewrite H; now field|rewrite <- H; now field]. Qed.

Lemma solved_pr inl outl pr inc outc i o e : nth_error inl inc = Some i -> nth_error outl outc = Some o -> vp e i <> 0 ->
  (pr_func inl outl pr inc outc e = Ok 0 <-> vp e o / vp e i = pval e pr).
Proof.
  intros I O N. unfold pr_func. rewrite I, O. rewrite <- (quotient_iff (vp e o) (vp e i) (pval e pr) N). split.
  - intros H. injection H as H. lra.
  - intros H. f_equal. lra.
Qed.
Lemma solved_dp i o dp e : dp_func i o dp e = 0 <-> vp e o = vp e i - dp.
Proof. unfold dp_func. split; intros H; lra. Qed.
Lemma solved_pump his i o eta e : let dh := his (vp e i) (vh e i) (vp e o) - vh e i in vh e o <> vh e i ->
  (pump_eta_func his i o eta e = 0 <-> dh / (vh e o - vh e i) = pval e eta).
Proof. intros dh N. unfold pump_eta_func. fold dh. rewrite <- quotient_iff by lra. split; intros H; lra. Qed.
Lemma solved_turbine his i o eta e : let dh := his (vp e i) (vh e i) (vp e o) - vh e i in dh <> 0 ->
  (turbine_eta_func his i o eta e = 0 <-> (vh e o - vh e i) / dh = pval e eta).
Proof. intros dh N. unfold turbine_eta_func. fold dh. rewrite <- quotient_iff by lra. split; intros H; lra. Qed.
Lemma solved_map g prd i o e : vp e i <> 0 -> prd <> 0 ->
  (char_map_pr_func g prd i o e = 0 <-> (vp e o / vp e i) / prd = g (vm e i) (vp e i) (vh e i)).
Proof. intros N D. unfold char_map_pr_func. rewrite <- quotient_iff by exact D. split; intros H; lra. Qed.
Lemma solved_valve g i o e : dp_char_func g i o e = 0 <-> vp e i - vp e o = g (vm e i).
Proof. unfold dp_char_func. split; intros H; lra. Qed.
Lemma solved_ref q r factor delta0 e : ref_func q r factor delta0 e = 0 <-> e q = factor * e r + delta0.
Proof. unfold ref_func. split; intros H; lra. Qed.
Lemma solved_tref Tc Tr a b f factor delta0 e : tref_fluid_func Tc Tr a b f factor delta0 e = 0 <-> Tc (e (QF a f)) = factor * Tr (e (QF b f)) + delta0.
Proof. unfold tref_fluid_func. split; intros H; lra. Qed.
Lemma solved_v vol c v e : v_func vol c v e = 0 <-> vm e c * vol (vp e c) (vh e c) = v.
Proof. unfold v_func. split; intros H; lra. Qed.
Lemma solved_vref volc volr c r factor delta0 e : vref_func volc volr c r factor delta0 e = 0 <->
  vm e c * volc (vp e c) (vh e c) = factor * (vm e r * volr (vp e r) (vh e r)) + delta0.
Proof. unfold vref_func. split; intros H; lra. Qed.
Lemma solved_x hq c e : x_func hq c e = 0 <-> vh e c = hq (vp e c).
Proof. unfold x_func. split; intros H; lra. Qed.
Lemma solved_sat hs o e : sat_func hs o e = 0 <-> vh e o = hs (vp e o).
Proof. unfold sat_func. split; intros H; lra. Qed.
Lemma solved_kA td i1 o1 kA e : td e <> 0 -> (hx_kA_func td i1 o1 kA e = 0 <-> vm e i1 * (vh e i1 - vh e o1) / td e = kA).
Proof. intros N. unfold hx_kA_func. rewrite <- quotient_iff by exact N. split; intros H; lra. Qed.
Lemma solved_eff_cold hpT Tph i1 i2 o2 eff e : let dmax := hpT (vp e o2) (Tph (vp e i1) (vh e i1)) - vh e i2 in dmax <> 0 ->
  (hx_eff_cold_func hpT Tph i1 i2 o2 eff e = 0 <-> (vh e o2 - vh e i2) / dmax = eff).
Proof. intros d N. unfold hx_eff_cold_func. fold d. rewrite <- quotient_iff by exact N. split; intros H; lra. Qed.
Lemma solved_eff_hot hpT Tph i1 i2 o1 eff e : let dmax := hpT (vp e o1) (Tph (vp e i2) (vh e i2)) - vh e i1 in dmax <> 0 ->
  (hx_eff_hot_func hpT Tph i1 i2 o1 eff e = 0 <-> (vh e o1 - vh e i1) / dmax = eff).
Proof. intros d N. unfold hx_eff_hot_func. fold d. rewrite <- quotient_iff by exact N. split; intros H; lra. Qed.
Lemma fold_plus l a : fold_left Rplus l a = a + fold_right Rplus 0 l.
Proof. revert a. induction l as [|x l IH]; cbn; intros a; [lra|]. rewrite IH. lra. Qed.
Lemma solved_fractions a fixed vars e : fluid_balance_func a fixed vars e = 0 <-> fold_right Rplus 0 (map (fun f => e (QF a f)) (fixed ++ vars)) = 1.
Proof.
  unfold fluid_balance_func. rewrite !fold_plus. assert (X : forall l l', fold_right Rplus 0 (l ++ l') = fold_right Rplus 0 l + fold_right Rplus 0 l').
  { induction l as [|x l IH]; cbn; intros l'; [lra|]. rewrite IH. lra. }
  rewrite map_app, X. split; intros H; lra.
Qed.
Lemma solved_fuel_cell e0 hc P eta e : vm e hc * e0 <> 0 -> (fuel_cell_eta_func e0 hc P eta e = 0 <-> pval e P / (vm e hc * e0) = pval e eta).
Proof. intros N. unfold fuel_cell_eta_func. rewrite <- quotient_iff by exact N. split; intros H; lra. Qed.
Lemma solved_electrolyzer e0 hc P eta e : pval e P <> 0 -> (electrolyzer_eta_func e0 hc P eta e = 0 <-> vm e hc * e0 / pval e P = pval e eta).
Proof. intros N. unfold electrolyzer_eta_func. rewrite <- quotient_iff by exact N. split; intros H; lra. Qed.
Lemma solved_energy hc P en e : vm e hc <> 0 -> (spec_energy_func hc P en e = 0 <-> pval e P / vm e hc = pval e en).
Proof. intros N. unfold spec_energy_func. rewrite <- quotient_iff by exact N. split; intros H; lra. Qed.

(** The entry of the referenced composition: minus the derivative, where it should be minus
    factor times the derivative. *)
Lemma tref_entry isv filt Tc Tr dTc dTr a b f factor delta0 e : a <> b -> isv (QF a f) = true -> isv (QF b f) = true -> filt (QF b f) = false ->
  derivable_pt_lim Tc (e (QF a f)) (dTc (e (QF a f))) -> derivable_pt_lim Tr (e (QF b f)) (dTr (e (QF b f))) -> (factor = 1 \/ dTr (e (QF b f)) = 0) ->
  partial_is (tref_fluid_func Tc Tr a b f factor delta0) e (QF a f) (entry (tref_fluid_writes isv filt dTc dTr a b f e) (QF a f)) /\
  partial_is (tref_fluid_func Tc Tr a b f factor delta0) e (QF b f) (entry (tref_fluid_writes isv filt dTc dTr a b f e) (QF b f)).
Proof.
  intros N VA VB FB DA DB F. unfold partial_is, entry, tref_fluid_writes, run_writes, wr, tref_fluid_func. rewrite VA, VB, FB. cbn [negb andb app fold_left]. unfold set_entry, empty_row, upd. cbn [fst snd qty_eqb].
  assert (NA : Nat.eqb a b = false /\ Nat.eqb b a = false) by (split; apply Nat.eqb_neq; congruence). destruct NA as (NA & NB). rewrite ?Nat.eqb_refl, ?String.eqb_refl, ?NA, ?NB. cbn [andb]. split.
  - rewrite <- (Rminus_0_r (dTc (e (QF a f)))). apply (derivable_pt_lim_minus Tc (fun _ => Tr (e (QF b f)) * factor + delta0)); [exact DA|apply derivable_pt_lim_const].
  - replace (- dTr (e (QF b f))) with (0 - (dTr (e (QF b f)) * factor + 0)) by (destruct F as [->| ->]; lra).
    apply (derivable_pt_lim_minus (fun _ => Tc (e (QF a f))) (fun x => Tr x * factor + delta0)); [apply derivable_pt_lim_const|].
    apply (derivable_pt_lim_plus (fun x => Tr x * factor) (fun _ => delta0)); [|apply derivable_pt_lim_const].
    assert (E : dTr (e (QF b f)) * factor = dTr (e (QF b f)) * factor + Tr (e (QF b f)) * 0) by lra. rewrite E.
    apply (derivable_pt_lim_mult Tr (fun _ => factor)); [exact DB|apply derivable_pt_lim_const].
Qed.
(** With the filter the entry is left out though the derivative is not zero. *)
Lemma tref_filtered isv filt dTc dTr a b f e : a <> b -> isv (QF b f) = true -> filt (QF b f) = true ->
  run_writes empty_row (tref_fluid_writes isv filt dTc dTr a b f e) (QF b f) = None.
Proof.
  intros N VB FB. unfold tref_fluid_writes, wr, run_writes. rewrite VB, FB. cbn [negb andb]. rewrite app_nil_r. destruct (isv (QF a f)); cbn [fold_left]; [|reflexivity].
  unfold set_entry, empty_row. cbn [fst snd qty_eqb]. assert (NA : Nat.eqb a b = false /\ Nat.eqb b a = false) by (split; apply Nat.eqb_neq; congruence). destruct NA as (NA & NB). now rewrite ?NA, ?NB.
Qed.
