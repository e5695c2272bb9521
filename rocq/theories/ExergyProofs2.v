(** Proofs: efficiency, merges at ambient temperature, terminals, engine entropy. *)
From Coq Require Import QArith Lqa.
From Verif Require Import Base ExergyModel ExergySpec.
Open Scope Q_scope.

Lemma epsilon_val : forall f p e, calc_epsilon (Some f) (Some p) = Some e ->
  ~ f == 0 /\ e * f == p.
Proof.
  intros f p e H. unfold calc_epsilon in H.
  destruct (Qeq_bool f 0) eqn:Z; [discriminate H |]. cbn in H. injection H as <-.
  apply Qeq_bool_neq in Z. split; [exact Z |]. field. exact Z.
Qed.
Lemma epsilon_some : forall f p, (exists e, calc_epsilon (Some f) (Some p) = Some e) <-> ~ f == 0.
Proof.
  intros f p. unfold calc_epsilon. split.
  - intros (e & H) Z. apply Qeq_bool_iff in Z. rewrite Z in H. discriminate H.
  - intros N. destruct (Qeq_bool f 0) eqn:Z; [apply Qeq_bool_iff in Z; contradiction |].
    exists (p / f). reflexivity.
Qed.

Lemma efficiency_of_finish : forall F P bus f p, F = Some f -> P = Some p ->
  ((exists e, epsilon (finish F P bus) = Some e) <-> ~ f == 0)
  /\ forall e, epsilon (finish F P bus) = Some e -> e * f == p.
Proof.
  intros F P bus f p -> ->. split; [apply epsilon_some | intros e H; apply (epsilon_val f p e H)].
Qed.

Lemma finish_efficient : forall F P bus, efficient (finish F P bus).
Proof.
  intros [f |] [p |] bus; unfold efficient; cbn [finish E_F E_P].
  - apply (efficiency_of_finish _ _ bus f p); reflexivity.
  - cbn [finish epsilon calc_epsilon]. destruct (Qeq_bool f 0); reflexivity.
  - reflexivity.
  - reflexivity.
Qed.
Lemma finish_nan_efficient : forall F P bus, efficient (finish_nan F P bus).
Proof. intros F P bus. exact (finish_efficient F P bus). Qed.

Lemma all_efficient : forall a Pw Qv d bus i o i1 i2 o1 o2 o3 ins,
  efficient (turbine_exergy a Pw i o) /\ efficient (compressor_exergy a Pw i o)
  /\ efficient (valve_exergy a i o) /\ efficient (hx_exergy a i1 i2 o1 o2)
  /\ efficient (fst (simple_exergy a Qv d i o)) /\ efficient (merge_exergy a ins o)
  /\ efficient (drum_exergy a i1 i2 o1 o2) /\ efficient (electrolyzer_exergy a Pw i1 i2 o1 o2 o3)
  /\ efficient (chamber_exergy a bus i1 i2 o) /\ efficient (terminal_exergy a i).
Proof.
  intros a Pw Qv d bus i o i1 i2 o1 o2 o3 ins.
  assert (F := finish_efficient). assert (N := finish_nan_efficient).
  refine (conj _ (conj _ (conj _ (conj _ (conj _ (conj _ (conj _ (conj _ (conj _ _))))))))).
  - unfold turbine_exergy. match goal with |- context [match ?x with pair _ _ => _ end] => destruct x end. apply F.
  - unfold compressor_exergy. match goal with |- context [match ?x with pair _ _ => _ end] => destruct x end. apply F.
  - unfold valve_exergy. match goal with |- context [match ?x with pair _ _ => _ end] => destruct x end. apply N.
  - unfold hx_exergy. cbv zeta. match goal with |- context [match ?x with pair _ _ => _ end] => destruct x end. apply N.
  - unfold simple_exergy. cbv zeta.
    match goal with |- context [match ?x with pair _ _ => _ end] => destruct x as [[? ?] ?] end. apply N.
  - unfold merge_exergy. match goal with |- context [match ?x with pair _ _ => _ end] => destruct x end. apply F.
  - unfold drum_exergy. apply F.
  - unfold electrolyzer_exergy. apply F.
  - unfold chamber_exergy. apply F.
  - reflexivity.
Qed.

Lemma fold_ex : forall a ins acc,
  fold_left (fun acc i => acc + Ex_physical a i) ins acc == acc + sum_of ins (flow_exergy a).
Proof.
  intros a ins. induction ins as [| c ins IH]; intros acc; cbn [fold_left sum_of fold_right]; [ring |].
  rewrite IH. fold (sum_of ins (flow_exergy a)).
  unfold Ex_physical, ex_physical, ex_therm, ex_mech, flow_exergy. ring.
Qed.
Lemma merge_ambient : forall a ins o, x_T o == a_T a ->
  reports (E_F (merge_exergy a ins o)) (sum_of ins (flow_exergy a))
  /\ E_P (merge_exergy a ins o) = None /\ E_D (merge_exergy a ins o) = None
  /\ epsilon (merge_exergy a ins o) = None.
Proof.
  intros a ins o T. unfold merge_exergy.
  assert (G : gt (x_T o) (a_T a) = false).
  { unfold gt. apply Bool.negb_false_iff. apply Qle_bool_iff. lra. }
  rewrite G. assert (Z : Qeq_bool (x_T o) (a_T a) = true) by (apply Qeq_bool_iff; exact T).
  rewrite Z. cbn [finish E_F E_P E_D epsilon nsub nlift].
  split; [| split; [reflexivity | split; [reflexivity |]]].
  - eexists; split; [reflexivity |]. rewrite fold_ex. ring.
  - cbn [calc_epsilon]. match goal with |- context [Qeq_bool ?x 0] => destruct (Qeq_bool x 0) end; reflexivity.
Qed.

Lemma terminal_shares : forall a c, exists ch ph,
  E_bus (terminal_exergy a c) = Shares (Some ch) (Some ph) (Some 0)
  /\ ch == x_m c * x_chem c /\ ph == flow_exergy a c
  /\ E_F (terminal_exergy a c) = None /\ E_P (terminal_exergy a c) = None.
Proof.
  intros a c. exists (Ex_chemical c), (Ex_physical a c). repeat split.
  unfold Ex_physical, ex_physical, ex_therm, ex_mech, flow_exergy. ring.
Qed.

Lemma engine_entropy_sum : forall T_v eta P Q1 Q2 star1 star2 i1 i2 o1 o2,
  ~ T_v == 0 -> ~ eta == 0 ->
  let e := engine_entropy_balance T_v eta P Q1 Q2 star1 star2 i1 i2 o1 o2 in
  S_irr e * T_v == T_v * (x_m i1 * (x_s o1 - x_s i1) + x_m i2 * (x_s o2 - x_s i2))
                   - Q1 - Q2 + (1 / eta - 1) * P.
Proof.
  intros T_v eta P Q1 Q2 star1 star2 i1 i2 o1 o2 N E e. subst e.
  unfold engine_entropy_balance, side_entropy. cbn [S_irr fst snd]. field. split; assumption.
Qed.

Lemma engine_entropy_parts : forall T_v eta P Q1 Q2 star1 star2 i1 i2 o1 o2,
  let e := engine_entropy_balance T_v eta P Q1 Q2 star1 star2 i1 i2 o1 o2 in
  let heat (i : conn) (star : Q * Q) := x_m i * (snd star - fst star) in
  S_Q1irr e == heat i1 star1 - Q1 / T_v /\ S_Q2irr e == heat i2 star2 - Q2 / T_v
  /\ S_irr1 e == x_m i1 * (x_s o1 - x_s i1) - heat i1 star1
  /\ S_irr2 e == x_m i2 * (x_s o2 - x_s i2) - heat i2 star2
  /\ S_irr_i e == (1 / eta - 1) * P / T_v
  /\ S_irr e == S_irr_i e + S_irr1 e + S_irr2 e + S_Q1irr e + S_Q2irr e.
Proof.
  intros T_v eta P Q1 Q2 star1 star2 i1 i2 o1 o2 e heat. subst e heat.
  unfold engine_entropy_balance, side_entropy. cbn [S_irr S_Q1irr S_Q2irr S_irr1 S_irr2 S_irr_i fst snd].
  repeat split; try reflexivity. ring.
Qed.
