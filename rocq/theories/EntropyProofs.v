From Coq Require Import Reals Lra.
From Verif Require Import Base ReportModel EntropyModel EntropySpec.
Open Scope R_scope.

Lemma mean_heat s T v p a b : gibbs s T v -> 0 < p -> 0 < a -> a < b ->
  exists x, a < x < b /\ s p b - s p a = (b - a) / T p x.
Proof.
  intros G P A L. destruct (MVT_cor2 (s p) (fun h => 1 / T p h) a b L) as (x & E & B).
  - intros c Hc. apply (g_h _ _ _ G); lra.
  - exists x. split; [assumption|]. rewrite E. field. pose proof (g_T _ _ _ G p x P ltac:(lra)). lra.
Qed.

Lemma s_increasing s T v p a b : gibbs s T v -> 0 < p -> 0 < a -> a < b -> s p a < s p b.
Proof.
  intros G P A L. destruct (mean_heat s T v p a b G P A L) as (x & B & E).
  assert (0 < (b - a) / T p x) by (apply Rdiv_lt_0_compat; [lra|apply (g_T _ _ _ G); lra]). lra.
Qed.
Lemma s_pressure s T v h p q : gibbs s T v -> 0 < p -> 0 < h -> p <= q -> s q h <= s p h.
Proof.
  intros G P A [L|L]; [|subst; lra].
  destruct (MVT_cor2 (fun p => s p h) (fun p => - v p h / T p h) p q L) as (x & E & B).
  - intros c Hc. apply (g_p _ _ _ G); lra.
  - pose proof (g_T _ _ _ G x h ltac:(lra) A). pose proof (g_v _ _ _ G x h ltac:(lra) A).
    assert (0 < v x h / T x h) by (apply Rdiv_lt_0_compat; lra).
    assert (0 < v x h / T x h * (q - p)) by (apply Rmult_lt_0_compat; lra).
    replace (- v x h / T x h * (q - p)) with (- (v x h / T x h * (q - p))) in E by (field; lra). lra.
Qed.

(** The virtual pressure lies between the pressures. *)
Lemma star_between p q : 0 < q -> q <= p -> q <= p * sqrt (q / p) <= p.
Proof.
  intros Q L. assert (P : 0 < p) by lra.
  assert (R0 : 0 < q / p) by (apply Rdiv_lt_0_compat; lra).
  assert (R1 : q / p <= 1).
  { apply (Rmult_le_reg_r p); [lra|]. unfold Rdiv. rewrite Rmult_assoc, Rinv_l by lra. lra. }
  assert (S1 : sqrt (q / p) <= 1) by (rewrite <- sqrt_1; apply sqrt_le_1_alt; lra).
  assert (S0 : 0 < sqrt (q / p)) by (apply sqrt_lt_R0; lra).
  assert (SS : sqrt (q / p) * sqrt (q / p) = q / p) by (apply sqrt_sqrt; lra).
  split.
  - assert (q / p <= sqrt (q / p)) by (rewrite <- SS at 1; nra).
    assert (p * (q / p) <= p * sqrt (q / p)) by (apply Rmult_le_compat_l; lra).
    replace (p * (q / p)) with q in H0 by (field; lra). lra.
  - nra.
Qed.
Lemma star_pos p q : 0 < q -> 0 < p -> 0 < p * sqrt (q / p).
Proof.
  intros Q P. apply Rmult_lt_0_compat; [lra|]. apply sqrt_lt_R0. apply Rdiv_lt_0_compat; lra.
Qed.

Lemma fdiv_inv a b x : fdiv a b = Ok x -> b <> 0 /\ x = a / b.
Proof. unfold fdiv. destruct (Req_EM_T b 0); [discriminate|]. intros H. injection H as <-. auto. Qed.
Lemma fdiv_some a b : b <> 0 -> fdiv a b = Ok (a / b).
Proof. unfold fdiv. destruct (Req_EM_T b 0); [contradiction|reflexivity]. Qed.

(** The balance of a simple heat exchanger adds up; it exists exactly if heat is transferred. *)
Lemma simple_sum : forall s s' i o b, simple_balance s s' i o = Ok b ->
  b_Q b + b_irr b = e_m i * (e_s o - e_s i) /\
  e_m i * (e_h o - e_h i) = b_T b * b_Q b.
Proof.
  unfold simple_balance. cbv zeta. intros s s' i o b H.
  destruct (fdiv _ _) as [T|] eqn:F; [|discriminate]. injection H as <-. cbn.
  apply fdiv_inv in F. destruct F as [N ->]. split; [ring|field; assumption].
Qed.
Lemma simple_defined : forall s T v i o, gibbs s T v -> 0 < e_p i -> 0 < e_p o -> 0 < e_h i -> 0 < e_h o ->
  ((exists b, simple_balance s s i o = Ok b) <-> e_h o <> e_h i).
Proof.
  intros s T v i o G Pi Po Hi Ho. unfold simple_balance. cbv zeta. set (p := e_p i * sqrt (e_p o / e_p i)).
  assert (P : 0 < p) by (apply star_pos; assumption). split.
  - intros (b & H) E. rewrite E in H. unfold fdiv in H.
    destruct (Req_EM_T (s p (e_h i) - s p (e_h i)) 0); [discriminate|lra].
  - intros N. rewrite fdiv_some; [eexists; reflexivity|].
    destruct (Rtotal_order (e_h i) (e_h o)) as [L|[L|L]]; [|congruence|];
      [pose proof (s_increasing s T v p _ _ G P Hi L)|pose proof (s_increasing s T v p _ _ G P Ho L)]; lra.
Qed.

(** Signs and mean temperature. *)
Lemma simple_signs : forall s T v i o b, gibbs s T v -> 0 < e_h i -> 0 < e_h o ->
  0 < e_p o -> e_p o <= e_p i -> 0 < e_m i -> consistent s i -> consistent s o ->
  simple_balance s s i o = Ok b ->
  0 <= b_irr b /\ (e_p o = e_p i -> b_irr b = 0) /\
  (0 < b_Q b <-> e_h i < e_h o) /\ (b_Q b < 0 <-> e_h o < e_h i).
Proof.
  intros s T v i o b G Hi Ho Po L M Ci Co H. pose proof (star_between _ _ Po L) as SB.
  assert (Pi : 0 < e_p i) by lra.
  assert (N : e_h o <> e_h i) by (apply (simple_defined s T v i o G Pi Po Hi Ho); eauto).
  unfold simple_balance in H. cbv zeta in H. set (p := e_p i * sqrt (e_p o / e_p i)) in *.
  destruct (fdiv _ _) as [Tm|]; [|discriminate]. injection H as <-. cbn.
  assert (P : 0 < p) by lra. rewrite Ci, Co.
  pose proof (s_pressure s T v (e_h o) (e_p o) p G Po Ho ltac:(lra)) as A.
  pose proof (s_pressure s T v (e_h i) p (e_p i) G P Hi ltac:(lra)) as B.
  split; [|split; [|split]].
  - replace (e_m i * (s (e_p o) (e_h o) - s (e_p i) (e_h i)) - e_m i * (s p (e_h o) - s p (e_h i)))
      with (e_m i * ((s (e_p o) (e_h o) - s p (e_h o)) + (s p (e_h i) - s (e_p i) (e_h i)))) by ring.
    apply Rmult_le_pos; lra.
  - intros E. assert (X : p = e_p i) by lra. rewrite E, X. ring.
  - split; intros K.
    + destruct (Rtotal_order (e_h i) (e_h o)) as [Z|[Z|Z]]; [assumption|congruence|].
      assert (J := fun A => s_increasing s T v p _ _ G P A Z). specialize (J ltac:(assumption)). nra.
    + assert (J := fun A => s_increasing s T v p _ _ G P A K). specialize (J ltac:(assumption)). apply Rmult_lt_0_compat; lra.
  - split; intros K.
    + destruct (Rtotal_order (e_h i) (e_h o)) as [Z|[Z|Z]]; [|congruence|assumption].
      assert (J := fun A => s_increasing s T v p _ _ G P A Z). specialize (J ltac:(assumption)). nra.
    + assert (J := fun A => s_increasing s T v p _ _ G P A K). specialize (J ltac:(assumption)). nra.
Qed.

Lemma simple_mean : forall s T v i o b, gibbs s T v -> heating T -> 0 < e_p i -> 0 < e_p o ->
  0 < e_h i -> 0 < e_h o ->
  simple_balance s s i o = Ok b ->
  let p := e_p i * sqrt (e_p o / e_p i) in
  Rmin (T p (e_h i)) (T p (e_h o)) <= b_T b <= Rmax (T p (e_h i)) (T p (e_h o)).
Proof.
  intros s T v i o b G Hh Pi Po Hi Ho H p.
  assert (N : e_h o <> e_h i) by (apply (simple_defined s T v i o G Pi Po Hi Ho); eauto).
  unfold simple_balance in H. cbv zeta in H. fold p in H.
  assert (P : 0 < p) by (apply star_pos; assumption).
  destruct (fdiv _ _) as [Tm|] eqn:F; [|discriminate]. injection H as <-. cbn.
  apply fdiv_inv in F. destruct F as [Nz ->].
  assert (X : exists x, (e_h i < x < e_h o \/ e_h o < x < e_h i) /\
     (e_h o - e_h i) / (s p (e_h o) - s p (e_h i)) = T p x).
  { destruct (Rtotal_order (e_h i) (e_h o)) as [Z|[Z|Z]]; [|congruence|].
    - destruct (mean_heat s T v p _ _ G P Hi Z) as (x & B & E). exists x. split; [auto|].
      rewrite E. field. pose proof (g_T _ _ _ G p x P ltac:(lra)). split; lra.
    - destruct (mean_heat s T v p _ _ G P Ho Z) as (x & B & E). exists x. split; [auto|].
      replace (s p (e_h o) - s p (e_h i)) with (- ((e_h i - e_h o) / T p x)) by lra.
      field. pose proof (g_T _ _ _ G p x P ltac:(lra)). split; lra. }
  destruct X as (x & B & ->). destruct B as [B|B].
  - pose proof (Hh p (e_h i) x P ltac:(lra) ltac:(lra)). pose proof (Hh p x (e_h o) P ltac:(lra) ltac:(lra)).
    rewrite Rmin_left, Rmax_right by lra. lra.
  - pose proof (Hh p (e_h o) x P ltac:(lra) ltac:(lra)). pose proof (Hh p x (e_h i) P ltac:(lra) ltac:(lra)).
    rewrite Rmin_right, Rmax_left by lra. lra.
Qed.

(** Heat exchangers. *)
Lemma side_simple s s' i o : e_m i <> 0 ->
  side_balance s s' (e_p o / e_p i) i o = simple_balance s s' i o.
Proof.
  intros M. unfold side_balance, simple_balance. cbv zeta.
  set (d := s' _ _ - s _ _). unfold fdiv.
  destruct (Req_EM_T (e_m i * d) 0) as [Z|Z], (Req_EM_T d 0) as [Y|Y]; cbn; try reflexivity.
  - apply Rmult_integral in Z. tauto.
  - rewrite Y in Z. exfalso. apply Z. ring.
  - do 2 f_equal. field. split; assumption.
Qed.

Lemma hx_sum : forall s1 s1' s2 s2' pr1 pr2 i1 i2 o1 o2 b1 b2 S,
  hx_balance s1 s1' s2 s2' pr1 pr2 i1 i2 o1 o2 = Ok (b1, b2, S) ->
  S = e_m i1 * (e_s o1 - e_s i1) + e_m i2 * (e_s o2 - e_s i2) /\
  S = (b_irr b1 + b_irr b2) + (b_Q b1 + b_Q b2).
Proof.
  unfold hx_balance. intros s1 s1' s2 s2' pr1 pr2 i1 i2 o1 o2 b1 b2 S H.
  destruct (side_balance s1 s1' pr1 i1 o1) as [c1|] eqn:B1; [|discriminate]. cbn [rbind] in H.
  destruct (side_balance s2 s2' pr2 i2 o2) as [c2|] eqn:B2; [|discriminate]. cbn [rbind] in H.
  injection H as -> -> <-.
  unfold side_balance in B1, B2. cbv zeta in B1, B2.
  destruct (fdiv _ _) as [T1|] in B1; [|discriminate]. injection B1 as <-.
  destruct (fdiv _ _) as [T2|] in B2; [|discriminate]. injection B2 as <-. cbn. split; ring.
Qed.

(** Second law of the heat exchanger: without pressure rise and with the heat given from the
    higher to the lower mean temperature entropy is produced. *)
Lemma hx_second_law : forall s1 T1 v1 s2 T2 v2 i1 i2 o1 o2 b1 b2 S,
  gibbs s1 T1 v1 -> gibbs s2 T2 v2 -> 0 < e_h i1 -> 0 < e_h i2 -> 0 < e_h o1 -> 0 < e_h o2 ->
  0 < e_p o1 -> e_p o1 <= e_p i1 -> 0 < e_p o2 -> e_p o2 <= e_p i2 -> 0 < e_m i1 -> 0 < e_m i2 ->
  consistent s1 i1 -> consistent s1 o1 -> consistent s2 i2 -> consistent s2 o2 ->
  hx_balance s1 s1 s2 s2 (e_p o1 / e_p i1) (e_p o2 / e_p i2) i1 i2 o1 o2 = Ok (b1, b2, S) ->
  e_m i1 * (e_h o1 - e_h i1) + e_m i2 * (e_h o2 - e_h i2) = 0 ->
  e_h o1 < e_h i1 ->
  (b_T b2 <= b_T b1 -> 0 <= S) /\
  b_Q b1 + b_Q b2 = e_m i1 * (e_h i1 - e_h o1) * (1 / b_T b2 - 1 / b_T b1).
Proof.
  intros s1 T1 v1 s2 T2 v2 i1 i2 o1 o2 b1 b2 S G1 G2 H1 H2 H3 H4 P1 L1 P2 L2 M1 M2 C1 D1 C2 D2 H En Hot.
  pose proof (hx_sum _ _ _ _ _ _ _ _ _ _ _ _ _ H) as [_ Sm].
  unfold hx_balance in H. rewrite !side_simple in H by lra.
  destruct (simple_balance s1 s1 i1 o1) as [c1|] eqn:B1; [|discriminate]. cbn [rbind] in H.
  destruct (simple_balance s2 s2 i2 o2) as [c2|] eqn:B2; [|discriminate]. cbn [rbind] in H.
  injection H as -> -> _.
  destruct (simple_signs _ _ _ _ _ _ G1 H1 H3 P1 L1 M1 C1 D1 B1) as (I1 & _ & _ & N1).
  destruct (simple_signs _ _ _ _ _ _ G2 H2 H4 P2 L2 M2 C2 D2 B2) as (I2 & _ & Q2 & _).
  destruct (simple_sum _ _ _ _ _ B1) as [_ E1]. destruct (simple_sum _ _ _ _ _ B2) as [_ E2].
  assert (K1 : b_Q b1 < 0) by (apply N1; assumption).
  assert (Cold : e_h i2 < e_h o2).
  { assert (e_m i1 * (e_h i1 - e_h o1) > 0) by (apply Rmult_lt_0_compat; lra). nra. }
  assert (K2 : 0 < b_Q b2) by (apply Q2; assumption).
  set (Q := e_m i1 * (e_h i1 - e_h o1)).
  assert (Qp : 0 < Q) by (apply Rmult_lt_0_compat; lra).
  assert (F1 : b_T b1 * b_Q b1 = - Q) by (rewrite <- E1; unfold Q; ring).
  assert (F2 : b_T b2 * b_Q b2 = Q) by (rewrite <- E2; unfold Q; lra).
  assert (Tp1 : 0 < b_T b1) by nra. assert (Tp2 : 0 < b_T b2) by nra.
  assert (X1 : b_Q b1 = - (Q / b_T b1)) by (apply (Rmult_eq_reg_l (b_T b1)); [|lra]; rewrite F1; field; lra).
  assert (X2 : b_Q b2 = Q / b_T b2) by (apply (Rmult_eq_reg_l (b_T b2)); [|lra]; rewrite F2; field; lra).
  split; [|rewrite X1, X2; field; lra].
  intros Lt. rewrite Sm.
  assert (Q / b_T b1 <= Q / b_T b2).
  { unfold Rdiv. apply Rmult_le_compat_l; [lra|]. apply Rinv_le_contravar; assumption. }
  lra.
Qed.

(** Turbomachines and valves. *)
Lemma throttle : forall s T v i o, gibbs s T v -> 0 < e_h i -> consistent s i -> consistent s o ->
  0 < e_p o -> e_p o <= e_p i -> e_h o = e_h i -> 0 <= e_m i -> 0 <= flow_balance i o.
Proof.
  intros s T v i o G Hi Ci Co Po L E M. unfold flow_balance. rewrite Ci, Co, E.
  pose proof (s_pressure s T v (e_h i) (e_p o) (e_p i) G Po Hi L). apply Rmult_le_pos; lra.
Qed.
Lemma machine : forall s T v i o hs, gibbs s T v -> 0 < hs -> 0 < e_h o -> consistent s i -> consistent s o -> 0 < e_p o ->
  s (e_p o) hs = e_s i -> 0 < e_m i -> (0 <= flow_balance i o <-> hs <= e_h o).
Proof.
  intros s T v i o hs G Hs Ho Ci Co Po Is M. unfold flow_balance. rewrite <- Is, Co. split; intros H.
  - apply Rnot_lt_le. intros K. pose proof (s_increasing s T v (e_p o) _ _ G Po Ho K). nra.
  - destruct H as [H|H]; [|subst; lra].
    pose proof (s_increasing s T v (e_p o) _ _ G Po Hs H). apply Rmult_le_pos; lra.
Qed.

(** Nothing is reported for a stream that is not heated. *)
Lemma adiabatic : forall s i o, e_h o = e_h i ->
  simple_balance s s i o = Err ZeroDivisionError.
Proof.
  intros s i o E. unfold simple_balance. cbv zeta. rewrite E. unfold fdiv.
  destruct (Req_EM_T _ 0) as [_|N]; [reflexivity|]. exfalso. apply N. ring.
Qed.
Lemma no_flow : forall s1 s1' s2 s2' pr1 pr2 i1 i2 o1 o2, e_m i1 = 0 ->
  hx_balance s1 s1' s2 s2' pr1 pr2 i1 i2 o1 o2 = Err ZeroDivisionError.
Proof.
  intros. unfold hx_balance, side_balance. cbv zeta. rewrite H. unfold fdiv.
  destruct (Req_EM_T _ 0) as [_|N]; [reflexivity|]. exfalso. apply N. ring.
Qed.
