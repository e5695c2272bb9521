(** Lemmas about the heat transfer coefficient of moving boundary heat exchangers, witnesses. *)
From Coq Require Import Reals Qreals Lqa Lra Sorting.Sorted.
From Verif Require Import MbModel ReportSpec ReportProofs MbSpec MbProofs.
Open Scope nat_scope.
Open Scope list_scope.

Lemma round6_near x : (Qabs (x * 1000000 - inject_Z (round6 x)) <= 1 # 2)%Q.
Proof.
  unfold round6. set (y := (x * 1000000)%Q). pose proof (Qfloor_le y) as L. pose proof (Qlt_floor y) as U. rewrite inject_Z_plus in U.
  change (inject_Z 1) with 1%Q in U. set (f := Qfloor y) in *.
  destruct (Qcompare (y - inject_Z f) (1 # 2)) eqn:E.
  - apply Qeq_alt in E. destruct (Z.even f); apply Qabs_Qle_condition; rewrite ?inject_Z_plus; change (inject_Z 1) with 1%Q; split; Lqa.lra.
  - apply Qlt_alt in E. apply Qabs_Qle_condition; split; Lqa.lra.
  - apply Qgt_alt in E. apply Qabs_Qle_condition; rewrite inject_Z_plus; change (inject_Z 1) with 1%Q; split; Lqa.lra.
Qed.
Lemma round6_eq a b : round6 a = round6 b -> (Qabs (b - a) <= 1 # 1000000)%Q.
Proof.
  intros E. pose proof (round6_near a) as A. pose proof (round6_near b) as B. rewrite E in A. apply Qabs_Qle_condition in A. apply Qabs_Qle_condition in B.
  apply Qabs_Qle_condition. split; Lqa.lra.
Qed.

Lemma Q2R_pos a : (0 < a)%Q -> (0 < Q2R a)%R.
Proof. intros H. apply Qlt_Rlt in H. now rewrite RMicromega.Q2R_0 in H. Qed.

Lemma td_log_mean a b : (0 < a)%Q -> (0 < b)%Q -> exists L, td_log a b = Ok L /\ (0 < L)%R /\ between (Q2R a) (Q2R b) L /\
  ((1 # 1000000) < Qabs (b - a) -> is_log_mean (Q2R a) (Q2R b) L)%Q.
Proof.
  intros A B. pose proof (Q2R_pos _ A) as RA. pose proof (Q2R_pos _ B) as RB. unfold td_log. destruct (Z.eqb (round6 b) (round6 a)) eqn:E.
  - apply Z.eqb_eq in E. exists (Q2R b). split; [reflexivity|]. split; [exact RB|]. split.
    + split; [apply Rmin_r|apply Rmax_r].
    + intros N. pose proof (round6_eq a b (eq_sym E)). exfalso. Lqa.lra.
  - assert (NE : ~ (a == b)%Q).
    { intros EQ. apply Z.eqb_neq in E. apply E. unfold round6.
      assert (X : (a * 1000000 == b * 1000000)%Q) by (now rewrite EQ). pose proof (Qfloor_comp _ _ X) as FX. rewrite <- FX.
      assert (Y : ((b * 1000000 - inject_Z (Qfloor (a * 1000000)) ?= 1 # 2) = (a * 1000000 - inject_Z (Qfloor (a * 1000000)) ?= 1 # 2))%Q)
        by (apply Qcompare_comp; [Lqa.lra|reflexivity]). now rewrite Y. }
    destruct (Qeq_bool a 0) eqn:Ea; [apply Qeq_bool_eq in Ea; exfalso; Lqa.lra|].
    destruct (Qeq_bool b 0) eqn:Eb; [apply Qeq_bool_eq in Eb; exfalso; Lqa.lra|].
    assert (NR : Q2R b <> Q2R a) by (intros X; apply NE; apply eqR_Qeq in X; now rewrite X).
    destruct (mean_is (Q2R b) (Q2R a) RB RA NR) as (M1 & M2 & M3). eexists. split; [reflexivity|]. split; [exact M1|].
    assert (G : is_log_mean (Q2R a) (Q2R b) ((Q2R b - Q2R a) / ln (Q2R b / Q2R a))).
    { apply log_mean_sym. split; [exact M1|]. split; [exact M2|exact M3]. }
    split; [exact (proj1 (proj2 G))|]. intros _. exact G.
Qed.

Lemma UA_sum_total (D : Q -> Q) qs : qs <> [] -> StronglySorted Qle qs -> (forall q, In q qs -> (0 < D q)%Q) ->
  exists u, UA_sum qs (map D qs) = Ok u /\ total D qs u.
Proof.
  induction qs as [|q1 qs IH]; [congruence|]. intros _ S P. destruct qs as [|q2 qs].
  - exists 0%R. split; [reflexivity|constructor].
  - inversion S as [|? ? S1 F]; subst. rewrite Forall_forall in F. destruct IH as (r & R1 & R2); [discriminate|exact S1|intros q Q; apply P; now right|].
    pose proof (P q1 (or_introl eq_refl)) as P1. pose proof (P q2 (or_intror (or_introl eq_refl))) as P2.
    pose proof (F q2 (or_introl eq_refl)) as LE.
    assert (X1 : Qabs (D q1) == D q1) by (apply Qabs_pos, Qlt_le_weak, P1). assert (X2 : Qabs (D q2) == D q2) by (apply Qabs_pos, Qlt_le_weak, P2).
    destruct (td_log_mean (Qabs (D q1)) (Qabs (D q2))) as (L & E & L0 & LB & LM); [rewrite X1; exact P1|rewrite X2; exact P2|].
    rewrite (Qeq_eqR _ _ X1), (Qeq_eqR _ _ X2) in *.
    exists (Q2R (q2 - q1) / L + r)%R. split.
    + change (UA_sum (q1 :: q2 :: qs) (map D (q1 :: q2 :: qs))) with
        (rbind (td_log (Qabs (D q1)) (Qabs (D q2))) (fun t => rbind (UA_section (q2 - q1) t) (fun u => rmap (fun r => (u + r)%R) (UA_sum (q2 :: qs) (map D (q2 :: qs)))))).
      rewrite E. cbn [rbind]. unfold UA_section. destruct (Req_EM_T L 0) as [Z|_]; [lra|]. cbn [rbind]. rewrite R1. cbn [rmap].
      assert (X3 : Qabs (q2 - q1) == q2 - q1) by (apply Qabs_pos; Lqa.lra). now rewrite (Qeq_eqR _ _ X3).
    + constructor; [exact L0|exact LB| |exact R2]. intros H. apply LM. rewrite X1, X2. exact H.
Qed.

Lemma div_bounds a L lo hi : (0 <= a -> 0 < L -> lo <= L -> L <= hi -> a / L * lo <= a /\ a <= a / L * hi)%R.
Proof.
  intros A L0 B C. assert (X : (a = a / L * L)%R) by (field; lra). assert (Y : (0 <= a / L)%R).
  { apply Rmult_le_pos; [exact A|]. left. now apply Rinv_0_lt_compat. }
  split; [rewrite X at 2|rewrite X at 1]; apply Rmult_le_compat_l; assumption.
Qed.

Lemma total_bounds D qs u lo hi : total D qs u -> StronglySorted Qle qs -> (forall q, In q qs -> (lo <= Q2R (D q) <= hi)%R) ->
  forall x, hd_error qs = Some x -> (u * lo <= Q2R (last qs 0%Q - x) /\ Q2R (last qs 0%Q - x) <= u * hi)%R.
Proof.
  induction 1 as [q|q1 q2 qs L r L0 LB _ T IH]; intros S B x X; inversion X; subst.
  - cbn [last]. rewrite Q2R_minus. lra.
  - inversion S as [|? ? S1 F]; subst. rewrite Forall_forall in F. pose proof (F q2 (or_introl eq_refl)) as LE.
    destruct (IH S1 (fun q Q => B q (or_intror Q)) q2 eq_refl) as (I1 & I2). change (last (x :: q2 :: qs) 0%Q) with (last (q2 :: qs) 0%Q).
    pose proof (B x (or_introl eq_refl)) as B1. pose proof (B q2 (or_intror (or_introl eq_refl))) as B2.
    assert (BL : (lo <= L <= hi)%R).
    { destruct LB as (U & V). unfold Rmin, Rmax in U, V. destruct (Rle_dec (Q2R (D x)) (Q2R (D q2))); lra. }
    assert (A : (0 <= Q2R (q2 - x))%R). { rewrite Q2R_minus. apply Qle_Rle in LE. lra. }
    destruct (div_bounds _ L lo hi A L0 (proj1 BL) (proj2 BL)) as (J1 & J2). assert (DEC : (Q2R (last (q2 :: qs) 0%Q - x) = Q2R (q2 - x) + Q2R (last (q2 :: qs) 0%Q - q2))%R) by (rewrite !Q2R_minus; lra).
    rewrite DEC, !Rmult_plus_distr_r. lra.
Qed.

Lemma UA_value hot cold d qs : exchanging hot cold d -> saturation_ok (fl hot) -> saturation_ok (fl cold) -> assign_sections hot cold = Ok qs ->
  (forall q, In q qs -> (0 < difference hot cold q)%Q) ->
  exists u, calc_UA hot cold = Ok u /\ total (difference hot cold) qs u /\
    forall lo hi, (forall q, In q qs -> (lo <= Q2R (difference hot cold q) <= hi)%R) -> (u * lo <= Q2R d <= u * hi)%R.
Proof.
  intros E S1 S2 A P. destruct (sections _ _ _ _ E S1 S2 A) as (SS & (x0 & X0 & X1) & L & R & _).
  destruct (UA_sum_total (difference hot cold) qs) as (u & U1 & U2); [destruct qs; discriminate|exact SS|exact P|].
  exists u. split; [|split; [exact U2|]].
  - unfold calc_UA. rewrite A. cbn [rbind]. exact U1.
  - intros lo hi B. destruct (total_bounds _ _ _ lo hi U2 SS B x0 X0) as (Y1 & Y2).
    assert (X : (last qs 0 - x0 == d)%Q) by (rewrite L, X1; ring). rewrite (Qeq_eqR _ _ X) in *. lra.
Qed.

(** Never a wrong result without a fluid mismatch being noticed *)
Lemma mismatch hot cold : same_data hot = false \/ (same_data cold = false /\ exists l, h_steps hot = Ok l) ->
  td_pinch hot cold = Err ValueError /\ calc_UA hot cold = Err ValueError.
Proof.
  intros H. assert (X : assign_sections hot cold = Err ValueError).
  { unfold assign_sections. destruct H as [H|(H & l & L)].
    - unfold h_steps at 1. rewrite H. reflexivity.
    - rewrite L. cbn [rbind]. unfold h_steps. rewrite H. reflexivity. }
  unfold td_pinch, calc_UA. rewrite X. split; reflexivity.
Qed.

(* ---- witnesses ---- *)
(** Temperature is a function of the enthalpy, no saturation *)
Definition simple (T : Q -> Q) : fluid := {| pure := true; hsat := fun _ _ => Err ValueError; Tph := fun _ h => T h |}.
Definition stream (f : fluid) (a b m : Q) : side := {| fl := f; same_data := true; p_in := 1; p_out := 1; h_in := a; h_out := b; mass := m |}.
Definition ident (h : Q) : Q := Qred h.

Lemma ident_proper : T_proper (simple ident).
Proof. intros p h h' E. cbn. unfold ident. now apply Qred_complete. Qed.
Lemma simple_sat T : saturation_ok (simple T).
Proof. intros p hl hg H. discriminate. Qed.

(** hot 110 to 10 with mass flow 1, cold 20 to 70 with mass flow 2 *)
Definition crossing_hot : side := stream (simple ident) 110 10 1.
Definition crossing_cold : side := stream (simple ident) 20 70 2.
Lemma crossing : exists u t, exchanging crossing_hot crossing_cold 100 /\ td_pinch crossing_hot crossing_cold = Ok t /\ (t < 0)%Q /\
  calc_UA crossing_hot crossing_cold = Ok u /\ (0 < u)%R.
Proof.
  exists (100 / ((40 - 10) / ln (40 / 10)))%R, (-10)%Q. split; [|split; [vm_compute; reflexivity|split; [reflexivity|]]].
  - unfold exchanging. cbn. repeat split; discriminate || reflexivity.
  - assert (LN : (0 < ln (40 / 10))%R) by (rewrite <- ln_1; apply ln_increasing; lra).
    assert (M : (0 < (40 - 10) / ln (40 / 10))%R) by (apply Rdiv_lt_0_compat; lra).
    split; [|apply Rdiv_lt_0_compat; lra].
    assert (X : exists qs, assign_sections crossing_hot crossing_cold = Ok qs /\ qs = [0; 0 + (70 - 20) * 2]%Q).
    { eexists. split; [vm_compute; reflexivity|]. vm_compute. reflexivity. }
    destruct X as (qs & X & Y). unfold calc_UA. rewrite X. subst qs. cbn [rbind td_at map UA_sum].
    match goal with |- context [td_log (Qabs ?a) (Qabs ?b)] =>
      assert (TA : (Qabs a == 10)%Q) by (vm_compute; reflexivity); assert (TB : (Qabs b == 40)%Q) by (vm_compute; reflexivity);
      set (x := a) in *; set (y := b) in * end.
    assert (RX : round6 (Qabs y) = 40000000%Z) by (vm_compute; reflexivity). assert (RY : round6 (Qabs x) = 10000000%Z) by (vm_compute; reflexivity).
    unfold td_log. rewrite RX, RY. cbn [Z.eqb Pos.eqb].
    assert (ZA : Qeq_bool (Qabs x) 0 = false) by (vm_compute; reflexivity). assert (ZB : Qeq_bool (Qabs y) 0 = false) by (vm_compute; reflexivity).
    rewrite ZA, ZB. rewrite (Qeq_eqR _ _ TA), (Qeq_eqR _ _ TB). cbn [rbind].
    assert (C10 : Q2R 10 = 10%R) by (unfold Q2R; cbn; lra). assert (C40 : Q2R 40 = 40%R) by (unfold Q2R; cbn; lra). rewrite C10, C40.
    unfold UA_section. destruct (Req_EM_T ((40 - 10) / ln (40 / 10)) 0) as [Z|_]; [lra|]. cbn [rbind rmap].
    assert (C100 : Q2R (Qabs (0 + (70 - 20) * 2 - 0)) = 100%R) by (unfold Q2R; cbn; lra). rewrite C100. f_equal. lra.
Qed.

(** The hot side takes up heat: hot 100 to 200 with mass flow 1, cold 300 to 250 with mass flow 2 *)
Definition reversed_hot : side := stream (simple ident) 100 200 1.
Definition reversed_cold : side := stream (simple ident) 300 250 2.
Lemma reversed : td_pinch reversed_hot reversed_cold = Ok (-100)%Q /\
  (Tph (fl reversed_hot) 1 (h_in reversed_hot) - Tph (fl reversed_cold) 1 (h_out reversed_cold) == -150)%Q /\
  (Tph (fl reversed_hot) 1 (h_out reversed_hot) - Tph (fl reversed_cold) 1 (h_in reversed_cold) == -100)%Q /\
  (mass reversed_hot * (h_in reversed_hot - h_out reversed_hot) == mass reversed_cold * (h_out reversed_cold - h_in reversed_cold))%Q.
Proof. repeat split; vm_compute; reflexivity. Qed.

(** A curved hot side *)
Definition curved (h : Q) : Q := Qred (h * h / 100).
Definition shifted (h : Q) : Q := Qred (h - 30).
Definition curved_hot : side := stream (simple curved) 100 0 1.
Definition curved_cold : side := stream (simple shifted) 0 100 1.
Lemma curved_proper : T_proper (simple curved) /\ T_proper (simple shifted).
Proof. split; intros p h h' E; cbn [Tph simple]; unfold curved, shifted; apply Qred_complete; now rewrite E. Qed.
Lemma curved_pinch : exchanging curved_hot curved_cold 100 /\ td_pinch curved_hot curved_cold = Ok 30%Q /\
  difference curved_hot curved_cold 50 = 5%Q.
Proof. split; [|split; vm_compute; reflexivity]. unfold exchanging. cbn. repeat split; discriminate || reflexivity. Qed.

(** A condenser: hot side with phase change between 20 and 80, cold side without *)
Definition wet (h : Q) : Q := Qred (if qlt h 20 then h + 30 else if qlt h 80 then 50 else h - 30)%Q.
Definition condensing : fluid := {| pure := true; hsat := fun _ x => Ok (if qlt 0 x then 80 else 20)%Q; Tph := fun _ h => wet h |}.
Definition condenser_hot : side := stream condensing 100 0 1.
Definition condenser_cold : side := stream (simple ident) 0 20 5.
Lemma condensing_ok : saturation_ok condensing /\ T_proper condensing.
Proof.
  split.
  - intros p hl hg A B. cbn in *. inversion A; inversion B. discriminate.
  - intros p h h' E. cbn [Tph condensing]. unfold wet, qlt. rewrite (Qcompare_comp _ _ E 20%Q 20%Q (Qeq_refl _)), (Qcompare_comp _ _ E 80%Q 80%Q (Qeq_refl _)).
    destruct (h' ?= 20)%Q; [destruct (h' ?= 80)%Q| |destruct (h' ?= 80)%Q]; apply Qred_complete; rewrite ?E; reflexivity.
Qed.
Lemma condenser : exchanging condenser_hot condenser_cold 100 /\
  rmap (map Qred) (assign_sections condenser_hot condenser_cold) = Ok [0; 20; 80; 100]%Q /\
  rmap Qred (td_pinch condenser_hot condenser_cold) = Ok 30%Q.
Proof. split; [|split; vm_compute; reflexivity]. unfold exchanging. cbn. repeat split; discriminate || reflexivity. Qed.
