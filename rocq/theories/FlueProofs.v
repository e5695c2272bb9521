From Coq Require Import QArith Qabs Bool List String Lqa Lia.
From Verif Require Import Base UpdateModel UpdateSpec UpdateProofs FlueSpec.
Import ListNotations.
Open Scope list_scope.

Lemma qlt_false a b : qlt a b = false -> (b <= a)%Q.
Proof. unfold qlt. intros H. apply Bool.negb_false_iff in H. now apply Qle_bool_iff. Qed.
Lemma qlt_true a b : qlt a b = true -> (a < b)%Q.
Proof. unfold qlt. intros H. apply Bool.negb_true_iff in H. apply Qnot_le_lt. intros L. apply Qle_bool_iff in L. congruence. Qed.
Lemma qlt_start X s i : start_flow X s i = if qlt (v_m s (k_m i)) 0 && x_m X (k_m i) then (1 # 100)%Q else v_m s (k_m i).
Proof. reflexivity. Qed.

(* ------------------------------------------------------------------ inlets *)
Lemma inlets_frame X ins : forall acc s, v_f (fst (comb_inlets X ins acc s)) = v_f s
  /\ v_h (fst (comb_inlets X ins acc s)) = v_h s.
Proof.
  induction ins as [|i ins IH]; intros acc s; cbn [comb_inlets fst]; [auto|].
  destruct (IH (acc + v_m (if qlt (v_m s (k_m i)) 0 && x_m X (k_m i) then set_m (k_m i) (1 # 100) s else s) (k_m i))%Q
    (if qlt (v_m s (k_m i)) 0 && x_m X (k_m i) then set_m (k_m i) (1 # 100) s else s)) as [A B].
  rewrite A, B. destruct (_ && _); auto.
Qed.
(* the mass flow of any index after the loop *)
Lemma inlets_flow X ins : forall acc s n,
  let s1 := fst (comb_inlets X ins acc s) in
  (v_m s1 n = v_m s n \/ v_m s1 n = (1 # 100)%Q /\ qlt (v_m s n) 0 = true /\ x_m X n = true)
  /\ (In n (map k_m ins) -> qlt (v_m s n) 0 = true -> x_m X n = true -> v_m s1 n = (1 # 100)%Q).
Proof.
  induction ins as [|i ins IH]; intros acc s n; cbn [comb_inlets fst map In]; [split; [auto|contradiction]|].
  set (s0 := if qlt (v_m s (k_m i)) 0 && x_m X (k_m i) then set_m (k_m i) (1 # 100) s else s).
  specialize (IH (acc + v_m s0 (k_m i))%Q s0 n). cbn zeta in IH. destruct IH as [A B].
  assert (C : v_m s0 n = v_m s n \/ v_m s0 n = (1 # 100)%Q /\ qlt (v_m s n) 0 = true /\ x_m X n = true /\ n = k_m i).
  { unfold s0. destruct (qlt (v_m s (k_m i)) 0) eqn:L; cbn [andb]; [|auto]. destruct (x_m X (k_m i)) eqn:E; [|auto].
    destruct (Nat.eq_dec n (k_m i)) as [->|N].
    - right. cbn. rewrite nupd_eq. auto.
    - left. cbn. now rewrite nupd_neq. }
  assert (Z : qlt (1 # 100) 0 = false) by reflexivity.
  split.
  - destruct C as [C|(C & L & E & _)].
    + rewrite C in A. exact A.
    + destruct A as [A|(A & _)]; rewrite A; auto.
  - intros I L E. destruct C as [C|(C & _)].
    + destruct I as [<-|I].
      * exfalso. unfold s0 in C. rewrite L, E in C. cbn in C. rewrite nupd_eq in C. rewrite <- C, Z in L. discriminate.
      * apply B; auto. now rewrite C.
    + destruct A as [A|(A & _)]; congruence.
Qed.
Lemma inlets_start X ins acc s i : In i ins -> v_m (fst (comb_inlets X ins acc s)) (k_m i) = start_flow X s i.
Proof.
  intros I. rewrite qlt_start. destruct (inlets_flow X ins acc s (k_m i)) as [A B].
  destruct (qlt (v_m s (k_m i)) 0) eqn:L; cbn [andb].
  - destruct (x_m X (k_m i)) eqn:E.
    + apply B; auto. now apply in_map.
    + destruct A as [A|(_ & _ & A)]; [exact A|discriminate].
  - destruct A as [A|(_ & A & _)]; [exact A|discriminate].
Qed.
Lemma inlets_sum X : forall ins acc s, (snd (comb_inlets X ins acc s) == acc + entering X s ins)%Q.
Proof.
  induction ins as [|i ins IH]; intros acc s; cbn [comb_inlets snd entering]; [ring|].
  set (s0 := if qlt (v_m s (k_m i)) 0 && x_m X (k_m i) then set_m (k_m i) (1 # 100) s else s).
  rewrite IH. assert (A : v_m s0 (k_m i) = start_flow X s i).
  { rewrite qlt_start. unfold s0. destruct (_ && _); [cbn; apply nupd_eq|reflexivity]. }
  rewrite A. assert (B : forall l, entering X s0 l = entering X s l).
  { induction l as [|j l IHl]; cbn [entering]; [reflexivity|]. rewrite IHl. f_equal. rewrite !qlt_start. unfold s0.
    destruct (qlt (v_m s (k_m i)) 0) eqn:L; cbn [andb]; [|reflexivity]. destruct (x_m X (k_m i)) eqn:E; [|reflexivity].
    destruct (Nat.eq_dec (k_m j) (k_m i)) as [J|J].
    - rewrite J, L, E. cbn. rewrite nupd_eq. reflexivity.
    - cbn. now rewrite nupd_neq. }
  rewrite B. ring.
Qed.
Lemma mf_value X s s1 f : forall ins acc mf, (forall i, In i ins -> v_m s1 (k_m i) = start_flow X s i /\ v_f s1 (k_fl i) = v_f s (k_fl i)) ->
  comb_mf ins f acc s1 = Ok mf -> (mf == acc + inflow X s f ins)%Q.
Proof.
  induction ins as [|i ins IH]; intros acc mf H E; cbn [comb_mf inflow] in *; [injection E as <-; ring|].
  destruct (H i (or_introl eq_refl)) as [M F]. rewrite F in E. unfold share. destruct (dget f (v_f s (k_fl i))) as [q|]; [|discriminate].
  apply IH in E; [|intros j J; apply H; now right]. rewrite E, M. ring.
Qed.

(* ------------------------------------------------------------------ outlet fractions *)
Lemma band hi v_hi v_lo q : (1 # 1000 <= v_hi <= hi)%Q -> (1 # 1000 <= v_lo <= hi)%Q ->
  (1 # 1000 <= comb_band hi v_hi v_lo q <= hi)%Q /\ ((1 # 1000 <= q <= hi)%Q -> comb_band hi v_hi v_lo q = q).
Proof.
  intros H L. unfold comb_band. destruct (qlt hi q) eqn:A.
  - apply qlt_true in A. destruct (qlt v_hi (1 # 1000)) eqn:B.
    + apply qlt_true in B. exfalso. lra.
    + split; [lra|]. intros. exfalso. lra.
  - apply qlt_false in A. destruct (qlt q (1 # 1000)) eqn:B.
    + apply qlt_true in B. split; [lra|]. intros. exfalso. lra.
    + apply qlt_false in B. split; [lra|auto].
Qed.
Lemma near_iff d : qlt (3 # 100) d || qlt d (- (3 # 100)) = false <-> (Qabs d <= 3 # 100)%Q.
Proof.
  rewrite Bool.orb_false_iff, Qabs_Qle_condition. split.
  - intros [A B]. apply qlt_false in A. apply qlt_false in B. split; lra.
  - intros [A B]. unfold qlt. rewrite !Bool.negb_false_iff, !Qle_bool_iff. split; lra.
Qed.

Lemma one_fluid g X s ins a m f s1 s2 : distinct g -> (forall i, In i ins -> k_fl i <> a) ->
  (forall i, In i ins -> v_m s1 (k_m i) = start_flow X s i /\ v_f s1 (k_fl i) = v_f s (k_fl i)) -> (m == entering X s ins)%Q ->
  comb_fluid ins a (g_o2 g) (g_co2 g) (g_h2o g) (g_fuels g) m f s1 = (s2, None) ->
  v_m s2 = v_m s1 /\ v_h s2 = v_h s1 /\ (forall b, b <> a -> v_f s2 b = v_f s1 b) /\ keys (v_f s2 a) = keys (v_f s1 a)
  /\ (forall x, x <> f -> dget x (v_f s2 a) = dget x (v_f s1 a))
  /\ exists q0 q, dget f (v_f s1 a) = Some q0 /\ dget f (v_f s2 a) = Some q
     /\ expected g (mixed X s ins f) f q /\ (expected g (mixed X s ins f) f q0 -> q = q0)
     /\ (inert g f -> ~ (entering X s ins == 0)%Q).
Proof.
  intros (D1 & D2 & D3 & D4 & D5 & D6) O H M E. unfold comb_fluid in E. destruct (dget f (v_f s1 a)) as [q0|] eqn:G; [|discriminate].
  assert (P : forall x t, (set_f a (dset f x (v_f s1 a)) s1, @None pyerr) = (t, None) ->
    v_m t = v_m s1 /\ v_h t = v_h s1 /\ (forall b, b <> a -> v_f t b = v_f s1 b) /\ keys (v_f t a) = keys (v_f s1 a)
    /\ (forall y, y <> f -> dget y (v_f t a) = dget y (v_f s1 a)) /\ dget f (v_f t a) = Some x).
  { intros x t T. injection T as <-. cbn. rewrite nupd_eq. split; [reflexivity|]. split; [reflexivity|]. split; [intros b B; now apply nupd_neq|].
    split; [|split; [intros y Y; now apply dget_dset_neq|apply dget_dset_eq]].
    clear -G. induction (v_f s1 a) as [|[k v] d IH]; cbn in *; [discriminate|]. destruct (String.eqb f k) eqn:K; cbn; [apply String.eqb_eq in K; now subst|].
    f_equal. auto. }
  destruct (String.eqb f (g_o2 g)) eqn:E1.
  { apply String.eqb_eq in E1. destruct (P _ _ E) as (A & B & C & K & F & V). do 5 (split; [assumption|]). exists q0, (comb_band (1 # 4) (1 # 5) (1 # 20) q0).
    split; [reflexivity|]. split; [exact V|]. destruct (band (1 # 4) (1 # 5) (1 # 20) q0) as [I J]; [lra|lra|].
    split; [|split; [intros (X1 & _); auto|intros (X1 & _); contradiction]].
    split; [auto|]. split; [intros [Z|Z]; congruence|]. split; [intros Z; rewrite E1 in Z; contradiction|]. intros (Z & _). contradiction. }
  destruct (String.eqb f (g_co2 g)) eqn:E2.
  { apply String.eqb_eq in E2. destruct (P _ _ E) as (A & B & C & K & F & V). do 5 (split; [assumption|]). exists q0, (comb_band (1 # 10) (75 # 1000) (1 # 50) q0).
    split; [reflexivity|]. split; [exact V|]. destruct (band (1 # 10) (75 # 1000) (1 # 50) q0) as [I J]; [lra|lra|].
    split; [|split; [intros (_ & X1 & _); auto|intros (_ & X1 & _); contradiction]].
    split; [intros Z; congruence|]. split; [auto|]. split; [intros Z; rewrite E2 in Z; contradiction|]. intros (_ & Z & _). contradiction. }
  destruct (String.eqb f (g_h2o g)) eqn:E3.
  { apply String.eqb_eq in E3. destruct (P _ _ E) as (A & B & C & K & F & V). do 5 (split; [assumption|]). exists q0, (comb_band (1 # 10) (75 # 1000) (1 # 50) q0).
    split; [reflexivity|]. split; [exact V|]. destruct (band (1 # 10) (75 # 1000) (1 # 50) q0) as [I J]; [lra|lra|].
    split; [|split; [intros (_ & X1 & _); auto|intros (_ & _ & X1 & _); contradiction]].
    split; [intros Z; congruence|]. split; [auto|]. split; [intros Z; rewrite E3 in Z; contradiction|]. intros (_ & _ & Z & _). contradiction. }
  apply String.eqb_neq in E1. apply String.eqb_neq in E2. apply String.eqb_neq in E3.
  destruct (smem f (g_fuels g)) eqn:E4.
  { apply smem_In in E4. destruct (P _ _ E) as (A & B & C & K & F & V). do 5 (split; [assumption|]). exists q0, (if qlt 0 q0 then 0%Q else q0).
    split; [reflexivity|]. split; [exact V|]. destruct (qlt 0 q0) eqn:L.
    - apply qlt_true in L. split; [|split; [intros (_ & _ & X1 & _); specialize (X1 E4); exfalso; lra|intros (_ & _ & _ & X1); contradiction]].
      split; [intros; contradiction|]. split; [intros [Z|Z]; contradiction|]. split; [intros; lra|]. intros (_ & _ & _ & Z). contradiction.
    - apply qlt_false in L. split; [|split; [auto|intros (_ & _ & _ & X1); contradiction]].
      split; [intros; contradiction|]. split; [intros [Z|Z]; contradiction|]. split; [intros; lra|]. intros (_ & _ & _ & Z). contradiction. }
  assert (N : ~ In f (g_fuels g)) by (intros Z; apply smem_In in Z; congruence).
  assert (I : inert g f) by (repeat split; assumption).
  destruct (comb_mf ins f 0 s1) as [mf|] eqn:MF; [|discriminate].
  apply (mf_value X s s1 f ins 0 mf H) in MF.
  destruct (Qeq_bool m 0) eqn:Z; [discriminate|]. apply Qeq_bool_neq in Z.
  assert (W : ~ (entering X s ins == 0)%Q) by (rewrite <- M; exact Z).
  assert (Y : (mf / m == mixed X s ins f)%Q).
  { unfold mixed. rewrite MF, M. unfold Qdiv. ring. }
  assert (EX : forall q, (Qabs (q - mixed X s ins f) <= 3 # 100)%Q -> expected g (mixed X s ins f) f q).
  { intros q L. split; [intros; contradiction|]. split; [intros [U|U]; contradiction|]. split; [intros; contradiction|]. auto. }
  destruct (qlt (3 # 100) (q0 - mf / m) || qlt (q0 - mf / m) (- (3 # 100))) eqn:T.
  - destruct (P _ _ E) as (A & B & C & K & F & V). do 5 (split; [assumption|]). exists q0, (mf / m)%Q. split; [reflexivity|]. split; [exact V|].
    split; [|split; [|auto]].
    + apply EX. assert (U : (mf / m - mixed X s ins f == 0)%Q) by (rewrite Y; ring). rewrite U. cbn. lra.
    + intros (_ & _ & _ & L). specialize (L I). rewrite <- Y in L. apply near_iff in L. congruence.
  - injection E as <-. do 3 (split; [auto|]). split; [reflexivity|]. split; [auto|]. exists q0, q0. split; [reflexivity|]. split; [exact G|].
    split; [|auto]. apply EX. rewrite <- Y. now apply near_iff.
Qed.
Lemma all_fluids g X s ins a m : distinct g -> (forall i, In i ins -> k_fl i <> a) -> (m == entering X s ins)%Q -> forall fs s1 s2, NoDup fs ->
  (forall i, In i ins -> v_m s1 (k_m i) = start_flow X s i /\ v_f s1 (k_fl i) = v_f s (k_fl i)) ->
  each (comb_fluid ins a (g_o2 g) (g_co2 g) (g_h2o g) (g_fuels g) m) fs s1 = (s2, None) ->
  v_m s2 = v_m s1 /\ v_h s2 = v_h s1 /\ (forall b, b <> a -> v_f s2 b = v_f s1 b) /\ keys (v_f s2 a) = keys (v_f s1 a)
  /\ (forall x, ~ In x fs -> dget x (v_f s2 a) = dget x (v_f s1 a))
  /\ forall f, In f fs -> exists q0 q, dget f (v_f s1 a) = Some q0 /\ dget f (v_f s2 a) = Some q
     /\ expected g (mixed X s ins f) f q /\ (expected g (mixed X s ins f) f q0 -> q = q0).
Proof.
  intros D O M. induction fs as [|f fs IH]; intros s1 s2 ND H E; cbn [each] in E.
  - injection E as <-. repeat split; auto. intros f [].
  - unfold andthen in E. destruct (comb_fluid ins a (g_o2 g) (g_co2 g) (g_h2o g) (g_fuels g) m f s1) as [t e] eqn:C. cbn [fst snd] in E.
    destruct e as [e|]; [injection E as _ E; discriminate|].
    destruct (one_fluid g X s ins a m f s1 t D O H M C) as (A1 & A2 & A3 & A4 & A5 & q0 & q & A6 & A7 & A8 & A9 & _).
    apply NoDup_cons_iff in ND as [N1 N2].
    destruct (IH t s2 N2) as (B1 & B2 & B3 & B4 & B5 & B6); [|exact E|].
    { intros i I. destruct (H i I) as [P Q]. rewrite A1, A3 by (now apply O). auto. }
    split; [congruence|]. split; [congruence|]. split; [intros b B; rewrite B3, A3; auto|]. split; [congruence|].
    split; [intros x X0; rewrite B5, A5; auto; [intros ->; apply X0; now left|intros Z; apply X0; now right]|].
    intros x [<-|I].
    + exists q0, q. rewrite B5 by exact N1. auto.
    + destruct (B6 x I) as (r0 & r & R1 & R2 & R3 & R4). exists r0, r. rewrite A5 in R1 by (intros ->; contradiction). auto.
Qed.

(* ------------------------------------------------------------------ the whole check *)
(* corrections of the outlet after the fractions *)
Definition outlet_m (X : unknowns) (o : conn) (s : vstate) : vstate :=
  if qlt (v_m s (k_m o)) 0 && x_m X (k_m o) then set_m (k_m o) 10 s else s.
Definition outlet_h (X : unknowns) (o : conn) (s : vstate) : vstate :=
  if negb (k_good o) && (qlt (v_h s (k_id o)) 750000 && x_h X (k_id o)) then set_h (k_id o) 1000000 s else s.
Lemma check_parts g X ins o ls s s' :
  conv_combustion X ins o (g_o2 g) (g_co2 g) (g_h2o g) (g_fuels g) ls s = (s', None) ->
  exists s2 s3, each (comb_fluid ins (k_fl o) (g_o2 g) (g_co2 g) (g_h2o g) (g_fuels g) (snd (comb_inlets X ins 0 s))) (x_f X (k_fl o)) (fst (comb_inlets X ins 0 s)) = (s2, None)
  /\ normalise X (k_fl o) s2 = (s3, None)
  /\ let s4 := outlet_h X o (outlet_m X o (build_fluid_data o s3)) in
     (ls = false /\ s' = s4)
     \/ (ls = true /\ exists hit fi air, comb_search X ins (g_fuels g) false None None s4 = Ok (hit, fi, air)
        /\ ((hit = false /\ s' = s4) \/ (hit = true /\ exists i a, fi = Some i /\ air = Some a /\ s' = set_m (k_m i) (a / 25)%Q s4))).
Proof.
  unfold conv_combustion. intros E.
  destruct (each (comb_fluid ins (k_fl o) (g_o2 g) (g_co2 g) (g_h2o g) (g_fuels g) (snd (comb_inlets X ins 0 s))) (x_f X (k_fl o)) (fst (comb_inlets X ins 0 s))) as [s2 e2] eqn:E2.
  unfold andthen at 1 in E. cbn [fst snd] in E. destruct e2 as [e2|]; [discriminate E|]. exists s2.
  destruct (normalise X (k_fl o) s2) as [s3 e3] eqn:E3. unfold andthen in E. cbn [fst snd] in E. destruct e3 as [e3|]; [discriminate E|]. exists s3.
  split; [reflexivity|]. split; [reflexivity|]. cbn zeta. fold (outlet_m X o (build_fluid_data o s3)) in E. fold (outlet_h X o (outlet_m X o (build_fluid_data o s3))) in E.
  destruct ls; [|left; injection E as <-; auto]. right. split; [reflexivity|].
  destruct (comb_search X ins (g_fuels g) false None None (outlet_h X o (outlet_m X o (build_fluid_data o s3)))) as [[[hit fi] air]|e] eqn:C; [|discriminate].
  exists hit, fi, air. split; [reflexivity|]. destruct hit.
  - right. destruct fi as [i|]; [|discriminate]. destruct air as [a|]; [|discriminate]. injection E as <-. split; [reflexivity|]. eauto.
  - left. destruct ins; [discriminate|]. injection E as <-. auto.
Qed.
Lemma outlet_f X o s : v_f (outlet_h X o (outlet_m X o (build_fluid_data o s))) = v_f s.
Proof. unfold outlet_h, outlet_m. destruct (_ && _); destruct (_ && _); reflexivity. Qed.
Lemma normalise_parts X a s s' : wf_at X s a -> x_f X a <> [] -> normalise X a s = (s', None) ->
  v_m s' = v_m s /\ v_h s' = v_h s /\ (forall b, b <> a -> v_f s' b = v_f s b) /\ ~ (total (v_f s a) == 0)%Q /\ v_f s' a = scaled (x_f X a) (total (v_f s a)) (v_f s a).
Proof.
  intros (W1 & W2 & W3) N E. unfold normalise in E. destruct (scale (x_f X a) (total (v_f s a)) (v_f s a)) as [d e] eqn:S. cbn [fst snd] in E.
  injection E as <- ->. apply scale_result in S as [T ->]; auto. cbn. rewrite nupd_eq. repeat split; auto. intros b B. now apply nupd_neq.
Qed.
Lemma scaled_get fs t d f : dget f (scaled fs t d) = match dget f d with Some q => Some (if smem f fs then q / t else q)%Q | None => None end.
Proof.
  induction d as [|[k v] d IH]; cbn [scaled map dget fst snd]; [reflexivity|]. destruct (String.eqb f k) eqn:K; [|exact IH].
  apply String.eqb_eq in K. now subst.
Qed.
Lemma start_state X ins s : forall i, In i ins ->
  v_m (fst (comb_inlets X ins 0 s)) (k_m i) = start_flow X s i /\ v_f (fst (comb_inlets X ins 0 s)) (k_fl i) = v_f s (k_fl i).
Proof. intros i I. split; [now apply inlets_start|]. destruct (inlets_frame X ins 0 s) as [A _]. now rewrite A. Qed.

Lemma flue_gas : forall g X ins o ls s s', distinct g -> apart ins o -> wf_fluids X s -> x_f X (k_fl o) <> [] ->
  convergence_check X (Combustion ins o (g_o2 g) (g_co2 g) (g_h2o g) (g_fuels g) ls) s = (s', None) ->
  exists d, ~ (sum_of d == 0)%Q /\ keys d = keys (v_f s (k_fl o))
  /\ (forall f, ~ In f (x_f X (k_fl o)) -> dget f d = dget f (v_f s (k_fl o)) /\ dget f (v_f s' (k_fl o)) = dget f (v_f s (k_fl o)))
  /\ forall f, In f (x_f X (k_fl o)) -> exists q0 q q', dget f (v_f s (k_fl o)) = Some q0 /\ dget f d = Some q
     /\ dget f (v_f s' (k_fl o)) = Some q' /\ (q' == q / sum_of d)%Q
     /\ expected g (mixed X s ins f) f q /\ (expected g (mixed X s ins f) f q0 -> q = q0).
Proof.
  intros g X ins o ls s s' D A W N E. cbn [convergence_check] in E. apply check_parts in E as (s2 & s3 & E2 & E3 & E4).
  assert (M : (snd (comb_inlets X ins 0 s) == entering X s ins)%Q) by (rewrite inlets_sum; ring).
  destruct (W (k_fl o)) as (W1 & W2 & W3).
  destruct (inlets_frame X ins 0 s) as [F _].
  destruct (all_fluids g X s ins (k_fl o) _ D A M (x_f X (k_fl o)) _ s2 W2 (start_state X ins s) E2) as (_ & _ & _ & K & B & C).
  rewrite F in K, B, C.
  destruct (normalise_parts X (k_fl o) s2 s3) as (_ & _ & _ & T & V); [|exact N|exact E3|].
  { split; [now rewrite K|]. split; [exact W2|]. now rewrite K. }
  assert (V' : v_f s' (k_fl o) = v_f s3 (k_fl o)).
  { cbn zeta in E4. destruct E4 as [[_ ->]|(_ & hit & fi & air & _ & [[_ ->]|(_ & i & a & _ & _ & ->)])]; cbn [v_f set_m]; now rewrite outlet_f. }
  rewrite total_sum in T. exists (v_f s2 (k_fl o)). split; [exact T|]. split; [exact K|]. split.
  - intros f I. split; [now apply B|]. rewrite V', V, scaled_get. rewrite <- (B f I). destruct (dget f (v_f s2 (k_fl o))); [|reflexivity].
    destruct (smem f (x_f X (k_fl o))) eqn:S; [apply smem_In in S; contradiction|reflexivity].
  - intros f I. destruct (C f I) as (q0 & q & C1 & C2 & C3 & C4). exists q0, q, (q / total (v_f s2 (k_fl o)))%Q. split; [exact C1|]. split; [exact C2|].
    split; [|split; [rewrite total_sum; reflexivity|auto]]. rewrite V', V, scaled_get, C2. apply smem_In in I. now rewrite I.
Qed.

(* mass flows and enthalpy up to the search for the fuel *)
Lemma upto g X ins o s s2 s3 : distinct g -> apart ins o -> wf_fluids X s ->
  each (comb_fluid ins (k_fl o) (g_o2 g) (g_co2 g) (g_h2o g) (g_fuels g) (snd (comb_inlets X ins 0 s))) (x_f X (k_fl o)) (fst (comb_inlets X ins 0 s)) = (s2, None) ->
  normalise X (k_fl o) s2 = (s3, None) ->
  v_m s3 = v_m (fst (comb_inlets X ins 0 s)) /\ v_h s3 = v_h s /\ forall b, b <> k_fl o -> v_f s3 b = v_f s b.
Proof.
  intros D A W E2 E3. destruct (W (k_fl o)) as (W1 & W2 & W3).
  assert (M : (snd (comb_inlets X ins 0 s) == entering X s ins)%Q) by (rewrite inlets_sum; ring).
  destruct (inlets_frame X ins 0 s) as [F H].
  destruct (all_fluids g X s ins (k_fl o) _ D A M (x_f X (k_fl o)) _ s2 W2 (start_state X ins s) E2) as (B1 & B2 & B3 & _).
  unfold normalise in E3. injection E3 as <- _. cbn. split; [exact B1|]. split; [congruence|]. intros b B. rewrite nupd_neq by exact B. rewrite B3, F; auto.
Qed.
Lemma flue_outlet : forall g X ins o ls s s', distinct g -> apart ins o -> own_flow ins o -> wf_fluids X s ->
  convergence_check X (Combustion ins o (g_o2 g) (g_co2 g) (g_h2o g) (g_fuels g) ls) s = (s', None) ->
  (x_m X (k_m o) = true -> 0 <= v_m s' (k_m o))%Q /\ ((0 <= v_m s (k_m o))%Q -> v_m s' (k_m o) = v_m s (k_m o))
  /\ (x_h X (k_id o) = true -> k_good o = false -> 750000 <= v_h s' (k_id o))%Q
  /\ ((750000 <= v_h s (k_id o))%Q \/ k_good o = true -> v_h s' (k_id o) = v_h s (k_id o)).
Proof.
  intros g X ins o ls s s' D A O W E. cbn [convergence_check] in E. apply check_parts in E as (s2 & s3 & E2 & E3 & E4).
  destruct (upto g X ins o s s2 s3 D A W E2 E3) as (M & H & _).
  assert (Mo : v_m s3 (k_m o) = v_m s (k_m o) \/ (v_m s3 (k_m o) = (1 # 100)%Q /\ qlt (v_m s (k_m o)) 0 = true)).
  { rewrite M. destruct (inlets_flow X ins 0 s (k_m o)) as [[Y|(Y & Z & _)] _]; auto. }
  set (s4 := outlet_h X o (outlet_m X o (build_fluid_data o s3))) in E4.
  assert (S : v_m s' (k_m o) = v_m s4 (k_m o) /\ v_h s' = v_h s4).
  { cbn zeta in E4. destruct E4 as [[_ ->]|(_ & hit & fi & air & C & [[_ ->]|(_ & i & a & -> & _ & ->)])]; auto. cbn. split; [|reflexivity].
    apply nupd_neq. assert (G : forall l f0 fi0 a0, (forall j, fi0 = Some j -> In j ins) -> incl l ins ->
      forall r, comb_search X l (g_fuels g) f0 fi0 a0 s4 = Ok r -> forall j, snd (fst r) = Some j -> In j ins).
    { clear. induction l as [|j l IH]; intros f0 fi0 a0 I L r R k K; cbn [comb_search] in R.
      - injection R as <-. cbn in K. auto.
      - assert (L' : incl l ins) by (intros x X0; apply L; now right). assert (J : In j ins) by (apply L; now left).
        destruct (k_good j); [eapply (IH false fi0 a0 I L' r R); exact K|].
        destruct (comb_fuel (g_fuels g) (v_f s4 (k_fl j)) 0) as [fu|]; [|discriminate].
        eapply IH in R; [exact R| |exact L'|exact K]. intros k' K'. destruct (_ && _); [|auto]. injection K' as <-. exact J. }
    assert (I : In i ins) by (eapply (G ins false None None); [discriminate|intros x; auto|exact C|reflexivity]).
    intros Z. exact (O i I (eq_sym Z)). }
  destruct S as [S1 S2]. rewrite S1, S2.
  assert (P : v_m s4 (k_m o) = if qlt (v_m s3 (k_m o)) 0 && x_m X (k_m o) then 10%Q else v_m s3 (k_m o)).
  { unfold s4, outlet_h, outlet_m. cbn [build_fluid_data v_m v_h set_fd]. destruct (qlt (v_m s3 (k_m o)) 0 && x_m X (k_m o)); destruct (_ && _); cbn; rewrite ?nupd_eq; reflexivity. }
  assert (Q : v_h s4 (k_id o) = if negb (k_good o) && (qlt (v_h s (k_id o)) 750000 && x_h X (k_id o)) then 1000000%Q else v_h s (k_id o)).
  { assert (U : v_h (outlet_m X o (build_fluid_data o s3)) = v_h s) by (rewrite <- H; unfold outlet_m; destruct (_ && _); reflexivity).
    unfold s4, outlet_h. rewrite U. destruct (negb (k_good o) && (qlt (v_h s (k_id o)) 750000 && x_h X (k_id o))); [cbn; apply nupd_eq|now rewrite U]. }
  rewrite P, Q. split; [|split; [|split]].
  - intros X0. rewrite X0, Bool.andb_true_r. destruct (qlt (v_m s3 (k_m o)) 0) eqn:L; [lra|]. now apply qlt_false.
  - intros L. destruct Mo as [Y|(_ & Y)]; [|apply qlt_true in Y; exfalso; lra]. rewrite Y. destruct (qlt (v_m s (k_m o)) 0) eqn:Z; [|reflexivity].
    apply qlt_true in Z. exfalso. lra.
  - intros X0 G. rewrite X0, G, Bool.andb_true_r. cbn [negb andb]. destruct (qlt (v_h s (k_id o)) 750000) eqn:Z; [lra|]. now apply qlt_false.
  - intros [L|G]; [|now rewrite G]. destruct (qlt (v_h s (k_id o)) 750000) eqn:Z; [apply qlt_true in Z; exfalso; lra|]. cbn [andb]. now rewrite Bool.andb_false_r.
Qed.
Lemma search_state g X ins o s s2 s3 i : distinct g -> apart ins o -> own_flow ins o -> wf_fluids X s -> In i ins ->
  each (comb_fluid ins (k_fl o) (g_o2 g) (g_co2 g) (g_h2o g) (g_fuels g) (snd (comb_inlets X ins 0 s))) (x_f X (k_fl o)) (fst (comb_inlets X ins 0 s)) = (s2, None) ->
  normalise X (k_fl o) s2 = (s3, None) ->
  let s4 := outlet_h X o (outlet_m X o (build_fluid_data o s3)) in
  v_m s4 (k_m i) = start_flow X s i /\ v_f s4 (k_fl i) = v_f s (k_fl i).
Proof.
  intros D A O W I E2 E3 s4. destruct (upto g X ins o s s2 s3 D A W E2 E3) as (M & _ & F). split.
  - rewrite <- (inlets_start X ins 0 s i I), <- M. unfold s4, outlet_h, outlet_m. cbn [build_fluid_data v_m v_h set_fd].
    destruct (qlt (v_m s3 (k_m o)) 0 && x_m X (k_m o)); destruct (_ && _); cbn; rewrite ?nupd_neq by (now apply O); reflexivity.
  - unfold s4. rewrite outlet_f. apply F. now apply A.
Qed.
Lemma flue_inlets : forall g X ins o s s', distinct g -> apart ins o -> own_flow ins o -> wf_fluids X s ->
  convergence_check X (Combustion ins o (g_o2 g) (g_co2 g) (g_h2o g) (g_fuels g) false) s = (s', None) ->
  forall i, In i ins -> v_m s' (k_m i) = start_flow X s i.
Proof.
  intros g X ins o s s' D A O W E i I. cbn [convergence_check] in E. apply check_parts in E as (s2 & s3 & E2 & E3 & E4). cbn zeta in E4.
  destruct E4 as [[_ ->]|[Z _]]; [|discriminate]. now destruct (search_state g X ins o s s2 s3 i D A O W I E2 E3).
Qed.
Lemma fuel_value fuels s s4 c : v_f s4 (k_fl c) = v_f s (k_fl c) -> lists fuels s c -> forall acc, exists q, comb_fuel fuels (v_f s4 (k_fl c)) acc = Ok q /\ (q == acc + fuel_share fuels s c)%Q.
Proof.
  intros F. induction fuels as [|f fuels IH]; intros L acc; cbn [comb_fuel fuel_share].
  - exists acc. split; [reflexivity|]. ring.
  - unfold share. rewrite F in *. destruct (dget f (v_f s (k_fl c))) as [q|] eqn:G; [|exfalso; apply (L f); [now left|exact G]].
    destruct (IH (fun x X => L x (or_intror X)) (acc + q)%Q) as (r & R1 & R2). exists r. split; [exact R1|]. rewrite R2. ring.
Qed.
Lemma qlt_iff a b : qlt a b = true <-> (a < b)%Q.
Proof.
  split; [apply qlt_true|]. intros H. unfold qlt. destruct (Qle_bool b a) eqn:E; [|reflexivity]. apply Qle_bool_iff in E. exfalso. lra.
Qed.
Lemma flue_fuel : forall g X air fuel o s s', let ins := [air; fuel] in distinct g -> apart ins o -> own_flow ins o -> wf_fluids X s ->
  k_good air = false -> k_good fuel = false -> lists (g_fuels g) s air -> lists (g_fuels g) s fuel ->
  (fuel_share (g_fuels g) s air < 3 # 4)%Q -> (3 # 4 < fuel_share (g_fuels g) s fuel)%Q -> x_m X (k_m fuel) = true ->
  convergence_check X (Combustion ins o (g_o2 g) (g_co2 g) (g_h2o g) (g_fuels g) true) s = (s', None) ->
  v_m s' (k_m fuel) = (start_flow X s air / 25)%Q.
Proof.
  intros g X air fuel o s s' ins D A O W G1 G2 L1 L2 S1 S2 V E. cbn [convergence_check] in E. apply check_parts in E as (s2 & s3 & E2 & E3 & E4). cbn zeta in E4.
  destruct E4 as [[Z _]|(_ & hit & fi & a & C & R)]; [discriminate|].
  destruct (search_state g X ins o s s2 s3 air D A O W (or_introl eq_refl) E2 E3) as [M1 F1].
  destruct (search_state g X ins o s s2 s3 fuel D A O W (or_intror (or_introl eq_refl)) E2 E3) as [M2 F2].
  set (s4 := outlet_h X o (outlet_m X o (build_fluid_data o s3))) in *.
  destruct (fuel_value _ s s4 air F1 L1 0) as (q1 & Q1 & Y1). destruct (fuel_value _ s s4 fuel F2 L2 0) as (q2 & Q2 & Y2).
  unfold ins in C. cbn [comb_search] in C. rewrite G1, G2, Q1, Q2 in C.
  assert (B1 : qlt (75 # 100) q1 = false) by (destruct (qlt (75 # 100) q1) eqn:Z; [apply qlt_iff in Z; exfalso; lra|reflexivity]).
  assert (B2 : qlt q1 (75 # 100) = true) by (apply qlt_iff; lra).
  assert (B3 : qlt (75 # 100) q2 = true) by (apply qlt_iff; lra).
  assert (B4 : qlt q2 (75 # 100) = false) by (destruct (qlt q2 (75 # 100)) eqn:Z; [apply qlt_iff in Z; exfalso; lra|reflexivity]).
  rewrite B1, B2, B3, B4, V in C. cbn in C. injection C as <- <- <-.
  destruct R as [[Z _]|(_ & i & a & I & H & ->)]; [discriminate|]. injection I as <-. injection H as <-. cbn. rewrite nupd_eq. now rewrite M1.
Qed.
Lemma flue_order : forall g X air fuel o s s', let ins := [fuel; air] in distinct g -> apart ins o -> own_flow ins o -> wf_fluids X s ->
  k_good air = false -> lists (g_fuels g) s air -> (fuel_share (g_fuels g) s air < 3 # 4)%Q ->
  convergence_check X (Combustion ins o (g_o2 g) (g_co2 g) (g_h2o g) (g_fuels g) true) s = (s', None) ->
  v_m s' (k_m fuel) = start_flow X s fuel.
Proof.
  intros g X air fuel o s s' ins D A O W G1 L1 S1 E. cbn [convergence_check] in E. apply check_parts in E as (s2 & s3 & E2 & E3 & E4). cbn zeta in E4.
  destruct E4 as [[Z _]|(_ & hit & fi & a & C & R)]; [discriminate|].
  destruct (search_state g X ins o s s2 s3 air D A O W (or_intror (or_introl eq_refl)) E2 E3) as [M1 F1].
  destruct (search_state g X ins o s s2 s3 fuel D A O W (or_introl eq_refl) E2 E3) as [M2 F2].
  set (s4 := outlet_h X o (outlet_m X o (build_fluid_data o s3))) in *.
  destruct (fuel_value _ s s4 air F1 L1 0) as (q1 & Q1 & Y1).
  assert (B1 : qlt (75 # 100) q1 = false) by (destruct (qlt (75 # 100) q1) eqn:Z; [apply qlt_iff in Z; exfalso; lra|reflexivity]).
  assert (H : hit = false).
  { unfold ins in C. cbn [comb_search] in C. rewrite G1, Q1, B1 in C. cbn [andb] in C.
    destruct (k_good fuel); [now injection C as <- _ _|]. destruct (comb_fuel (g_fuels g) (v_f s4 (k_fl fuel)) 0); [|discriminate]. now injection C as <- _ _. }
  subst hit. destruct R as [[_ ->]|[Z _]]; [|discriminate]. exact M2.
Qed.

(* ------------------------------------------------------------------ witnesses *)
Open Scope string_scope.
Definition gs : gases := {| g_o2 := "O2"; g_co2 := "CO2"; g_h2o := "H2O"; g_fuels := ["CH4"] |}.
Definition flow (n : nat) : conn :=
  {| k_id := n; k_m := n; k_fl := n; k_good := false; k_T := false; k_Td := false; k_Tdv := 0; k_state := None; k_wrap := []; k_hmix := fun _ _ _ => Ok 0%Q |}.
Definition mixture (o2 co2 h2o ch4 n2 : Q) : dict Q := [("O2", o2); ("CO2", co2); ("H2O", h2o); ("CH4", ch4); ("N2", n2)].
(* air, fuel and the flue gas with the fractions [d] *)
Definition chamber_state (m_fuel : Q) (d : dict Q) : vstate :=
  {| v_m := fun n => match n with 0%nat => 10%Q | 1%nat => m_fuel | _ => (-1)%Q end; v_p := fun _ => 100000%Q; v_h := fun _ => 500000%Q;
     v_f := fun n => match n with 0%nat => mixture (1 # 4) 0 0 0 (3 # 4) | 1%nat => mixture 0 0 0 1 0 | 2%nat => d | _ => [] end;
     v_c := fun _ => 0%Q; v_fd := fun _ => [] |}.
Definition open (free : list string) : unknowns :=
  {| x_m := fun _ => true; x_p := fun _ => true; x_h := fun _ => true; x_f := fun n => match n with 2%nat => free | _ => [] end |}.
Definition every : list string := ["O2"; "CO2"; "H2O"; "CH4"; "N2"].
Lemma gs_distinct : distinct gs.
Proof. repeat split; try discriminate; intros [H|[]]; discriminate. Qed.
Lemma flows_apart : apart [flow 0; flow 1] (flow 2) /\ own_flow [flow 0; flow 1] (flow 2).
Proof. split; intros i [<-|[<-|[]]]; discriminate. Qed.
Lemma flows_apart' : apart [flow 1; flow 0] (flow 2) /\ own_flow [flow 1; flow 0] (flow 2).
Proof. split; intros i [<-|[<-|[]]]; discriminate. Qed.
Lemma names_nodup : NoDup every.
Proof. unfold every. repeat (constructor; [cbn; intuition discriminate|]). constructor. Qed.
Lemma state_wf m a b c d e : wf_fluids (open every) (chamber_state m (mixture a b c d e)).
Proof.
  intros [|[|[|n]]]; cbn.
  - split; [exact names_nodup|]. split; [constructor|]. intros x [].
  - split; [exact names_nodup|]. split; [constructor|]. intros x [].
  - split; [exact names_nodup|]. split; [exact names_nodup|]. intros x H. exact H.
  - split; [constructor|]. split; [constructor|]. intros x [].
Qed.
(* the fractions add up to less than one, so the division moves oxygen out of the range *)
Lemma flue_limits : exists g X ins o ls s s' q, distinct g /\ apart ins o /\ own_flow ins o /\ wf_fluids X s /\ In (g_o2 g) (x_f X (k_fl o))
  /\ convergence_check X (Combustion ins o (g_o2 g) (g_co2 g) (g_h2o g) (g_fuels g) ls) s = (s', None)
  /\ dget (g_o2 g) (v_f s' (k_fl o)) = Some q /\ ~ expected g (mixed X s ins (g_o2 g)) (g_o2 g) q.
Proof.
  exists gs, (open ["O2"]), [flow 0; flow 1], (flow 2), false, (chamber_state 1 (mixture (3 # 10) (1 # 10) (1 # 10) 0 (1 # 10))).
  eexists. eexists. split; [exact gs_distinct|]. destruct flows_apart as [A B]. split; [exact A|]. split; [exact B|].
  split; [|split; [now left|]].
  { intros [|[|[|n]]]; cbn; (split; [try exact names_nodup; constructor|]); (split; [repeat constructor; cbn; tauto|]); intros x X; cbn in *; tauto. }
  split; [cbv; reflexivity|]. split; [cbv; reflexivity|]. intros (H & _). specialize (H eq_refl). destruct H as [_ H]. apply Qle_bool_iff in H. discriminate H.
Qed.
(* the same inlets in the other order *)
Lemma flue_other_order : exists g X air fuel o s s', let ins := [fuel; air] in distinct g /\ apart ins o /\ own_flow ins o /\ wf_fluids X s
  /\ k_good air = false /\ k_good fuel = false /\ lists (g_fuels g) s air /\ lists (g_fuels g) s fuel
  /\ (fuel_share (g_fuels g) s air < 3 # 4)%Q /\ (3 # 4 < fuel_share (g_fuels g) s fuel)%Q /\ x_m X (k_m fuel) = true
  /\ convergence_check X (Combustion ins o (g_o2 g) (g_co2 g) (g_h2o g) (g_fuels g) true) s = (s', None)
  /\ ~ (v_m s' (k_m fuel) == start_flow X s air / 25)%Q.
Proof.
  exists gs, (open every), (flow 0), (flow 1), (flow 2), (chamber_state 3 (mixture (1 # 5) (1 # 20) (1 # 20) 0 (7 # 10))). eexists. cbn zeta.
  split; [exact gs_distinct|]. destruct flows_apart' as [A B]. split; [exact A|]. split; [exact B|]. split; [apply state_wf|].
  split; [reflexivity|]. split; [reflexivity|]. split; [intros f [<-|[]]; discriminate|]. split; [intros f [<-|[]]; discriminate|].
  split; [reflexivity|]. split; [reflexivity|]. split; [reflexivity|]. split; [cbv; reflexivity|].
  intros H. apply Qeq_bool_iff in H. discriminate H.
Qed.
