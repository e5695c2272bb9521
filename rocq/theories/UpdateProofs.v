From Coq Require Import Lqa.
From Verif Require Import UpdateModel UpdateSpec.
Open Scope nat_scope.
Open Scope list_scope.

Lemma qlt_true a b : qlt a b = true <-> (a < b)%Q.
Proof.
  unfold qlt. rewrite negb_true_iff. split; intros H.
  - apply Qnot_le_lt. intros H1. apply Qle_bool_iff in H1. congruence.
  - destruct (Qle_bool b a) eqn:E; [|auto]. apply Qle_bool_iff in E. lra.
Qed.
Lemma qlt_false a b : qlt a b = false <-> (b <= a)%Q.
Proof. unfold qlt. rewrite negb_false_iff. apply Qle_bool_iff. Qed.
Lemma qle_true a b : qle a b = true <-> (a <= b)%Q.
Proof. apply Qle_bool_iff. Qed.
Lemma qle_false a b : qle a b = false <-> (b < a)%Q.
Proof.
  unfold qle. split; intros H.
  - apply Qnot_le_lt. intros H1. apply Qle_bool_iff in H1. congruence.
  - destruct (Qle_bool a b) eqn:E; [|auto]. apply Qle_bool_iff in E. lra.
Qed.
Lemma Qeq_bool_false a b : Qeq_bool a b = false -> ~ (a == b)%Q.
Proof. apply Qeq_bool_neq. Qed.

Ltac qcase t :=
  let E := fresh "E" in destruct t eqn:E;
  [first [apply qlt_true in E | apply qle_true in E | idtac] | first [apply qlt_false in E | apply qle_false in E | idtac]].

Lemma nupd_eq {V} k (v : V) f : nupd k v f k = v.
Proof. unfold nupd. now rewrite Nat.eqb_refl. Qed.
Lemma nupd_neq {V} k (v : V) f x : x <> k -> nupd k v f x = f x.
Proof. intros H. unfold nupd. apply Nat.eqb_neq in H. now rewrite H. Qed.

(** ** Sequencing *)

Section Rel.
Context (R : vstate -> vstate -> Prop).
Hypothesis Rrefl : forall s, R s s.
Hypothesis Rtrans : forall s1 s2 s3, R s1 s2 -> R s2 s3 -> R s1 s3.

Lemma andthen_rel r f s : R s (fst r) -> (forall x, R x (fst (f x))) -> R s (fst (andthen r f)).
Proof. unfold andthen. destruct (snd r); eauto. Qed.

Lemma each_rel {A} (f : A -> vstate -> out) : (forall x s, R s (fst (f x s))) -> forall l s, R s (fst (each f l s)).
Proof.
  intros H. induction l as [|x l IH]; intros s; cbn [each]; [apply Rrefl|].
  apply andthen_rel; auto.
Qed.
End Rel.

Lemma andthen_ok r f s' : andthen r f = (s', None) -> exists s, r = (s, None) /\ f s = (s', None).
Proof. unfold andthen. destruct r as [s [e|]]; cbn [fst snd]; [congruence|]. eauto. Qed.

(** Invariant established element by element and kept by the others. *)
Lemma each_post {A} (f : A -> vstate -> out) (P : A -> vstate -> Prop) :
  forall l,
  (forall x s s', In x l -> f x s = (s', None) -> P x s') ->
  (forall l1 x l2 y s s', l = l1 ++ x :: l2 -> In y l2 -> P x s -> f y s = (s', None) -> P x s') ->
  forall s s', each f l s = (s', None) -> forall x, In x l -> P x s'.
Proof.
  intros l H1 H2.
  assert (G : forall done todo s s', l = done ++ todo -> (forall x, In x done -> P x s) ->
    each f todo s = (s', None) -> forall x, In x l -> P x s').
  { intros done todo; revert done. induction todo as [|y todo IH]; intros done s s' Hl Hd He x Hx; cbn [each] in He.
    - inversion He; subst s'. apply Hd. rewrite Hl, app_nil_r in Hx. auto.
    - apply andthen_ok in He as (s1 & E1 & E2).
      apply (IH (done ++ [y]) s1 s'); [rewrite <- app_assoc; exact Hl| |exact E2|exact Hx].
      intros z Hz. apply in_app_or in Hz as [Hz|[<-|[]]].
      + apply in_split in Hz as (l1 & l2 & ->).
        apply (H2 l1 z (l2 ++ y :: todo) y s s1); [rewrite Hl, <- app_assoc; reflexivity|apply in_or_app; right; left; reflexivity| |exact E1].
        apply Hd. apply in_or_app; right; left; reflexivity.
      + apply (H1 y s s1); [rewrite Hl; apply in_or_app; right; left; reflexivity|exact E1]. }
  intros s s' He. apply (G [] l s s' eq_refl); [intros x []|exact He].
Qed.

Lemma each_inv {A} (f : A -> vstate -> out) (P : vstate -> Prop) :
  (forall x s s', P s -> f x s = (s', None) -> P s') ->
  forall l s s', P s -> each f l s = (s', None) -> P s'.
Proof.
  intros H. induction l as [|x l IH]; intros s s' HP He; cbn [each] in He.
  - inversion He; subst; exact HP.
  - apply andthen_ok in He as (s1 & E1 & E2). eauto.
Qed.

(** ** update_variables *)

Lemma clip_between lo hi q : (lo <= hi)%Q -> between lo (clip lo hi q) hi.
Proof. intros H. unfold clip, between. qcase (qlt q lo); [lra|]. qcase (qlt hi q); lra. Qed.
Lemma clip_id lo hi q : between lo q hi -> clip lo hi q = q.
Proof. intros [H1 H2]. unfold clip. qcase (qlt q lo); [lra|]. qcase (qlt hi q); [lra|auto]. Qed.
Lemma snap_between q : between 0 (snap q) 1.
Proof. unfold snap, between, ERR. qcase (qlt q (1 # 1000000)); [lra|]. qcase (qlt (1 - (1 # 1000000)) q); lra. Qed.

Lemma relax_spec p d : (0 < p)%Q ->
  let p' := (p + d / pymax1 ((-2) * d / p))%Q in
  (p / 2 <= p')%Q /\ ((- (p / 2) <= d)%Q -> (p' == p + d)%Q) /\ ((d <= - (p / 2))%Q -> (p' == p / 2)%Q).
Proof.
  intros Hp p'. unfold p', pymax1.
  assert (Hi : ((-2) * d / p == (-2 * d) * / p)%Q) by reflexivity.
  qcase (qlt 1 ((-2) * d / p)).
  - assert (Hd : (p < -2 * d)%Q).
    { apply (Qmult_lt_compat_r _ _ p Hp) in E. setoid_replace ((-2) * d / p * p)%Q with (-2 * d)%Q in E by (field; repeat split; intros ?; lra). lra. }
    assert (He : (p + d / ((-2) * d / p) == p / 2)%Q) by (field; repeat split; intros ?; lra).
    assert (Hh : (p / 2 == p * (1#2))%Q) by field; rewrite He; split; [lra|split; intros; lra].
  - assert (Hd : (-2 * d <= p)%Q).
    { apply (Qmult_le_compat_r _ _ p) in E; [|lra]. setoid_replace ((-2) * d / p * p)%Q with (-2 * d)%Q in E by (field; repeat split; intros ?; lra). lra. }
    assert (He : (p + d / 1 == p + d)%Q) by field.
    assert (Hh : (p / 2 == p * (1#2))%Q) by field; rewrite He; split; [lra|split; intros; lra].
Qed.

Lemma update_one_frame L inc e s x :
  fst e <> x ->
  match x with
  | UM a => v_m (fst (update_one L inc e s)) a = v_m s a
  | UP c => v_p (fst (update_one L inc e s)) c = v_p s c
  | UH c => v_h (fst (update_one L inc e s)) c = v_h s c
  | UF a f => dget f (v_f (fst (update_one L inc e s)) a) = dget f (v_f s a)
  | UC a => v_c (fst (update_one L inc e s)) a = v_c s a
  end.
Proof.
  intros H. unfold update_one. destruct (nth_error inc (snd e)) as [d|]; [|destruct x; reflexivity].
  destruct (fst e) as [a|c|c|a f|a].
  - destruct x; cbn; auto. apply nupd_neq. congruence.
  - destruct (Qeq_bool (v_p s c) 0); destruct x; cbn; auto. apply nupd_neq. congruence.
  - destruct x; cbn; auto. apply nupd_neq. congruence.
  - destruct (dget f (v_f s a)) as [q|]; [|destruct x; reflexivity]. destruct x as [a'|a'|a'|a' f'|a']; cbn; auto.
    destruct (Nat.eq_dec a' a) as [->|Hn].
    + rewrite nupd_eq. apply dget_dset_neq. congruence.
    + now rewrite nupd_neq.
  - destruct x; cbn; auto. apply nupd_neq. congruence.
Qed.

Lemma update_one_other L inc e s x : fst e <> x -> value x (fst (update_one L inc e s)) = value x s.
Proof.
  intros H. pose proof (update_one_frame L inc e s x H) as F.
  destruct x; cbn [value]; rewrite F; reflexivity.
Qed.

Lemma update_frame L inc vars s x : ~ In x (map fst vars) ->
  value x (fst (update_variables L inc vars s)) = value x s.
Proof.
  unfold update_variables. revert s. induction vars as [|e vars IH]; intros s H; cbn [each]; [reflexivity|].
  cbn [map In] in H. unfold andthen.
  destruct (update_one L inc e s) as [s1 o] eqn:E. cbn [fst snd].
  assert (Hs : value x s1 = value x s).
  { change s1 with (fst (s1, o)). rewrite <- E. apply update_one_other. tauto. }
  destruct o; [exact Hs|]. rewrite IH; [exact Hs|tauto].
Qed.

(** New value of an entry. *)
Definition stepped (L : limits) (x : uvar) (q d : Q) : Q :=
  match x with
  | UM _ | UH _ => (q + d)%Q
  | UP _ => (q + d / pymax1 ((-2) * d / q))%Q
  | UF _ _ => snap (q + d)%Q
  | UC a => clip (c_min L a) (c_max L a) (q + d)%Q
  end.

Definition fine (inc : list Q) (s : vstate) (e : uvar * nat) : Prop :=
  snd e < length inc /\ exists q, value (fst e) s = Some q /\
  match fst e with UP _ => ~ (q == 0)%Q | _ => True end.

Lemma update_one_value L inc e s : fine inc s e ->
  exists q, value (fst e) s = Some q /\
  snd (update_one L inc e s) = None /\
  value (fst e) (fst (update_one L inc e s)) = Some (stepped L (fst e) q (nth (snd e) inc 0%Q)).
Proof.
  intros (Hl & q & Hq & Hz). exists q. split; [exact Hq|]. unfold update_one.
  rewrite (nth_error_nth' inc 0%Q Hl). set (d := nth (snd e) inc 0%Q).
  destruct (fst e) as [a|c|c|a f|a]; cbn [value] in Hq; cbn [stepped].
  - inversion Hq; subst q. cbn. rewrite nupd_eq. auto.
  - inversion Hq; subst q. destruct (Qeq_bool (v_p s c) 0) eqn:E; [apply Qeq_bool_iff in E; tauto|].
    cbn. rewrite nupd_eq. auto.
  - inversion Hq; subst q. cbn. rewrite nupd_eq. auto.
  - rewrite Hq. cbn. rewrite nupd_eq, dget_dset_eq. auto.
  - inversion Hq; subst q. cbn. rewrite nupd_eq. auto.
Qed.

Lemma update_values L inc vars : NoDup (map fst vars) -> forall s,
  Forall (fine inc s) vars ->
  exists s', update_variables L inc vars s = (s', None) /\
  forall e, In e vars -> exists q, value (fst e) s = Some q /\
    value (fst e) s' = Some (stepped L (fst e) q (nth (snd e) inc 0%Q)).
Proof.
  unfold update_variables. induction vars as [|e vars IH]; intros Hn s Hf; cbn [each].
  - exists s. split; [reflexivity|]. intros e [].
  - cbn [map] in Hn. inversion Hn as [|? ? Hn1 Hn2]; subst.
    inversion Hf as [|? ? Hf1 Hf2]; subst.
    destruct (update_one_value L inc e s Hf1) as (q & Hq & Hs & Hv).
    destruct (update_one L inc e s) as [s1 o] eqn:E. cbn [fst snd] in *. subst o.
    assert (Ho : forall e', In e' vars -> value (fst e') s1 = value (fst e') s).
    { intros e' He'. change s1 with (fst (s1, @None pyerr)). rewrite <- E. apply update_one_other.
      intros Heq. apply Hn1. rewrite Heq. now apply in_map. }
    destruct (IH Hn2 s1) as (s' & Hs' & Hall).
    { rewrite Forall_forall in Hf2 |- *. intros e' He'. destruct (Hf2 e' He') as (Hl & q' & Hq' & Hz).
      split; [exact Hl|]. exists q'. rewrite (Ho e' He'). auto. }
    exists s'. unfold andthen; cbn [fst snd]. split; [exact Hs'|].
    intros e' [<-|He'].
    + exists q. split; [exact Hq|]. rewrite <- Hv.
      pose proof (update_frame L inc vars s1 (fst e) Hn1) as F. unfold update_variables in F. rewrite Hs' in F. exact F.
    + destruct (Hall e' He') as (q' & Hq' & Hv'). exists q'. rewrite <- (Ho e' He'). auto.
Qed.

(** ** Frame *)

Section Frame.
Context (X : unknowns).
Notation R := (only_unknowns_changed X).

Lemma ch_refl s : R s s.
Proof. constructor; auto. Qed.
Lemma ch_trans s1 s2 s3 : R s1 s2 -> R s2 s3 -> R s1 s3.
Proof.
  intros [A1 A2 A3 A4 A5 A6] [B1 B2 B3 B4 B5 B6]. constructor; intros.
  - now rewrite B1, A1. - now rewrite B2, A2. - now rewrite B3, A3.
  - now rewrite B4, A4. - now rewrite B5, A5. - now rewrite B6, A6.
Qed.

Lemma ch_set_m a q s : x_m X a = true -> R s (set_m a q s).
Proof. intros H. constructor; cbn; auto. intros b Hb. apply nupd_neq. intros ->; congruence. Qed.
Lemma ch_set_p a q s : x_p X a = true -> R s (set_p a q s).
Proof. intros H. constructor; cbn; auto. intros b Hb. apply nupd_neq. intros ->; congruence. Qed.
Lemma ch_set_h a q s : x_h X a = true -> R s (set_h a q s).
Proof. intros H. constructor; cbn; auto. intros b Hb. apply nupd_neq. intros ->; congruence. Qed.
Lemma ch_set_fd a d s : R s (set_fd a d s).
Proof. constructor; cbn; auto. Qed.
Lemma ch_set_f a d s : keys d = keys (v_f s a) -> (forall f, ~ In f (x_f X a) -> dget f d = dget f (v_f s a)) -> R s (set_f a d s).
Proof.
  intros H1 H2. constructor; cbn; auto.
  - intros b f Hf. unfold nupd. destruct (Nat.eqb b a) eqn:E; [apply Nat.eqb_eq in E; subst; auto|auto].
  - intros b. unfold nupd. destruct (Nat.eqb b a) eqn:E; [apply Nat.eqb_eq in E; subst; auto|auto].
Qed.

Lemma keys_dset_present (d : dict Q) f q q' : dget f d = Some q -> keys (dset f q' d) = keys d.
Proof.
  induction d as [|[k v] d IH]; cbn; [discriminate|].
  destruct (String.eqb f k) eqn:E; cbn; [auto|]. intros H. unfold keys in *. now rewrite IH.
Qed.

Lemma ch_put a f q q' s : In f (x_f X a) -> dget f (v_f s a) = Some q -> R s (set_f a (dset f q' (v_f s a)) s).
Proof.
  intros Hf Hq. apply ch_set_f.
  - eapply keys_dset_present; eauto.
  - intros g Hg. apply dget_dset_neq. congruence.
Qed.

Lemma scale_frame fs t : forall d, keys (fst (scale fs t d)) = keys d /\ forall f, ~ In f fs -> dget f (fst (scale fs t d)) = dget f d.
Proof.
  induction fs as [|g fs IH]; intros d; cbn [scale]; [auto|].
  destruct (dget g d) as [q|] eqn:E; [|auto]. destruct (Qeq_bool t 0); [auto|].
  destruct (IH (dset g (q / t)%Q d)) as [I1 I2]. split.
  - rewrite I1. eapply keys_dset_present; eauto.
  - cbn [In]. intros f Hf. rewrite I2 by tauto. apply dget_dset_neq. intros ->; tauto.
Qed.

Lemma ch_normalise a s : R s (fst (normalise X a s)).
Proof.
  unfold normalise. cbn [fst]. destruct (scale_frame (x_f X a) (total (v_f s a)) (v_f s a)) as [I1 I2].
  now apply ch_set_f.
Qed.

Ltac ch := repeat first
  [ exact (ch_refl _)
  | match goal with
    | |- context [match ?x with _ => _ end] => destruct x eqn:?
    | H : (_ && _)%bool = true |- _ => apply andb_prop in H as [? ?]
    end
  | progress cbn [fst snd] ].

Lemma ch_pressure w c s : x_p X (k_id c) = true -> R s (fst (check_pressure_bounds w c s)).
Proof. intros H. unfold check_pressure_bounds. ch; try exact (ch_refl _); now apply ch_set_p. Qed.
Lemma ch_enthalpy w c s : x_h X (k_id c) = true -> R s (fst (check_enthalpy_bounds w c s)).
Proof. intros H. unfold check_enthalpy_bounds. ch; now apply ch_set_h. Qed.
Lemma ch_two_phase w c s : x_h X (k_id c) = true -> R s (fst (check_two_phase_bounds w c s)).
Proof. intros H. unfold check_two_phase_bounds. ch; now apply ch_set_h. Qed.

Lemma ch_if (b : bool) s s0 s1 : (b = true -> R s s1) -> (b = false -> R s s0) -> R s (if b then s1 else s0).
Proof. destruct b; auto. Qed.

Lemma ch_temperature c s : x_h X (k_id c) = true -> R s (fst (check_temperature_bounds c s)).
Proof.
  intros H. unfold check_temperature_bounds.
  destruct (rmapM _ (k_wrap c)) as [ws|e]; [|apply ch_refl].
  destruct (fold_right _ [] ws) as [|w l]; [apply ch_refl|].
  destruct (k_hmix c _ _ _) as [hmin|e]; [|apply ch_refl].
  destruct (k_hmix c _ _ _) as [hmax|e]; [|apply ch_refl].
  cbn [fst]. set (s1 := if qlt (v_h s (k_id c)) hmin then set_h (k_id c) hmin s else s).
  assert (H1 : R s s1) by (apply ch_if; intros _; [now apply ch_set_h|apply ch_refl]).
  eapply ch_trans; [exact H1|]. apply ch_if; intros _; [now apply ch_set_h|apply ch_refl].
Qed.

Lemma ch_pure N w c s : R s (fst (check_pure N X w c s)).
Proof.
  unfold check_pure. apply (andthen_rel R ch_trans).
  - destruct (x_p X (k_id c)) eqn:E; [now apply ch_pressure|apply ch_refl].
  - intros s1. destruct (x_h X (k_id c)) eqn:E; [|apply ch_refl]. apply (andthen_rel R ch_trans).
    + now apply ch_enthalpy.
    + intros s2. destruct (_ && _)%bool; [now apply ch_two_phase|apply ch_refl].
Qed.

Lemma ch_mixture N c s : R s (fst (check_mixture N X c s)).
Proof.
  unfold check_mixture.
  set (s1 := if x_p X (k_id c) then _ else s).
  assert (H1 : R s s1).
  { unfold s1. apply ch_if; intros Hp; [|apply ch_refl].
    apply ch_if; intros _; [now apply ch_set_p|]. apply ch_if; intros _; [now apply ch_set_p|apply ch_refl]. }
  destruct (x_h X (k_id c)) eqn:E; [|exact H1].
  set (s2 := if qlt (v_h s1 (k_id c)) (h_lo N) then _ else _).
  assert (H2 : R s1 s2).
  { unfold s2. apply ch_if; intros _; [now apply ch_set_h|]. apply ch_if; intros _; [now apply ch_set_h|apply ch_refl]. }
  eapply ch_trans; [exact H1|]. destruct (k_T c); [|exact H2].
  eapply ch_trans; [exact H2|]. now apply ch_temperature.
Qed.

Lemma ch_mass_flow N c s : R s (check_mass_flow N X c s).
Proof.
  unfold check_mass_flow. apply ch_if; intros H.
  - apply andb_prop in H as [_ H]. now apply ch_set_m.
  - apply ch_if; intros H'; [|apply ch_refl]. apply andb_prop in H' as [_ H']. now apply ch_set_m.
Qed.

Lemma ch_props N c s : R s (fst (check_connection_properties N X c s)).
Proof.
  unfold check_connection_properties. apply (andthen_rel R ch_trans).
  - destruct (single_fluid _) as [fl|].
    + destruct (dget fl (k_wrap c)) as [w|]; [apply ch_pure|apply ch_refl].
    + destruct (_ && _)%bool; [apply ch_mixture|apply ch_refl].
  - intros s1. apply ch_mass_flow.
Qed.

Lemma ch_conn N c s : R s (fst (check_conn N X c s)).
Proof.
  unfold check_conn. apply (andthen_rel R ch_trans); [apply ch_normalise|].
  intros s1. eapply ch_trans; [apply ch_set_fd|apply ch_props].
Qed.

Ltac unguard := repeat match goal with H : (_ && _)%bool = true |- _ => apply andb_prop in H as [? ?] end.

Lemma ch_seq (b : bool) s s1 s2 : R s s1 -> (b = true -> R s1 s2) -> R s (if b then s2 else s1).
Proof. intros H1 H2. destruct b; [eapply ch_trans; eauto|exact H1]. Qed.

Ltac steps := cbv zeta; repeat first
  [ apply ch_refl
  | apply ch_seq; [|intros; unguard; first [now apply ch_set_p | now apply ch_set_h | now apply ch_set_m]] ].

Lemma ch_compressor i o s : R s (conv_compressor X i o s).
Proof.
  unfold conv_compressor.
  steps.
Qed.

Lemma ch_turbine i o s : R s (conv_turbine X i o s).
Proof.
  unfold conv_turbine. destruct (k_good i);
  steps.
Qed.

Lemma ch_pump i o flow s : R s (fst (conv_pump X i o flow s)).
Proof.
  unfold conv_pump.
  match goal with |- context [match flow with None => (?x, None) | _ => _ end] => set (s4 := x) end.
  assert (H : R s s4).
  { unfold s4.
    steps. }
  clearbody s4. destruct flow as [[[[volf x0] x1] xl]|]; [|exact H].
  destruct (volf s4) as [vol|e]; [|exact H].
  destruct (qlt xl _ && x_m X (k_m i))%bool eqn:E1; [unguard; eapply ch_trans; [exact H|now apply ch_set_m]|].
  destruct (qlt _ x1 && x_m X (k_m i))%bool eqn:E2; [unguard; eapply ch_trans; [exact H|now apply ch_set_m]|exact H].
Qed.

Lemma ch_comb_inlets l : forall acc s, R s (fst (comb_inlets X l acc s)).
Proof.
  induction l as [|i l IH]; intros acc s; cbn [comb_inlets]; [apply ch_refl|].
  eapply ch_trans; [|apply IH]. apply ch_if; intros; unguard; [now apply ch_set_m|apply ch_refl].
Qed.

Lemma ch_comb_fluid ins a o2 co2 h2o fuels m f s : In f (x_f X a) ->
  R s (fst (comb_fluid ins a o2 co2 h2o fuels m f s)).
Proof.
  intros Hf. unfold comb_fluid. destruct (dget f (v_f s a)) as [q|] eqn:E; [|apply ch_refl].
  destruct (String.eqb f o2); [eapply ch_put; eauto|].
  destruct (String.eqb f co2); [eapply ch_put; eauto|].
  destruct (String.eqb f h2o); [eapply ch_put; eauto|].
  destruct (smem f fuels); [eapply ch_put; eauto|].
  destruct (comb_mf ins f 0 s) as [mf|e]; [|apply ch_refl].
  destruct (Qeq_bool m 0); [apply ch_refl|].
  destruct (_ || _)%bool; [eapply ch_put; eauto|apply ch_refl].
Qed.

Lemma each_rel_in {A} (f : A -> vstate -> out) l : (forall x s, In x l -> R s (fst (f x s))) -> forall s, R s (fst (each f l s)).
Proof.
  induction l as [|x l IH]; intros H s; cbn [each]; [apply ch_refl|].
  apply (andthen_rel R ch_trans); [apply H; left; auto|]. intros s1. apply IH. intros y s2 Hy. apply H; right; auto.
Qed.

Lemma comb_search_var l fuels s : forall found fi air b i a,
  (forall j, fi = Some j -> x_m X (k_m j) = true) ->
  comb_search X l fuels found fi air s = Ok (b, i, a) -> forall j, i = Some j -> x_m X (k_m j) = true.
Proof.
  induction l as [|c l IH]; intros found fi air b i a Hf H j Hj; cbn [comb_search] in H.
  - inversion H; subst. auto.
  - destruct (k_good c); [eapply IH; eauto|].
    destruct (comb_fuel fuels _ 0) as [fuel|e]; [|discriminate].
    eapply IH; [|exact H|exact Hj]. intros j' Hj'.
    destruct (qlt (75 # 100) fuel && x_m X (k_m c))%bool eqn:E; [|auto].
    apply andb_prop in E as [_ E]. inversion Hj'; now subst.
Qed.

Lemma ch_combustion ins o o2 co2 h2o fuels ls s : R s (fst (conv_combustion X ins o o2 co2 h2o fuels ls s)).
Proof.
  unfold conv_combustion. apply (andthen_rel R ch_trans).
  - eapply ch_trans; [apply ch_comb_inlets|]. apply each_rel_in. intros f s1 Hf. now apply ch_comb_fluid.
  - intros s1. apply (andthen_rel R ch_trans); [apply ch_normalise|]. intros s2.
    set (s3 := build_fluid_data o s2).
    set (s4 := if (qlt (v_m s3 (k_m o)) 0 && x_m X (k_m o))%bool then _ else s3).
    set (s5 := if (negb (k_good o) && _)%bool then _ else s4).
    assert (H5 : R s2 s5).
    { apply (ch_trans s2 s3); [apply ch_set_fd|]. apply (ch_trans s3 s4).
      - apply ch_if; intros; unguard; [now apply ch_set_m|apply ch_refl].
      - apply ch_if; intros; unguard; [now apply ch_set_h|apply ch_refl]. }
    destruct ls; [|exact H5].
    destruct (comb_search X ins fuels false None None s5) as [[[b i] a]|e] eqn:E; [|exact H5].
    destruct b; [|destruct ins; exact H5]. destruct i as [i|]; [|exact H5]. destruct a as [a|]; [|exact H5].
    eapply ch_trans; [exact H5|]. apply ch_set_m.
    eapply (comb_search_var ins fuels s5 false None None); [|exact E|reflexivity]. intros j Hj; discriminate.
Qed.

Lemma ch_convergence cp s : R s (fst (convergence_check X cp s)).
Proof.
  destruct cp; cbn [convergence_check].
  - apply ch_compressor. - apply ch_turbine. - apply ch_pump. - apply ch_combustion. - apply ch_refl.
Qed.

Lemma ch_bounds N conns comps s : R s (fst (check_variable_bounds N X conns comps s)).
Proof.
  unfold check_variable_bounds. apply (andthen_rel R ch_trans).
  - apply (each_rel R ch_refl ch_trans). intros. apply ch_conn.
  - intros s1. destruct (Nat.ltb (iter N) 3); [|apply ch_refl]. apply (andthen_rel R ch_trans).
    + apply (each_rel R ch_refl ch_trans). intros. apply ch_convergence.
    + intros s2. apply (each_rel R ch_refl ch_trans). intros. apply ch_props.
Qed.
End Frame.

(** ** Mass flow range *)

Lemma mass_flow_range N X c s : (m_lo N <= m_hi N)%Q -> x_m X (k_m c) = true ->
  between (m_lo N) (v_m (check_mass_flow N X c s) (k_m c)) (m_hi N).
Proof.
  intros H Hx. unfold check_mass_flow, between. rewrite Hx, !andb_true_r.
  qcase (qle (v_m s (k_m c)) (m_lo N)); [cbn; rewrite nupd_eq; lra|].
  qcase (qle (m_hi N) (v_m s (k_m c))); [cbn; rewrite nupd_eq; lra|lra].
Qed.

Lemma mass_flow_other N X c s a : a <> k_m c -> v_m (check_mass_flow N X c s) a = v_m s a.
Proof.
  intros H. unfold check_mass_flow. destruct (_ && _)%bool; [cbn; now apply nupd_neq|].
  destruct (_ && _)%bool; [cbn; now apply nupd_neq|reflexivity].
Qed.

Section Vm.
(* the property checks of pressure, enthalpy and temperature do not touch mass
   flows, fractions, fluid data *)
Record same_mf (s s' : vstate) : Prop := { sm_m : v_m s' = v_m s; sm_f : v_f s' = v_f s; sm_fd : v_fd s' = v_fd s }.
Lemma sm_refl s : same_mf s s. Proof. constructor; auto. Qed.
Lemma sm_trans s1 s2 s3 : same_mf s1 s2 -> same_mf s2 s3 -> same_mf s1 s3.
Proof. intros [A B C] [A' B' C']. constructor; congruence. Qed.
Lemma sm_p a q s : same_mf s (set_p a q s). Proof. constructor; auto. Qed.
Lemma sm_h a q s : same_mf s (set_h a q s). Proof. constructor; auto. Qed.
Lemma sm_if (b : bool) s s0 s1 : same_mf s s1 -> same_mf s s0 -> same_mf s (if b then s1 else s0).
Proof. destruct b; auto. Qed.
Hint Resolve sm_refl sm_p sm_h : smdb.

Lemma sm_temperature c s : same_mf s (fst (check_temperature_bounds c s)).
Proof.
  unfold check_temperature_bounds.
  destruct (rmapM _ (k_wrap c)) as [ws|e]; [|apply sm_refl].
  destruct (fold_right _ [] ws) as [|w l]; [apply sm_refl|].
  destruct (k_hmix c _ _ _) as [hmin|e]; [|apply sm_refl].
  destruct (k_hmix c _ _ _) as [hmax|e]; [|apply sm_refl].
  cbn [fst]. set (s1 := if qlt (v_h s (k_id c)) hmin then set_h (k_id c) hmin s else s).
  assert (H1 : same_mf s s1) by (apply sm_if; auto with smdb).
  eapply sm_trans; [exact H1|]. apply sm_if; auto with smdb.
Qed.

Lemma sm_pure N X w c s : same_mf s (fst (check_pure N X w c s)).
Proof.
  unfold check_pure. apply (andthen_rel same_mf sm_trans).
  - destruct (x_p X (k_id c)); [|apply sm_refl]. unfold check_pressure_bounds.
    repeat match goal with |- context [match ?x with _ => _ end] => destruct x end; cbn [fst]; auto with smdb.
  - intros s1. destruct (x_h X (k_id c)); [|apply sm_refl]. apply (andthen_rel same_mf sm_trans).
    + unfold check_enthalpy_bounds.
      repeat match goal with |- context [match ?x with _ => _ end] => destruct x end; cbn [fst]; auto with smdb.
    + intros s2. destruct (_ && _)%bool; [|apply sm_refl]. unfold check_two_phase_bounds.
      repeat match goal with |- context [match ?x with _ => _ end] => destruct x end; cbn [fst]; auto with smdb.
Qed.

Lemma sm_mixture N X c s : same_mf s (fst (check_mixture N X c s)).
Proof.
  unfold check_mixture.
  set (s1 := if x_p X (k_id c) then _ else s).
  assert (H1 : same_mf s s1).
  { unfold s1. repeat apply sm_if; auto with smdb. }
  clearbody s1. destruct (x_h X (k_id c)); [|exact H1].
  set (s2 := if qlt (v_h s1 (k_id c)) (h_lo N) then _ else _).
  assert (H2 : same_mf s1 s2) by (unfold s2; repeat apply sm_if; auto with smdb).
  eapply sm_trans; [exact H1|]. destruct (k_T c); [|exact H2].
  eapply sm_trans; [exact H2|apply sm_temperature].
Qed.
End Vm.

(** The state before the mass flow check. *)
Lemma props_split N X c s s' : check_connection_properties N X c s = (s', None) ->
  exists s1, same_mf s s1 /\ s' = check_mass_flow N X c s1 /\
  (single_fluid (v_fd s (k_id c)) = None -> iter N < 4 -> k_good c = false -> check_mixture N X c s = (s1, None)) /\
  (forall fl w, single_fluid (v_fd s (k_id c)) = Some fl -> dget fl (k_wrap c) = Some w -> check_pure N X w c s = (s1, None)).
Proof.
  unfold check_connection_properties. intros H. apply andthen_ok in H as (s1 & H1 & H2).
  assert (Hs' : s' = check_mass_flow N X c s1) by (inversion H2; reflexivity). clear H2.
  exists s1. destruct (single_fluid (v_fd s (k_id c))) as [fl|].
  - destruct (dget fl (k_wrap c)) as [w|] eqn:Ew; [|discriminate].
    split; [|split; [exact Hs'|split; [discriminate|]]].
    + change s1 with (fst (s1, @None pyerr)). rewrite <- H1. apply sm_pure.
    + intros fl' w' E1 E2. inversion E1; subst fl'. rewrite Ew in E2. inversion E2; subst w'. exact H1.
  - destruct (Nat.ltb (iter N) 4 && negb (k_good c))%bool eqn:E.
    + split; [|split; [exact Hs'|split; [auto|discriminate]]].
      change s1 with (fst (s1, @None pyerr)). rewrite <- H1. apply sm_mixture.
    + inversion H1; subst s1. split; [apply sm_refl|split; [exact Hs'|split; [|discriminate]]].
      intros _ Hi Hg. apply andb_false_iff in E as [E|E]; [apply Nat.ltb_ge in E; lia|].
      rewrite Hg in E; discriminate.
Qed.

Lemma props_m N X c s s' : (m_lo N <= m_hi N)%Q -> check_connection_properties N X c s = (s', None) ->
  (x_m X (k_m c) = true -> between (m_lo N) (v_m s' (k_m c)) (m_hi N)) /\
  (forall a, x_m X a = true -> between (m_lo N) (v_m s a) (m_hi N) -> between (m_lo N) (v_m s' a) (m_hi N)).
Proof.
  intros Hr H. apply props_split in H as (s1 & [Sm _ _] & -> & _).
  split; [now apply mass_flow_range|].
  intros a Ha Hb. destruct (Nat.eq_dec a (k_m c)) as [->|Hn].
  - now apply mass_flow_range.
  - rewrite mass_flow_other by exact Hn. now rewrite Sm.
Qed.

Lemma normalise_m X a s : v_m (fst (normalise X a s)) = v_m s.
Proof. reflexivity. Qed.

Lemma bounds_m N X conns comps s s' : (m_lo N <= m_hi N)%Q ->
  check_variable_bounds N X conns comps s = (s', None) ->
  forall c, In c conns -> x_m X (k_m c) = true -> between (m_lo N) (v_m s' (k_m c)) (m_hi N).
Proof.
  intros Hr H. unfold check_variable_bounds in H. apply andthen_ok in H as (s1 & H1 & H2).
  destruct (Nat.ltb (iter N) 3).
  - apply andthen_ok in H2 as (s2 & _ & H3).
    apply (each_post (check_connection_properties N X)
      (fun c s => x_m X (k_m c) = true -> between (m_lo N) (v_m s (k_m c)) (m_hi N)) conns) with (s := s2); [| |exact H3].
    + intros c t t' _ Ht. exact (proj1 (props_m N X c t t' Hr Ht)).
    + intros l1 x l2 y t t' _ _ Hx Ht Hv. apply (proj2 (props_m N X y t t' Hr Ht)); auto.
  - inversion H2; subst s1; clear H2.
    apply (each_post (check_conn N X)
      (fun c s => x_m X (k_m c) = true -> between (m_lo N) (v_m s (k_m c)) (m_hi N)) conns) with (s := s); [| |exact H1].
    + intros c t t' _ Ht. unfold check_conn in Ht. apply andthen_ok in Ht as (t1 & Hn & Ht).
      exact (proj1 (props_m N X c _ t' Hr Ht)).
    + intros l1 x l2 y t t' _ _ Hx Ht Hv. unfold check_conn in Ht. apply andthen_ok in Ht as (t1 & Hn & Ht).
      apply (proj2 (props_m N X y _ t' Hr Ht)); [exact Hv|]. cbn.
      assert (E : v_m t1 = v_m t). { change t1 with (fst (t1, @None pyerr)). rewrite <- Hn. reflexivity. }
      rewrite E. auto.
Qed.

(** ** Mixtures in the first iterations *)

Section Other.
(* the checks of connection [c] do not touch pressure, enthalpy and fluid data of others *)
Record same_ph (a : nat) (s s' : vstate) : Prop := { sp_p : v_p s' a = v_p s a; sp_h : v_h s' a = v_h s a; sp_fd : v_fd s' a = v_fd s a }.
Lemma sp_refl a s : same_ph a s s. Proof. constructor; auto. Qed.
Lemma sp_trans a s1 s2 s3 : same_ph a s1 s2 -> same_ph a s2 s3 -> same_ph a s1 s3.
Proof. intros [A B C] [A' B' C']. constructor; congruence. Qed.
Lemma sp_p' a b q s : a <> b -> same_ph a s (set_p b q s).
Proof. intros H. constructor; cbn; auto. now apply nupd_neq. Qed.
Lemma sp_h' a b q s : a <> b -> same_ph a s (set_h b q s).
Proof. intros H. constructor; cbn; auto. now apply nupd_neq. Qed.
Lemma sp_fd' a b q s : a <> b -> same_ph a s (set_fd b q s).
Proof. intros H. constructor; cbn; auto. now apply nupd_neq. Qed.
Lemma sp_m a b q s : same_ph a s (set_m b q s). Proof. constructor; auto. Qed.
Lemma sp_f a b q s : same_ph a s (set_f b q s). Proof. constructor; auto. Qed.
Lemma sp_if a (b : bool) s s0 s1 : same_ph a s s1 -> same_ph a s s0 -> same_ph a s (if b then s1 else s0).
Proof. destruct b; auto. Qed.
Hint Resolve sp_refl sp_p' sp_h' sp_fd' sp_m sp_f : spdb.

Lemma sp_props N X c s a : a <> k_id c -> same_ph a s (fst (check_connection_properties N X c s)).
Proof.
  intros H. unfold check_connection_properties. apply (andthen_rel (same_ph a) (sp_trans a)).
  - destruct (single_fluid _) as [fl|].
    + destruct (dget fl (k_wrap c)) as [w|]; [|apply sp_refl].
      unfold check_pure. apply (andthen_rel (same_ph a) (sp_trans a)).
      * destruct (x_p X (k_id c)); [|apply sp_refl]. unfold check_pressure_bounds.
        repeat match goal with |- context [match ?x with _ => _ end] => destruct x end; cbn [fst]; auto with spdb.
      * intros s1. destruct (x_h X (k_id c)); [|apply sp_refl]. apply (andthen_rel (same_ph a) (sp_trans a)).
        -- unfold check_enthalpy_bounds.
           repeat match goal with |- context [match ?x with _ => _ end] => destruct x end; cbn [fst]; auto with spdb.
        -- intros s2. destruct (_ && _)%bool; [|apply sp_refl]. unfold check_two_phase_bounds.
           repeat match goal with |- context [match ?x with _ => _ end] => destruct x end; cbn [fst]; auto with spdb.
    + destruct (_ && _)%bool; [|apply sp_refl]. unfold check_mixture.
      set (s1 := if x_p X (k_id c) then _ else s).
      assert (H1 : same_ph a s s1) by (unfold s1; repeat apply sp_if; auto with spdb).
      clearbody s1. destruct (x_h X (k_id c)); [|exact H1].
      set (s2 := if qlt (v_h s1 (k_id c)) (h_lo N) then _ else _).
      assert (H2 : same_ph a s1 s2) by (unfold s2; repeat apply sp_if; auto with spdb).
      eapply sp_trans; [exact H1|]. clearbody s2. destruct (k_T c); [|exact H2]. eapply sp_trans; [exact H2|].
      unfold check_temperature_bounds.
      destruct (rmapM _ (k_wrap c)) as [ws|e]; [|apply sp_refl].
      destruct (fold_right _ [] ws) as [|w l]; [apply sp_refl|].
      destruct (k_hmix c _ _ _) as [hmin|e]; [|apply sp_refl].
      destruct (k_hmix c _ _ _) as [hmax|e]; [|apply sp_refl].
      cbn [fst]. set (s3 := if qlt (v_h s2 (k_id c)) hmin then set_h (k_id c) hmin s2 else s2).
      assert (H3 : same_ph a s2 s3) by (apply sp_if; auto with spdb).
      eapply sp_trans; [exact H3|]. apply sp_if; auto with spdb.
  - intros s1. cbn [fst]. unfold check_mass_flow. repeat apply sp_if; auto with spdb.
Qed.

Lemma sp_conn N X c s a : a <> k_id c -> same_ph a s (fst (check_conn N X c s)).
Proof.
  intros H. unfold check_conn. apply (andthen_rel (same_ph a) (sp_trans a)).
  - unfold normalise. cbn [fst]. auto with spdb.
  - intros s1. eapply sp_trans; [|now apply sp_props]. unfold build_fluid_data. auto with spdb.
Qed.
End Other.

Definition mix_ok (N : netpar) (X : unknowns) (c : conn) (s : vstate) : Prop :=
  single_fluid (v_fd s (k_id c)) = None -> k_good c = false ->
  (x_p X (k_id c) = true -> between (p_lo N) (v_p s (k_id c)) (p_hi N)) /\
  (x_h X (k_id c) = true -> k_T c = false -> between (h_lo N) (v_h s (k_id c)) (h_hi N)).

Lemma mass_flow_ph N X c s : v_p (check_mass_flow N X c s) = v_p s /\ v_h (check_mass_flow N X c s) = v_h s /\ v_fd (check_mass_flow N X c s) = v_fd s.
Proof. unfold check_mass_flow. destruct (_ && _)%bool; [auto|]. destruct (_ && _)%bool; auto. Qed.

Lemma temperature_p c s : v_p (fst (check_temperature_bounds c s)) = v_p s.
Proof.
  unfold check_temperature_bounds.
  destruct (rmapM _ (k_wrap c)) as [ws|e]; [|reflexivity].
  destruct (fold_right _ [] ws) as [|w l]; [reflexivity|].
  destruct (k_hmix c _ _ _) as [hmin|e]; [|reflexivity].
  destruct (k_hmix c _ _ _) as [hmax|e]; [|reflexivity].
  cbn [fst]. destruct (qlt (v_h s (k_id c)) hmin); destruct (qlt hmax _); reflexivity.
Qed.

Lemma mixture_range N X c s s' : (p_lo N <= p_hi N)%Q -> (h_lo N <= h_hi N)%Q ->
  check_mixture N X c s = (s', None) ->
  (x_p X (k_id c) = true -> between (p_lo N) (v_p s' (k_id c)) (p_hi N)) /\
  (x_h X (k_id c) = true -> k_T c = false -> between (h_lo N) (v_h s' (k_id c)) (h_hi N)).
Proof.
  intros Hp Hh H. unfold check_mixture in H.
  set (s1 := if x_p X (k_id c) then _ else s) in H.
  assert (P1 : x_p X (k_id c) = true -> between (p_lo N) (v_p s1 (k_id c)) (p_hi N)).
  { intros E. unfold s1, between. rewrite E.
    qcase (qle (v_p s (k_id c)) (p_lo N)); [cbn; rewrite nupd_eq; lra|].
    qcase (qle (p_hi N) (v_p s (k_id c))); [cbn; rewrite nupd_eq; lra|lra]. }
  clearbody s1.
  destruct (x_h X (k_id c)) eqn:Eh.
  - set (s2 := if qlt (v_h s1 (k_id c)) (h_lo N) then _ else _) in H.
    assert (P2 : v_p s2 = v_p s1) by (unfold s2; destruct (qlt _ _); [reflexivity|destruct (qlt _ _); reflexivity]).
    assert (P3 : between (h_lo N) (v_h s2 (k_id c)) (h_hi N)).
    { unfold s2, between.
      qcase (qlt (v_h s1 (k_id c)) (h_lo N)); [cbn; rewrite nupd_eq; lra|].
      qcase (qlt (h_hi N) (v_h s1 (k_id c))); [cbn; rewrite nupd_eq; lra|lra]. }
    clearbody s2. destruct (k_T c) eqn:ET.
    + assert (P4 : v_p s' = v_p s2). { change s' with (fst (s', @None pyerr)). rewrite <- H. apply temperature_p. }
      split; [|discriminate]. intros E. rewrite P4, P2. auto.
    + inversion H; subst s2. split; [|auto]. intros E. rewrite P2. auto.
  - inversion H; subst s1. split; [auto|discriminate].
Qed.

Lemma props_mix N X c s s' : (p_lo N <= p_hi N)%Q -> (h_lo N <= h_hi N)%Q -> iter N < 4 ->
  check_connection_properties N X c s = (s', None) -> mix_ok N X c s'.
Proof.
  intros Hp Hh Hi H. apply props_split in H as (s1 & [_ _ Sfd] & -> & Hm & _).
  destruct (mass_flow_ph N X c s1) as (E1 & E2 & E3).
  unfold mix_ok. rewrite E1, E2, E3, Sfd. intros Hs Hg.
  eapply mixture_range; eauto.
Qed.

Lemma mix_ok_same N X c s s' : same_ph (k_id c) s s' -> mix_ok N X c s -> mix_ok N X c s'.
Proof. intros [A B C]. unfold mix_ok. rewrite A, B, C. auto. Qed.

Lemma NoDup_map_split {A} (g : A -> nat) l1 x l2 y : NoDup (map g (l1 ++ x :: l2)) -> In y l2 -> g x <> g y.
Proof.
  intros H Hy E. rewrite map_app in H. cbn [map] in H. apply NoDup_remove_2 in H. apply H.
  apply in_or_app; right. rewrite E. now apply in_map.
Qed.

Lemma bounds_mix N X conns comps s s' : NoDup (map k_id conns) ->
  (p_lo N <= p_hi N)%Q -> (h_lo N <= h_hi N)%Q -> iter N < 4 ->
  check_variable_bounds N X conns comps s = (s', None) ->
  forall c, In c conns -> mix_ok N X c s'.
Proof.
  intros Hd Hp Hh Hi H. unfold check_variable_bounds in H. apply andthen_ok in H as (s1 & H1 & H2).
  destruct (Nat.ltb (iter N) 3).
  - apply andthen_ok in H2 as (s2 & _ & H3).
    apply (each_post (check_connection_properties N X) (mix_ok N X) conns) with (s := s2); [| |exact H3].
    + intros c t t' _ Ht. eapply props_mix; eauto.
    + intros l1 x l2 y t t' El Hy Hx Ht. eapply mix_ok_same; [|exact Hx].
      change t' with (fst (t', @None pyerr)). rewrite <- Ht. apply sp_props.
      rewrite El in Hd. eapply NoDup_map_split; eauto.
  - inversion H2; subst s1; clear H2.
    apply (each_post (check_conn N X) (mix_ok N X) conns) with (s := s); [| |exact H1].
    + intros c t t' _ Ht. unfold check_conn in Ht. apply andthen_ok in Ht as (t1 & Hn & Ht). eapply props_mix; eauto.
    + intros l1 x l2 y t t' El Hy Hx Ht. eapply mix_ok_same; [|exact Hx].
      change t' with (fst (t', @None pyerr)). rewrite <- Ht. apply sp_conn.
      rewrite El in Hd. eapply NoDup_map_split; eauto.
Qed.

(** ** Sums of fractions *)

Lemma qsum_shift l : forall a, (fold_left Qplus l a == a + fold_left Qplus l 0)%Q.
Proof.
  induction l as [|x l IH]; intros a; cbn [fold_left]; [lra|].
  rewrite (IH (a + x)%Q), (IH (0 + x)%Q). lra.
Qed.

Lemma total_sum d : (total d == sum_of d)%Q.
Proof.
  unfold total, qsum. induction d as [|[f q] d IH]; cbn [map snd fold_left sum_of]; [reflexivity|].
  rewrite qsum_shift, IH. lra.
Qed.

(** Dividing the listed fractions. *)
Definition scaled (fs : list string) (t : Q) (d : dict Q) : dict Q :=
  map (fun x => (fst x, if smem (fst x) fs then (snd x / t)%Q else snd x)) d.

Lemma scaled_keys fs t d : keys (scaled fs t d) = keys d.
Proof. unfold scaled, keys. rewrite map_map. reflexivity. Qed.

Lemma dset_map f q (d : dict Q) : NoDup (keys d) -> dget f d = Some q ->
  forall q', dset f q' d = map (fun x => (fst x, if String.eqb (fst x) f then q' else snd x)) d.
Proof.
  induction d as [|[k v] d IH]; intros Hn H q'; cbn in H; [discriminate|]. cbn [keys map] in Hn. inversion Hn as [|? ? Hk Hd]; subst.
  cbn [dset map fst snd]. destruct (String.eqb f k) eqn:E.
  - apply String.eqb_eq in E; subst k. rewrite String.eqb_refl. f_equal.
    symmetry. rewrite <- (map_id d) at 2. apply map_ext_in. intros [k' v'] Hin. cbn.
    destruct (String.eqb k' f) eqn:E'; [|reflexivity]. apply String.eqb_eq in E'; subst k'.
    exfalso; apply Hk. change f with (fst (f, v')). now apply in_map.
  - rewrite String.eqb_sym, E. f_equal. auto.
Qed.

Lemma scale_ok fs t : ~ (t == 0)%Q -> NoDup fs -> forall d, NoDup (keys d) -> incl fs (keys d) ->
  scale fs t d = (scaled fs t d, None).
Proof.
  intros Ht. induction fs as [|f fs IH]; intros Hf d Hd Hi; cbn [scale].
  - unfold scaled. f_equal. symmetry. rewrite <- (map_id d) at 2. apply map_ext. intros [k v]. reflexivity.
  - inversion Hf as [|? ? Hf1 Hf2]; subst.
    assert (Hin : In f (keys d)) by (apply Hi; left; auto).
    destruct (dget f d) as [q|] eqn:E; [|apply dget_None_notin in E; tauto].
    destruct (Qeq_bool t 0) eqn:Et; [apply Qeq_bool_iff in Et; tauto|].
    rewrite IH; [|exact Hf2|rewrite (keys_dset_present d f q _ E); exact Hd
                 |rewrite (keys_dset_present d f q _ E); intros x Hx; apply Hi; right; exact Hx].
    f_equal. rewrite (dset_map f q d Hd E). unfold scaled. rewrite map_map. apply map_ext_in.
    intros [k v] Hkv. cbn [fst snd]. cbn [smem existsb].
    destruct (String.eqb k f) eqn:Ek; cbn [orb].
    + apply String.eqb_eq in Ek; subst k. assert (Eq : smem f fs = false).
      { destruct (smem f fs) eqn:Es; [apply smem_In in Es; tauto|reflexivity]. }
      rewrite Eq. f_equal. apply In_dget in Hkv; [|exact Hd]. rewrite E in Hkv. now inversion Hkv.
    + reflexivity.
Qed.

Lemma scale_result fs t d r : NoDup fs -> NoDup (keys d) -> incl fs (keys d) -> fs <> [] ->
  scale fs t d = (r, None) -> ~ (t == 0)%Q /\ r = scaled fs t d.
Proof.
  intros Hf Hd Hi Hne H.
  assert (Ht : ~ (t == 0)%Q).
  { intros Ht. destruct fs as [|f fs]; [congruence|]. cbn [scale] in H.
    destruct (dget f d); [|discriminate]. apply Qeq_bool_iff in Ht. rewrite Ht in H. discriminate. }
  split; [exact Ht|]. rewrite (scale_ok fs t Ht Hf d Hd Hi) in H. now inversion H.
Qed.

Lemma sum_scaled_all fs t d : ~ (t == 0)%Q -> incl (keys d) fs -> (sum_of (scaled fs t d) == sum_of d / t)%Q.
Proof.
  intros Ht. induction d as [|[k v] d IH]; intros H; cbn [scaled map sum_of fst snd]; [field; auto|].
  assert (Hk : smem k fs = true) by (apply smem_In, H; left; reflexivity). rewrite Hk.
  fold (scaled fs t d). rewrite IH; [field; auto|]. intros x Hx. apply H; right; exact Hx.
Qed.

(** With fractions that are not unknown the new sum is [fixed + (old - fixed) / old]. *)
Lemma sum_scaled X a t d : ~ (t == 0)%Q ->
  (sum_of (scaled (x_f X a) t d) == sum_fixed X a d + (sum_of d - sum_fixed X a d) / t)%Q.
Proof.
  intros Ht. induction d as [|[k v] d IH]; cbn [scaled map sum_of sum_fixed fst snd]; [field; auto|].
  fold (scaled (x_f X a) t d). rewrite IH. destruct (smem k (x_f X a)); field; auto.
Qed.

Lemma dget_scaled fs t d f q : dget f (scaled fs t d) = Some q ->
  exists q0, dget f d = Some q0 /\ q = (if smem f fs then q0 / t else q0)%Q.
Proof.
  induction d as [|[k v] d IH]; cbn [scaled map dget fst snd]; [discriminate|].
  destruct (String.eqb f k) eqn:E.
  - apply String.eqb_eq in E; subst k. intros H; inversion H; subst. eauto.
  - exact IH.
Qed.

(** A state in which the container [a] is normalised. *)
Definition unit_sum (a : nat) (s : vstate) : Prop := (sum_of (v_f s a) == 1)%Q.

Definition wf_at (X : unknowns) (s : vstate) (a : nat) : Prop :=
  NoDup (keys (v_f s a)) /\ NoDup (x_f X a) /\ incl (x_f X a) (keys (v_f s a)).

Lemma wf_ch X s s' : only_unknowns_changed X s s' -> wf_fluids X s -> wf_fluids X s'.
Proof. intros H W a. destruct (W a) as (W1 & W2 & W3). rewrite (ch_k _ _ _ H a). auto. Qed.

Lemma all_var_no_fixed X a d : incl (keys d) (x_f X a) -> (sum_fixed X a d == 0)%Q.
Proof.
  induction d as [|[k v] d IH]; intros H; cbn [sum_fixed]; [reflexivity|].
  assert (Hk : smem k (x_f X a) = true) by (apply smem_In, H; left; reflexivity). rewrite Hk.
  apply IH. intros x Hx. apply H; right; exact Hx.
Qed.

Lemma normalise_sum X a s s' : wf_fluids X s -> x_f X a <> [] -> (sum_fixed X a (v_f s a) == 0)%Q ->
  normalise X a s = (s', None) -> unit_sum a s'.
Proof.
  intros W Hne H0 H. unfold normalise in H.
  destruct (scale (x_f X a) (total (v_f s a)) (v_f s a)) as [d o] eqn:E. cbn [fst snd] in H.
  inversion H; subst s' o; clear H. destruct (W a) as (W1 & W2 & W3).
  apply scale_result in E as [Ht ->]; auto. unfold unit_sum. cbn. rewrite nupd_eq.
  rewrite (sum_scaled X a _ _ Ht), H0. rewrite total_sum in *. field. exact Ht.
Qed.

Lemma sum_fixed_ext X a d d' : keys d = keys d' -> NoDup (keys d) -> (forall f, ~ In f (x_f X a) -> dget f d = dget f d') ->
  sum_fixed X a d = sum_fixed X a d'.
Proof.
  revert d'. induction d as [|[k v] d IH]; intros [|[k' v'] d'] Hk Hn H; cbn in Hk; try discriminate; [reflexivity|].
  inversion Hk; subst k'. cbn [keys map fst] in Hn. inversion Hn as [|? ? Hn1 Hn2]; subst. fold (keys d) in Hn1, Hn2.
  assert (IHd : sum_fixed X a d = sum_fixed X a d').
  { apply IH; auto. intros f Hf. specialize (H f Hf). cbn [dget] in H.
    destruct (String.eqb f k) eqn:E; [|exact H]. apply String.eqb_eq in E; subst f.
    transitivity (@None Q); [now apply dget_None_notin|]. symmetry. apply dget_None_notin.
    assert (Hkk : keys d = keys d') by assumption. rewrite <- Hkk. exact Hn1. }
  cbn [sum_fixed]. destruct (smem k (x_f X a)) eqn:E; [exact IHd|].
  assert (Hf : ~ In k (x_f X a)). { intros Hi. apply smem_In in Hi. congruence. }
  specialize (H k Hf). cbn [dget] in H. rewrite String.eqb_refl in H. inversion H; subst. now rewrite IHd.
Qed.

Lemma sum_fixed_ch X a s s' : wf_fluids X s -> only_unknowns_changed X s s' -> sum_fixed X a (v_f s' a) = sum_fixed X a (v_f s a).
Proof.
  intros W H. apply sum_fixed_ext.
  - apply (ch_k _ _ _ H).
  - rewrite (ch_k _ _ _ H). apply W.
  - intros f Hf. apply (ch_f _ _ _ H); exact Hf.
Qed.

Lemma normalise_other X a b s : b <> a -> v_f (fst (normalise X a s)) b = v_f s b.
Proof. intros H. unfold normalise. cbn. now apply nupd_neq. Qed.

Lemma props_f N X c s s' : check_connection_properties N X c s = (s', None) -> v_f s' = v_f s.
Proof.
  intros H. apply props_split in H as (s1 & [_ Sf _] & -> & _). rewrite <- Sf.
  unfold check_mass_flow. destruct (_ && _)%bool; [reflexivity|]. destruct (_ && _)%bool; reflexivity.
Qed.

(** Invariant of the whole check: [good X s0 s] = the state is reached from the
    well formed [s0] by changing unknowns. *)
Lemma conn_sum N X c s s' : wf_fluids X s -> check_conn N X c s = (s', None) ->
  (x_f X (k_fl c) <> [] -> (sum_fixed X (k_fl c) (v_f s (k_fl c)) == 0)%Q -> unit_sum (k_fl c) s') /\
  (forall a, x_f X a <> [] -> (sum_fixed X a (v_f s a) == 0)%Q -> unit_sum a s -> unit_sum a s').
Proof.
  intros W H. unfold check_conn in H. apply andthen_ok in H as (s1 & Hn & Hp).
  apply props_f in Hp. cbn in Hp. unfold unit_sum. rewrite Hp.
  split.
  - intros Hne H0. exact (normalise_sum X _ s s1 W Hne H0 Hn).
  - intros a Hne H0 Hu. destruct (Nat.eq_dec a (k_fl c)) as [->|Ha].
    + exact (normalise_sum X _ s s1 W Hne H0 Hn).
    + change s1 with (fst (s1, @None pyerr)). rewrite <- Hn, normalise_other by exact Ha. exact Hu.
Qed.

Lemma each_comb_other ins a o2 co2 h2o fuels m b : b <> a -> forall fs s,
  v_f (fst (each (comb_fluid ins a o2 co2 h2o fuels m) fs s)) b = v_f s b.
Proof.
  intros Hb. induction fs as [|f fs IH]; intros s; cbn [each]; [reflexivity|].
  unfold andthen. destruct (comb_fluid ins a o2 co2 h2o fuels m f s) as [s1 e] eqn:E. cbn [fst snd].
  assert (H1 : v_f s1 b = v_f s b).
  { change s1 with (fst (s1, e)). rewrite <- E. unfold comb_fluid.
    destruct (dget f (v_f s a)) as [q|]; [|reflexivity].
    destruct (String.eqb f o2); [cbn; now apply nupd_neq|].
    destruct (String.eqb f co2); [cbn; now apply nupd_neq|].
    destruct (String.eqb f h2o); [cbn; now apply nupd_neq|].
    destruct (smem f fuels); [cbn; now apply nupd_neq|].
    destruct (comb_mf ins f 0 s); [|reflexivity]. destruct (Qeq_bool m 0); [reflexivity|].
    destruct (_ || _)%bool; [cbn; now apply nupd_neq|reflexivity]. }
  destruct e; [exact H1|]. now rewrite IH.
Qed.

Lemma comb_inlets_f X l : forall acc s, v_f (fst (comb_inlets X l acc s)) = v_f s.
Proof.
  induction l as [|i l IH]; intros acc s; cbn [comb_inlets]; [reflexivity|].
  rewrite IH. destruct (_ && _)%bool; reflexivity.
Qed.

(** What the end of the combustion check does to the fractions: nothing. *)
Lemma comb_tail X ins o fuels (ls : bool) s s' :
  (let s := build_fluid_data o s in
   let s := if (qlt (v_m s (k_m o)) 0 && x_m X (k_m o))%bool then set_m (k_m o) 10 s else s in
   let s := if (negb (k_good o) && (qlt (v_h s (k_id o)) 750000 && x_h X (k_id o)))%bool
           then set_h (k_id o) 1000000 s else s in
   if ls then
    match comb_search X ins fuels false None None s with
    | Err e => (s, Some e)
    | Ok (true, Some i, Some air) => (set_m (k_m i) (air / 25)%Q s, None)
    | Ok (true, _, _) => (s, Some UnboundLocalError)
    | Ok (false, _, _) => match ins with [] => (s, Some UnboundLocalError) | _ => (s, None) end
    end
   else (s, None)) = (s', None) -> v_f s' = v_f s.
Proof.
  cbv zeta. set (s3 := build_fluid_data o s).
  set (s4 := if (qlt (v_m s3 (k_m o)) 0 && x_m X (k_m o))%bool then _ else s3).
  set (s5 := if (negb (k_good o) && _)%bool then _ else s4).
  assert (H5 : v_f s5 = v_f s).
  { unfold s5, s4. destruct (_ && (_ && _))%bool; destruct (_ && _)%bool; reflexivity. }
  clearbody s5. intros H. destruct ls; [|inversion H; subst; exact H5].
  destruct (comb_search X ins fuels false None None s5) as [[[b i] a]|e]; [|discriminate].
  destruct b.
  - destruct i as [i|]; [|discriminate]. destruct a as [a|]; [|discriminate]. inversion H; subst. exact H5.
  - destruct ins; [discriminate|]. inversion H; subst. exact H5.
Qed.

Lemma vf_if (b : bool) s s1 : v_f s1 = v_f s -> v_f (if b then s1 else s) = v_f s.
Proof. destruct b; auto. Qed.

Lemma conv_sum X cp s s' : wf_fluids X s -> convergence_check X cp s = (s', None) ->
  forall a, x_f X a <> [] -> (sum_fixed X a (v_f s a) == 0)%Q -> unit_sum a s -> unit_sum a s'.
Proof.
  intros W H a Hne H0 Hu. unfold unit_sum in *.
  assert (Hcases : (v_f s' a = v_f s a) \/ unit_sum a s').
  { destruct cp as [i o|i o|i o flow|ins o o2 co2 h2o fuels ls|]; cbn [convergence_check] in H.
    - left. inversion H; subst. unfold conv_compressor.
      cbv zeta. repeat (rewrite vf_if by reflexivity). reflexivity.
    - left. inversion H; subst. unfold conv_turbine.
      cbv zeta. destruct (k_good i); repeat (rewrite vf_if by reflexivity); reflexivity.
    - left. change s' with (fst (s', @None pyerr)). rewrite <- H. unfold conv_pump.
      match goal with |- context [match flow with None => (?x, None) | _ => _ end] => set (s4 := x) end.
      assert (H4 : v_f s4 = v_f s).
      { unfold s4. repeat (rewrite vf_if by reflexivity). reflexivity. }
      clearbody s4. destruct flow as [[[[volf x0] x1] xl]|]; [|cbn; now rewrite H4].
      destruct (volf s4); [|cbn; now rewrite H4].
      destruct (_ && _)%bool; [cbn; now rewrite H4|]. destruct (_ && _)%bool; cbn; now rewrite H4.
    - unfold conv_combustion in H. apply andthen_ok in H as (s1 & E1 & H). apply andthen_ok in H as (s2 & E2 & H).
      apply comb_tail in H.
      assert (C1 : only_unknowns_changed X s s1).
      { change s1 with (fst (s1, @None pyerr)). rewrite <- E1.
        eapply ch_trans; [apply ch_comb_inlets|]. apply each_rel_in. intros f t Hf. now apply ch_comb_fluid. }
      destruct (Nat.eq_dec a (k_fl o)) as [->|Ha].
      + right. unfold unit_sum. rewrite H. refine (normalise_sum X _ s1 s2 (wf_ch X _ _ C1 W) Hne _ E2).
        rewrite (sum_fixed_ch X _ s s1 W C1). exact H0.
      + left. rewrite H. change s2 with (fst (s2, @None pyerr)). rewrite <- E2, normalise_other by exact Ha.
        change s1 with (fst (s1, @None pyerr)). rewrite <- E1, each_comb_other by exact Ha. now rewrite comb_inlets_f.
    - left. inversion H; now subst. }
  destruct Hcases as [->|G]; [exact Hu|exact G].
Qed.

Lemma bounds_sum N X conns comps s s' : wf_fluids X s ->
  check_variable_bounds N X conns comps s = (s', None) ->
  forall c, In c conns -> x_f X (k_fl c) <> [] -> (sum_fixed X (k_fl c) (v_f s (k_fl c)) == 0)%Q ->
  (sum_of (v_f s' (k_fl c)) == 1)%Q.
Proof.
  intros W H c Hc Hne H0. unfold check_variable_bounds in H. apply andthen_ok in H as (s1 & H1 & H2).
  set (P := fun (x : conn) (t : vstate) => k_fl x = k_fl c -> unit_sum (k_fl c) t).
  set (I := fun t : vstate => only_unknowns_changed X s t).
  assert (A1 : only_unknowns_changed X s s1 /\ unit_sum (k_fl c) s1).
  { clear H2.
    assert (G : forall l t t', I t -> each (check_conn N X) l t = (t', None) ->
      I t' /\ ((In c l \/ unit_sum (k_fl c) t) -> unit_sum (k_fl c) t')).
    { induction l as [|x l IH]; intros t t' It He; cbn [each] in He.
      - inversion He; subst. split; [exact It|]. intros [[]|Hu]; exact Hu.
      - apply andthen_ok in He as (t1 & E1 & E2).
        assert (It1 : I t1).
        { unfold I. eapply ch_trans; [exact It|]. change t1 with (fst (t1, @None pyerr)). rewrite <- E1. apply ch_conn. }
        destruct (IH t1 t' It1 E2) as [J1 J2]. split; [exact J1|]. intros Hor. apply J2.
        assert (W' : wf_fluids X t) by (eapply wf_ch; [exact It|exact W]).
        assert (H0' : (sum_fixed X (k_fl c) (v_f t (k_fl c)) == 0)%Q) by (rewrite (sum_fixed_ch X _ s t W It); exact H0).
        destruct (conn_sum N X x t t1 W' E1) as [S1 S2].
        destruct Hor as [[->|Hin]|Hu]; [right; auto|left; exact Hin|right; apply S2; auto]. }
    destruct (G conns s s1 (ch_refl X s) H1) as [G1 G2]. split; [exact G1|]. apply G2. left; exact Hc. }
  destruct A1 as [C1 U1]. destruct (Nat.ltb (iter N) 3); [|inversion H2; subst; exact U1].
  apply andthen_ok in H2 as (s2 & H2 & H3).
  assert (A2 : only_unknowns_changed X s s2 /\ unit_sum (k_fl c) s2).
  { apply (each_inv (convergence_check X) (fun t => only_unknowns_changed X s t /\ unit_sum (k_fl c) t)) with (l := comps) (s := s1); [|auto|exact H2].
    intros cp t t' [Ct Ut] Ht. split.
    - eapply ch_trans; [exact Ct|]. change t' with (fst (t', @None pyerr)). rewrite <- Ht. apply ch_convergence.
    - eapply conv_sum; [|exact Ht|exact Hne| |exact Ut].
      + eapply wf_ch; eauto.
      + rewrite (sum_fixed_ch X _ s t W Ct). exact H0. }
  destruct A2 as [_ U2].
  apply (each_inv (check_connection_properties N X) (unit_sum (k_fl c))) with (l := conns) (s := s2); [|exact U2|exact H3].
  intros x t t' Ut Ht. apply props_f in Ht. unfold unit_sum. rewrite Ht. exact Ut.
Qed.

(** ** No negative fractions *)

Lemma sum_of_nonneg d : NoDup (keys d) -> (forall f q, dget f d = Some q -> (0 <= q)%Q) -> (0 <= sum_of d)%Q.
Proof.
  induction d as [|[k v] d IH]; intros Hn H; cbn [sum_of]; [lra|].
  cbn [keys map fst] in Hn. inversion Hn as [|? ? H1 H2]; subst.
  assert (Hv : (0 <= v)%Q) by (apply (H k v); cbn; now rewrite String.eqb_refl).
  assert (Hd : (0 <= sum_of d)%Q).
  { apply IH; [exact H2|]. intros f q Hq. apply (H f q). cbn. destruct (String.eqb f k) eqn:E; [|exact Hq].
    apply String.eqb_eq in E; subst f. exfalso. apply H1.
    change k with (fst (k, q)). apply in_map. apply dget_In. exact Hq. }
  lra.
Qed.

Lemma nonneg_set_f a d s : nonneg s -> (forall f q, dget f d = Some q -> (0 <= q)%Q) -> nonneg (set_f a d s).
Proof.
  intros H Hd b f q. cbn. unfold nupd. destruct (Nat.eqb b a); [apply Hd|apply H].
Qed.

Lemma nonneg_put a f x s : nonneg s -> (0 <= x)%Q -> nonneg (set_f a (dset f x (v_f s a)) s).
Proof.
  intros H Hx. apply nonneg_set_f; [exact H|]. intros g q Hq.
  destruct (String.eqb g f) eqn:E.
  - apply String.eqb_eq in E; subst g. rewrite dget_dset_eq in Hq. inversion Hq; now subst.
  - apply String.eqb_neq in E. rewrite dget_dset_neq in Hq by exact E. eapply H; eauto.
Qed.

Lemma nonneg_f s s' : v_f s' = v_f s -> nonneg s -> nonneg s'.
Proof. intros E H a f q. rewrite E. apply H. Qed.

Lemma normalise_nonneg X a s s' : wf_fluids X s -> nonneg s -> normalise X a s = (s', None) -> nonneg s'.
Proof.
  intros W H E. unfold normalise in E. destruct (W a) as (W1 & W2 & W3).
  destruct (x_f X a) as [|f0 fs0] eqn:Ex.
  - cbn in E. inversion E; subst. apply nonneg_set_f; [exact H|]. intros f q. apply H.
  - rewrite <- Ex in *.
    destruct (scale (x_f X a) (total (v_f s a)) (v_f s a)) as [d o] eqn:Es. cbn [fst snd] in E.
    inversion E; subst s' o; clear E. apply scale_result in Es as [Ht ->]; auto; [|rewrite Ex; discriminate].
    apply nonneg_set_f; [exact H|]. intros f q Hq. apply dget_scaled in Hq as (q0 & Hq0 & ->).
    assert (H0 : (0 <= q0)%Q) by (eapply H; eauto).
    destruct (smem f (x_f X a)); [|exact H0].
    assert (Hp : (0 < total (v_f s a))%Q).
    { rewrite total_sum in *. assert (Hs : (0 <= sum_of (v_f s a))%Q) by (apply sum_of_nonneg; [exact W1|apply H]).
      destruct (Qlt_le_dec 0 (sum_of (v_f s a))) as [Hl|Hl]; [exact Hl|]. exfalso; apply Ht. lra. }
    apply Qle_shift_div_l; [exact Hp|]. lra.
Qed.

Lemma comb_band_nonneg hi v1 v2 q : (0 <= v1)%Q -> (0 <= v2)%Q -> (0 <= q)%Q -> (0 <= comb_band hi v1 v2 q)%Q.
Proof. intros A B C. unfold comb_band. destruct (qlt hi q); destruct (qlt _ _); auto. Qed.

Lemma comb_mf_nonneg l f s : nonneg s -> (forall i, In i l -> (0 <= v_m s (k_m i))%Q) -> forall acc r, (0 <= acc)%Q ->
  comb_mf l f acc s = Ok r -> (0 <= r)%Q.
Proof.
  intros Hn. induction l as [|i l IH]; intros Hm acc r Ha H; cbn [comb_mf] in H.
  - inversion H; now subst.
  - destruct (dget f (v_f s (k_fl i))) as [q|] eqn:E; [|discriminate].
    apply (IH (fun j Hj => Hm j (or_intror Hj)) (acc + q * v_m s (k_m i))%Q r); [|exact H].
    assert (0 <= q * v_m s (k_m i))%Q by (apply Qmult_le_0_compat; [eapply Hn; eauto|apply Hm; left; auto]). lra.
Qed.

Lemma comb_fluid_inv ins a o2 co2 h2o fuels m f s s' : (0 <= m)%Q -> nonneg s ->
  (forall i, In i ins -> (0 <= v_m s (k_m i))%Q) ->
  comb_fluid ins a o2 co2 h2o fuels m f s = (s', None) -> nonneg s' /\ v_m s' = v_m s.
Proof.
  intros Hm Hn Hi H. unfold comb_fluid in H. destruct (dget f (v_f s a)) as [q|] eqn:E; [|discriminate].
  assert (Hq : (0 <= q)%Q) by (eapply Hn; eauto).
  destruct (String.eqb f o2); [inversion H; subst; split; [apply nonneg_put; [exact Hn|apply comb_band_nonneg; lra]|reflexivity]|].
  destruct (String.eqb f co2); [inversion H; subst; split; [apply nonneg_put; [exact Hn|apply comb_band_nonneg; lra]|reflexivity]|].
  destruct (String.eqb f h2o); [inversion H; subst; split; [apply nonneg_put; [exact Hn|apply comb_band_nonneg; lra]|reflexivity]|].
  destruct (smem f fuels); [inversion H; subst; split; [apply nonneg_put; [exact Hn|destruct (qlt 0 q); lra]|reflexivity]|].
  destruct (comb_mf ins f 0 s) as [mf|] eqn:Em; [|discriminate].
  destruct (Qeq_bool m 0) eqn:Ez; [discriminate|]. apply Qeq_bool_false in Ez.
  destruct (_ || _)%bool; [|inversion H; subst; auto].
  inversion H; subst. split; [|reflexivity]. apply nonneg_put; [exact Hn|].
  assert (0 <= mf)%Q by (eapply comb_mf_nonneg; [exact Hn|exact Hi| |exact Em]; lra).
  assert (0 < m)%Q by (destruct (Qlt_le_dec 0 m) as [Hl|Hl]; [exact Hl|exfalso; apply Ez; lra]).
  apply Qle_shift_div_l; lra.
Qed.

Lemma comb_inlets_nonneg X l : forall acc s,
  (forall a, x_m X a = false -> (0 <= v_m s a)%Q) -> (0 <= acc)%Q ->
  (0 <= snd (comb_inlets X l acc s))%Q /\
  (forall a, (0 <= v_m s a)%Q -> (0 <= v_m (fst (comb_inlets X l acc s)) a)%Q) /\
  (forall i, In i l -> (0 <= v_m (fst (comb_inlets X l acc s)) (k_m i))%Q).
Proof.
  induction l as [|i l IH]; intros acc s Hf Ha; cbn [comb_inlets].
  - cbn [fst snd]. split; [exact Ha|split; [auto|intros i []]].
  - set (s1 := if (qlt (v_m s (k_m i)) 0 && x_m X (k_m i))%bool then set_m (k_m i) (1 # 100) s else s).
    assert (Hk : forall a, (0 <= v_m s a)%Q -> (0 <= v_m s1 a)%Q).
    { intros a H. unfold s1. destruct (_ && _)%bool; [|exact H]. cbn. unfold nupd. destruct (Nat.eqb a (k_m i)); [lra|exact H]. }
    assert (Hi : (0 <= v_m s1 (k_m i))%Q).
    { unfold s1. destruct (qlt (v_m s (k_m i)) 0) eqn:E1; cbn [andb].
      - destruct (x_m X (k_m i)) eqn:E2; [cbn; rewrite nupd_eq; lra|auto].
      - apply qlt_false in E1. exact E1. }
    clearbody s1.
    destruct (IH (acc + v_m s1 (k_m i))%Q s1) as (J1 & J2 & J3); [intros a H; auto|lra|].
    split; [exact J1|split; [auto|]]. intros j [<-|Hj]; auto.
Qed.

Lemma conv_nonneg X cp s s' : wf_fluids X s -> (forall a, x_m X a = false -> (0 <= v_m s a)%Q) -> nonneg s ->
  convergence_check X cp s = (s', None) -> nonneg s'.
Proof.
  intros W Hf Hn H.
  destruct cp as [i o|i o|i o flow|ins o o2 co2 h2o fuels ls|]; cbn [convergence_check] in H.
  - inversion H; subst. apply (nonneg_f s); [|exact Hn]. unfold conv_compressor.
    cbv zeta. repeat (rewrite vf_if by reflexivity). reflexivity.
  - inversion H; subst. apply (nonneg_f s); [|exact Hn]. unfold conv_turbine.
    cbv zeta. destruct (k_good i); repeat (rewrite vf_if by reflexivity); reflexivity.
  - change s' with (fst (s', @None pyerr)). rewrite <- H. apply (nonneg_f s); [|exact Hn]. unfold conv_pump.
    match goal with |- context [match flow with None => (?x, None) | _ => _ end] => set (s4 := x) end.
    assert (H4 : v_f s4 = v_f s) by (unfold s4; repeat (rewrite vf_if by reflexivity); reflexivity).
    clearbody s4. destruct flow as [[[[volf x0] x1] xl]|]; [|exact H4].
    destruct (volf s4); [|exact H4].
    destruct (_ && _)%bool; [exact H4|]. destruct (_ && _)%bool; exact H4.
  - unfold conv_combustion in H. apply andthen_ok in H as (s1 & E1 & H). apply andthen_ok in H as (s2 & E2 & H).
    apply comb_tail in H. apply (nonneg_f s2); [exact H|].
    assert (C1 : only_unknowns_changed X s s1).
    { change s1 with (fst (s1, @None pyerr)). rewrite <- E1.
      eapply ch_trans; [apply ch_comb_inlets|]. apply each_rel_in. intros f t Hfi. now apply ch_comb_fluid. }
    refine (normalise_nonneg X _ s1 s2 (wf_ch X _ _ C1 W) _ E2).
    destruct (comb_inlets_nonneg X ins 0 s Hf) as (K1 & K2 & K3); [lra|].
    set (r := comb_inlets X ins 0 s) in *.
    apply (each_inv (comb_fluid ins (k_fl o) o2 co2 h2o fuels (snd r))
      (fun t => nonneg t /\ forall i, In i ins -> (0 <= v_m t (k_m i))%Q)) with (l := x_f X (k_fl o)) (s := fst r) (s' := s1); [| |exact E1].
    + intros f t t' [T1 T2] Ht. apply comb_fluid_inv in Ht as [U1 U2]; auto. split; [exact U1|]. rewrite U2. exact T2.
    + split; [|exact K3]. apply (nonneg_f s); [|exact Hn]. unfold r. apply comb_inlets_f.
  - inversion H; now subst.
Qed.

Lemma bounds_nonneg N X conns comps s s' : wf_fluids X s -> (forall a, x_m X a = false -> (0 <= v_m s a)%Q) -> nonneg s ->
  check_variable_bounds N X conns comps s = (s', None) -> nonneg s'.
Proof.
  intros W Hf Hn H. unfold check_variable_bounds in H. apply andthen_ok in H as (s1 & H1 & H2).
  assert (A1 : only_unknowns_changed X s s1 /\ nonneg s1).
  { apply (each_inv (check_conn N X) (fun t => only_unknowns_changed X s t /\ nonneg t)) with (l := conns) (s := s); [| |exact H1].
    - intros c t t' [Ct Nt] Ht. split.
      + eapply ch_trans; [exact Ct|]. change t' with (fst (t', @None pyerr)). rewrite <- Ht. apply ch_conn.
      + unfold check_conn in Ht. apply andthen_ok in Ht as (t1 & E1 & E2). apply props_f in E2. cbn in E2.
        apply (nonneg_f t1); [exact E2|]. eapply normalise_nonneg; [|exact Nt|exact E1]. eapply wf_ch; eauto.
    - split; [apply ch_refl|exact Hn]. }
  destruct A1 as [C1 N1]. destruct (Nat.ltb (iter N) 3); [|inversion H2; now subst].
  apply andthen_ok in H2 as (s2 & H2 & H3).
  assert (A2 : only_unknowns_changed X s s2 /\ nonneg s2).
  { apply (each_inv (convergence_check X) (fun t => only_unknowns_changed X s t /\ nonneg t)) with (l := comps) (s := s1); [|auto|exact H2].
    intros cp t t' [Ct Nt] Ht. split.
    - eapply ch_trans; [exact Ct|]. change t' with (fst (t', @None pyerr)). rewrite <- Ht. apply ch_convergence.
    - eapply conv_nonneg; [| |exact Nt|exact Ht].
      + eapply wf_ch; eauto.
      + intros a Ha. rewrite (ch_m _ _ _ Ct a Ha). auto. }
  destruct A2 as [_ N2].
  apply (each_inv (check_connection_properties N X) nonneg) with (l := conns) (s := s2); [|exact N2|exact H3].
  intros x t t' Ut Ht. apply props_f in Ht. apply (nonneg_f t); auto.
Qed.

(** ** Pure fluids *)

Lemma enthalpy_bounds w c s s' hmin hmax : check_enthalpy_bounds w c s = (s', None) ->
  hmin_of w (v_p s (k_id c)) = Ok hmin -> hmax_of w (v_p s (k_id c)) = Ok hmax ->
  (0 <= hmax)%Q -> (hmin * (10001 # 10000) <= hmax)%Q -> (hmin * (9999 # 10000) <= hmax)%Q -> (hmin <= hmax * (9999 # 10000))%Q ->
  between hmin (v_h s' (k_id c)) hmax.
Proof.
  intros H E1 E2 H0 H1 H2 H3. unfold check_enthalpy_bounds in H. rewrite E1, E2 in H. unfold between.
  qcase (qlt (v_h s (k_id c)) hmin).
  - inversion H; subst; clear H. cbn. rewrite nupd_eq. qcase (qlt hmin 0); lra.
  - qcase (qlt hmax (v_h s (k_id c))); inversion H; subst; clear H; [cbn; rewrite nupd_eq; lra|lra].
Qed.

Lemma pressure_bounds w c s s' : (w_pmin w + 10 <= w_pmax w)%Q -> check_pressure_bounds w c s = (s', None) ->
  (v_p s' (k_id c) <= w_pmax w)%Q /\
  ((w_pmin w <= v_p s' (k_id c))%Q \/ exists T, w_Tph w (v_p s' (k_id c)) (v_h s' (k_id c)) = Ok T).
Proof.
  intros Hw H. unfold check_pressure_bounds in H.
  qcase (qlt (w_pmax w) (v_p s (k_id c))).
  - inversion H; subst; clear H. cbn. rewrite nupd_eq. split; [lra|left; lra].
  - qcase (qlt (v_p s (k_id c)) (w_pmin w)).
    + destruct (w_Tph w (v_p s (k_id c)) (v_h s (k_id c))) as [T|e] eqn:ET.
      * inversion H; subst. split; [exact E|right; eauto].
      * destruct e; inversion H; subst; clear H. cbn. rewrite nupd_eq. split; [lra|left; lra].
    + inversion H; subst. split; [exact E|left; exact E0].
Qed.

Lemma hmax_loop_more w p : (0 < w_Tmin w)%Q -> forall k T j,
  (T < w_Tmin w * (1 + (Z.of_nat k # 100)))%Q -> hmax_loop (S k + j) w p T = hmax_loop (S k) w p T.
Proof.
  intros Hp. induction k as [|k IH]; intros T j HT.
  - cbn [hmax_loop Nat.add]. destruct (w_hpT w p T) as [|[]]; try reflexivity.
    qcase (qlt (T * (99 # 100)) (w_Tmin w)); [reflexivity|].
    exfalso. assert (Z.of_nat 0 # 100 == 0)%Q by reflexivity. rewrite H in HT. lra.
  - change (S (S k) + j) with (S (S k + j)). cbn [hmax_loop]. destruct (w_hpT w p T) as [|[]]; try reflexivity.
    qcase (qlt (T * (99 # 100)) (w_Tmin w)); [reflexivity|].
    apply IH.
    assert (Hz : (Z.of_nat (S k) # 100 == (Z.of_nat k # 100) + (1 # 100))%Q).
    { unfold Qeq, Qplus, Qnum, Qden. rewrite Nat2Z.inj_succ. lia. }
    rewrite Hz in HT. assert (Hk : (0 <= (Z.of_nat k # 100))%Q) by (unfold Qle, Qnum, Qden; lia).
    set (x := (Z.of_nat k # 100)%Q) in *. clearbody x.
    assert (0 <= w_Tmin w * x)%Q by (apply Qmult_le_0_compat; lra). lra.
Qed.

Lemma hmax_fuel_enough w p n : (0 < w_Tmin w)%Q -> hmax_fuel w <= n ->
  hmax_loop n w p (w_Tmax w) = hmax_of w p.
Proof.
  intros Hp Hn. unfold hmax_of. unfold hmax_fuel in *.
  set (z := Qceiling (100 * (w_Tmax w / w_Tmin w))) in *.
  assert (E1 : Z.to_nat z + 2 = S (Z.to_nat z + 1) + 0) by lia.
  rewrite E1. replace n with (S (Z.to_nat z + 1) + (n - (Z.to_nat z + 2))) by lia.
  assert (HT : (w_Tmax w < w_Tmin w * (1 + (Z.of_nat (Z.to_nat z + 1) # 100)))%Q).
  { pose proof (Qle_ceiling (100 * (w_Tmax w / w_Tmin w))) as Hc. fold z in Hc.
    assert (Hz : (inject_Z z <= inject_Z (Z.of_nat (Z.to_nat z + 1)))%Q) by (rewrite <- Zle_Qle; lia).
    assert (Hi : (Z.of_nat (Z.to_nat z + 1) # 100 == inject_Z (Z.of_nat (Z.to_nat z + 1)) * (1 # 100))%Q)
      by (unfold Qeq, Qmult, inject_Z, Qnum, Qden; lia).
    rewrite Hi. set (y := inject_Z (Z.of_nat (Z.to_nat z + 1))) in *. clearbody y.
    assert (Hd : (w_Tmax w / w_Tmin w <= y * (1 # 100))%Q) by lra.
    apply (Qmult_le_compat_r _ _ (w_Tmin w)) in Hd; [|lra].
    setoid_replace (w_Tmax w / w_Tmin w * w_Tmin w)%Q with (w_Tmax w) in Hd by (field; intros ?; lra). lra. }
  rewrite !hmax_loop_more by assumption. reflexivity.
Qed.

(** ** Statements as used in UpdateProps.v *)

Lemma update_result L inc vars s : NoDup (map fst vars) -> Forall (in_reach inc s) vars ->
  (forall c, In (UP c) (map fst vars) -> (0 < v_p s c)%Q) ->
  exists s', update_variables L inc vars s = (s', None) /\
  (forall a col, In (UM a, col) vars -> v_m s' a = (v_m s a + nth col inc 0%Q)%Q) /\
  (forall c col, In (UH c, col) vars -> v_h s' c = (v_h s c + nth col inc 0%Q)%Q) /\
  (forall c col, In (UP c, col) vars -> (v_p s c / 2 <= v_p s' c)%Q /\
     ((- (v_p s c / 2) <= nth col inc 0%Q)%Q -> (v_p s' c == v_p s c + nth col inc 0%Q)%Q)) /\
  (forall a f col, In (UF a f, col) vars -> exists q, dget f (v_f s' a) = Some q /\ between 0 q 1) /\
  (forall a col, In (UC a, col) vars -> (c_min L a <= c_max L a)%Q -> between (c_min L a) (v_c s' a) (c_max L a) /\
     (between (c_min L a) (v_c s a + nth col inc 0%Q) (c_max L a) -> v_c s' a = (v_c s a + nth col inc 0%Q)%Q)).
Proof.
  intros Hn Hr Hp.
  assert (Hf : Forall (fine inc s) vars).
  { rewrite Forall_forall in *. intros e He. destruct (Hr e He) as [H1 H2]. split; [exact H1|].
    destruct (value (fst e) s) as [q|] eqn:E; [|tauto]. exists q. split; [auto|].
    destruct (fst e) as [a|c|c|a f|a] eqn:Ee; auto.
    assert (Hc : (0 < v_p s c)%Q) by (apply Hp; rewrite <- Ee; now apply in_map).
    cbn in E. inversion E; subst. intros Hz. lra. }
  destruct (update_values L inc vars Hn s Hf) as (s' & Hs & Hv). exists s'. split; [exact Hs|].
  split; [|split; [|split; [|split]]].
  - intros a col He. destruct (Hv _ He) as (q & Q1 & Q2). cbn in Q1, Q2. inversion Q1; subst. now inversion Q2.
  - intros a col He. destruct (Hv _ He) as (q & Q1 & Q2). cbn in Q1, Q2. inversion Q1; subst. now inversion Q2.
  - intros c col He. destruct (Hv _ He) as (q & Q1 & Q2). cbn [fst snd value stepped] in Q1, Q2. inversion Q1; subst.
    inversion Q2 as [Q3]. destruct (relax_spec (v_p s c) (nth col inc 0%Q)) as (R1 & R2 & R3).
    + apply Hp. change (UP c) with (fst (UP c, col)). now apply in_map.
    + rewrite Q3. split; assumption.
  - intros a f col He. destruct (Hv _ He) as (q & Q1 & Q2). cbn [fst snd value stepped] in Q1, Q2.
    eexists. split; [exact Q2|]. apply snap_between.
  - intros a col He Hl. destruct (Hv _ He) as (q & Q1 & Q2). cbn [fst snd value stepped] in Q1, Q2. inversion Q1; subst.
    inversion Q2 as [Q3]. rewrite Q3. split; [now apply clip_between|]. intros Hb. now apply clip_id.
Qed.

Lemma normalise_total X a s s' : wf_fluids X s -> x_f X a <> [] -> normalise X a s = (s', None) ->
  (sum_of (v_f s' a) == sum_fixed X a (v_f s a) + (sum_of (v_f s a) - sum_fixed X a (v_f s a)) / sum_of (v_f s a))%Q.
Proof.
  intros W Hne H. unfold normalise in H.
  destruct (scale (x_f X a) (total (v_f s a)) (v_f s a)) as [d o] eqn:E. cbn [fst snd] in H.
  inversion H; subst s' o; clear H. destruct (W a) as (W1 & W2 & W3).
  apply scale_result in E as [Ht ->]; auto. cbn. rewrite nupd_eq.
  rewrite (sum_scaled X a _ _ Ht). rewrite total_sum in *. reflexivity.
Qed.

(** Pure fluid: the last value check of a connection. *)
Lemma pure_p N X w c s s' : (w_pmin w + 10 <= w_pmax w)%Q -> x_p X (k_id c) = true ->
  check_pure N X w c s = (s', None) -> (v_p s' (k_id c) <= w_pmax w)%Q.
Proof.
  intros Hw Hx H. unfold check_pure in H. rewrite Hx in H. apply andthen_ok in H as (s1 & H1 & H2).
  destruct (pressure_bounds w c s s1 Hw H1) as [B _].
  destruct (x_h X (k_id c)); [|inversion H2; now subst].
  assert (E : v_p s' = v_p s1); [|rewrite E; exact B].
  apply andthen_ok in H2 as (s2 & H2 & H3).
  transitivity (v_p s2).
  - change s' with (fst (s', @None pyerr)). rewrite <- H3. destruct (_ && _)%bool; [|reflexivity].
    unfold check_two_phase_bounds.
    repeat match goal with |- context [match ?x with _ => _ end] => destruct x end; reflexivity.
  - change s2 with (fst (s2, @None pyerr)). rewrite <- H2. unfold check_enthalpy_bounds.
    repeat match goal with |- context [match ?x with _ => _ end] => destruct x end; reflexivity.
Qed.
