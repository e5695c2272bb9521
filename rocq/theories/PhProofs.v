(** Proofs about properties from pressure and enthalpy. *)
From Coq Require Import QArith Lqa.
From Verif Require Import Base NewtonModel MixModel MixSpec MixSpec2 MixProofs MixProofs2 MixProofs3 MixProofs4 PhModel PhSpec.
Open Scope Q_scope.

Lemma agree_refl : forall a, agree a a.
Proof. intros [x |]; reflexivity. Qed.
Lemma agree_sym : forall a b, agree a b -> agree b a.
Proof. intros [x |] [y |]; cbn; auto; intro; now symmetry. Qed.
Lemma agree_bind : forall a b (f g : Q -> res Q), agree a b -> (forall x y, x == y -> agree (f x) (g y)) ->
  agree (rbind a f) (rbind b g).
Proof. intros [x |] [y |] f g A H; cbn in *; try tauto. now apply H. Qed.
Lemma agree_qdiv : forall x y a, x == y -> agree (qdiv a x) (qdiv a y).
Proof.
  intros x y a E. unfold qdiv.
  assert (B : Qeq_bool x 0 = Qeq_bool y 0).
  { apply Bool.eq_true_iff_eq. rewrite !Qeq_bool_iff. now rewrite E. }
  rewrite B. destruct (Qeq_bool y 0); cbn; [reflexivity |]. now rewrite E.
Qed.
Lemma sum_agree : forall (f g : string -> entry -> res Q) fd a b, (forall k e, In (k, e) fd -> agree (f k e) (g k e)) -> a == b ->
  agree (sum_fluids f fd a) (sum_fluids g fd b).
Proof.
  intros f g. induction fd as [| [k e] fd IH]; intros a b H E; [exact E |]. cbn [sum_fluids].
  assert (H' : forall k' e', In (k', e') fd -> agree (f k' e') (g k' e')) by (intros; apply H; now right).
  destruct (larger (e_frac e)); [| now apply IH].
  specialize (H k e (or_introl eq_refl)).
  destruct (f k e) as [x |], (g k e) as [y |]; cbn in H |- *; try tauto. apply IH; [exact H' |]. now rewrite E, H.
Qed.
Lemma agree_rmap : forall a (f g : Q -> Q), (forall x, f x == g x) -> agree (rmap f a) (rmap g a).
Proof. intros [x |] f g H; cbn; auto. Qed.

Section Same.
Variables (p T T' : Q) (fd : fluids).
Hypothesis ND : NoDup (keys fd).
Hypothesis RS : respects fd.
Hypothesis TT : T == T'.
Lemma same_s : forall names r, In r ["ideal"; "incompressible"]%string -> agree (s_rule names r p T fd) (s_rule names r p T' fd).
Proof.
  intros names r [<- | [<- | []]].
  - change (agree (s_ideal p T fd) (s_ideal p T' fd)). unfold s_ideal.
    destruct (molar_fractions fd) as [xs |]; [| reflexivity]. cbn [rbind]. apply sum_agree; [| reflexivity].
    intros k e I. apply agree_rmap. intro x. destruct (RS k e (In_dget _ _ _ _ ND I) (p * x) T T' TT) as (-> & _). reflexivity.
  - change (agree (s_incompressible p T fd) (s_incompressible p T' fd)). apply sum_agree; [| reflexivity].
    intros k e I. cbn [agree]. destruct (RS k e (In_dget _ _ _ _ ND I) p T T' TT) as (-> & _). reflexivity.
Qed.
Lemma same_v : forall names r, In r ["ideal"; "incompressible"]%string -> agree (v_rule names r p T fd) (v_rule names r p T' fd).
Proof.
  intros names r [<- | [<- | []]].
  - change (agree (v_ideal p T fd) (v_ideal p T' fd)). unfold v_ideal.
    destruct (molar_fractions fd) as [xs |]; [| reflexivity]. cbn [rbind]. apply agree_bind; [| intros; now apply agree_qdiv].
    apply sum_agree; [| reflexivity].
    intros k e I. apply agree_rmap. intro x. destruct (RS k e (In_dget _ _ _ _ ND I) (p * x) T T' TT) as (_ & -> & _). reflexivity.
  - change (agree (v_incompressible p T fd) (v_incompressible p T' fd)). apply sum_agree; [| reflexivity].
    intros k e I. destruct (RS k e (In_dget _ _ _ _ ND I) p T T' TT) as (_ & D & _).
    pose proof (agree_qdiv _ _ 1 D) as A. destruct (qdiv 1 (w_dpT (e_wr e) p T)), (qdiv 1 (w_dpT (e_wr e) p T')); cbn in A |- *; auto.
    now rewrite A.
Qed.
Lemma same_vis : forall root r, In r ["ideal"; "incompressible"]%string -> agree (vis_rule root r p T fd) (vis_rule root r p T' fd).
Proof.
  intros root r [<- | [<- | []]].
  - change (agree (viscosity_ideal root p T fd) (viscosity_ideal root p T' fd)). unfold viscosity_ideal.
    destruct (molar_fractions fd) as [xs |]; [| reflexivity]. cbn [rbind]. apply agree_bind.
    + apply sum_agree; [| reflexivity]. intros k e I. apply agree_rmap. intro x.
      destruct (RS k e (In_dget _ _ _ _ ND I) p T T' TT) as (_ & _ & ->). reflexivity.
    + intros x y E. destruct (sum_fluids _ fd 0) as [b |]; [| reflexivity]. cbn [rbind].
      unfold qdiv. destruct (Qeq_bool b 0); cbn; [reflexivity |]. now rewrite E.
  - change (agree (viscosity_incompressible p T fd) (viscosity_incompressible p T' fd)). apply sum_agree; [| reflexivity].
    intros k e I. cbn [agree]. destruct (RS k e (In_dget _ _ _ _ ND I) p T T' TT) as (_ & _ & ->). reflexivity.
Qed.
End Same.

Lemma dispatch_rule : forall q r fd pure mix, number_of_fluids fd <> 1%nat -> In r ["ideal"; "incompressible"]%string ->
  q <> PChemical -> dispatch q (Some r) fd pure mix = mix r.
Proof.
  intros q r fd pure mix N I C. unfold dispatch.
  replace (Nat.eqb (number_of_fluids fd) 1) with false by (symmetry; now apply Nat.eqb_neq).
  replace (smem r (rules q)) with true; [reflexivity |]. symmetry. apply smem_In.
  destruct I as [<- | [<- | []]]; destruct q; cbn; auto 6; congruence.
Qed.
Lemma single_mix : forall fd pure mix, number_of_fluids fd <> 1%nat -> single fd pure mix = mix.
Proof.
  intros fd pure mix N. unfold single. now replace (Nat.eqb (number_of_fluids fd) 1) with false by (symmetry; now apply Nat.eqb_neq).
Qed.

(** enthalpy and temperature *)
Lemma h_T : forall u names r fd cp b p T T0 lo hi, valid fd -> number_of_fluids fd <> 1%nat ->
  In r ["ideal"; "incompressible"]%string -> linear_h fd cp b ->
  temperature_range fd = Ok (lo, hi) -> lo <= T <= hi * 2 ->
  exists h T', h_mix_pT names p T fd (Some r) = Ok h /\ T_mix_ph u names p h fd (Some r) T0 = Ok T' /\ T' == T.
Proof.
  intros u names r fd cp b p T T0 lo hi V N I LIN RG IN.
  destruct (temperature_roundtrip fd cp b p T T0 lo hi V LIN RG IN) as ((h & o & H & O & Q) & (h' & o' & H' & O' & Q')).
  unfold h_mix_pT, T_mix_ph. rewrite !dispatch_rule by (assumption || discriminate).
  destruct I as [<- | [<- | []]].
  - exists h, (no_x o). split; [exact H |]. split; [| exact Q]. rewrite dispatch_rule by (cbn; auto || discriminate).
    change (temperature (inverse_temperature fd (fun t => h_ideal p t fd) h T0) = Ok (no_x o)). now rewrite O.
  - exists h', (no_x o'). split; [exact H' |]. split; [| exact Q']. rewrite dispatch_rule by (cbn; auto || discriminate).
    change (temperature (inverse_temperature fd (fun t => h_incompressible p t fd) h' T0) = Ok (no_x o')). now rewrite O'.
Qed.

Lemma ph_agree : forall u root names r fd cp b p T T0 lo hi, valid fd -> number_of_fluids fd <> 1%nat ->
  In r ["ideal"; "incompressible"]%string -> linear_h fd cp b -> respects fd ->
  temperature_range fd = Ok (lo, hi) -> lo <= T <= hi * 2 ->
  exists h T', h_mix_pT names p T fd (Some r) = Ok h /\ T_mix_ph u names p h fd (Some r) T0 = Ok T' /\ T' == T
  /\ agree (s_mix_ph u names p h fd (Some r) T0) (s_mix_pT names p T fd (Some r))
  /\ agree (v_mix_ph u names p h fd (Some r) T0) (v_mix_pT names p T fd (Some r))
  /\ agree (viscosity_mix_ph u root names p h fd (Some r) T0) (viscosity_mix_pT root p T fd (Some r)).
Proof.
  intros u root names r fd cp b p T T0 lo hi V N I LIN RS RG IN.
  destruct (h_T u names r fd cp b p T T0 lo hi V N I LIN RG IN) as (h & T' & H & E & Q).
  exists h, T'. split; [exact H |]. split; [exact E |]. split; [exact Q |].
  unfold s_mix_ph, v_mix_ph, viscosity_mix_ph. rewrite !single_mix by exact N. rewrite E. cbn [rbind].
  unfold s_mix_pT, v_mix_pT, viscosity_mix_pT. rewrite !dispatch_rule by (assumption || discriminate).
  split; [apply (same_s p T' T fd (proj1 V) RS Q); exact I |].
  split; [apply (same_v p T' T fd (proj1 V) RS Q); exact I | apply (same_vis p T' T fd (proj1 V) RS Q); exact I].
Qed.

(** entropy: the slope and the offset of a mixture *)
Lemma s_slope : forall names r fd c d p, valid fd -> In r ["ideal"; "incompressible"]%string -> linear_s fd c d ->
  exists b, forall t, exists y, s_rule names r p t fd = Ok y
    /\ y == sumd fd (fun k e => if larger (e_frac e) then c k * e_frac e else 0) * t + b.
Proof.
  intros names r fd c d p V I LIN.
  assert (G : forall (q : string -> entry -> Q) (f : Q -> string -> entry -> res Q),
    (forall t k e, In (k, e) fd -> f t k e = Ok (w_spT (e_wr e) (q k e) t * e_frac e)) -> forall t, exists y,
    sum_fluids (f t) fd 0 = Ok y
    /\ y == sumd fd (fun k e => if larger (e_frac e) then c k * e_frac e else 0) * t
       + sumd fd (fun k e => if larger (e_frac e) then d k (q k e) * e_frac e else 0)).
  { intros q f F t. destruct (sum_fluids_ok (f t) (fun k e => w_spT (e_wr e) (q k e) t * e_frac e) fd (fun k e I _ => F t k e I) 0) as (y & E & Q).
    exists y. split; [exact E |]. rewrite Q, <- sumd_scale, <- sumd_plus, Qplus_0_l. apply sumd_ext_in. intros k e IE.
    destruct (larger (e_frac e)); [| ring]. destruct (LIN k e (In_dget _ _ _ _ (proj1 V) IE)) as (_ & W). rewrite W. ring. }
  destruct I as [<- | [<- | []]].
  - eexists. intro t. change (s_rule names "ideal" p t fd) with (s_ideal p t fd). unfold s_ideal. rewrite molar_eq by exact V. cbn [rbind].
    apply (G (fun k e => p * fraction fd (k, e)) (fun t k e => rmap (fun x => w_spT (e_wr e) (p * x) t * e_frac e)
       (at_key k (map (fun e => (fst e, fraction fd e)) fd)))).
    intros t' k e IE. destruct (molar_at fd k e V IE) as (A & _). now rewrite A.
  - eexists. intro t. change (s_rule names "incompressible" p t fd) with (s_incompressible p t fd). unfold s_incompressible.
    apply (G (fun _ _ => p) (fun t _ e => Ok (w_spT (e_wr e) p t * e_frac e))). reflexivity.
Qed.
Lemma h_same : forall names r fd cp b p T T', valid fd -> In r ["ideal"; "incompressible"]%string ->
  linear_h fd cp b -> number_of_fluids fd <> 1%nat -> T == T' ->
  agree (h_mix_pT names p T fd (Some r)) (h_mix_pT names p T' fd (Some r)).
Proof.
  intros names r fd cp b p T T' V I LIN N TT. unfold h_mix_pT. rewrite !dispatch_rule by (assumption || discriminate).
  destruct I as [<- | [<- | []]].
  - change (agree (h_ideal p T fd) (h_ideal p T' fd)). unfold h_ideal.
    destruct (molar_fractions fd) as [xs |]; [| reflexivity]. cbn [rbind]. apply sum_agree; [| reflexivity].
    intros k e IE. apply agree_rmap. intro x. destruct (LIN k e (In_dget _ _ _ _ (proj1 V) IE)) as (_ & W). rewrite !W, TT. reflexivity.
  - change (agree (h_incompressible p T fd) (h_incompressible p T' fd)). apply sum_agree; [| reflexivity].
    intros k e IE. cbn [agree]. destruct (LIN k e (In_dget _ _ _ _ (proj1 V) IE)) as (_ & W). rewrite !W, TT. reflexivity.
Qed.
Lemma isentropic_exact : forall u names r fd cp b c d p1 T1 p2 T2 s1 s2 T0 lo hi, valid fd -> number_of_fluids fd <> 1%nat ->
  In r ["ideal"; "incompressible"]%string -> linear_h fd cp b -> linear_s fd c d ->
  temperature_range fd = Ok (lo, hi) -> lo <= T1 <= hi * 2 -> lo <= T2 <= hi * 2 ->
  s_mix_pT names p1 T1 fd (Some r) = Ok s1 -> s_mix_pT names p2 T2 fd (Some r) = Ok s2 -> s1 == s2 ->
  exists h1, h_mix_pT names p1 T1 fd (Some r) = Ok h1
  /\ agree (isentropic u names p1 h1 p2 fd (Some r) T0) (h_mix_pT names p2 T2 fd (Some r)).
Proof.
  intros u names r fd cp b c d p1 T1 p2 T2 s1 s2 T0 lo hi V N I LH LS RG B1 B2 S1 S2 SS.
  destruct (h_T u names r fd cp b p1 T1 None lo hi V N I LH RG B1) as (h1 & T1' & H1 & E1 & Q1).
  exists h1. split; [exact H1 |]. unfold isentropic. rewrite single_mix by exact N.
  unfold s_mix_ph. rewrite single_mix by exact N. rewrite E1. cbn [rbind].
  unfold s_mix_pT in *. rewrite dispatch_rule in S1, S2 by (assumption || discriminate).
  rewrite dispatch_rule by (assumption || discriminate).
  destruct (s_slope names r fd c d p1 V I LS) as (b1 & F1). destruct (s_slope names r fd c d p2 V I LS) as (b2 & F2).
  destruct (F1 T1) as (x1 & X1 & QX1). rewrite S1 in X1. injection X1 as <-.
  destruct (F1 T1') as (y1 & Y1 & QY1). rewrite Y1. cbn [rbind].
  destruct (F2 T2) as (x2 & X2 & QX2). rewrite S2 in X2. injection X2 as <-.
  pose proof (slope_pos fd c (fun _ => 0) lo hi V) as SP.
  assert (P : 0 < sumd fd (fun k e => if larger (e_frac e) then c k * e_frac e else 0)).
  { clear - V RG LS. destruct (range_some _ _ _ RG) as (k & e & I & L).
    pose proof (In_dget _ _ _ _ (proj1 V) I) as D. rewrite (sumd_split _ fd k e _ (proj1 V) D). rewrite L.
    assert (0 < c k * e_frac e). { apply Qmult_lt_0_compat; [apply (LS k e D) |]. apply larger_iff in L. lra. }
    assert (0 <= sumd fd (fun k0 v => if String.eqb k0 k then 0 else if larger (e_frac v) then c k0 * e_frac v else 0)).
    { apply sumd_nonneg. intros k0 v I0. destruct (String.eqb k0 k); [lra |]. destruct (larger (e_frac v)); [| lra].
      destruct (LS k0 v (In_dget _ _ _ _ (proj1 V) I0)). destruct (valid_in _ _ _ V I0). apply Qmult_le_0_compat; lra. }
    lra. }
  clear SP.
  destruct (invert_linear fd (fun t => s_rule names r p2 t fd) y1 None _ b2 T2 lo hi RG (Qnot_eq_sym _ _ (Qlt_not_eq _ _ P)) F2) as (o & EO & QO);
    [rewrite <- QX2, <- SS, QX1, QY1, Q1; reflexivity | exact B2 |].
  unfold T_mix_ps. rewrite dispatch_rule by (assumption || discriminate). rewrite EO. cbn [temperature rbind].
  now apply (h_same names r fd cp b p2 (no_x o) T2).
Qed.

Lemma single_ph : forall u root names rule fd e p h T T0,
  number_of_fluids fd = 1%nat -> pure_fluid fd = Some e ->
  u_Tph u e p h = Ok T -> u_sph u e p h = Ok (w_spT (e_wr e) p T) -> u_dph u e p h = Ok (w_dpT (e_wr e) p T) ->
  u_visph u e p h = Ok (w_vis (e_wr e) p T) -> ~ w_dpT (e_wr e) p T == 0 ->
  T_mix_ph u names p h fd rule T0 = Ok T
  /\ s_mix_ph u names p h fd rule T0 = s_mix_pT names p T fd rule
  /\ viscosity_mix_ph u root names p h fd rule T0 = viscosity_mix_pT root p T fd rule
  /\ exists v v', v_mix_ph u names p h fd rule T0 = Ok v /\ v_mix_pT names p T fd rule = Ok v' /\ v == v'
     /\ v * w_dpT (e_wr e) p T == 1.
Proof.
  intros u root names rule fd e p h T T0 N P ET ES ED EV ND.
  assert (S1 : Nat.eqb (number_of_fluids fd) 1 = true) by now rewrite N.
  unfold s_mix_ph, viscosity_mix_ph, v_mix_ph, single, T_mix_ph, s_mix_pT, viscosity_mix_pT, v_mix_pT, dispatch.
  rewrite !S1, !P, ET, ES, ED, EV. cbn [rbind]. unfold qdiv.
  destruct (Qeq_bool (w_dpT (e_wr e) p T) 0) eqn:Z; [apply Qeq_bool_eq in Z; contradiction|].
  split; [reflexivity|]. split; [reflexivity|]. split; [reflexivity|]. eexists _, _. split; [reflexivity|]. split; [reflexivity|]. split; [reflexivity|]. field. exact ND.
Qed.
