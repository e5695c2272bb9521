From Coq Require Import QArith.
From Verif Require Import Base MassModel MassProofs FluidModel FluidSpec FluidProofs StartSpec.
Open Scope nat_scope.
Open Scope string_scope.
Open Scope list_scope.

Lemma start_get x pot f : forall l d, NoDup (keys d) -> ~ In f (fc_set x) -> ~ In f (keys d) -> In f l ->
  dget f (fold_left (fun d f =>
           if negb (smem f (fc_set x)) && negb (dmem f d) then
             match dget f (fc_val0 x) with
             | None => dset f (1 / inject_Z (Z.of_nat (length (A:=string) pot)))%Q d
             | Some q => dset f q d
             end
           else d) l d) = Some (match dget f (fc_val0 x) with Some q => q | None => (1 / inject_Z (Z.of_nat (length pot)))%Q end).
Proof.
  induction l as [|g l IH]; intros d ND NS NK I; [destruct I|]. cbn [fold_left]. destruct (String.eqb g f) eqn:E.
  - apply String.eqb_eq in E. subst g. destruct (smem f (fc_set x)) eqn:E1; [apply smem_In in E1; contradiction|].
    destruct (dmem f d) eqn:E2; [apply dmem_In in E2; contradiction|]. cbn [negb andb].
    destruct (dget f (fc_val0 x)) as [q|];
      match goal with |- dget f (fold_left _ l ?d1) = _ => destruct (start_fold x pot l d1) as (_ & B & _); [now apply NoDup_keys_dset|]; apply B; apply dget_dset_eq end.
  - assert (N : g <> f) by (intros ->; rewrite String.eqb_refl in E; discriminate). destruct I as [I|I]; [congruence|].
    assert (K : forall q, ~ In f (keys (dset g q d))) by (intros q X; apply keys_dset in X; destruct X; [congruence|contradiction]).
    destruct (negb (smem g (fc_set x)) && negb (dmem g d)); [|now apply IH].
    destruct (dget g (fc_val0 x)); apply IH; auto; now apply NoDup_keys_dset.
Qed.
Lemma start_same pot x y d : fc_set x = fc_set y -> fc_val0 x = fc_val0 y -> start_fractions pot x d = start_fractions pot y d.
Proof. intros A B. unfold start_fractions. now rewrite A, B. Qed.
Lemma step_kind rule pot en ba s y a : same_kind (fs_cont (propagate_one rule pot en ba s y) a) (fs_cont s a).
Proof.
  unfold propagate_one. cbn. destruct (Nat.eq_dec a (fs_of s y)) as [->|D].
  - rewrite fupd_eq. eapply same_kind_trans; [apply create_wrapper_kind|]. unfold same_kind. cbn. auto.
  - rewrite fupd_neq by auto. unfold same_kind. auto.
Qed.
Lemma step_frac rule pot en ba s y c :
  frac (propagate_one rule pot en ba s y) c = if Nat.eqb (fc_val (cont_of s c)) (fc_val (cont_of s y)) then start_fractions pot (cont_of s y) (frac s y) else frac s c.
Proof.
  unfold frac at 1. assert (E : fc_val (cont_of (propagate_one rule pot en ba s y) c) = fc_val (cont_of s c)).
  { unfold cont_of. change (fs_of (propagate_one rule pot en ba s y) c) with (fs_of s c). apply step_kind. }
  rewrite E. unfold propagate_one. cbn. unfold fupd. reflexivity.
Qed.
Lemma propagate_frac rule pot en ba conns : forall l s, NoDup l -> incl l conns -> own_values s conns -> forall c, In c conns ->
  frac (fold_left (propagate_one rule pot en ba) l s) c = if in_dec Nat.eq_dec c l then start_fractions pot (cont_of s c) (frac s c) else frac s c.
Proof.
  induction l as [|y l IH]; intros s ND I OV c C; [reflexivity|]. cbn [fold_left]. inversion ND as [|? ? N1 N2]; subst.
  set (s1 := propagate_one rule pot en ba s y).
  assert (K : forall x, same_kind (cont_of s1 x) (cont_of s x)) by (intros x; unfold cont_of; change (fs_of s1 x) with (fs_of s x); apply step_kind).
  assert (OV1 : own_values s1 conns) by (intros a b A B E; destruct (K a) as (Ka & _), (K b) as (Kb & _); apply OV; congruence).
  rewrite (IH s1 N2 (fun x X => I x (or_intror X)) OV1 c C). destruct (K c) as (_ & K2 & K3 & _). rewrite (start_same pot (cont_of s1 c) (cont_of s c)) by assumption.
  assert (F : frac s1 c = if Nat.eq_dec c y then start_fractions pot (cont_of s c) (frac s c) else frac s c).
  { unfold s1. rewrite step_frac. destruct (Nat.eq_dec c y) as [->|D]; [now rewrite Nat.eqb_refl|].
    destruct (Nat.eqb (fc_val (cont_of s c)) (fc_val (cont_of s y))) eqn:E; [|reflexivity]. apply Nat.eqb_eq in E. exfalso. apply D, OV; auto. apply I. now left. }
  rewrite F. destruct (Nat.eq_dec c y) as [->|D].
  - destruct (in_dec Nat.eq_dec y l); [contradiction|]. destruct (in_dec Nat.eq_dec y (y :: l)) as [|X]; [reflexivity|exfalso; apply X; now left].
  - destruct (in_dec Nat.eq_dec c l) as [X|X], (in_dec Nat.eq_dec c (y :: l)) as [Y|Y]; try reflexivity; exfalso; [apply Y; now right|destruct Y; [congruence|contradiction]].
Qed.
Lemma propagate_start conns s s0 : sound_conns s conns -> own_values s conns -> propagate conns s = (s0, None) ->
  forall fluids c f, fluids_of s conns fluids -> 1 < length fluids -> In c conns -> In f fluids -> ~ In f (keys (frac s c)) ->
  dget f (frac s0 c) = Some (start_value s fluids c f).
Proof.
  intros SC OV H fluids c f (NF & FO) LF C F NK. pose proof SC as (NC & OK).
  assert (X : exists rule, potential conns s <> [] /\ s0 = fold_left (propagate_one rule (potential conns s) (collect fc_engine conns s) (collect fc_back conns s)) conns s).
  { unfold propagate in H. destruct (rules conns s) as [|r [|r2 l]]; [| |discriminate]; destruct (potential conns s) eqn:E; try discriminate;
      apply (f_equal fst) in H; cbn [fst] in H; subst s0; eexists; (split; [discriminate|reflexivity]). }
  destruct X as (rule & PN & ->). rewrite (propagate_frac rule _ _ _ conns conns s NC (incl_refl _) OV c C).
  destruct (in_dec Nat.eq_dec c conns) as [_|N]; [|contradiction].
  assert (PI : forall g, In g (potential conns s) <-> In g fluids).
  { intros g. rewrite potential_In, FO. unfold occurs. split; intros (d & D & G); exists d; (split; [exact D|]); [|auto]. destruct G as [G|G]; [now apply (OK d D)|exact G]. }
  assert (LE : length (potential conns s) = length fluids).
  { apply Nat.le_antisymm; apply NoDup_incl_length; [apply sset_NoDup|intros g G; now apply PI|exact NF|intros g G; now apply PI]. }
  assert (Fp : In f (potential conns s)) by (now apply PI). unfold start_value. rewrite <- LE in *. set (pot := potential conns s) in *.
  assert (NS : ~ In f (fc_set (cont_of s c))) by (intros S; apply NK; now apply (OK c C)).
  assert (ND : NoDup (keys (frac s c))) by apply (OK c C).
  clearbody pot. destruct pot as [|f0 [|f1 l]]; [destruct Fp|cbn in LF; lia|]. now apply start_get.
Qed.
(** Each branch is reduced as if it were alone. *)
Lemma presolve_local bs : forall s s', NoDup (concat bs) -> ~ In [] bs ->
  (forall b, In b bs -> sound_branch s b) -> separate s bs ->
  (forall c d, In c (concat bs) -> In d (concat bs) -> fs_of s c = fs_of s d -> c = d) ->
  presolve_fluids bs s = (s', None) ->
  forall b, In b bs -> exists s1 s2, sound_branch s1 b /\ presolve_fluid_branch b s1 = (s2, None)
    /\ (forall c, In c b -> cont_of s1 c = cont_of s c /\ frac s1 c = frac s c /\ fs_pot s1 c = fs_pot s c)
    /\ (forall c, In c b -> cont_of s' c = cont_of s2 c /\ frac s' c = frac s2 c).
Proof.
  induction bs as [|b bs IH]; intros s s' ND NE SB SEP INJ H; cbn [presolve_fluids] in H; [intros b []|].
  cbn [concat] in *. destruct (NoDup_app_inv _ _ ND) as (N1 & N2 & N3).
  destruct (presolve_fluid_branch b s) as [s1 [e|]] eqn:EB; [discriminate|].
  assert (SBb : sound_branch s b) by (apply SB; now left).
  destruct b as [|main others]; [exfalso; apply NE; now left|].
  destruct (branch_frame s main others s1 SBb EB) as (F1 & F2 & F3 & F4 & F5 & F6 & F7 & F8 & F9 & F10).
  set (b := main :: others) in *.
  assert (Mb : In main b) by now left.
  pose proof SBb as (_ & Sb1 & Sb2 & Sb3).
  assert (LAT : forall b' c, In b' bs -> In c b' -> ~ In c b /\ fs_of s1 c = fs_of s c /\ cont_of s1 c = cont_of s c /\
    frac s1 c = frac s c /\ fs_pot s1 c = fs_pot s c).
  { intros b' c Hb Hc. assert (CC : In c (concat bs)) by (apply in_concat; eauto).
    assert (NI : ~ In c b) by (intros Hin; exact (N3 c Hin CC)). split; [auto|].
    destruct (F2 c NI) as (G1 & G2). assert (SBc := SB b' (or_intror Hb)). destruct SBc as (_ & SC1 & _).
    destruct (SC1 c Hc) as (_ & _ & Z1 & Z2).
    assert (E1 : cont_of s1 c = cont_of s c).
    { unfold cont_of. rewrite G1. apply F7; [auto|]. intros X. apply NI.
      rewrite (INJ c main); auto; apply in_app_iff; auto. }
    split; [auto|]. split; [auto|]. split; [|now rewrite F6].
    unfold frac. rewrite E1. apply F8; [auto|].
    apply (SEP b' b c main); [now right|now left|auto|auto|]. intros ->. auto. }
  assert (LATC : forall c, In c (concat bs) -> exists b', In b' bs /\ In c b') by (intros c Hc; apply in_concat in Hc; destruct Hc as (b' & ? & ?); eauto).
  assert (P2 : ~ In [] bs) by (intros X; apply NE; now right).
  assert (P3 : forall b', In b' bs -> sound_branch s1 b').
  { intros b' Hb. apply (sound_branch_ext s s1); [|lia|apply SB; now right]. intros c Hc. destruct (LAT b' c Hb Hc) as (_ & X). exact X. }
  assert (P4 : separate s1 bs).
  { intros b1 b2 c d Hb1 Hb2 Hc Hd D. destruct (LAT b1 c Hb1 Hc) as (_ & _ & -> & _), (LAT b2 d Hb2 Hd) as (_ & _ & -> & _). apply (SEP b1 b2); auto; now right. }
  assert (P5 : forall c d, In c (concat bs) -> In d (concat bs) -> fs_of s1 c = fs_of s1 d -> c = d).
  { intros c d Hc Hd E. destruct (LATC c Hc) as (b1 & Hb1 & Hc1), (LATC d Hd) as (b2 & Hb2 & Hd2).
    destruct (LAT b1 c Hb1 Hc1) as (_ & E1 & _), (LAT b2 d Hb2 Hd2) as (_ & E2 & _). apply INJ; try (apply in_app_iff; auto). congruence. }
  intros b' [<-|Hb].
  - destruct (presolve_fluids_ok bs s1 s' N2 P2 P3 P4 P5 H) as (_ & I2 & I3 & I4 & _). exists s, s1. split; [exact SBb|]. split; [exact EB|]. split; [auto|].
    intros c C. destruct (Sb1 main Mb) as (_ & _ & Z1 & Z2).
    assert (E : cont_of s' c = cont_of s1 c).
    { unfold cont_of. rewrite (proj1 (I2 c (N3 c C))), (F1 c C). apply I3; [lia|].
      intros x Hx E. destruct (LATC x Hx) as (b2 & Hb2 & Hx2). destruct (LAT b2 x Hb2 Hx2) as (NI & E2 & _).
      apply NI. rewrite (INJ x main); auto; [apply in_app_iff; auto|apply in_app_iff; auto|congruence]. }
    split; [exact E|]. unfold frac. rewrite E.
    assert (V : fc_val (cont_of s1 c) = fc_val (cont_of s main)) by (unfold cont_of at 1; rewrite (F1 c C); exact F10).
    rewrite V. apply I4; [lia|]. intros x Hx. destruct (LATC x Hx) as (b2 & Hb2 & Hx2). destruct (LAT b2 x Hb2 Hx2) as (NI & _ & -> & _).
    apply (SEP b2 b x main); [now right|now left|auto|auto|]. intros ->. auto.
  - destruct (IH s1 s' N2 P2 P3 P4 P5 H b' Hb) as (t1 & t2 & T1 & T2 & T3 & T4). exists t1, t2. split; [exact T1|]. split; [exact T2|]. split; [|exact T4].
    intros c C. destruct (T3 c C) as (A1 & A2 & A3), (LAT b' c Hb C) as (_ & _ & B1 & B2 & B3). repeat split; congruence.
Qed.
Lemma variable_keeps s main others s' : sound_branch s (main :: others) -> presolve_fluid_branch (main :: others) s = (s', None) ->
  1 < length (fs_pot s main) ->
  forall c f, In c (main :: others) -> In f (fvar s' c) -> dget f (frac s' c) = dget f (frac s main).
Proof.
  intros SB H LP c f C V. destruct (reduce_shape s main others SB s' H) as (d & set & var & SH & CASES).
  destruct (SH c C) as (E1 & E2 & E3 & E4). rewrite E2. rewrite E4 in V. clear E1 E2 E3 E4 SH.
  destruct CASES as [(Z & g & E & _)|[(Z & _ & -> & _)|(Z & NT & fx & fx' & NF & GF & KF & SF & EC & Ed & Est)]]; [rewrite E in LP; cbn in LP; lia|reflexivity|].
  pose proof (fixed_incl s main others SB fx KF) as IC. pose proof (missing_In (frac s main) fx) as MI.
  destruct (complete_cases (frac s main) fx (main_NoDup s main others SB) NF IC) as [(X & E)|[(X & g & M & E)|[(X & M & E)|(X & E)]]];
    rewrite E in EC; inversion EC; subst fx' var; try destruct V.
  apply MI in V. rewrite Ed, upd_all_get by assumption. destruct (dget f fx) eqn:G; [|reflexivity]. exfalso. apply (proj2 V), in_keys_dget. eauto.
Qed.
Lemma two_pot conns s s0 : sound_conns s conns -> propagate conns s = (s0, None) -> forall fluids c, fluids_of s conns fluids -> 1 < length fluids -> In c conns -> 1 < length (fs_pot s0 c).
Proof.
  intros SC H fluids c (NF & FO) L C. destruct (propagate_ok conns s s0 SC H) as (P1 & P2 & P3 & P4 & P5 & P6 & P7 & P8).
  assert (SB : sound_branch s0 [c]) by (apply P6; [repeat constructor; intros []|intros x [<-|[]]; exact C]).
  destruct SB as (_ & _ & _ & S4). destruct (S4 c (or_introl eq_refl)) as (_ & K).
  assert (I : incl fluids (fs_pot s0 c)) by (intros g G; apply K, P2; [exact C|]; now apply FO).
  apply NoDup_incl_length in I; [lia|exact NF].
Qed.
Lemma composed_start conns bs s s' fluids : sound_conns s conns -> own_fluid s conns -> own_values s conns -> branches_of conns bs ->
  fluids_of s conns fluids -> 1 < length fluids -> composed conns bs s s' ->
  forall main others c f, In (main :: others) bs -> In c (main :: others) -> In f (fvar s' c) -> ~ In f (keys (frac s main)) -> In f fluids ->
  dget f (frac s' c) = Some (start_value s fluids main f).
Proof.
  intros SC (OI & OT) OV (ND & NE & CV) FO L (s0 & PR & PF) main others c f B C V NK Ff.
  destruct (propagate_ok conns s s0 SC PR) as (P1 & P2 & P3 & P4 & P5 & P6 & P7 & P8).
  assert (BC : forall b x, In b bs -> In x b -> In x conns) by (intros b0 x Hb Hx; apply CV, in_concat; eauto).
  assert (NB : forall b, In b bs -> NoDup b).
  { intros b0 Hb. clear - ND Hb. induction bs as [|b1 bs' IH]; [destruct Hb|]. cbn in ND. destruct (NoDup_app_inv _ _ ND) as (N1 & N2 & N3). destruct Hb as [<-|Hb]; auto. }
  assert (FV : forall z, In z conns -> fc_val (cont_of s0 z) = fc_val (cont_of s z)) by (intros z Hz; unfold cont_of; rewrite P8; now rewrite (proj1 (P1 z Hz))).
  destruct (presolve_local bs s0 s' ND NE) with (b := main :: others) as (s1 & s2 & T1 & T2 & T3 & T4); auto.
  { intros b0 Hb. apply P6; [auto|]. intros x Hx. eauto. }
  { intros b0 b' x y Hb Hb' Hx Hy D. rewrite !FV by eauto. intros E. apply OV in E; eauto. subst y. apply D. clear - ND Hb Hb' Hx Hy.
    induction bs as [|b1 bs' IH]; [destruct Hb|]. cbn in ND. destruct (NoDup_app_inv _ _ ND) as (N1 & N2 & N3).
    destruct Hb as [<-|Hb], Hb' as [<-|Hb']; auto; exfalso; apply (N3 x); auto; apply in_concat; eauto. }
  { intros x y Hx Hy E. apply CV in Hx, Hy. apply OI; auto. destruct (P1 x Hx) as (<- & _), (P1 y Hy) as (<- & _). auto. }
  destruct (T4 c C) as (A1 & A2). destruct (T3 main (or_introl eq_refl)) as (B1 & B2 & B3).
  assert (Mc : In main conns) by (apply (BC (main :: others)); [exact B|now left]).
  assert (V2 : In f (fvar s2 c)) by (unfold fvar in *; now rewrite <- A1).
  rewrite A2, (variable_keeps s1 main others s2 T1 T2) by (try assumption; rewrite B3; now apply (two_pot conns s s0 SC PR fluids main)).
  rewrite B2. now apply (propagate_start conns s s0 SC OV PR).
Qed.
(** A composition that has a value is not affected by starting values. *)
Lemma start_ignored conns s s0 c f q : sound_conns s conns -> propagate conns s = (s0, None) ->
  (exists g h, g <> h /\ occurs s conns g /\ occurs s conns h) -> In c conns -> dget f (frac s c) = Some q -> dget f (frac s0 c) = Some q.
Proof.
  intros SC H (g & h & N & (d & D & G) & (d2 & D2 & G2)) C E. destruct (propagate_ok conns s s0 SC H) as (_ & _ & P3 & _). apply P3; auto.
  exists g, h, d, d2. auto.
Qed.
