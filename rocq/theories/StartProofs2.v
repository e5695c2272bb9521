From Coq Require Import QArith.
From Verif Require Import Base MassModel MassProofs FluidModel FluidSpec FluidProofs StartSpec StartProofs.
Open Scope nat_scope.
Open Scope list_scope.

Lemma start_id pot x d : 1 < length pot -> incl pot (keys d) -> start_fractions pot x d = d.
Proof.
  intros L I. destruct pot as [|f0 [|f1 l]]; [cbn in L; lia|cbn in L; lia|]. unfold start_fractions.
  generalize (length (f0 :: f1 :: l)) as n. clear L. revert I. generalize (f0 :: f1 :: l) as p. intros p I n. revert I.
  induction p as [|g p IH]; intros I; [reflexivity|]. cbn [fold_left].
  assert (E : dmem g d = true) by (apply dmem_In, I; now left). rewrite E. cbn [negb]. rewrite andb_false_r. apply IH. intros x0 X. apply I. now right.
Qed.
Lemma fold_id rule pot en ba : 1 < length pot -> forall l s, (forall c, In c l -> incl pot (keys (frac s c))) -> forall x,
  frac (fold_left (propagate_one rule pot en ba) l s) x = frac s x
  /\ fset (fold_left (propagate_one rule pot en ba) l s) x = fset s x /\ fvar (fold_left (propagate_one rule pot en ba) l s) x = fvar s x.
Proof.
  intros L. induction l as [|y l IH]; intros s H x; [auto|]. cbn [fold_left]. set (s1 := propagate_one rule pot en ba s y).
  assert (F : forall z, frac s1 z = frac s z).
  { intros z. unfold s1. rewrite step_frac. destruct (Nat.eqb (fc_val (cont_of s z)) (fc_val (cont_of s y))) eqn:E; [|reflexivity].
    rewrite start_id; [|exact L|apply H; now left]. unfold frac. apply Nat.eqb_eq in E. now rewrite E. }
  assert (K : same_kind (cont_of s1 x) (cont_of s x)) by (unfold cont_of; change (fs_of s1 x) with (fs_of s x); apply step_kind).
  destruct (IH s1) with (x := x) as (A & B & C); [intros c I; rewrite F; apply H; now right|]. destruct K as (_ & _ & K3 & K4).
  split; [now rewrite A|]. unfold fset, fvar in *. split; congruence.
Qed.
Lemma set0_kind c d s x : fc_set (cont_of (set_fluid0 c d s) x) = fc_set (cont_of s x) /\ fc_val (cont_of (set_fluid0 c d s) x) = fc_val (cont_of s x)
  /\ fc_var (cont_of (set_fluid0 c d s) x) = fc_var (cont_of s x).
Proof.
  unfold cont_of, set_fluid0, set_cont. cbn. destruct (Nat.eq_dec (fs_of s x) (fs_of s c)) as [E|N].
  - rewrite E, fupd_eq. cbn. auto.
  - rewrite fupd_neq by auto. auto.
Qed.
Lemma later_always conns s c d s0 : sound_conns s conns -> calculated s conns -> (exists g h, g <> h /\ occurs s conns g /\ occurs s conns h) ->
  propagate conns s = (s0, None) ->
  exists s1, propagate conns (set_fluid0 c d s) = (s1, None)
  /\ forall x, In x conns -> frac s1 x = frac s0 x /\ frac s1 x = frac s x /\ fset s1 x = fset s0 x /\ fvar s1 x = fvar s0 x.
Proof.
  intros (NC & OK) CA (g & h & N & G & G2) H.
  assert (Fr : forall x, frac (set_fluid0 c d s) x = frac s x) by (intros x; unfold frac; now rewrite (proj1 (proj2 (set0_kind c d s x)))).
  assert (PE : potential conns (set_fluid0 c d s) = potential conns s).
  { unfold potential. f_equal. f_equal; [f_equal; apply map_ext; intros x; apply set0_kind|]. f_equal; f_equal; apply map_ext; intros x; now rewrite Fr. }
  assert (RE : rules conns (set_fluid0 c d s) = rules conns s) by reflexivity.
  assert (PI : forall f, In f (potential conns s) <-> occurs s conns f).
  { intros f. rewrite potential_In. unfold occurs. split; intros (y & Y & F); exists y; (split; [exact Y|]); [|auto]. destruct F as [F|F]; [now apply (OK y Y)|exact F]. }
  assert (L : 1 < length (potential conns s)).
  { apply PI in G, G2. destruct (potential conns s) as [|x [|y l]]; [destruct G| |cbn; lia]. cbn in G, G2. exfalso. apply N. intuition congruence. }
  assert (I : forall x, In x conns -> incl (potential conns s) (keys (frac s x))) by (intros x X f F; apply CA; [exact X|now apply PI]).
  assert (R : exists rule, s0 = fold_left (propagate_one rule (potential conns s) (collect fc_engine conns s) (collect fc_back conns s)) conns s
    /\ exists s1 en ba, propagate conns (set_fluid0 c d s) = (s1, None) /\ s1 = fold_left (propagate_one rule (potential conns s) en ba) conns (set_fluid0 c d s)).
  { unfold propagate in *. rewrite RE, PE. destruct (rules conns s) as [|r [|r2 l]]; [| |discriminate]; destruct (potential conns s) eqn:E; try discriminate;
      apply (f_equal fst) in H; cbn [fst] in H; subst s0; eexists; (split; [reflexivity|]); eexists _, _, _; (split; reflexivity). }
  destruct R as (rule & E0 & s1 & en & ba & E1 & E2). exists s1. split; [exact E1|]. intros x X. subst s0 s1.
  destruct (fold_id rule (potential conns s) (collect fc_engine conns s) (collect fc_back conns s) L conns s I x) as (A1 & A2 & A3).
  destruct (fold_id rule (potential conns s) en ba L conns (set_fluid0 c d s)) with (x := x) as (B1 & B2 & B3); [intros y Y; rewrite Fr; now apply I|].
  destruct (set0_kind c d s x) as (S1 & S2 & S3). rewrite A1, A2, A3, B1, B2, B3, Fr. unfold fset, fvar. auto.
Qed.
