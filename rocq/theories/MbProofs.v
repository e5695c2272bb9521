(** Lemmas about moving boundary heat exchangers. *)
From Coq Require Import Reals Qreals Lqa Sorting.Sorted Sorting.Permutation.
From Verif Require Import MbModel ReportSpec MbSpec.
Open Scope nat_scope.
Open Scope list_scope.

Lemma qlt_true a b : qlt a b = true -> (a < b)%Q.
Proof. unfold qlt. destruct (a ?= b)%Q eqn:E; try discriminate. intros _. now apply Qlt_alt. Qed.
Lemma qlt_false a b : qlt a b = false -> (b <= a)%Q.
Proof.
  unfold qlt. destruct (a ?= b)%Q eqn:E; try discriminate; intros _.
  - apply Qeq_alt in E. rewrite E. apply Qle_refl.
  - apply Qgt_alt in E. now apply Qlt_le_weak.
Qed.

(* ---- sorting ---- *)
Lemma insert_perm x l : Permutation (insert x l) (x :: l).
Proof.
  induction l as [|y l IH]; cbn; [apply Permutation_refl|]. destruct (qlt y x); [|apply Permutation_refl].
  eapply perm_trans; [apply perm_skip; exact IH|apply perm_swap].
Qed.
Lemma sorted_perm l : Permutation (sorted l) l.
Proof. induction l as [|x l IH]; cbn; [constructor|]. eapply perm_trans; [apply insert_perm|]. now apply perm_skip. Qed.
Lemma insert_sorted x l : StronglySorted Qle l -> StronglySorted Qle (insert x l).
Proof.
  induction 1 as [|y l S IH F]; cbn; [repeat constructor|]. destruct (qlt y x) eqn:E.
  - constructor; [exact IH|]. apply qlt_true in E. apply Forall_forall. intros z Z.
    apply (Permutation_in _ (insert_perm x l)) in Z. destruct Z as [<-|Z]; [now apply Qlt_le_weak|]. rewrite Forall_forall in F. now apply F.
  - apply qlt_false in E. constructor; [now constructor|]. constructor; [exact E|]. rewrite Forall_forall in *. intros z Z.
    apply Qle_trans with y; [exact E|now apply F].
Qed.
Lemma sorted_sorted l : StronglySorted Qle (sorted l).
Proof. induction l; cbn; [constructor|now apply insert_sorted]. Qed.
Lemma sorted_in l x : In x (sorted l) <-> In x l.
Proof. split; apply Permutation_in; [|apply Permutation_sym]; apply sorted_perm. Qed.

(* ---- steps ---- *)
Lemma h_steps_spec s l : saturation_ok (fl s) -> h_steps s = Ok l ->
  match ordered s with (p, h1, h2) =>
    (h1 <= h2)%Q ->
    exists mid, l = h1 :: mid ++ [h2] /\
      (forall x, In x mid -> phase_change (fl s) p x /\ (h1 <= x)%Q /\ (x <= h2)%Q) /\
      (forall x, phase_change (fl s) p x -> (h1 + ERR < x)%Q -> (x + ERR < h2)%Q -> In x mid) /\
      StronglySorted Qle mid
  end.
Proof.
  intros SAT H. unfold h_steps in H. destruct (same_data s); [|discriminate]. cbn [negb] in H.
  destruct (ordered s) as ((p & h1) & h2). intros LE.
  assert (NONE : forall Z, (forall x, phase_change (fl s) p x -> (h1 + ERR < x)%Q -> (x + ERR < h2)%Q -> False) -> Ok [h1; h2] = Ok l -> Z = tt ->
     exists mid, l = h1 :: mid ++ [h2] /\ (forall x, In x mid -> phase_change (fl s) p x /\ (h1 <= x)%Q /\ (x <= h2)%Q) /\
      (forall x, phase_change (fl s) p x -> (h1 + ERR < x)%Q -> (x + ERR < h2)%Q -> In x mid) /\ StronglySorted Qle mid).
  { intros _ C E _. inversion E; subst. exists []. split; [reflexivity|]. split; [intros x []|]. split; [|constructor].
    intros x X1 X2 X3. exact (C x X1 X2 X3). }
  destruct (pure (fl s)) eqn:P.
  2: { apply (NONE tt); auto. intros x (X & _). congruence. }
  destruct (hsat (fl s) p 1) as [hg|e] eqn:G.
  2: { destruct e; try discriminate; apply (NONE tt); auto; intros x (_ & hl & hg & _ & X & _); congruence. }
  destruct (hsat (fl s) p 0) as [hl|e] eqn:L.
  2: { destruct e; try discriminate; apply (NONE tt); auto; intros x (_ & hl & hg' & X & _); congruence. }
  pose proof (SAT p hl hg L G) as LG.
  assert (PC : forall x, phase_change (fl s) p x <-> x = hl \/ x = hg).
  { intros x. unfold phase_change. split.
    - intros (_ & a & b & A & B & C). rewrite L in A. rewrite G in B. inversion A; inversion B; subst. exact C.
    - intros C. split; [exact P|]. exists hl, hg. auto. }
  unfold ERR in *.
  destruct (qlt h1 hl) eqn:E1; [apply qlt_true in E1|apply qlt_false in E1].
  - destruct (qlt (hg + (1 # 1000000)) h2) eqn:E2; [apply qlt_true in E2|apply qlt_false in E2].
    + inversion H; subst. exists [hl; hg]. split; [reflexivity|]. split; [|split].
      * intros x [<-|[<-|[]]]; (split; [apply PC; auto|split; lra]).
      * intros x X _ _. apply PC in X. destruct X as [->| ->]; cbn; auto.
      * repeat constructor. exact LG.
    + destruct (qlt (hl + (1 # 1000000)) h2) eqn:E3; [apply qlt_true in E3|apply qlt_false in E3].
      * inversion H; subst. exists [hl]. split; [reflexivity|]. split; [|split; [|repeat constructor]].
        -- intros x [<-|[]]; (split; [apply PC; auto|split; lra]).
        -- intros x X X1 X2. apply PC in X. destruct X as [->| ->]; cbn; [auto|]. exfalso. lra.
      * apply (NONE tt); auto. intros x X X1 X2. apply PC in X. destruct X as [->| ->]; lra.
  - destruct (qlt h1 (hg - (1 # 1000000))) eqn:E2; [apply qlt_true in E2|apply qlt_false in E2].
    + destruct (qlt (hg + (1 # 1000000)) h2) eqn:E3; [apply qlt_true in E3|apply qlt_false in E3].
      * inversion H; subst. exists [hg]. split; [reflexivity|]. split; [|split; [|repeat constructor]].
        -- intros x [<-|[]]; (split; [apply PC; auto|split; lra]).
        -- intros x X X1 X2. apply PC in X. destruct X as [->| ->]; cbn; [exfalso; lra|auto].
      * apply (NONE tt); auto. intros x X X1 X2. apply PC in X. destruct X as [->| ->]; lra.
    + apply (NONE tt); auto. intros x X X1 X2. apply PC in X. destruct X as [->| ->]; lra.
Qed.

Lemma csum m : forall l h1 acc, Forall2 (fun x q => q == acc + (x - h1) * m)%Q l (cumsum acc (Q_sections (h1 :: l) m)).
Proof.
  induction l as [|x l IH]; intros h1 acc; [constructor|].
  change (cumsum acc (Q_sections (h1 :: x :: l) m)) with ((acc + (x - h1) * m)%Q :: cumsum (acc + (x - h1) * m) (Q_sections (x :: l) m)).
  constructor; [reflexivity|].
  specialize (IH x (acc + (x - h1) * m)%Q). revert IH. generalize (cumsum (acc + (x - h1) * m) (Q_sections (x :: l) m)). intros r F.
  induction F as [|y q l' r' E _ IH']; constructor; [|exact IH']. rewrite E. ring.
Qed.
Lemma forall2_removelast {A B} (P : A -> B -> Prop) l r : Forall2 P l r -> Forall2 P (removelast l) (removelast r).
Proof.
  induction 1 as [|a b l r H F IH]; [constructor|]. destruct F as [|a' b' l r H' F]; [constructor|].
  change (removelast (a :: a' :: l)) with (a :: removelast (a' :: l)). change (removelast (b :: b' :: r)) with (b :: removelast (b' :: r)).
  constructor; assumption.
Qed.
Lemma forall2_in_r {A B} (P : A -> B -> Prop) l r b : Forall2 P l r -> In b r -> exists a, In a l /\ P a b.
Proof. induction 1; cbn; [tauto|]. intros [<-|H1]; [eauto|]. destruct (IHForall2 H1) as (w & W & Y). eauto. Qed.
Lemma forall2_in_l {A B} (P : A -> B -> Prop) l r a : Forall2 P l r -> In a l -> exists b, In b r /\ P a b.
Proof. induction 1; cbn; [tauto|]. intros [<-|H1]; [eauto|]. destruct (IHForall2 H1) as (w & W & Y). eauto. Qed.

Lemma scale_le m a b : (0 < m)%Q -> (a <= b)%Q -> (a * m <= b * m)%Q.
Proof. intros M H. apply Qmult_le_compat_r; [exact H|now apply Qlt_le_weak]. Qed.

Lemma ordered_hot s : (h_out s <= h_in s)%Q -> exists p h1 h2, ordered s = (p, h1, h2) /\ (h1 == h_out s)%Q /\ (h2 == h_in s)%Q /\
  ((h_out s < h_in s)%Q -> p = p_out s) /\ (h1 <= h2)%Q.
Proof.
  intros H. unfold ordered. destruct (qlt (h_out s) (h_in s)) eqn:E.
  - exists (p_out s), (h_out s), (h_in s). repeat split; auto with qarith.
  - apply qlt_false in E. exists (p_in s), (h_in s), (h_out s). split; [reflexivity|]. split; [lra|]. split; [lra|]. split; [intros; lra|exact E].
Qed.
Lemma ordered_cold s : (h_in s <= h_out s)%Q -> ordered s = (p_in s, h_in s, h_out s).
Proof. intros H. unfold ordered. destruct (qlt (h_out s) (h_in s)) eqn:E; [|reflexivity]. apply qlt_true in E. lra. Qed.

(** The two lists of section limits *)
Lemma cold_limits cold d l : saturation_ok (fl cold) -> (0 < mass cold)%Q -> (h_in cold <= h_out cold)%Q -> (mass cold * (h_out cold - h_in cold) == d)%Q ->
  h_steps cold = Ok l ->
  let c := cumsum 0 (Q_sections l (mass cold)) in
  (forall q, In q c -> (0 <= q <= d)%Q /\ ((q == d)%Q \/ exists x, phase_change (fl cold) (p_in cold) x /\ (q == mass cold * (x - h_in cold))%Q)) /\
  has c d /\
  (forall x, phase_change (fl cold) (p_in cold) x -> (h_in cold + ERR < x)%Q -> (x + ERR < h_out cold)%Q -> has c (mass cold * (x - h_in cold))%Q).
Proof.
  intros SAT M LE D H. pose proof (h_steps_spec cold l SAT H) as Z. rewrite (ordered_cold _ LE) in Z. destruct (Z LE) as (mid & -> & A & B & _).
  clear Z. cbv zeta. pose proof (csum (mass cold) (mid ++ [h_out cold]) (h_in cold) 0) as F. set (c := cumsum 0 _) in *. clearbody c.
  split; [|split].
  - intros q Q. destruct (forall2_in_r _ _ _ _ F Q) as (x & X & E). apply in_app_iff in X. destruct X as [X|[<-|[]]].
    + destruct (A x X) as (P & X1 & X2). split; [|right; exists x; split; [exact P|rewrite E; ring]].
      pose proof (scale_le _ _ _ M X1). pose proof (scale_le _ _ _ M X2). split; lra.
    + pose proof (scale_le _ _ _ M LE). split; [split; lra|left; lra].
  - destruct (forall2_in_l _ _ _ (h_out cold) F) as (q & Q & E); [apply in_app_iff; right; now left|]. exists q. split; [exact Q|]. lra.
  - intros x X X1 X2. destruct (forall2_in_l _ _ _ x F) as (q & Q & E); [apply in_app_iff; left; auto|]. exists q. split; [exact Q|]. rewrite E. ring.
Qed.

Lemma hot_limits hot d l : saturation_ok (fl hot) -> (0 < mass hot)%Q -> (h_out hot <= h_in hot)%Q -> (mass hot * (h_in hot - h_out hot) == d)%Q ->
  h_steps hot = Ok l ->
  let c := removelast (cumsum 0 (Q_sections l (mass hot))) in
  (forall q, In q c -> (0 <= q <= d)%Q /\ exists p x, ((h_out hot < h_in hot)%Q -> p = p_out hot) /\ phase_change (fl hot) p x /\ (q == mass hot * (x - h_out hot))%Q) /\
  (forall x, phase_change (fl hot) (p_out hot) x -> (h_out hot + ERR < x)%Q -> (x + ERR < h_in hot)%Q -> has c (mass hot * (x - h_out hot))%Q).
Proof.
  intros SAT M LE D H. pose proof (h_steps_spec hot l SAT H) as Z. destruct (ordered_hot hot LE) as (p & h1 & h2 & O & E1 & E2 & PP & LE').
  rewrite O in Z. destruct (Z LE') as (mid & -> & A & B & _).
  clear Z. cbv zeta. pose proof (csum (mass hot) (mid ++ [h2]) h1 0) as F. apply forall2_removelast in F.
  rewrite removelast_last in F. set (c := removelast (cumsum 0 _)) in *. clearbody c.
  split.
  - intros q Q. destruct (forall2_in_r _ _ _ _ F Q) as (x & X & E). destruct (A x X) as (P & X1 & X2).
    pose proof (scale_le _ _ _ M X1). pose proof (scale_le _ _ _ M X2). rewrite E1 in *. rewrite E2 in *.
    split; [split; lra|]. exists p, x. split; [exact PP|]. split; [exact P|]. rewrite E. ring.
  - intros x X X1 X2. assert (LT : (h_out hot < h_in hot)%Q) by (unfold ERR in *; lra). rewrite (PP LT) in *.
    destruct (forall2_in_l _ _ _ x F) as (q & Q & E); [apply B; auto; unfold ERR in *; lra|]. exists q. split; [exact Q|]. rewrite E, E1. ring.
Qed.

Lemma sorted_ends l a b : StronglySorted Qle l -> has l a -> has l b -> (forall q, In q l -> (a <= q <= b)%Q) ->
  exists x y, hd_error l = Some x /\ (x == a)%Q /\ In y l /\ last l 0%Q = y /\ (y == b)%Q.
Proof.
  intros S (x & X & XE) (y & Y & YE) R. destruct l as [|z l]; [destruct X|]. inversion S as [|? ? S1 F]; subst. rewrite Forall_forall in F.
  exists z, (last (z :: l) 0%Q). split; [reflexivity|]. split.
  { destruct X as [->|X]; [exact XE|]. pose proof (F x X). pose proof (R z (or_introl eq_refl)). lra. }
  assert (IN : In (last (z :: l) 0%Q) (z :: l)).
  { clear. revert z. induction l as [|w l IH]; intros z; [now left|]. change (last (z :: w :: l) 0%Q) with (last (w :: l) 0%Q). right. apply IH. }
  split; [exact IN|]. split; [reflexivity|].
  assert (MAX : forall l, StronglySorted Qle l -> forall u, In u l -> (u <= last l 0%Q)%Q).
  { clear. induction 1 as [|w l S IH F]; intros u U; [destruct U|]. destruct l as [|v l].
    - destruct U as [<-|[]]. cbn. apply Qle_refl.
    - change (last (w :: v :: l) 0%Q) with (last (v :: l) 0%Q). destruct U as [<-|U]; [|now apply IH].
      rewrite Forall_forall in F. apply Qle_trans with v; [apply F; now left|apply IH; now left]. }
  pose proof (MAX _ S y Y). pose proof (R _ IN). lra.
Qed.

Lemma assign_in hot cold qs : assign_sections hot cold = Ok qs -> exists lh lc, h_steps hot = Ok lh /\ h_steps cold = Ok lc /\ StronglySorted Qle qs /\
  forall q, In q qs <-> In q (cumsum 0 (Q_sections lc (mass cold))) \/ q = 0%Q \/ In q (removelast (cumsum 0 (Q_sections lh (mass hot)))).
Proof.
  unfold assign_sections. intros H. destruct (h_steps hot) as [lh|]; [|discriminate]. destruct (h_steps cold) as [lc|]; [|discriminate].
  cbn [rbind] in H. assert (E : qs = sorted (cumsum 0 (Q_sections lc (mass cold)) ++ 0%Q :: removelast (cumsum 0 (Q_sections lh (mass hot))))) by congruence.
  subst qs. exists lh, lc. split; [reflexivity|]. split; [reflexivity|]. split; [apply sorted_sorted|]. intros q. rewrite sorted_in, in_app_iff. cbn [In].
  intuition.
Qed.

Lemma sections hot cold d qs : exchanging hot cold d -> saturation_ok (fl hot) -> saturation_ok (fl cold) -> assign_sections hot cold = Ok qs ->
  StronglySorted Qle qs /\ (exists x, hd_error qs = Some x /\ (x == 0)%Q) /\ (last qs 0 == d)%Q /\
  (forall q, In q qs -> (0 <= q <= d)%Q) /\
  (forall x, phase_change (fl hot) (p_out hot) x -> (h_out hot + ERR < x)%Q -> (x + ERR < h_in hot)%Q -> has qs (mass hot * (x - h_out hot))%Q) /\
  (forall x, phase_change (fl cold) (p_in cold) x -> (h_in cold + ERR < x)%Q -> (x + ERR < h_out cold)%Q -> has qs (mass cold * (x - h_in cold))%Q) /\
  (forall q, In q qs -> (0 < q)%Q -> (q < d)%Q -> (exists x, phase_change (fl hot) (p_out hot) x /\ (q == mass hot * (x - h_out hot))%Q) \/
     (exists x, phase_change (fl cold) (p_in cold) x /\ (q == mass cold * (x - h_in cold))%Q)).
Proof.
  intros (M1 & M2 & _ & _ & L1 & L2 & D1 & D2) S1 S2 H. destruct (assign_in _ _ _ H) as (lh & lc & H1 & H2 & SS & IN).
  destruct (cold_limits cold d lc S2 M2 L2 D2 H2) as (C1 & C2 & C3). destruct (hot_limits hot d lh S1 M1 L1 D1 H1) as (B1 & B2). cbv zeta in *.
  assert (D0 : (0 <= d)%Q) by (pose proof (scale_le _ _ _ M1 L1); lra).
  assert (R : forall q, In q qs -> (0 <= q <= d)%Q).
  { intros q Q. apply IN in Q. destruct Q as [Q|[->|Q]]; [now apply C1|split; [lra|exact D0]|now apply B1]. }
  destruct (sorted_ends qs 0 d SS) as (x & y & X1 & X2 & Y1 & Y2 & Y3); [| |exact R|].
  { exists 0%Q. split; [apply IN; auto|reflexivity]. } { destruct C2 as (q & Q & E). exists q. split; [apply IN; auto|exact E]. }
  split; [exact SS|]. split; [eauto|]. split; [rewrite Y2; exact Y3|]. split; [exact R|]. split; [|split].
  - intros z Z1 Z2 Z3. destruct (B2 z Z1 Z2 Z3) as (q & Q & E). exists q. split; [apply IN; auto|exact E].
  - intros z Z1 Z2 Z3. destruct (C3 z Z1 Z2 Z3) as (q & Q & E). exists q. split; [apply IN; auto|exact E].
  - intros q Q Q0 QD. apply IN in Q. destruct Q as [Q|[->|Q]]; [|lra|].
    + destruct (C1 q Q) as (_ & [E|X]); [lra|]. now right.
    + destruct (B1 q Q) as (_ & p & z & P1 & P2 & P3). left. exists z. split; [|exact P3].
      assert (LT : (h_out hot < h_in hot)%Q).
      { apply Qnot_le_lt. intros N. assert (E : (h_in hot == h_out hot)%Q) by lra. rewrite E in D1. ring_simplify in D1. lra. }
      now rewrite <- (P1 LT).
Qed.

(* ---- pinch ---- *)
Lemma minimum_spec l t : minimum l = Ok t -> In t l /\ forall x, In x l -> (t <= x)%Q.
Proof.
  destruct l as [|a l]; [discriminate|]. cbn [minimum]. intros H. assert (E : t = fold_left (fun a y => if qlt y a then y else a) l a) by congruence.
  subst t. clear H. revert a. induction l as [|y l IH]; intros a; cbn [fold_left].
  - split; [now left|]. intros x [<-|[]]. apply Qle_refl.
  - destruct (IH (if qlt y a then y else a)) as (A & B). destruct (qlt y a) eqn:E; [apply qlt_true in E|apply qlt_false in E].
    + split; [destruct A as [A|A]; [right; left; exact A|right; right; exact A]|].
      intros x [<-|[<-|X]]; [apply Qle_trans with y; [apply B; now left|lra]|apply B; now left|apply B; now right].
    + split; [destruct A as [A|A]; [now left|right; right; exact A]|].
      intros x [<-|[<-|X]]; [apply B; now left|apply Qle_trans with a; [apply B; now left|exact E]|apply B; now right].
Qed.

Lemma pinch_at hot cold t : td_pinch hot cold = Ok t -> exists qs, assign_sections hot cold = Ok qs /\
  (exists q, In q qs /\ t = difference hot cold q) /\ forall q, In q qs -> (t <= difference hot cold q)%Q.
Proof.
  unfold td_pinch. destruct (assign_sections hot cold) as [qs|]; [|discriminate]. cbn [rbind]. intros H. exists qs. split; [reflexivity|].
  apply minimum_spec in H. destruct H as (A & B). unfold td_at in *. split.
  - apply in_map_iff in A. destruct A as (q & E & Q). exists q. split; [exact Q|now symmetry].
  - intros q Q. apply B. apply in_map_iff. exists q. split; [reflexivity|exact Q].
Qed.

Lemma difference_eq hot cold q q' : T_proper (fl hot) -> T_proper (fl cold) -> (q == q')%Q -> difference hot cold q = difference hot cold q'.
Proof. intros P1 P2 E. unfold difference.
  rewrite (P1 (p_in hot) (h_out hot + q / mass hot) (h_out hot + q' / mass hot))%Q by (now rewrite E).
  rewrite (P2 (p_in cold) (h_in cold + q / mass cold) (h_in cold + q' / mass cold))%Q by (now rewrite E). reflexivity. Qed.

Lemma pinch_terminals hot cold d t : exchanging hot cold d -> saturation_ok (fl hot) -> saturation_ok (fl cold) -> T_proper (fl hot) -> T_proper (fl cold) ->
  td_pinch hot cold = Ok t ->
  (t <= Tph (fl hot) (p_in hot) (h_out hot) - Tph (fl cold) (p_in cold) (h_in cold))%Q /\
  (t <= Tph (fl hot) (p_in hot) (h_in hot) - Tph (fl cold) (p_in cold) (h_out cold))%Q /\
  (forall x, phase_change (fl hot) (p_out hot) x -> (h_out hot + ERR < x)%Q -> (x + ERR < h_in hot)%Q -> (t <= difference hot cold (mass hot * (x - h_out hot)))%Q) /\
  (forall x, phase_change (fl cold) (p_in cold) x -> (h_in cold + ERR < x)%Q -> (x + ERR < h_out cold)%Q -> (t <= difference hot cold (mass cold * (x - h_in cold)))%Q) /\
  exists q, (0 <= q <= d)%Q /\ t = difference hot cold q.
Proof.
  intros E S1 S2 P1 P2 H. destruct (pinch_at _ _ _ H) as (qs & A & (q0 & Q0 & T0) & B).
  destruct (sections _ _ _ _ E S1 S2 A) as (SS & (x0 & X0 & X1) & L & R & PH & PC & _).
  destruct E as (M1 & M2 & _ & _ & L1 & L2 & D1 & D2).
  assert (AT : forall q, has qs q -> (t <= difference hot cold q)%Q).
  { intros q (x & X & XE). rewrite <- (difference_eq hot cold x q P1 P2 XE). now apply B. }
  assert (H0 : has qs 0%Q). { exists x0. split; [|exact X1]. destruct qs; [discriminate|]. inversion X0; subst. now left. }
  assert (HD : has qs d). { exists (last qs 0%Q). split; [|exact L]. destruct qs as [|z l]; [discriminate|].
    clear. revert z. induction l as [|w l IH]; intros z; [now left|]. change (last (z :: w :: l) 0%Q) with (last (w :: l) 0%Q). right. apply IH. }
  split; [|split; [|split; [|split]]].
  - specialize (AT _ H0). unfold difference in AT.
    rewrite (P1 _ (h_out hot + 0 / mass hot)%Q (h_out hot)) in AT by (field; lra).
    rewrite (P2 _ (h_in cold + 0 / mass cold)%Q (h_in cold)) in AT by (field; lra). exact AT.
  - specialize (AT _ HD). unfold difference in AT.
    rewrite (P1 _ (h_out hot + d / mass hot)%Q (h_in hot)) in AT by (rewrite <- D1; field; lra).
    rewrite (P2 _ (h_in cold + d / mass cold)%Q (h_out cold)) in AT by (rewrite <- D2; field; lra). exact AT.
  - intros x X X2 X3. apply AT. auto.
  - intros x X X2 X3. apply AT. auto.
  - exists q0. split; [now apply R|exact T0].
Qed.

(** Between two neighbours *)
Lemma bracket l : forall q, StronglySorted Qle l -> (exists x, hd_error l = Some x /\ (x <= q)%Q) -> (q <= last l 0)%Q ->
  (exists a b, neighbours l a b /\ (a <= q <= b)%Q) \/ (exists a, In a l /\ (a == q)%Q).
Proof.
  induction l as [|a l IH]; intros q S (x & X & XL) L; [discriminate|]. inversion X; subst. inversion S as [|? ? S1 F]; subst.
  destruct l as [|b l].
  - right. exists x. split; [now left|]. cbn in L. lra.
  - destruct (Qlt_le_dec q b) as [Hb|Hb].
    + left. exists x, b. split; [exists [], l; reflexivity|lra].
    + destruct (IH q S1) as [(u & v & (l1 & l2 & E) & B)|(u & U & UE)]; [exists b; split; [reflexivity|exact Hb]|exact L| |].
      * left. exists u, v. split; [exists (x :: l1), l2; now rewrite E|exact B].
      * right. exists u. split; [now right|exact UE].
Qed.

Lemma pinch_global hot cold d t qs : exchanging hot cold d -> saturation_ok (fl hot) -> saturation_ok (fl cold) -> T_proper (fl hot) -> T_proper (fl cold) ->
  assign_sections hot cold = Ok qs -> td_pinch hot cold = Ok t ->
  (forall a b q, neighbours qs a b -> (a <= q <= b)%Q -> (difference hot cold a <= difference hot cold q)%Q \/ (difference hot cold b <= difference hot cold q)%Q) ->
  forall q, (0 <= q <= d)%Q -> (t <= difference hot cold q)%Q.
Proof.
  intros E S1 S2 P1 P2 A H QC q Q. destruct (pinch_at _ _ _ H) as (qs' & A' & _ & B). assert (qs' = qs) by congruence. subst qs'.
  destruct (sections _ _ _ _ E S1 S2 A) as (SS & (x0 & X0 & X1) & L & _).
  destruct (bracket qs q SS) as [(a & b & N & AB)|(a & AI & AE)].
  - exists x0. split; [exact X0|]. lra.
  - lra.
  - assert (IA : In a qs /\ In b qs). { destruct N as (l1 & l2 & ->). split; apply in_app_iff; right; [now left|right; now left]. }
    destruct IA as (IA & IB). destruct (QC a b q N AB) as [Z|Z]; eapply Qle_trans; [apply B, IA|exact Z|apply B, IB|exact Z].
  - rewrite <- (difference_eq hot cold a q P1 P2 AE). now apply B.
Qed.
