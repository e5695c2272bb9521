From Coq Require Import Reals List String Bool Arith Permutation Lra Lia.
From Verif Require Import Base EqnModel JacModel PlantModel EqnSpec EqnProofs EqnProofs3 PlantSpec
  PlantProofs.
Import ListNotations.
Open Scope R_scope.

Lemma sq_fold (g : string -> R) l : forall s,
  fold_left (fun s f => s + g f * g f) l s = s + rsum (map (fun f => g f * g f) l).
Proof. induction l as [|f l IH]; intros s; simpl; [lra|]. rewrite IH. lra. Qed.

Lemma sq_nonneg (g : string -> R) l : 0 <= rsum (map (fun f => g f * g f) l).
Proof. induction l as [|f l IH]; simpl; [lra|]. pose proof (Rle_0_sqr (g f)). unfold Rsqr in *. lra. Qed.

Lemma sq_zero (g : string -> R) l :
  rsum (map (fun f => g f * g f) l) = 0 <-> forall f, In f l -> g f = 0.
Proof.
  induction l as [|f l IH]; simpl; [split; [intros _ ? []|reflexivity]|].
  pose proof (Rle_0_sqr (g f)) as Q. unfold Rsqr in Q. pose proof (sq_nonneg g l) as N. split.
  - intros H x [<-|I]; [|apply IH; [lra|assumption]].
    assert (Z : g f * g f = 0) by lra. apply Rmult_integral in Z. lra.
  - intros H. rewrite (H f) by auto. rewrite (proj2 IH) by auto. lra.
Qed.

Lemma fluid_deviation_zero : forall i o e d,
  fluid_deviation i o e = Ok d ->
  0 <= d /\ (d = 0 <-> forall f, In f (ckeys i) -> vx e i f = vx e o f).
Proof.
  intros i o e d H. unfold fluid_deviation in H.
  destruct (forallb _ (ckeys i)); [|discriminate]. injection H as <-.
  rewrite (sq_fold (fun f => vx e i f - vx e o f)), Rplus_0_l.
  set (s := rsum _). assert (N : 0 <= s) by apply sq_nonneg.
  split; [apply sqrt_pos|]. split.
  - intros Z. apply sqrt_eq_0 in Z; [|assumption].
    intros f I. apply (sq_zero (fun f => vx e i f - vx e o f)) with (f := f) in Z; [lra|assumption].
  - intros A. replace s with 0; [apply sqrt_0|]. symmetry. unfold s.
    apply (sq_zero (fun f => vx e i f - vx e o f)). intros f I. specialize (A f I). lra.
Qed.

Lemma fluid_deviation_total : forall i o e,
  (forall f, In f (ckeys i) -> In f (ckeys o)) <-> exists d, fluid_deviation i o e = Ok d.
Proof.
  intros i o e. unfold fluid_deviation. destruct (forallb _ (ckeys i)) eqn:E.
  - split; [eauto|]. intros _ f I. rewrite forallb_forall in E. specialize (E f I).
    apply existsb_exists in E. destruct E as (g & G & Q). apply String.eqb_eq in Q. now subst.
  - split; [|intros [d D]; discriminate]. intros H. exfalso.
    assert (C : forallb (fun f => existsb (String.eqb f) (ckeys o)) (ckeys i) = true).
    { apply forallb_forall. intros f I. apply existsb_exists. exists f. split; [auto|].
      apply String.eqb_refl. }
    congruence.
Qed.

Lemma fluid_deviation_unknown : forall i o e f, In f (ckeys i) -> ~ In f (ckeys o) -> fluid_deviation i o e = Err KeyError.
Proof.
  intros i o e f A B. destruct (fluid_deviation i o e) as [d|x] eqn:E.
  - elim B. apply (proj2 (fluid_deviation_total i o e)); eauto.
  - unfold fluid_deviation in E. destruct (forallb _ _); inversion E; reflexivity.
Qed.

Lemma rsum_incl_le (g : string -> R) a b : NoDup a -> incl a b ->
  (forall f, In f b -> 0 <= g f) -> rsum (map g a) <= rsum (map g b).
Proof.
  revert b. induction a as [|f a IH]; intros b N I P.
  - simpl. clear I N. induction b as [|x b IHb]; simpl; [lra|].
    pose proof (P x (or_introl eq_refl)). assert (0 <= rsum (map g b)); [|lra].
    apply IHb. intros; apply P; now right.
  - inversion N; subst. assert (If : In f b) by (apply I; now left).
    apply in_split in If. destruct If as (u & v & ->).
    assert (L : rsum (map g a) <= rsum (map g (u ++ v))).
    { apply IH; [assumption| |].
      - intros x Ix. assert (Q : In x (u ++ f :: v)) by (apply I; now right).
        apply in_app_iff in Q. apply in_app_iff. destruct Q as [Q|[Q|Q]]; auto.
        subst. contradiction.
      - intros x Ix. apply P. apply in_app_iff in Ix. apply in_app_iff. simpl. tauto. }
    simpl. rewrite map_app in *. simpl. rewrite rsum_app in *. simpl. lra.
Qed.

(** With fractions that are not negative and add up to one the report covers the fluids the inlet
    does not know as well. *)
Lemma fluid_deviation_covers : forall i o e,
  NoDup (ckeys i) -> normalised e (ckeys i) i -> normalised e (ckeys o) o ->
  (forall f, In f (ckeys o) -> 0 <= vx e o f) ->
  fluid_deviation i o e = Ok 0 ->
  forall f, In f (ckeys o) -> ~ In f (ckeys i) -> vx e o f = 0.
Proof.
  intros i o e N Ni No P H f I J.
  assert (K : forall g, In g (ckeys i) -> In g (ckeys o))
    by (apply (fluid_deviation_total i o e); eauto).
  destruct (fluid_deviation_zero i o e 0 H) as [_ [A _]]. specialize (A eq_refl).
  unfold normalised in *.
  assert (S : rsum (map (vx e o) (ckeys i)) = 1).
  { rewrite <- Ni. apply rsum_ext. intros g G. symmetry. now apply A. }
  assert (L : rsum (map (vx e o) (f :: ckeys i)) <= rsum (map (vx e o) (ckeys o))).
  { apply rsum_incl_le; [now constructor| |assumption].
    intros g [<-|G]; auto. }
  simpl in L. specialize (P f I). lra.
Qed.

(* --------------------------------------------------------------- fuel cell *)

(** Heat given to the cooling water plus the electricity given off, P counted as TESPy counts it
    (negative for a fuel cell), against the reaction energy. *)
Lemma fuel_cell_excess : forall hw ho hh e0 i0 i1 i2 o0 o1 P e,
  fuel_cell_energy_func hw ho hh e0 i0 i1 i2 o0 o1 P e = 0 ->
  vh e i1 = ho -> vh e i2 = hh -> vh e o1 = hw ->
  duty i0 o0 e + (- pval e P) = vm e i2 * (- e0) + 2 * (- pval e P).
Proof.
  intros hw ho hh e0 i0 i1 i2 o0 o1 P e H A B C. unfold fuel_cell_energy_func in H. unfold duty.
  rewrite A, B, C in H. lra.
Qed.

Lemma fuel_cell_positive : forall hw ho hh e0 i0 i1 i2 o0 o1 P e,
  fuel_cell_energy_func hw ho hh e0 i0 i1 i2 o0 o1 P e = 0 ->
  vh e i1 = ho -> vh e i2 = hh -> vh e o1 = hw ->
  duty i0 o0 e + pval e P = vm e i2 * (- e0).
Proof.
  intros hw ho hh e0 i0 i1 i2 o0 o1 P e H A B C. unfold fuel_cell_energy_func in H. unfold duty.
  rewrite A, B, C in H. lra.
Qed.
