(** Lemmas: the same network entered in two sets of units. *)
From Coq Require Import QArith Qabs Lqa.
From Verif Require Import Base UnitsModel UnitsSpec UnitsProofs StateModel StateSpec StateProofs StateUnitsSpec.
Open Scope string_scope.
Open Scope list_scope.

(* ---- outcomes ---- *)

Lemma agree_bind {A B} (R : A -> A -> Prop) (S : B -> B -> Prop) r1 r2 f1 f2 :
  agree R r1 r2 -> (forall x y, R x y -> agree S (f1 x) (f2 y)) -> agree S (rbind r1 f1) (rbind r2 f2).
Proof. destruct r1, r2; cbn; auto; contradiction. Qed.

Lemma agree_map {A B} (R : A -> A -> Prop) (S : B -> B -> Prop) r1 r2 f1 f2 :
  agree R r1 r2 -> (forall x y, R x y -> S (f1 x) (f2 y)) -> agree S (rmap f1 r1) (rmap f2 r2).
Proof. destruct r1, r2; cbn; auto; contradiction. Qed.

Lemma agree_weak {A} (R S : A -> A -> Prop) r1 r2 : agree R r1 r2 -> (forall x y, R x y -> S x y) -> agree S r1 r2.
Proof. destruct r1, r2; cbn; auto. Qed.

Lemma each_agree {A} (R : A -> A -> Prop) f1 f2 ks : (forall k x y, In k ks -> R x y -> agree R (f1 k x) (f2 k y)) ->
  forall x y, R x y -> agree R (each f1 ks x) (each f2 ks y).
Proof.
  induction ks as [|k ks IH]; intros H x y X; [exact X|].
  unfold each; cbn [fold_left rbind].
  pose proof (H k x y (or_introl eq_refl) X) as F.
  destruct (f1 k x) as [a|e], (f2 k y) as [b|e']; cbn in F; try contradiction.
  - apply IH; [intros; apply H; [right|]; auto|exact F].
  - rewrite !each_err. exact F.
Qed.

Lemma fold_agree {A E} (R : A -> A -> Prop) (f1 f2 : A -> E -> A) ks : (forall k x y, In k ks -> R x y -> R (f1 x k) (f2 y k)) ->
  forall x y, R x y -> R (fold_left f1 ks x) (fold_left f2 ks y).
Proof.
  induction ks as [|k ks IH]; intros H x y X; [exact X|]. cbn. apply IH; [intros; apply H; [right|]; auto|]. apply H; [left|]; auto.
Qed.

(* ---- pairs of networks ---- *)

Lemma keys_some {V} (d1 d2 : dict V) l v : keys d1 = keys d2 -> dget l d1 = Some v -> exists w, dget l d2 = Some w.
Proof.
  revert d2; induction d1 as [|[k x] d1 IH]; intros [|[k2 x2] d2]; cbn; try discriminate.
  intros K. inversion K; subst. destruct (String.eqb l k2); [eauto|]. apply IH; auto.
Qed.

Lemma keys_none {V} (d1 d2 : dict V) l : keys d1 = keys d2 -> dget l d1 = None -> dget l d2 = None.
Proof. intros K H. destruct (dget l d2) eqn:E; [|auto]. destruct (keys_some d2 d1 l v) as [w W]; auto. congruence. Qed.

(** Connections still to be visited and connections visited. *)
Definition between (W R R' : conn -> conn -> Prop) (ks : list string) (n1 n2 : dict conn) : Prop :=
  keys n1 = keys n2 /\ forall l c1 c2, dget l n1 = Some c1 -> dget l n2 = Some c2 ->
    W c1 c2 /\ (In l ks -> R c1 c2) /\ (~ In l ks -> R' c1 c2).

Lemma over_agree (W R R' : conn -> conn -> Prop) f1 f2 n1 n2 :
  (forall c1 c2, R c1 c2 -> W c1 c2) -> (forall c1 c2, R' c1 c2 -> W c1 c2) ->
  (forall m1 m2 l c1 c2, paired W m1 m2 -> R c1 c2 -> agree R' (f1 m1 l c1) (f2 m2 l c2)) ->
  NoDup (keys n1) -> paired R n1 n2 -> agree (paired R') (over f1 n1) (over f2 n2).
Proof.
  intros RW RW' F ND [K P]. rewrite !over_each, <- K.
  assert (G : forall ks m1 m2, NoDup ks -> between W R R' ks m1 m2 -> agree (between W R R' []) (each (visit f1) ks m1) (each (visit f2) ks m2)).
  { induction ks as [|k ks IH]; intros m1 m2 N B; [exact B|].
    unfold each; cbn [fold_left rbind]. inversion N as [|? ? NI N']; subst. destruct B as [BK BP].
    unfold visit at 2 4. destruct (dget k m1) as [c1|] eqn:D1.
    - destruct (keys_some _ _ _ _ BK D1) as [c2 D2]. rewrite D2.
      destruct (BP _ _ _ D1 D2) as (Wc & Rc & _).
      assert (PW : paired W m1 m2) by (split; [exact BK|intros l a b X Y; exact (proj1 (BP _ _ _ X Y))]).
      pose proof (F m1 m2 k c1 c2 PW (Rc (or_introl eq_refl))) as Z.
      destruct (f1 m1 k c1) as [a|e], (f2 m2 k c2) as [b|e']; cbn in Z |- *; try contradiction.
      + apply IH; [exact N'|]. split.
        * rewrite !keys_dset_present by congruence. exact BK.
        * intros l x y X Y. destruct (string_dec l k) as [->|NE].
          -- rewrite dget_dset_eq in X, Y. inversion X; inversion Y; subst. split; [auto|split; [contradiction|auto]].
          -- rewrite dget_dset_neq in X, Y by auto. destruct (BP _ _ _ X Y) as (W1 & R1 & R2).
             split; [exact W1|split]; intros I; [apply R1; right; exact I|apply R2; intros [J|J]; auto].
      + rewrite !each_err. exact Z.
    - rewrite (keys_none _ _ _ BK D1). apply IH; [exact N'|]. split; [exact BK|].
      intros l x y X Y. destruct (BP _ _ _ X Y) as (W1 & R1 & R2). split; [exact W1|split]; intros I; [apply R1; right; exact I|].
      apply R2. intros [J|J]; [congruence|auto]. }
  eapply agree_weak; [apply (G (keys n1) n1 n2 ND)|].
  - split; [exact K|]. intros l c1 c2 D1 D2. pose proof (P _ _ _ D1 D2). split; [auto|split; [auto|]].
    intros N. destruct N. apply dget_In in D1. apply (in_map fst) in D1. exact D1.
  - intros x y [A B]. split; [exact A|]. intros l a b X Y. apply (proj2 (proj2 (B _ _ _ X Y))). intros [].
Qed.

(* ---- numbers ---- *)

Lemma same_refl x : same x x.
Proof. destruct x; cbn; [reflexivity|auto]. Qed.
Lemma nlift_same f a b a' b' : (forall x y x' y', x == x' -> y == y' -> f x y == f x' y') -> same a a' -> same b b' -> same (nlift f a b) (nlift f a' b').
Proof. destruct a, b, a', b'; cbn; auto; contradiction. Qed.
Lemma plus_same a b a' b' : same a a' -> same b b' -> same (nlift Qplus a b) (nlift Qplus a' b').
Proof. apply nlift_same. intros x y x' y' -> ->. reflexivity. Qed.
Lemma mult_same a b a' b' : same a a' -> same b b' -> same (nlift Qmult a b) (nlift Qmult a' b').
Proof. apply nlift_same. intros x y x' y' -> ->. reflexivity. Qed.
Lemma nlt_same a b a' b' : same a a' -> same b b' -> nlt a b = nlt a' b'.
Proof. destruct a, b, a', b'; cbn; auto; try contradiction. intros -> ->. reflexivity. Qed.
Lemma call1_agree f a a' : respects1 f -> same a a' -> agree Qeq (call1 f a) (call1 f a').
Proof. destruct a, a'; cbn; auto; contradiction. Qed.
Lemma call2_agree {A} (R : A -> A -> Prop) f a b a' b' : respects2 R f -> same a a' -> same b b' -> agree R (call2 f a b) (call2 f a' b').
Proof. destruct a, a', b, b'; cbn; auto; contradiction. Qed.

Lemma to_SI_known k v u : unit_known k u = Some true -> exists s, convert_to_SI k v u = Ok s.
Proof. intros H. apply (to_SI_ok_iff k v u) in H. destruct (convert_to_SI k v u); [eauto|discriminate]. Qed.
Lemma from_SI_known k v u : unit_known k u = Some true -> exists s, convert_from_SI k v u = Ok s.
Proof. intros H. apply (from_SI_ok_iff k v u) in H. destruct (convert_from_SI k v u); [eauto|discriminate]. Qed.

Lemma to_SI_agree k w1 w2 v1 v2 : unit_known k w1 = Some true -> unit_known k w2 = Some true -> means_same k w1 w2 v1 v2 ->
  agree same (to_SI k v1 w1) (to_SI k v2 w2).
Proof.
  intros U1 U2 M. unfold to_SI. destruct v1 as [x|], v2 as [y|]; cbn in M; try contradiction.
  - destruct M as (s & t & -> & -> & E). exact E.
  - destruct (to_SI_known k 0 w1 U1) as [s ->], (to_SI_known k 0 w2 U2) as [t ->]. exact I.
Qed.

Lemma from_SI_agree k w1 w2 v1 v2 : unit_known k w1 = Some true -> unit_known k w2 = Some true -> same v1 v2 ->
  agree (means_same k w1 w2) (from_SI k v1 w1) (from_SI k v2 w2).
Proof.
  intros U1 U2 M. unfold from_SI. destruct v1 as [x|], v2 as [y|]; cbn in M; try contradiction.
  - destruct (from_SI_known k x w1 U1) as [s S], (from_SI_known k y w2 U2) as [t T]. rewrite S, T. cbn.
    destruct (roundtrip_out_in _ _ _ _ S) as (r & Er & Hr), (roundtrip_out_in _ _ _ _ T) as (q & Eq & Hq).
    exists r, q. repeat split; auto. now rewrite Hr, Hq.
  - destruct (from_SI_known k 0 w1 U1) as [s ->], (from_SI_known k 0 w2 U2) as [t ->]. exact I.
Qed.

(** Where a number means the same in two units, it is also reported as the same number. *)
Lemma same_scale k w1 w2 : (forall v, means_same k w1 w2 (Some v) (Some v)) -> forall s t q r, s == t ->
  convert_from_SI k s w1 = Ok q -> convert_from_SI k t w2 = Ok r -> q == r.
Proof.
  intros M s t q r E A B.
  destruct (roundtrip_out_in _ _ _ _ A) as (a & Ea & Ha), (roundtrip_out_in _ _ _ _ B) as (b & Eb & Hb).
  destruct (M q) as (x & y & X & Y & XY).
  assert (x = a) by congruence. subst x.
  destruct (Q_dec q r) as [[L|L]|L]; [| |exact L].
  - apply (proj1 (to_SI_monotone _ _ _ _ _ _ Y Eb)) in L. lra.
  - apply (proj1 (to_SI_monotone _ _ _ _ _ _ Eb Y)) in L. lra.
Qed.
