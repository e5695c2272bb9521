(** Matrices with a column of zeros have no right inverse. *)
From Coq Require Import Lia Lqa.
From Verif Require Import StepModel StepSpec StepProofs.
Open Scope Q_scope.

Lemma sn_ext n f g : (forall k, (k < n)%nat -> f k == g k) -> sumn n f == sumn n g.
Proof. induction n as [|n IH]; cbn; intros H; [lra|]. rewrite IH by (intros; apply H; lia). rewrite (H n) by lia. lra. Qed.
Lemma sn_zero n f : (forall k, (k < n)%nat -> f k == 0) -> sumn n f == 0.
Proof. induction n as [|n IH]; cbn; intros H; [lra|]. rewrite IH by (intros; apply H; lia). rewrite (H n) by lia. lra. Qed.
Lemma sn_plus n f g : sumn n (fun k => f k + g k) == sumn n f + sumn n g.
Proof. induction n as [|n IH]; cbn; [lra|]. rewrite IH. lra. Qed.
Lemma sn_scale n c f : sumn n (fun k => c * f k) == c * sumn n f.
Proof. induction n as [|n IH]; cbn; [lra|]. rewrite IH. lra. Qed.
Lemma sn_swap n m f : sumn n (fun i => sumn m (fun k => f i k)) == sumn m (fun k => sumn n (fun i => f i k)).
Proof.
  induction n as [|n IH]; cbn.
  - symmetry. now apply sn_zero.
  - rewrite IH. rewrite <- sn_plus. reflexivity.
Qed.
Definition sk (c j : nat) : nat := if Nat.ltb j c then j else S j.
Lemma sn_skip n c f : (c <= n)%nat -> sumn (S n) f == f c + sumn n (fun j => f (sk c j)).
Proof.
  induction n as [|n IH]; intros H.
  - assert (c = 0)%nat by lia. subst. cbn. lra.
  - destruct (Nat.eq_dec c (S n)) as [->|N].
    + change (sumn (S (S n)) f) with (sumn (S n) f + f (S n)).
      rewrite (sn_ext (S n) (fun j => f (sk (S n) j)) f); [lra|]. intros k K. unfold sk. replace (Nat.ltb k (S n)) with true; [reflexivity|]. symmetry. apply Nat.ltb_lt. lia.
    + change (sumn (S (S n)) f) with (sumn (S n) f + f (S n)). rewrite IH by lia. cbn [sumn].
      unfold sk at 3. replace (Nat.ltb n c) with false by (symmetry; apply Nat.ltb_ge; lia). lra.
Qed.
Lemma pivot_dec n (f : nat -> Q) : (forall j, (j < n)%nat -> f j == 0) \/ exists j, (j < n)%nat /\ ~ f j == 0.
Proof.
  induction n as [|n [IH|(j & J & F)]].
  - left. intros; lia.
  - destruct (Qeq_dec (f n) 0) as [E|E].
    + left. intros j J. destruct (Nat.eq_dec j n) as [->|]; [exact E|]. apply IH. lia.
    + right. exists n. split; [lia|exact E].
  - right. exists j. split; [lia|exact F].
Qed.
Lemma null_vector m : forall n (A : nat -> nat -> Q), (m < n)%nat ->
  exists x, (exists j, (j < n)%nat /\ ~ x j == 0) /\ forall i, (i < m)%nat -> sumn n (fun j => A i j * x j) == 0.
Proof.
  induction m as [|m IH]; intros n A H.
  - exists (fun _ => 1). split; [exists 0%nat; split; [lia|lra]|intros; lia].
  - destruct (pivot_dec n (A m)) as [Z|(c & C & P)].
    + destruct (IH n A ltac:(lia)) as (x & X & E). exists x. split; [exact X|]. intros i I.
      destruct (Nat.eq_dec i m) as [->|N]; [|apply E; lia]. apply sn_zero. intros k K. rewrite (Z k K). lra.
    + destruct n as [|n]; [lia|].
      destruct (IH n (fun i j => A i (sk c j) - A i c * A m (sk c j) / A m c)) as (y & (j0 & J0 & Y0) & E); [lia|].
      set (t := sumn n (fun j => A m (sk c j) * y j)).
      set (x := fun j => if Nat.eqb j c then - t / A m c else y (if Nat.ltb j c then j else (j - 1)%nat)).
      assert (Xc : x c == - t / A m c) by (unfold x; rewrite Nat.eqb_refl; reflexivity).
      assert (Xs : forall j, x (sk c j) = y j).
      { intros j. unfold x, sk. destruct (Nat.ltb j c) eqn:L.
        - pose proof L as L'. apply Nat.ltb_lt in L. replace (Nat.eqb j c) with false by (symmetry; apply Nat.eqb_neq; lia). now rewrite L'.
        - apply Nat.ltb_ge in L. replace (Nat.eqb (S j) c) with false by (symmetry; apply Nat.eqb_neq; lia).
          replace (Nat.ltb (S j) c) with false by (symmetry; apply Nat.ltb_ge; lia). f_equal. lia. }
      exists x. split.
      * exists (sk c j0). split; [unfold sk; destruct (Nat.ltb j0 c); lia|]. now rewrite Xs.
      * intros i I. rewrite (sn_skip n c) by lia. rewrite Xc.
        rewrite (sn_ext n _ (fun j => A i (sk c j) * y j)) by (intros k _; rewrite Xs; reflexivity).
        destruct (Nat.eq_dec i m) as [->|N].
        -- fold t. field. exact P.
        -- specialize (E i ltac:(lia)).
           rewrite (sn_ext n _ (fun j => A i (sk c j) * y j + (- A i c / A m c) * (A m (sk c j) * y j))) in E by (intros k _; field; exact P).
           rewrite sn_plus, sn_scale in E. fold t in E. rewrite <- E. field. exact P.
Qed.
Lemma zero_column_singular n (J K : nat -> nat -> Q) j0 : (j0 < n)%nat -> (forall i, (i < n)%nat -> J i j0 == 0) -> ~ right_inverse n J K.
Proof.
  intros H Z R. destruct n as [|n]; [lia|].
  destruct (null_vector n (S n) (fun j i => J i (sk j0 j)) ltac:(lia)) as (x & (l & L & X) & E). apply X.
  assert (V : forall k, (k < S n)%nat -> sumn (S n) (fun i => x i * J i k) == 0).
  { intros k Kn. destruct (Nat.eq_dec k j0) as [->|N]; [apply sn_zero; intros i I; rewrite (Z i I); lra|].
    destruct (lt_dec k j0) as [T|T].
    - specialize (E k ltac:(lia)). rewrite <- E. apply sn_ext. intros i _. unfold sk. replace (Nat.ltb k j0) with true by (symmetry; apply Nat.ltb_lt; lia). lra.
    - specialize (E (k - 1)%nat ltac:(lia)). rewrite <- E. apply sn_ext. intros i _. unfold sk. replace (Nat.ltb (k - 1) j0) with false by (symmetry; apply Nat.ltb_ge; lia).
      replace (S (k - 1)) with k by lia. lra. }
  assert (Y : x l == sumn (S n) (fun i => x i * (if Nat.eqb i l then 1 else 0))).
  { rewrite (sn_skip n l) by lia. rewrite Nat.eqb_refl. rewrite sn_zero; [lra|]. intros k _. unfold sk.
    destruct (Nat.ltb k l) eqn:T; [apply Nat.ltb_lt in T; replace (Nat.eqb k l) with false by (symmetry; apply Nat.eqb_neq; lia); lra|].
    apply Nat.ltb_ge in T. replace (Nat.eqb (S k) l) with false by (symmetry; apply Nat.eqb_neq; lia). lra. }
  rewrite Y. rewrite (sn_ext _ _ (fun i => sumn (S n) (fun k => x i * J i k * K k l))).
  - rewrite sn_swap. apply sn_zero. intros k Kn.
    rewrite (sn_ext _ _ (fun i => K k l * (x i * J i k))) by (intros; lra). rewrite sn_scale, V by exact Kn. lra.
  - intros i I. rewrite <- (R i l I L), <- sn_scale. apply sn_ext. intros; lra.
Qed.
Lemma unwritten_column : forall inv L n vars a s j, inverts inv -> (j < n)%nat -> (forall i, (i < n)%nat -> ar_jac a i j == 0) ->
  snd (matrix_inversion inv n a) = true /\ newton_step inv L n vars a s = (s, None).
Proof.
  intros inv L n vars a s j I J Z.
  assert (N : inv n (ar_jac a) = None).
  { destruct (inv n (ar_jac a)) as [K|] eqn:E; [|reflexivity]. exfalso. exact (zero_column_singular n _ K j J Z (I _ _ _ E)). }
  destruct (singular_frozen inv L n vars a s N) as (A & _ & B). auto.
Qed.
