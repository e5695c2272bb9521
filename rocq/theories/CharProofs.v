(** Lemmas about characteristic lines and maps. *)
From Coq Require Import Lqa Sorting.Sorted Qabs.
From Verif Require Import CharModel CharSpec.
Open Scope Q_scope.

Lemma Qle_bool_false a b : Qle_bool a b = false <-> b < a.
Proof.
  split; intros H.
  - destruct (Qlt_le_dec b a) as [L|L]; [auto|].
    apply Qle_bool_iff in L; congruence.
  - destruct (Qle_bool a b) eqn:E; [|auto].
    apply Qle_bool_iff in E. lra.
Qed.

(** ** Subscripts *)

Lemma pyidx_nat {A} (l : list A) i a :
  nth_error l i = Some a -> pyidx l (Z.of_nat i) = Ok a.
Proof.
  intros H. unfold pyidx.
  assert (Hi : (i < length l)%nat) by (apply nth_error_Some; congruence).
  replace (Z.of_nat i <? - Z.of_nat (length l))%Z with false by (symmetry; apply Z.ltb_ge; lia).
  replace (Z.of_nat (length l) <=? Z.of_nat i)%Z with false by (symmetry; apply Z.leb_gt; lia).
  replace (Z.of_nat i <? 0)%Z with false by (symmetry; apply Z.ltb_ge; lia).
  cbn [orb]. rewrite Nat2Z.id, H. reflexivity.
Qed.

Lemma pyidx_neg {A} (l : list A) k a :
  (1 <= k)%nat -> (k <= length l)%nat ->
  nth_error l (length l - k) = Some a -> pyidx l (- Z.of_nat k) = Ok a.
Proof.
  intros Hk Hl H. unfold pyidx.
  replace (- Z.of_nat k <? - Z.of_nat (length l))%Z with false by (symmetry; apply Z.ltb_ge; lia).
  replace (Z.of_nat (length l) <=? - Z.of_nat k)%Z with false by (symmetry; apply Z.leb_gt; lia).
  replace (- Z.of_nat k <? 0)%Z with true by (symmetry; apply Z.ltb_lt; lia).
  cbn [orb].
  replace (Z.to_nat (Z.of_nat (length l) + - Z.of_nat k)) with (length l - k)%nat by lia.
  now rewrite H.
Qed.

Lemma pyidx_cases {A} (l : list A) z :
  (exists a, pyidx l z = Ok a /\ In a l) \/ pyidx l z = Err IndexError.
Proof.
  unfold pyidx. destruct (_ || _); [auto|].
  destruct (nth_error l _) as [a|] eqn:E; [left|auto].
  exists a; split; [auto|]. eapply nth_error_In; eauto.
Qed.

(** ** Bracketing *)

Lemma searchsorted_le_length xs x : (searchsorted xs x <= length xs)%nat.
Proof. induction xs as [|a xs IH]; cbn; [lia|]. destruct (Qle_bool x a); cbn; lia. Qed.

Lemma searchsorted_below xs x i a :
  nth_error xs i = Some a -> (i < searchsorted xs x)%nat -> a < x.
Proof.
  revert i; induction xs as [|b xs IH]; intros i H Hi; [destruct i; discriminate|].
  cbn in Hi. destruct (Qle_bool x b) eqn:E; [lia|].
  destruct i as [|i]; cbn in H.
  - inversion H; subst. now apply Qle_bool_false.
  - apply (IH i); [auto|lia].
Qed.

Lemma searchsorted_at xs x a :
  nth_error xs (searchsorted xs x) = Some a -> x <= a.
Proof.
  induction xs as [|b xs IH]; cbn; [discriminate|].
  destruct (Qle_bool x b) eqn:E; cbn.
  - intros H; inversion H; subst. now apply Qle_bool_iff.
  - auto.
Qed.

(** ** Lines as lists of points *)

Lemma interp_pts P x i p q :
  nth_error P i = Some p -> nth_error P (S i) = Some q -> fst p < fst q ->
  exists v, interp (map fst P) (map snd P) x (Z.of_nat (S i)) = Ok v /\ v == line_through p q x.
Proof.
  intros Hp Hq Hlt. unfold interp.
  replace (Z.of_nat (S i) - 1)%Z with (Z.of_nat i) by lia.
  rewrite (pyidx_nat (map fst P) i (fst p)) by (now apply map_nth_error).
  rewrite (pyidx_nat (map fst P) (S i) (fst q)) by (now apply map_nth_error).
  cbn [rbind].
  destruct (Qeq_bool (fst q - fst p) 0) eqn:E.
  { apply Qeq_bool_eq in E. lra. }
  rewrite (pyidx_nat (map snd P) i (snd p)) by (now apply map_nth_error).
  rewrite (pyidx_nat (map snd P) (S i) (snd q)) by (now apply map_nth_error).
  cbn [rbind]. eexists; split; [reflexivity|].
  unfold line_through. field. lra.
Qed.

Lemma interp_neg_pts P x p q :
  (2 <= length P)%nat ->
  nth_error P (length P - 2) = Some p -> nth_error P (length P - 1) = Some q -> fst p < fst q ->
  exists v, interp (map fst P) (map snd P) x (-1) = Ok v /\ v == line_through p q x.
Proof.
  intros HL Hp Hq Hlt. unfold interp.
  change (-1 - 1)%Z with (- Z.of_nat 2)%Z. change (-1)%Z with (- Z.of_nat 1)%Z.
  rewrite (pyidx_neg (map fst P) 2 (fst p)) by (rewrite ?map_length; try lia; now apply map_nth_error).
  rewrite (pyidx_neg (map fst P) 1 (fst q)) by (rewrite ?map_length; try lia; now apply map_nth_error).
  cbn [rbind].
  destruct (Qeq_bool (fst q - fst p) 0) eqn:E.
  { apply Qeq_bool_eq in E. lra. }
  rewrite (pyidx_neg (map snd P) 2 (snd p)) by (rewrite ?map_length; try lia; now apply map_nth_error).
  rewrite (pyidx_neg (map snd P) 1 (snd q)) by (rewrite ?map_length; try lia; now apply map_nth_error).
  cbn [rbind]. eexists; split; [reflexivity|].
  unfold line_through. field. lra.
Qed.

Lemma increasing_nth xs i j a b :
  increasing xs -> nth_error xs i = Some a -> nth_error xs j = Some b -> (i < j)%nat -> a < b.
Proof.
  intros HS; revert i j; induction HS as [|c xs HS IH HF]; intros i j Hi Hj Hij.
  - destruct i; discriminate.
  - destruct j as [|j]; [lia|]. cbn in Hj. destruct i as [|i]; cbn in Hi.
    + inversion Hi; subst. rewrite Forall_forall in HF. apply HF. eapply nth_error_In; eauto.
    + apply (IH i j); auto. lia.
Qed.

Lemma increasing_nth_le xs i j a b :
  increasing xs -> nth_error xs i = Some a -> nth_error xs j = Some b -> (i <= j)%nat -> a <= b.
Proof.
  intros HS Hi Hj Hij. destruct (Nat.eq_dec i j) as [->|Hn].
  - rewrite Hi in Hj; inversion Hj; lra.
  - assert (a < b) by (eapply (increasing_nth xs i j); eauto; lia). lra.
Qed.

Lemma nth_error_neighbours {A} (l : list A) i a b :
  nth_error l i = Some a -> nth_error l (S i) = Some b -> neighbours a b l.
Proof.
  intros Ha Hb. apply nth_error_split in Ha. destruct Ha as (l1 & l2 & E & Hl).
  subst l i. rewrite nth_error_app2 in Hb by lia.
  replace (S (length l1) - length l1)%nat with 1%nat in Hb by lia. cbn in Hb.
  destruct l2 as [|c l2]; [discriminate|]. cbn in Hb. inversion Hb; subst.
  exists l1, l2; auto.
Qed.

Lemma neighbours_nth_error {A} (l : list A) a b :
  neighbours a b l -> exists i, nth_error l i = Some a /\ nth_error l (S i) = Some b.
Proof.
  intros (l1 & l2 & ->). exists (length l1). split.
  - rewrite nth_error_app2 by lia. now rewrite Nat.sub_diag.
  - rewrite nth_error_app2 by lia. replace (S (length l1) - length l1)%nat with 1%nat by lia. auto.
Qed.

(** Evaluation without extrapolation: the three cases. *)
Lemma eval_cases P x :
  P <> [] -> increasing (map fst P) ->
  (exists p, nth_error P 0 = Some p /\ x <= fst p /\
             cl_evaluate (pts_line P false) x = Ok (snd p)) \/
  (exists p, nth_error P (length P - 1) = Some p /\ fst p < x /\
             cl_evaluate (pts_line P false) x = Ok (snd p)) \/
  (exists i p q v, nth_error P i = Some p /\ nth_error P (S i) = Some q /\
             fst p < x /\ x <= fst q /\
             cl_evaluate (pts_line P false) x = Ok v /\ v == line_through p q x).
Proof.
  intros HP HS. unfold cl_evaluate; cbn [pts_line cl_x cl_y cl_extrapolate].
  remember (searchsorted (map fst P) x) as k eqn:Ek.
  pose proof (searchsorted_le_length (map fst P) x) as HL. rewrite <- Ek, map_length in HL.
  assert (HPl : (0 < length P)%nat) by (destruct P; [congruence|cbn; lia]).
  rewrite map_length.
  destruct (Nat.eqb k (length P)) eqn:E1.
  - apply Nat.eqb_eq in E1. right; left.
    destruct (nth_error P (length P - 1)) as [p|] eqn:Ep.
    2:{ apply nth_error_None in Ep. lia. }
    exists p; split; [auto|]. split.
    + apply (searchsorted_below (map fst P) x (length P - 1)); [now apply map_nth_error|lia].
    + change (-1)%Z with (- Z.of_nat 1)%Z.
      apply pyidx_neg; rewrite ?map_length; try lia. now apply map_nth_error.
  - apply Nat.eqb_neq in E1. destruct (Nat.eqb k 0) eqn:E0.
    + apply Nat.eqb_eq in E0. left.
      destruct (nth_error P 0) as [p|] eqn:Ep.
      2:{ apply nth_error_None in Ep. lia. }
      exists p; split; [auto|]. split.
      * apply (searchsorted_at (map fst P) x). rewrite <- Ek, E0. now apply map_nth_error.
      * change 0%Z with (Z.of_nat 0). apply pyidx_nat. now apply map_nth_error.
    + apply Nat.eqb_neq in E0. right; right.
      destruct k as [|i]; [lia|].
      destruct (nth_error P i) as [p|] eqn:Ep; [|apply nth_error_None in Ep; lia].
      destruct (nth_error P (S i)) as [q|] eqn:Eq; [|apply nth_error_None in Eq; lia].
      assert (Hpq : fst p < fst q).
      { apply (increasing_nth (map fst P) i (S i)); auto; now apply map_nth_error. }
      destruct (interp_pts P x i p q Ep Eq Hpq) as (v & Ev & Hv).
      exists i, p, q, v. repeat split; auto.
      * apply (searchsorted_below (map fst P) x i); [now apply map_nth_error|lia].
      * apply (searchsorted_at (map fst P) x). rewrite <- Ek. now apply map_nth_error.
Qed.

Lemma line_through_fst p q x : x == fst p -> line_through p q x == snd p.
Proof. intros H. unfold line_through. rewrite H. ring. Qed.

Lemma line_through_snd p q x : fst p < fst q -> x == fst q -> line_through p q x == snd q.
Proof. intros Hl H. unfold line_through. rewrite H. field. lra. Qed.

Lemma line_through_bounds p q x lo hi :
  fst p < fst q -> fst p <= x -> x <= fst q ->
  lo <= snd p -> lo <= snd q -> snd p <= hi -> snd q <= hi ->
  lo <= line_through p q x /\ line_through p q x <= hi.
Proof.
  intros Hl H1 H2 L1 L2 U1 U2. unfold line_through.
  set (f := (x - fst p) / (fst q - fst p)).
  assert (E : (x - fst p) * ((snd q - snd p) / (fst q - fst p)) == f * (snd q - snd p)).
  { unfold f; field; lra. }
  rewrite E.
  assert (F0 : 0 <= f). { unfold f. apply Qle_shift_div_l; lra. }
  assert (F1 : f <= 1). { unfold f. apply Qle_shift_div_r; lra. }
  split; nra.
Qed.

(** Value on any closed segment, nodes included. *)
Lemma eval_segment P p q x :
  increasing (map fst P) -> neighbours p q P -> fst p <= x -> x <= fst q ->
  exists v, cl_evaluate (pts_line P false) x = Ok v /\ v == line_through p q x.
Proof.
  intros HS HN H1 H2. apply neighbours_nth_error in HN. destruct HN as (i & Hi & Hj).
  assert (HP : P <> []) by (destruct P; [destruct i; discriminate|congruence]).
  assert (HLj : (S i < length P)%nat) by (apply nth_error_Some; congruence).
  assert (Hpq : fst p < fst q).
  { apply (increasing_nth (map fst P) i (S i)); auto; now apply map_nth_error. }
  destruct (eval_cases P x HP HS) as [(r & Hr & Hx & E)|[(r & Hr & Hx & E)|(k & r & s & v & Hr & Hs & Hx1 & Hx2 & E & Ev)]].
  - exists (snd r); split; [auto|].
    assert (i = 0)%nat.
    { destruct (Nat.eq_dec i 0) as [Z|Z]; [auto|exfalso].
      assert (fst r < fst p) by (apply (increasing_nth (map fst P) 0 i); auto;
        [now apply map_nth_error|now apply map_nth_error|lia]). lra. }
    subst i. rewrite Hr in Hi; inversion Hi; subst r.
    symmetry. apply line_through_fst. lra.
  - exfalso.
    assert (fst q <= fst r) by (apply (increasing_nth_le (map fst P) (S i) (length P - 1)); auto;
      [now apply map_nth_error|now apply map_nth_error|lia]). lra.
  - exists v; split; [auto|]. rewrite Ev.
    destruct (lt_eq_lt_dec k i) as [[L|L]|L].
    + (* k < i: then x <= fst s <= fst p *)
      assert (fst s <= fst p) by (apply (increasing_nth_le (map fst P) (S k) i); auto; now apply map_nth_error).
      assert (Hxp : x == fst p) by lra. assert (Hxs : x == fst s) by lra.
      assert (k = (i - 1))%nat.
      { destruct (Nat.eq_dec (S k) i) as [Z|Z]; [lia|exfalso].
        assert (fst s < fst p) by (apply (increasing_nth (map fst P) (S k) i); auto;
          [now apply map_nth_error|now apply map_nth_error|lia]). lra. }
      assert (S k = i) by lia. subst i. rewrite Hs in Hi; inversion Hi; subst s.
      rewrite line_through_snd by (auto; lra). symmetry. now apply line_through_fst.
    + subst k. rewrite Hi in Hr; inversion Hr; subst r. rewrite Hj in Hs; inversion Hs; subst s. reflexivity.
    + exfalso. assert (fst q <= fst r) by (apply (increasing_nth_le (map fst P) (S i) k); auto; now apply map_nth_error).
      lra.
Qed.

Lemma eval_below P p x :
  increasing (map fst P) -> nth_error P 0 = Some p -> x <= fst p ->
  cl_evaluate (pts_line P false) x = Ok (snd p).
Proof.
  intros HS Hp Hx.
  assert (HP : P <> []) by (destruct P; [discriminate|congruence]).
  destruct (eval_cases P x HP HS) as [(r & Hr & _ & E)|[(r & Hr & Hx' & E)|(k & r & s & v & Hr & Hs & Hx1 & _)]].
  - congruence.
  - exfalso. assert (fst p <= fst r).
    { apply (increasing_nth_le (map fst P) 0 (length P - 1)); auto; [now apply map_nth_error|now apply map_nth_error|lia]. }
    lra.
  - exfalso. assert (fst p <= fst r).
    { apply (increasing_nth_le (map fst P) 0 k); auto; [now apply map_nth_error|now apply map_nth_error|lia]. }
    lra.
Qed.

Lemma eval_above P p x :
  increasing (map fst P) -> nth_error P (length P - 1) = Some p -> fst p <= x ->
  exists v, cl_evaluate (pts_line P false) x = Ok v /\ v == snd p.
Proof.
  intros HS Hp Hx.
  assert (HP : P <> []) by (destruct P; [discriminate|congruence]).
  assert (HL : (0 < length P)%nat) by (destruct P; [congruence|cbn; lia]).
  destruct (eval_cases P x HP HS) as [(r & Hr & Hx' & E)|[(r & Hr & Hx' & E)|(k & r & s & v & Hr & Hs & Hx1 & Hx2 & E & Ev)]].
  - exists (snd r); split; [auto|].
    destruct (Nat.eq_dec (length P - 1) 0) as [Z|Z].
    + rewrite Z in Hp. rewrite Hr in Hp; inversion Hp; reflexivity.
    + exfalso. assert (fst r < fst p).
      { apply (increasing_nth (map fst P) 0 (length P - 1)); auto; [now apply map_nth_error|now apply map_nth_error|lia]. }
      lra.
  - exists (snd r); split; [auto|]. rewrite Hr in Hp; inversion Hp; reflexivity.
  - exists v; split; [auto|].
    assert (HSk : (S k < length P)%nat) by (apply nth_error_Some; congruence).
    destruct (Nat.eq_dec (S k) (length P - 1)) as [Z|Z].
    + rewrite <- Z, Hs in Hp; inversion Hp; subst s. rewrite Ev. apply line_through_snd; lra.
    + exfalso. assert (fst s < fst p).
      { apply (increasing_nth (map fst P) (S k) (length P - 1)); auto; [now apply map_nth_error|now apply map_nth_error|lia]. }
      lra.
Qed.

Lemma eval_node P p x :
  increasing (map fst P) -> In p P -> x == fst p ->
  exists v, cl_evaluate (pts_line P false) x = Ok v /\ v == snd p.
Proof.
  intros HS Hp Hx. apply In_nth_error in Hp. destruct Hp as (i & Hi).
  destruct (nth_error P (S i)) as [q|] eqn:Hj.
  - destruct (eval_segment P p q x HS) as (v & Ev & Hv).
    + eapply nth_error_neighbours; eauto.
    + lra.
    + assert (fst p < fst q) by (apply (increasing_nth (map fst P) i (S i)); auto; now apply map_nth_error). lra.
    + exists v; split; [auto|]. rewrite Hv. now apply line_through_fst.
  - apply nth_error_None in Hj.
    assert (HL : (i < length P)%nat) by (apply nth_error_Some; congruence).
    apply eval_above; auto.
    + replace (length P - 1)%nat with i by lia. auto.
    + lra.
Qed.

Lemma eval_total P x : P <> [] -> increasing (map fst P) ->
  exists v, cl_evaluate (pts_line P false) x = Ok v.
Proof.
  intros HP HS.
  destruct (eval_cases P x HP HS) as [(r & _ & _ & E)|[(r & _ & _ & E)|(k & r & s & v & _ & _ & _ & _ & E & _)]]; eauto.
Qed.

Lemma eval_bounds P x v lo hi :
  increasing (map fst P) -> (forall p, In p P -> lo <= snd p <= hi) ->
  cl_evaluate (pts_line P false) x = Ok v -> lo <= v <= hi.
Proof.
  intros HS HB E.
  assert (HP : P <> []). { intros ->. vm_compute in E. discriminate. }
  destruct (eval_cases P x HP HS) as [(r & Hr & _ & E')|[(r & Hr & _ & E')|(k & r & s & v' & Hr & Hs & H1 & H2 & E' & Ev)]];
    rewrite E' in E; inversion E; subst.
  - apply HB. eapply nth_error_In; eauto.
  - apply HB. eapply nth_error_In; eauto.
  - assert (B1 := HB r (nth_error_In _ _ Hr)). assert (B2 := HB s (nth_error_In _ _ Hs)).
    assert (fst r < fst s) by lra.
    rewrite Ev. apply line_through_bounds; lra.
Qed.

(** ** Lipschitz continuity, by comparison with a structural definition *)

Fixpoint pwl (P : list (Q * Q)) (x : Q) : Q :=
  match P with
  | [] => 0
  | p :: r =>
      match r with
      | [] => snd p
      | q :: _ => if Qle_bool x (fst p) then snd p
                  else if Qle_bool x (fst q) then line_through p q x
                  else pwl r x
      end
  end.

Lemma pwl_cons2 p q r x :
  pwl (p :: q :: r) x = if Qle_bool x (fst p) then snd p
                  else if Qle_bool x (fst q) then line_through p q x
                  else pwl (q :: r) x.
Proof. reflexivity. Qed.

Lemma increasing_cons2 (p q : Q * Q) (r : list (Q * Q)) :
  increasing (map fst (p :: q :: r)) -> fst p < fst q /\ increasing (map fst (q :: r)).
Proof.
  intros H. inversion H as [|? ? H1 H2]; subst. split; [|exact H1].
  inversion H2; auto.
Qed.

Lemma increasing_tl_all (p : Q * Q) (r : list (Q * Q)) x :
  increasing (map fst (p :: r)) -> In x r -> fst p < fst x.
Proof.
  intros H Hx. inversion H as [|? ? H1 H2]; subst. rewrite Forall_forall in H2.
  apply H2. now apply in_map.
Qed.

Lemma pwl_below P p x : nth_error P 0 = Some p -> increasing (map fst P) -> x <= fst p -> pwl P x == snd p.
Proof.
  destruct P as [|p' [|q r]]; cbn [nth_error]; [discriminate| |]; intros H HS Hx; inversion H; subst.
  - reflexivity.
  - rewrite pwl_cons2. apply Qle_bool_iff in Hx. now rewrite Hx.
Qed.

Lemma pwl_above P p x :
  nth_error P (length P - 1) = Some p -> increasing (map fst P) -> fst p < x -> pwl P x == snd p.
Proof.
  induction P as [|p' [|q r] IH]; intros H HS Hx.
  - destruct (length (@nil (Q*Q)) - 1)%nat; discriminate.
  - cbn in H. inversion H; subst. reflexivity.
  - destruct (increasing_cons2 _ _ _ HS) as [Hpq HS'].
    assert (H' : nth_error (q :: r) (length (q :: r) - 1) = Some p).
    { cbn in H |- *. replace (length r - 0)%nat with (length r) in * by lia. exact H. }
    assert (Hqp : fst q <= fst p).
    { apply nth_error_In in H'. destruct H' as [->|H']; [lra|].
      pose proof (increasing_tl_all _ _ _ HS' H'). lra. }
    rewrite pwl_cons2.
    replace (Qle_bool x (fst p')) with false by (symmetry; apply Qle_bool_false; lra).
    replace (Qle_bool x (fst q)) with false by (symmetry; apply Qle_bool_false; lra).
    apply IH; auto.
Qed.

Lemma pwl_segment P i p q x :
  nth_error P i = Some p -> nth_error P (S i) = Some q -> increasing (map fst P) ->
  fst p < x -> x <= fst q -> pwl P x == line_through p q x.
Proof.
  revert i; induction P as [|p' [|q' r] IH]; intros i Hp Hq HS H1 H2.
  - destruct i; discriminate.
  - destruct i as [|[|i]]; discriminate.
  - destruct (increasing_cons2 _ _ _ HS) as [Hpq HS']. rewrite pwl_cons2.
    destruct i as [|i].
    + cbn in Hp, Hq. inversion Hp; inversion Hq; subst.
      replace (Qle_bool x (fst p)) with false by (symmetry; apply Qle_bool_false; lra).
      replace (Qle_bool x (fst q)) with true by (symmetry; now apply Qle_bool_iff). reflexivity.
    + cbn [nth_error] in Hp, Hq.
      assert (Hqp : fst q' <= fst p).
      { pose proof (nth_error_In _ _ Hp) as Hin. destruct Hin as [->|Hin]; [lra|].
        pose proof (increasing_tl_all _ _ _ HS' Hin). lra. }
      replace (Qle_bool x (fst p')) with false by (symmetry; apply Qle_bool_false; lra).
      replace (Qle_bool x (fst q')) with false by (symmetry; apply Qle_bool_false; lra).
      apply (IH i); auto.
Qed.

Lemma eval_pwl P x v :
  increasing (map fst P) -> cl_evaluate (pts_line P false) x = Ok v -> v == pwl P x.
Proof.
  intros HS E.
  assert (HP : P <> []). { intros ->. vm_compute in E. discriminate. }
  destruct (eval_cases P x HP HS) as [(r & Hr & Hx & E')|[(r & Hr & Hx & E')|(k & r & s & v' & Hr & Hs & H1 & H2 & E' & Ev)]];
    rewrite E' in E; inversion E; subst; symmetry.
  - now apply pwl_below.
  - now apply pwl_above.
  - rewrite Ev. now apply (pwl_segment P k).
Qed.

Definition slope (p q : Q * Q) : Q := (snd q - snd p) / (fst q - fst p).

Lemma line_through_lipschitz p q x x' L :
  Qabs (slope p q) <= L -> x <= x' ->
  Qabs (line_through p q x' - line_through p q x) <= L * (x' - x).
Proof.
  intros HL Hx. unfold line_through.
  setoid_replace (snd p + (x' - fst p) * ((snd q - snd p) / (fst q - fst p)) -
     (snd p + (x - fst p) * ((snd q - snd p) / (fst q - fst p))))
    with (slope p q * (x' - x)) by (unfold slope; ring).
  rewrite Qabs_Qmult. rewrite (Qabs_pos (x' - x)) by lra. apply Qmult_le_compat_r; lra.
Qed.

Lemma Qabs_self a : Qabs (a - a) == 0.
Proof. assert (E : a - a == 0) by ring. rewrite E. reflexivity. Qed.

Lemma Qabs_tri3 a b c : Qabs (c - a) <= Qabs (b - a) + Qabs (c - b).
Proof. setoid_replace (c - a) with ((b - a) + (c - b)) by ring. apply Qabs_triangle. Qed.

Lemma neighbours_cons {A} (a b c : A) l : neighbours a b l -> neighbours a b (c :: l).
Proof. intros (l1 & l2 & ->). exists (c :: l1), l2. reflexivity. Qed.

Lemma neighbours_hd {A} (a b : A) l : neighbours a b (a :: b :: l).
Proof. exists [], l. reflexivity. Qed.

Lemma pwl_lipschitz P L x x' :
  increasing (map fst P) -> 0 <= L ->
  (forall p q, neighbours p q P -> Qabs (slope p q) <= L) -> x <= x' ->
  Qabs (pwl P x' - pwl P x) <= L * (x' - x).
Proof.
  intros HS HL HP Hx. revert x x' Hx. induction P as [|p [|q r] IH]; intros x x' Hx.
  - cbn. assert (0 <= L * (x' - x)) by (apply Qmult_le_0_compat; lra).
    change (Qabs (0 - 0)) with 0. lra.
  - change (pwl [p] x') with (snd p). change (pwl [p] x) with (snd p). rewrite Qabs_self.
    apply Qmult_le_0_compat; lra.
  - destruct (increasing_cons2 _ _ _ HS) as [Hpq HS'].
    assert (HP' : forall p0 q0, neighbours p0 q0 (q :: r) -> Qabs (slope p0 q0) <= L).
    { intros p0 q0 Hn. apply HP. now apply neighbours_cons. }
    assert (Hs : Qabs (slope p q) <= L) by (apply HP, neighbours_hd).
    specialize (IH HS' HP').
    assert (A : forall z z', fst p <= z -> z <= z' -> z' <= fst q ->
                Qabs (line_through p q z' - line_through p q z) <= L * (z' - z)).
    { intros z z' _ Hz _. now apply line_through_lipschitz. }
    assert (B : forall z, fst q <= z -> Qabs (pwl (q :: r) z - snd q) <= L * (z - fst q)).
    { intros z Hz. pose proof (IH (fst q) z Hz) as I.
      rewrite (pwl_below (q :: r) q (fst q)) in I by (cbn; auto; lra). exact I. }
    assert (Lp : line_through p q (fst p) == snd p) by (apply line_through_fst; reflexivity).
    assert (Lq : line_through p q (fst q) == snd q) by (apply line_through_snd; [auto|reflexivity]).
    rewrite !pwl_cons2.
    destruct (Qle_bool x (fst p)) eqn:E1; [apply Qle_bool_iff in E1|apply Qle_bool_false in E1].
    + destruct (Qle_bool x' (fst p)) eqn:E1'; [apply Qle_bool_iff in E1'|apply Qle_bool_false in E1'].
      * rewrite Qabs_self. apply Qmult_le_0_compat; lra.
      * assert (M : L * (x' - fst p) <= L * (x' - x)).
        { rewrite !(Qmult_comm L). apply Qmult_le_compat_r; lra. }
        destruct (Qle_bool x' (fst q)) eqn:E2'; [apply Qle_bool_iff in E2'|apply Qle_bool_false in E2'].
        -- assert (I := A (fst p) x' (Qle_refl _) (Qlt_le_weak _ _ E1') E2'). rewrite Lp in I. lra.
        -- assert (I := A (fst p) (fst q) (Qle_refl _) (Qlt_le_weak _ _ Hpq) (Qle_refl _)).
           rewrite Lp, Lq in I. assert (J := B x' (Qlt_le_weak _ _ E2')).
           pose proof (Qabs_tri3 (snd p) (snd q) (pwl (q :: r) x')). nra.
    + replace (Qle_bool x' (fst p)) with false by (symmetry; apply Qle_bool_false; lra).
      destruct (Qle_bool x (fst q)) eqn:E2; [apply Qle_bool_iff in E2|apply Qle_bool_false in E2].
      * destruct (Qle_bool x' (fst q)) eqn:E2'; [apply Qle_bool_iff in E2'|apply Qle_bool_false in E2'].
        -- apply A; lra.
        -- assert (I := A x (fst q) (Qlt_le_weak _ _ E1) E2 (Qle_refl _)). rewrite Lq in I.
           assert (J := B x' (Qlt_le_weak _ _ E2')).
           pose proof (Qabs_tri3 (line_through p q x) (snd q) (pwl (q :: r) x')). nra.
      * replace (Qle_bool x' (fst q)) with false by (symmetry; apply Qle_bool_false; lra).
        apply IH; lra.
Qed.

Lemma eval_lipschitz P L x x' v v' :
  increasing (map fst P) -> 0 <= L ->
  (forall p q, neighbours p q P -> Qabs (slope p q) <= L) ->
  cl_evaluate (pts_line P false) x = Ok v -> cl_evaluate (pts_line P false) x' = Ok v' ->
  Qabs (v' - v) <= L * Qabs (x' - x).
Proof.
  intros HS HL HP E E'. apply eval_pwl in E; [|auto]. apply eval_pwl in E'; [|auto].
  rewrite E, E'. destruct (Qlt_le_dec x x') as [H|H].
  - rewrite (Qabs_pos (x' - x)) by lra. apply pwl_lipschitz; auto. lra.
  - setoid_replace (pwl P x' - pwl P x) with (- (pwl P x - pwl P x')) by ring.
    rewrite Qabs_opp. rewrite (Qabs_neg (x' - x)) by lra.
    setoid_replace (- (x' - x)) with (x - x') by ring. apply pwl_lipschitz; auto.
Qed.

Lemma pwl_monotone P x x' :
  increasing (map fst P) -> (forall p q, neighbours p q P -> snd p <= snd q) -> x <= x' ->
  pwl P x <= pwl P x'.
Proof.
  intros HS HP Hx. revert x x' Hx. induction P as [|p [|q r] IH]; intros x x' Hx.
  - cbn. lra.
  - cbn. lra.
  - destruct (increasing_cons2 _ _ _ HS) as [Hpq HS'].
    assert (HP' : forall p0 q0, neighbours p0 q0 (q :: r) -> snd p0 <= snd q0).
    { intros p0 q0 Hn. apply HP. now apply neighbours_cons. }
    assert (Hs : snd p <= snd q) by (apply HP, neighbours_hd).
    specialize (IH HS' HP').
    assert (A : forall z z', z <= z' -> line_through p q z <= line_through p q z').
    { intros z z' Hz. unfold line_through.
      assert (0 <= (snd q - snd p) / (fst q - fst p)) by (apply Qle_shift_div_l; lra). nra. }
    assert (B : forall z, fst q <= z -> snd q <= pwl (q :: r) z).
    { intros z Hz. pose proof (IH (fst q) z Hz) as I.
      rewrite (pwl_below (q :: r) q (fst q)) in I by (cbn; auto; lra). exact I. }
    assert (Lp : line_through p q (fst p) == snd p) by (apply line_through_fst; reflexivity).
    assert (Lq : line_through p q (fst q) == snd q) by (apply line_through_snd; [auto|reflexivity]).
    rewrite !pwl_cons2.
    destruct (Qle_bool x (fst p)) eqn:E1; [apply Qle_bool_iff in E1|apply Qle_bool_false in E1].
    + destruct (Qle_bool x' (fst p)) eqn:E1'; [lra|apply Qle_bool_false in E1'].
      destruct (Qle_bool x' (fst q)) eqn:E2'; [|apply Qle_bool_false in E2'].
      * assert (I := A (fst p) x' (Qlt_le_weak _ _ E1')). lra.
      * assert (J := B x' (Qlt_le_weak _ _ E2')). lra.
    + replace (Qle_bool x' (fst p)) with false by (symmetry; apply Qle_bool_false; lra).
      destruct (Qle_bool x (fst q)) eqn:E2; [apply Qle_bool_iff in E2|apply Qle_bool_false in E2].
      * destruct (Qle_bool x' (fst q)) eqn:E2'; [|apply Qle_bool_false in E2'].
        -- apply A; lra.
        -- assert (I := A x (fst q) E2). assert (J := B x' (Qlt_le_weak _ _ E2')). lra.
      * replace (Qle_bool x' (fst q)) with false by (symmetry; apply Qle_bool_false; lra).
        apply IH; lra.
Qed.

(** ** Extrapolation *)

Lemma eval_extrapolate_cases P x :
  (2 <= length P)%nat -> increasing (map fst P) ->
  exists v, cl_evaluate (pts_line P true) x = Ok v /\
  (forall p q, nth_error P 0 = Some p -> nth_error P 1 = Some q -> x <= fst q -> v == line_through p q x) /\
  (forall p q, nth_error P (length P - 2) = Some p -> nth_error P (length P - 1) = Some q -> fst p <= x ->
     v == line_through p q x) /\
  (forall p q, neighbours p q P -> fst p <= x -> x <= fst q -> v == line_through p q x).
Proof.
  intros HL HS.
  assert (HP : P <> []) by (destruct P; [cbn in HL; lia|congruence]).
  destruct (nth_error P 0) as [p0|] eqn:E0; [|apply nth_error_None in E0; lia].
  destruct (nth_error P 1) as [p1|] eqn:E1; [|apply nth_error_None in E1; lia].
  destruct (nth_error P (length P - 2)) as [pm|] eqn:Em; [|apply nth_error_None in Em; lia].
  destruct (nth_error P (length P - 1)) as [pn|] eqn:En; [|apply nth_error_None in En; lia].
  assert (I01 : fst p0 < fst p1) by (apply (increasing_nth (map fst P) 0 1); auto; now apply map_nth_error).
  assert (Imn : fst pm < fst pn) by (apply (increasing_nth (map fst P) (length P - 2) (length P - 1)); auto;
    [now apply map_nth_error|now apply map_nth_error|lia]).
  assert (I1n : fst p1 <= fst pn) by (apply (increasing_nth_le (map fst P) 1 (length P - 1)); auto;
    [now apply map_nth_error|now apply map_nth_error|lia]).
  assert (I0m : fst p0 <= fst pm) by (apply (increasing_nth_le (map fst P) 0 (length P - 2)); auto;
    [now apply map_nth_error|now apply map_nth_error|lia]).
  (* neighbours other than the first pair lie right of p1, etc. *)
  assert (Nn : forall p q, neighbours p q P -> fst q <= fst pn).
  { intros p q Hn. apply neighbours_nth_error in Hn. destruct Hn as (i & _ & Hq).
    assert ((S i < length P)%nat) by (apply nth_error_Some; congruence).
    apply (increasing_nth_le (map fst P) (S i) (length P - 1)); auto; [now apply map_nth_error|now apply map_nth_error|lia]. }
  assert (N0 : forall p q, neighbours p q P -> fst p0 <= fst p).
  { intros p q Hn. apply neighbours_nth_error in Hn. destruct Hn as (i & Hp & _).
    apply (increasing_nth_le (map fst P) 0 i); auto; [now apply map_nth_error|now apply map_nth_error|lia]. }
  unfold cl_evaluate; cbn [pts_line cl_x cl_y cl_extrapolate].
  remember (searchsorted (map fst P) x) as k eqn:Ek.
  pose proof (searchsorted_le_length (map fst P) x) as HLk. rewrite <- Ek, map_length in HLk.
  rewrite map_length.
  destruct (Nat.eqb k (length P)) eqn:EkL.
  - apply Nat.eqb_eq in EkL.
    assert (Hnx : fst pn < x).
    { apply (searchsorted_below (map fst P) x (length P - 1)); [now apply map_nth_error|lia]. }
    destruct (interp_neg_pts P x pm pn HL Em En Imn) as (v & Ev & Hv).
    exists v; split; [auto|]. split; [|split].
    + intros p q Hp Hq Hx. inversion Hp; inversion Hq; subst. lra.
    + intros p q Hp Hq _. inversion Hp; inversion Hq; subst; auto.
    + intros p q Hn _ Hx. specialize (Nn p q Hn). lra.
  - apply Nat.eqb_neq in EkL. destruct (Nat.eqb k 0) eqn:Ek0.
    + apply Nat.eqb_eq in Ek0.
      assert (Hx0 : x <= fst p0).
      { apply (searchsorted_at (map fst P) x). rewrite <- Ek, Ek0. now apply map_nth_error. }
      destruct (interp_pts P x 0 p0 p1 E0 E1 I01) as (v & Ev & Hv).
      exists v; split; [exact Ev|]. split; [|split].
      * intros p q Hp Hq _. inversion Hp; inversion Hq; subst; auto.
      * intros p q Hp Hq Hx. inversion Hp; inversion Hq; subst p q.
        assert (Hxe : x == fst p0) by lra.
        destruct (Nat.eq_dec (length P - 2) 0) as [Z|Z].
        -- rewrite Z in Em. replace (length P - 1)%nat with 1%nat in En by lia.
           rewrite E0 in Em; rewrite E1 in En. inversion Em; inversion En; subst. auto.
        -- exfalso. assert (fst p0 < fst pm) by (apply (increasing_nth (map fst P) 0 (length P - 2)); auto;
             [now apply map_nth_error|now apply map_nth_error|lia]). lra.
      * intros p q Hn Hp Hq. specialize (N0 p q Hn). apply neighbours_nth_error in Hn.
        destruct Hn as (i & Hi & Hj). destruct i as [|i].
        -- rewrite E0 in Hi; rewrite E1 in Hj. inversion Hi; inversion Hj; subst; auto.
        -- exfalso. assert (fst p0 < fst p) by (apply (increasing_nth (map fst P) 0 (S i)); auto;
             [now apply map_nth_error|now apply map_nth_error|lia]). lra.
    + apply Nat.eqb_neq in Ek0. destruct k as [|k]; [lia|].
      destruct (nth_error P k) as [r|] eqn:Hr; [|apply nth_error_None in Hr; lia].
      destruct (nth_error P (S k)) as [s|] eqn:Hs; [|apply nth_error_None in Hs; lia].
      assert (Hrs : fst r < fst s).
      { apply (increasing_nth (map fst P) k (S k)); auto; now apply map_nth_error. }
      assert (Hrx : fst r < x).
      { apply (searchsorted_below (map fst P) x k); [now apply map_nth_error|lia]. }
      assert (Hxs : x <= fst s).
      { apply (searchsorted_at (map fst P) x). rewrite <- Ek. now apply map_nth_error. }
      destruct (interp_pts P x k r s Hr Hs Hrs) as (v & Ev & Hv).
      assert (Seg : forall p q, neighbours p q P -> fst p <= x -> x <= fst q -> v == line_through p q x).
      { intros p q Hn Hp Hq. apply neighbours_nth_error in Hn. destruct Hn as (i & Hi & Hj).
        rewrite Hv. destruct (lt_eq_lt_dec k i) as [[L|L]|L].
        - assert (fst s <= fst p) by (apply (increasing_nth_le (map fst P) (S k) i); auto; now apply map_nth_error).
          assert (Hxp : x == fst p) by lra. assert (Hxs' : x == fst s) by lra.
          assert (S k = i).
          { destruct (Nat.eq_dec (S k) i) as [Z|Z]; [lia|exfalso].
            assert (fst s < fst p) by (apply (increasing_nth (map fst P) (S k) i); auto;
              [now apply map_nth_error|now apply map_nth_error|lia]). lra. }
          subst i. rewrite Hs in Hi; inversion Hi; subst s.
          rewrite line_through_snd by (auto; lra). symmetry. now apply line_through_fst.
        - subst k. rewrite Hi in Hr; inversion Hr; subst r. rewrite Hj in Hs; inversion Hs; subst s. reflexivity.
        - exfalso. assert (fst q <= fst r) by (apply (increasing_nth_le (map fst P) (S i) k); auto; now apply map_nth_error).
          lra. }
      exists v; split; [exact Ev|]. split; [|split].
      * intros p q Hp Hq Hx. inversion Hp; inversion Hq; subst p q.
        apply Seg; [exact (nth_error_neighbours P 0 p0 p1 E0 E1)| |auto].
        assert (fst p0 <= fst r) by (apply (increasing_nth_le (map fst P) 0 k); auto;
          [now apply map_nth_error|now apply map_nth_error|lia]). lra.
      * intros p q Hp Hq Hx. inversion Hp; inversion Hq; subst p q. apply Seg; [|auto|].
        -- apply (nth_error_neighbours P (length P - 2)); auto.
           replace (S (length P - 2)) with (length P - 1)%nat by lia. auto.
        -- assert (fst s <= fst pn) by (apply (increasing_nth_le (map fst P) (S k) (length P - 1)); auto;
             [now apply map_nth_error|now apply map_nth_error|lia]). lra.
      * exact Seg.
Qed.

Lemma eval_monotone P x x' v v' :
  increasing (map fst P) -> (forall p q, neighbours p q P -> snd p <= snd q) -> x <= x' ->
  cl_evaluate (pts_line P false) x = Ok v -> cl_evaluate (pts_line P false) x' = Ok v' ->
  v <= v'.
Proof.
  intros HS HP Hx E E'. apply eval_pwl in E; [|auto]. apply eval_pwl in E'; [|auto].
  rewrite E, E'. now apply pwl_monotone.
Qed.
