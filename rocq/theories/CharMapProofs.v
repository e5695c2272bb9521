(** Lemmas about characteristic maps and the compressor's use of them. *)
From Coq Require Import Lqa Sorting.Sorted.
From Verif Require Import CharModel CharSpec CharProofs.
Open Scope Q_scope.

Lemma rectangular_spec n rows : rectangular n rows = true <-> forall r, In r rows -> length r = n.
Proof.
  unfold rectangular. rewrite forallb_forall. split; intros H r Hr.
  - apply Nat.eqb_eq. auto.
  - apply Nat.eqb_eq. auto.
Qed.

Lemma CharMap_new_ok x y z c :
  CharMap_new x y z = Ok c -> x <> [] -> increasing x ->
  (forall r, In r y -> increasing r /\ r <> []) -> cm_ok c.
Proof.
  unfold CharMap_new. intros H Hx Hi Hr.
  set (n := match y with [] => 0%nat | r :: _ => length r end) in *.
  set (m := match z with [] => 0%nat | r :: _ => length r end) in *.
  destruct (rectangular n y) eqn:Ey; cbn [negb orb] in H; [|discriminate].
  destruct (rectangular m z) eqn:Ez; cbn [negb] in H; [|discriminate].
  destruct (Nat.eqb (length x) (length y)) eqn:E1; cbn [negb] in H; [|discriminate].
  destruct (Nat.eqb (length y) (length z)) eqn:E2; cbn [negb orb] in H; [|discriminate].
  destruct (Nat.eqb n m) eqn:E3; cbn [negb] in H; [|discriminate].
  inversion H; subst c; clear H.
  apply Nat.eqb_eq in E1, E2, E3.
  pose proof (proj1 (rectangular_spec _ _) Ey) as Ry.
  pose proof (proj1 (rectangular_spec _ _) Ez) as Rz.
  constructor; cbn [cm_x cm_y cm_z]; auto; try lia.
  - exists n. split.
    + destruct y as [|r y]; [cbn in E1; destruct x; [congruence|discriminate]|].
      destruct (Hr r (or_introl eq_refl)) as [_ Hn]. unfold n. destruct r; [congruence|cbn; lia].
    + split; [auto|]. rewrite E3. auto.
  - intros r Hin. apply Hr; auto.
Qed.

(** ** The second dimension is a characteristic line *)
Lemma evaluate_y_line y ya za :
  length ya = length za ->
  cm_evaluate_y y ya za = cl_evaluate {| cl_x := ya; cl_y := za; cl_extrapolate := false |} y.
Proof.
  intros HL. unfold cm_evaluate_y, cl_evaluate; cbn [cl_x cl_y cl_extrapolate].
  destruct (Nat.eqb (searchsorted ya y) (length ya)) eqn:E; [|reflexivity].
  apply Nat.eqb_eq in E. rewrite E, HL.
  unfold pyidx.
  destruct (length za) as [|n] eqn:EL; [reflexivity|].
  replace (Z.of_nat (S n) - 1 <? - Z.of_nat (S n))%Z with false by (symmetry; apply Z.ltb_ge; lia).
  replace (Z.of_nat (S n) <=? Z.of_nat (S n) - 1)%Z with false by (symmetry; apply Z.leb_gt; lia).
  replace (-1 <? - Z.of_nat (S n))%Z with false by (symmetry; apply Z.ltb_ge; lia).
  replace (Z.of_nat (S n) <=? -1)%Z with false by (symmetry; apply Z.leb_gt; lia).
  replace (Z.of_nat (S n) - 1 <? 0)%Z with false by (symmetry; apply Z.ltb_ge; lia).
  cbn [orb Z.ltb Z.compare].
  replace (Z.of_nat (S n) + -1)%Z with (Z.of_nat (S n) - 1)%Z by lia. reflexivity.
Qed.

Lemma combine_fst {A B} (a : list A) (b : list B) : length a = length b -> map fst (combine a b) = a.
Proof.
  revert b; induction a as [|x a IH]; intros [|y b]; cbn; intros H; try discriminate; auto.
  f_equal. apply IH. lia.
Qed.

Lemma combine_snd {A B} (a : list A) (b : list B) : length a = length b -> map snd (combine a b) = b.
Proof.
  revert b; induction a as [|x a IH]; intros [|y b]; cbn; intros H; try discriminate; auto.
  f_equal. apply IH. lia.
Qed.

Lemma pts_line_combine xs ys ex :
  length xs = length ys ->
  pts_line (combine xs ys) ex = {| cl_x := xs; cl_y := ys; cl_extrapolate := ex |}.
Proof. intros H. unfold pts_line. now rewrite combine_fst, combine_snd. Qed.

(** ** Mixing rows *)
Lemma row_mix_length f r0 r1 : length r0 = length r1 -> length (row_mix f r0 r1) = length r0.
Proof.
  unfold row_mix. revert r1; induction r0 as [|a r0 IH]; intros [|b r1]; cbn; intros H; try discriminate; auto.
Qed.

Lemma row_mix_nth f r0 r1 j a b :
  nth_error r0 j = Some a -> nth_error r1 j = Some b ->
  nth_error (row_mix f r0 r1) j = Some (a + f * (b - a)).
Proof.
  unfold row_mix. revert r1 j; induction r0 as [|a' r0 IH]; intros [|b' r1] [|j]; cbn; intros Ha Hb; try discriminate.
  - inversion Ha; inversion Hb; reflexivity.
  - auto.
Qed.

Lemma row_mix_In f r0 r1 v :
  In v (row_mix f r0 r1) -> exists a b, In a r0 /\ In b r1 /\ v = a + f * (b - a).
Proof.
  unfold row_mix. revert r1; induction r0 as [|a r0 IH]; intros [|b r1]; cbn; try tauto.
  intros [H|H].
  - exists a, b. auto.
  - destruct (IH r1 H) as (a' & b' & Ha & Hb & E). exists a', b'. auto.
Qed.

Lemma mix_lt f a b a' b' : 0 <= f -> f <= 1 -> a < a' -> b < b' -> a + f * (b - a) < a' + f * (b' - a').
Proof.
  intros F0 F1 Ha Hb. destruct (Qlt_le_dec f 1) as [H|H].
  - assert (0 < (1 - f) * (a' - a)) by (apply Qmult_lt_0_compat; lra).
    assert (0 <= f * (b' - b)) by (apply Qmult_le_0_compat; lra). nra.
  - assert (E : f == 1) by lra. rewrite E. lra.
Qed.

Lemma increasing_row_mix f r0 r1 :
  0 <= f -> f <= 1 -> increasing r0 -> increasing r1 -> length r0 = length r1 ->
  increasing (row_mix f r0 r1).
Proof.
  intros F0 F1 H0. revert r1. induction H0 as [|a r0 H0 IH HF]; intros [|b r1] H1 HL; cbn in HL; try discriminate.
  - constructor.
  - inversion H1 as [|? ? H1' HF1]; subst. cbn. constructor.
    + apply IH; auto.
    + rewrite Forall_forall in *. intros v Hv. apply row_mix_In in Hv.
      destruct Hv as (a' & b' & Ha & Hb & ->). apply mix_lt; auto.
Qed.

(** ** The first dimension *)

Lemma nth_error_lt {A} (l : list A) i : (i < length l)%nat -> exists a, nth_error l i = Some a.
Proof.
  intros H. destruct (nth_error l i) as [a|] eqn:E; [eauto|]. apply nth_error_None in E; lia.
Qed.

Lemma evaluate_x_speedline c x :
  cm_ok c ->
  exists ya za, cm_evaluate_x c x = Ok (ya, za) /\
                speedline c x (deref (cm_y c) ya) (deref (cm_z c) za).
Proof.
  intros [Hne Hx Hy Hz _ _]. unfold cm_evaluate_x.
  remember (searchsorted (cm_x c) x) as k eqn:Ek.
  pose proof (searchsorted_le_length (cm_x c) x) as HL. rewrite <- Ek in HL.
  assert (HP : (0 < length (cm_x c))%nat) by (destruct (cm_x c); [congruence|cbn; lia]).
  destruct (Nat.eqb k (length (cm_x c))) eqn:E1.
  - apply Nat.eqb_eq in E1. replace (Nat.eqb k 0) with false by (symmetry; apply Nat.eqb_neq; lia).
    do 2 eexists; split; [reflexivity|]. cbn [deref].
    destruct (nth_error_lt (cm_x c) (length (cm_x c) - 1)) as (xn & Hxn); [lia|].
    destruct (nth_error_lt (cm_y c) (length (cm_x c) - 1)) as (yn & Hyn); [lia|].
    destruct (nth_error_lt (cm_z c) (length (cm_x c) - 1)) as (zn & Hzn); [lia|].
    rewrite E1. rewrite (nth_error_nth _ _ _ Hyn), (nth_error_nth _ _ _ Hzn).
    eapply sl_above; eauto.
    apply (searchsorted_below (cm_x c) x (length (cm_x c) - 1)); [auto|lia].
  - apply Nat.eqb_neq in E1. destruct (Nat.eqb k 0) eqn:E0.
    + apply Nat.eqb_eq in E0. do 2 eexists; split; [reflexivity|]. cbn [deref].
      destruct (nth_error_lt (cm_x c) 0) as (xn & Hxn); [lia|].
      destruct (nth_error_lt (cm_y c) 0) as (yn & Hyn); [lia|].
      destruct (nth_error_lt (cm_z c) 0) as (zn & Hzn); [lia|].
      rewrite (nth_error_nth _ _ _ Hyn), (nth_error_nth _ _ _ Hzn).
      eapply sl_below; eauto. apply (searchsorted_at (cm_x c) x). rewrite <- Ek, E0. auto.
    + apply Nat.eqb_neq in E0. destruct k as [|i]; [lia|].
      destruct (nth_error_lt (cm_x c) i) as (x0 & Hx0); [lia|].
      destruct (nth_error_lt (cm_x c) (S i)) as (x1 & Hx1); [lia|].
      destruct (nth_error_lt (cm_y c) i) as (y0 & Hy0); [lia|].
      destruct (nth_error_lt (cm_y c) (S i)) as (y1 & Hy1); [lia|].
      destruct (nth_error_lt (cm_z c) i) as (z0 & Hz0); [lia|].
      destruct (nth_error_lt (cm_z c) (S i)) as (z1 & Hz1); [lia|].
      replace (Z.of_nat (S i) - 1)%Z with (Z.of_nat i) by lia.
      rewrite (pyidx_nat _ _ _ Hx0), (pyidx_nat _ _ _ Hx1). cbn [rbind].
      assert (Hlt : x0 < x1) by (eapply (increasing_nth (cm_x c) i (S i)); eauto).
      destruct (Qeq_bool (x1 - x0) 0) eqn:EQ; [apply Qeq_bool_eq in EQ; lra|].
      rewrite (pyidx_nat _ _ _ Hy0), (pyidx_nat _ _ _ Hy1), (pyidx_nat _ _ _ Hz0), (pyidx_nat _ _ _ Hz1).
      cbn [rbind]. do 2 eexists; split; [reflexivity|]. cbn [deref].
      eapply sl_between; eauto.
      * apply (searchsorted_below (cm_x c) x i); [auto|lia].
      * apply (searchsorted_at (cm_x c) x). rewrite <- Ek. auto.
Qed.

Lemma frac_bounds x x0 x1 : x0 < x -> x <= x1 -> 0 <= (x - x0) / (x1 - x0) /\ (x - x0) / (x1 - x0) <= 1.
Proof.
  intros. split.
  - apply Qle_shift_div_l; lra.
  - apply Qle_shift_div_r; lra.
Qed.

Lemma speedline_shape c x ya za :
  cm_ok c -> speedline c x ya za ->
  increasing ya /\ length ya = length za /\ (0 < length ya)%nat.
Proof.
  intros [Hne Hx Hy Hz (n & Hn & Wy & Wz) HR] HS.
  destruct HS as [x0 y0 z0 _ _ H2 H3|xn yn zn _ _ H2 H3|i x0 x1 y0 y1 z0 z1 H1 H1' L1 L2 H2 H2' H3 H3'].
  - pose proof (nth_error_In _ _ H2); pose proof (nth_error_In _ _ H3).
    repeat split; [auto|rewrite Wy, Wz; auto|rewrite Wy; auto].
  - pose proof (nth_error_In _ _ H2); pose proof (nth_error_In _ _ H3).
    repeat split; [auto|rewrite Wy, Wz; auto|rewrite Wy; auto].
  - pose proof (nth_error_In _ _ H2); pose proof (nth_error_In _ _ H3).
    pose proof (nth_error_In _ _ H2'); pose proof (nth_error_In _ _ H3').
    destruct (frac_bounds _ _ _ L1 L2) as [F0 F1].
    assert (length y0 = n) by auto. assert (length y1 = n) by auto.
    assert (length z0 = n) by auto. assert (length z1 = n) by auto.
    repeat split.
    + apply increasing_row_mix; auto. lia.
    + rewrite !row_mix_length by lia. lia.
    + rewrite row_mix_length by lia. lia.
Qed.

(** Evaluating a map is evaluating the speed line as a characteristic line. *)
Lemma evaluate_speedline c x y :
  cm_ok c ->
  exists ya za, speedline c x ya za /\
    cm_evaluate c x y = cl_evaluate {| cl_x := ya; cl_y := za; cl_extrapolate := false |} y.
Proof.
  intros Hc. destruct (evaluate_x_speedline c x Hc) as (ya & za & E & HS).
  exists (deref (cm_y c) ya), (deref (cm_z c) za). split; [auto|].
  unfold cm_evaluate. rewrite E. cbn [rbind].
  apply evaluate_y_line. eapply speedline_shape; eauto.
Qed.

Lemma cm_total c x y : cm_ok c -> exists v, cm_evaluate c x y = Ok v.
Proof.
  intros Hc. destruct (evaluate_speedline c x y Hc) as (ya & za & HS & E).
  destruct (speedline_shape _ _ _ _ Hc HS) as (HI & HL & HP).
  rewrite E, <- pts_line_combine by auto. apply eval_total.
  - destruct ya; [cbn in HP; lia|]. destruct za; [discriminate|]. cbn. congruence.
  - rewrite combine_fst by auto. auto.
Qed.

Lemma cm_bounds c x y v lo hi :
  cm_ok c -> (forall r z, In r (cm_z c) -> In z r -> lo <= z <= hi) ->
  cm_evaluate c x y = Ok v -> lo <= v <= hi.
Proof.
  intros Hc HB. destruct (evaluate_speedline c x y Hc) as (ya & za & HS & E).
  destruct (speedline_shape _ _ _ _ Hc HS) as (HI & HL & HP).
  rewrite E, <- pts_line_combine by auto. apply eval_bounds.
  - rewrite combine_fst by auto. auto.
  - intros p Hp. apply (in_map snd) in Hp. rewrite combine_snd in Hp by auto.
    destruct HS as [x0 y0 z0 _ _ H2 H3|xn yn zn _ _ H2 H3|i x0 x1 y0 y1 z0 z1 H1 H1' L1 L2 H2 H2' H3 H3'].
    + apply (HB z0); auto. eapply nth_error_In; eauto.
    + apply (HB zn); auto. eapply nth_error_In; eauto.
    + apply row_mix_In in Hp. destruct Hp as (a & b & Ha & Hb & ->).
      destruct (frac_bounds _ _ _ L1 L2) as [F0 F1].
      pose proof (HB z0 a (nth_error_In _ _ H3) Ha). pose proof (HB z1 b (nth_error_In _ _ H3') Hb).
      split; nra.
Qed.

Lemma nth_error_unique_x c i j a b :
  cm_ok c -> nth_error (cm_x c) i = Some a -> nth_error (cm_x c) j = Some b -> a == b -> i = j.
Proof.
  intros Hc Ha Hb E. destruct (lt_eq_lt_dec i j) as [[L|L]|L]; [exfalso|auto|exfalso].
  - assert (a < b) by (eapply (increasing_nth (cm_x c) i j); eauto; apply Hc). lra.
  - assert (b < a) by (eapply (increasing_nth (cm_x c) j i); eauto; apply Hc). lra.
Qed.

Lemma Qeq_trans' a b c : a == b -> b == c -> a == c.
Proof. apply Qeq_trans. Qed.

Lemma cm_node c i j x y z yr zr :
  cm_ok c ->
  nth_error (cm_x c) i = Some x ->
  nth_error (cm_y c) i = Some yr -> nth_error yr j = Some y ->
  nth_error (cm_z c) i = Some zr -> nth_error zr j = Some z ->
  exists v, cm_evaluate c x y = Ok v /\ v == z.
Proof.
  intros Hc Hx Hyr Hy Hzr Hz.
  destruct (evaluate_speedline c x y Hc) as (ya & za & HS & E).
  destruct (speedline_shape _ _ _ _ Hc HS) as (HI & HL & HP).
  assert (HN : exists y' z', nth_error ya j = Some y' /\ nth_error za j = Some z' /\ y == y' /\ z' == z).
  { destruct HS as [x0 y0 z0 H1 L1 H2 H3|xn yn zn H1 L1 H2 H3|k x0 x1 y0 y1 z0 z1 H1 H1' L1 L2 H2 H2' H3 H3'].
    - assert (i = 0)%nat.
      { destruct i; [auto|exfalso]. assert (x0 < x) by (eapply (increasing_nth (cm_x c) 0 (S i)); eauto; [apply Hc|lia]). lra. }
      subst i. rewrite Hyr in H2; rewrite Hzr in H3. inversion H2; inversion H3; subst.
      exists y, z. repeat split; auto; reflexivity.
    - exfalso. assert (Hil : (i < length (cm_x c))%nat) by (apply nth_error_Some; congruence).
      assert (x <= xn) by (eapply (increasing_nth_le (cm_x c) i); eauto; [apply Hc|lia]). lra.
    - assert (i = S k).
      { destruct (lt_eq_lt_dec i (S k)) as [[L|L]|L]; [exfalso|auto|exfalso].
        - assert (x <= x0) by (eapply (increasing_nth_le (cm_x c) i k); eauto; [apply Hc|lia]). lra.
        - assert (x1 < x) by (eapply (increasing_nth (cm_x c) (S k) i); eauto; apply Hc). lra. }
      subst i. rewrite Hx in H1'; rewrite Hyr in H2'; rewrite Hzr in H3'.
      inversion H1'; inversion H2'; inversion H3'; subst.
      destruct Hc as [_ _ _ _ (n & Hn & Wy & Wz) _].
      assert (length y0 = length y1).
      { rewrite !Wy; auto; eapply nth_error_In; eauto. }
      assert (length z0 = length z1).
      { rewrite !Wz; auto; eapply nth_error_In; eauto. }
      destruct (nth_error_lt y0 j) as (a & Ha). { assert (j < length y1)%nat by (apply nth_error_Some; congruence). lia. }
      destruct (nth_error_lt z0 j) as (b & Hb). { assert (j < length z1)%nat by (apply nth_error_Some; congruence). lia. }
      do 2 eexists; split; [apply row_mix_nth; eauto|]. split; [apply row_mix_nth; eauto|].
      split; field; lra. }
  destruct HN as (y' & z' & Hy' & Hz' & E1 & E2).
  rewrite E, <- pts_line_combine by auto.
  destruct (eval_node (combine ya za) (y', z') y) as (v & Ev & Hv).
  - rewrite combine_fst by auto. auto.
  - clear - Hy' Hz'. revert ya za Hy' Hz'. induction j as [|j IH]; intros [|a ya] [|b za]; cbn; intros H1 H2; try discriminate.
    + inversion H1; inversion H2; subst. auto.
    + right. auto.
  - auto.
  - exists v. split; [auto|]. cbn [snd] in Hv. lra.
Qed.

(** Left of the table the value is that of the left border. *)
Lemma cm_left_border c x x0 y :
  cm_ok c -> nth_error (cm_x c) 0 = Some x0 -> x <= x0 ->
  cm_evaluate c x y = cm_evaluate c x0 y.
Proof.
  intros Hc H0 Hx. unfold cm_evaluate, cm_evaluate_x.
  assert (S0 : forall z, z <= x0 -> searchsorted (cm_x c) z = 0%nat).
  { intros z Hz. destruct (cm_x c) as [|a l]; [discriminate|]. cbn in H0; inversion H0; subst.
    cbn. apply Qle_bool_iff in Hz. now rewrite Hz. }
  rewrite (S0 x Hx), (S0 x0 (Qle_refl _)). reflexivity.
Qed.

(** Rows equal up to Qeq evaluate to equal values. *)
Lemma searchsorted_proper ya ya' y : Forall2 Qeq ya ya' -> searchsorted ya y = searchsorted ya' y.
Proof.
  induction 1 as [|a b la lb Hab H IH]; cbn; [auto|].
  destruct (Qle_bool y a) eqn:E.
  - apply Qle_bool_iff in E. rewrite Hab in E. apply Qle_bool_iff in E. now rewrite E.
  - apply Qle_bool_false in E. rewrite Hab in E. apply Qle_bool_false in E. now rewrite E, IH.
Qed.

Lemma cm_right_border c x xn y :
  cm_ok c -> nth_error (cm_x c) (length (cm_x c) - 1) = Some xn -> xn <= x ->
  exists v v', cm_evaluate c x y = Ok v /\ cm_evaluate c xn y = Ok v' /\ v == v'.
Proof.
  intros Hc Hn Hx.
  destruct (evaluate_speedline c x y Hc) as (ya & za & HS & E).
  destruct (evaluate_speedline c xn y Hc) as (ya' & za' & HS' & E').
  destruct (speedline_shape _ _ _ _ Hc HS) as (HI & HL & HP).
  destruct (speedline_shape _ _ _ _ Hc HS') as (HI' & HL' & HP').
  (* both speed lines are, up to Qeq, the last row *)
  destruct (nth_error_lt (cm_y c) (length (cm_x c) - 1)) as (yn & Hyn).
  { destruct Hc as [Hne _ Hy _ _ _]. destruct (cm_x c); [congruence|cbn in *; lia]. }
  destruct (nth_error_lt (cm_z c) (length (cm_x c) - 1)) as (zn & Hzn).
  { destruct Hc as [Hne _ _ Hz _ _]. destruct (cm_x c); [congruence|cbn in *; lia]. }
  assert (Mix1 : forall f r0 r1, f == 1 -> length r0 = length r1 -> Forall2 Qeq (row_mix f r0 r1) r1).
  { intros f r0 r1 Hf. revert r1. induction r0 as [|a r0 IH]; intros [|b r1]; cbn; intros HLr; try discriminate; constructor.
    - rewrite Hf. ring.
    - apply IH. lia. }
  assert (Refl : forall l, Forall2 Qeq l l) by (induction l; constructor; auto; reflexivity).
  assert (Last : forall z yl zl, xn <= z -> speedline c z yl zl -> Forall2 Qeq yl yn /\ Forall2 Qeq zl zn).
  { intros z yl zl Hz HSz.
    destruct HSz as [x0 y0 z0 H1 L1 H2 H3|xn' yn' zn' H1 L1 H2 H3|k x0 x1 y0 y1 z0 z1 H1 H1' L1 L2 H2 H2' H3 H3'].
    - assert (length (cm_x c) - 1 = 0)%nat as EL.
      { destruct (length (cm_x c) - 1)%nat as [|m] eqn:EL; [auto|exfalso].
        assert (x0 < xn) by (eapply (increasing_nth (cm_x c) 0 (S m)); eauto; [apply Hc|lia]). lra. }
      rewrite EL in Hyn, Hzn. rewrite H2 in Hyn; rewrite H3 in Hzn. inversion Hyn; inversion Hzn; subst. auto.
    - rewrite H2 in Hyn; rewrite H3 in Hzn. inversion Hyn; inversion Hzn; subst. auto.
    - assert (HSk : (S k < length (cm_x c))%nat) by (apply nth_error_Some; congruence).
      assert (S k = length (cm_x c) - 1)%nat as EK.
      { destruct (Nat.eq_dec (S k) (length (cm_x c) - 1)) as [Z|Z]; [auto|exfalso].
        assert (x1 < xn) by (eapply (increasing_nth (cm_x c) (S k)); eauto; [apply Hc|lia]). lra. }
      rewrite EK in H1', H2', H3'. rewrite Hn in H1'; rewrite Hyn in H2'; rewrite Hzn in H3'.
      inversion H1'; inversion H2'; inversion H3'; subst.
      destruct Hc as [_ _ _ _ (n & Hn0 & Wy & Wz) _].
      split; apply Mix1.
      + field_simplify_eq; lra.
      + rewrite !Wy; auto; eapply nth_error_In; eauto.
      + field_simplify_eq; lra.
      + rewrite !Wz; auto; eapply nth_error_In; eauto. }
  destruct (Last x ya za Hx HS) as [A1 A2]. destruct (Last xn ya' za' (Qle_refl _) HS') as [B1 B2].
  assert (Sym : forall a b, Forall2 Qeq a b -> Forall2 Qeq b a) by (induction 1; constructor; auto; now symmetry).
  assert (Tr : forall a b d, Forall2 Qeq a b -> Forall2 Qeq b d -> Forall2 Qeq a d).
  { intros a b d H; revert d; induction H; intros d' H'; inversion H'; subst; constructor.
    - now rewrite H. - auto. }
  assert (C1 : Forall2 Qeq ya ya') by (eapply Tr; [exact A1|auto]).
  assert (C2 : Forall2 Qeq za za') by (eapply Tr; [exact A2|auto]).
  destruct (cm_total c x y Hc) as (v & Ev). destruct (cm_total c xn y Hc) as (v' & Ev').
  exists v, v'. repeat split; auto.
  rewrite E, <- pts_line_combine in Ev by auto. rewrite E', <- pts_line_combine in Ev' by auto.
  apply eval_pwl in Ev; [|rewrite combine_fst by auto; auto].
  apply eval_pwl in Ev'; [|rewrite combine_fst by auto; auto].
  rewrite Ev, Ev'. clear - C1 C2.
  revert za za' C2. induction C1 as [|a b la lb Hab H IH]; intros za za' C2.
  - reflexivity.
  - inversion C2 as [|c d lc ld Hcd H']; subst; [reflexivity|].
    specialize (IH lc ld H'). cbn [combine].
    destruct (combine la lc) as [|p r] eqn:Ep; destruct (combine lb ld) as [|p' r'] eqn:Ep'.
    + cbn. auto.
    + exfalso. destruct la; [inversion H; subst; discriminate|].
      destruct lc; [|discriminate]. inversion H'; subst. destruct lb; discriminate.
    + exfalso. destruct lb; [inversion H; subst; discriminate|].
      destruct ld; [|discriminate]. inversion H'; subst. destruct la; discriminate.
    + rewrite !pwl_cons2. cbn [fst snd].
      assert (Hp : fst p == fst p' /\ snd p == snd p').
      { destruct la; [discriminate|]. destruct lc; [discriminate|]. destruct lb; [discriminate|]. destruct ld; [discriminate|].
        cbn in Ep, Ep'. inversion Ep; inversion Ep'; subst. inversion H; inversion H'; subst. auto. }
      destruct Hp as [Hp1 Hp2].
      replace (Qle_bool y b) with (Qle_bool y a).
      2:{ destruct (Qle_bool y a) eqn:Eb; symmetry.
          - apply Qle_bool_iff in Eb. apply Qle_bool_iff. lra.
          - apply Qle_bool_false in Eb. apply Qle_bool_false. lra. }
      destruct (Qle_bool y a); [auto|].
      replace (Qle_bool y (fst p')) with (Qle_bool y (fst p)).
      2:{ destruct (Qle_bool y (fst p)) eqn:Eb; symmetry.
          - apply Qle_bool_iff in Eb. apply Qle_bool_iff. lra.
          - apply Qle_bool_false in Eb. apply Qle_bool_false. lra. }
      destruct (Qle_bool y (fst p)); [|exact IH].
      unfold line_through; cbn [fst snd]. rewrite Hab, Hcd, Hp1, Hp2. reflexivity.
Qed.

(** ** The compressor's map evaluation *)

(** Inside the table (x above the first and not above the last speed line) the
    arrays are fresh and the map survives. *)
Lemma compressor_map_frame_inside c x y ky kz xi xj i :
  cm_ok c -> nth_error (cm_x c) i = Some xi -> nth_error (cm_x c) (S i) = Some xj ->
  xi < x -> x <= xj -> fst (compressor_map c x y ky kz) = c.
Proof.
  intros Hc Hi Hj L1 L2. unfold compressor_map.
  assert (HI : increasing (cm_x c)) by apply Hc.
  assert (Hs : searchsorted (cm_x c) x = S i).
  { pose proof (searchsorted_le_length (cm_x c) x) as HL.
    destruct (lt_eq_lt_dec (searchsorted (cm_x c) x) (S i)) as [[L|L]|L]; [exfalso|auto|exfalso].
    - destruct (nth_error_lt (cm_x c) (searchsorted (cm_x c) x)) as (a & Ha).
      { assert (S i < length (cm_x c))%nat by (apply nth_error_Some; congruence). lia. }
      pose proof (searchsorted_at _ _ _ Ha).
      assert (a <= xi) by (eapply (increasing_nth_le (cm_x c) _ i); eauto; lia). lra.
    - pose proof (searchsorted_below _ _ _ _ Hj L). lra. }
  assert (HLj : (S i < length (cm_x c))%nat) by (apply nth_error_Some; congruence).
  unfold cm_evaluate_x. rewrite Hs.
  replace (Nat.eqb (S i) (length (cm_x c))) with false by (symmetry; apply Nat.eqb_neq; lia).
  cbn [Nat.eqb].
  destruct (pyidx (cm_x c) (Z.of_nat (S i) - 1)); cbn [rbind fst]; [|reflexivity].
  destruct (pyidx (cm_x c) (Z.of_nat (S i))); cbn [rbind fst]; [|reflexivity].
  destruct (Qeq_bool (a0 - a) 0); [reflexivity|].
  destruct (pyidx (cm_y c) (Z.of_nat (S i) - 1)); cbn [rbind fst]; [|reflexivity].
  destruct (pyidx (cm_y c) (Z.of_nat (S i))); cbn [rbind fst]; [|reflexivity].
  destruct (pyidx (cm_z c) (Z.of_nat (S i) - 1)); cbn [rbind fst]; [|reflexivity].
  destruct (pyidx (cm_z c) (Z.of_nat (S i))); cbn [rbind fst]; [|reflexivity].
  cbn [scale_inplace fst]. destruct c; reflexivity.
Qed.

(** With factor one (igva = 0) the map's numbers survive everywhere. *)
Lemma Forall2_Qeq_refl l : Forall2 Qeq l l.
Proof. induction l; constructor; auto; reflexivity. Qed.
Lemma tables_eq_refl t : tables_eq t t.
Proof. unfold tables_eq. induction t; constructor; auto. apply Forall2_Qeq_refl. Qed.

Lemma scale_one_row k l : k == 1 -> Forall2 Qeq l (map (fun v => v * k) l).
Proof. intros Hk. induction l; cbn; constructor; auto. rewrite Hk. ring. Qed.

Lemma skipn_S {A} r (t : list A) h tl : skipn r t = h :: tl -> skipn (S r) t = tl.
Proof.
  revert t; induction r as [|r IH]; intros [|a t]; intros H; try discriminate.
  - cbn in *. inversion H; auto.
  - cbn [skipn] in H. apply IH in H. exact H.
Qed.

Lemma scale_inplace_one t a k :
  k == 1 -> (forall r, a = View r -> (r < length t)%nat) -> tables_eq t (fst (scale_inplace t a k)).
Proof.
  intros Hk Hr. destruct a as [r|l]; [|apply tables_eq_refl].
  cbn [scale_inplace fst]. specialize (Hr r eq_refl).
  rewrite <- (firstn_skipn r t) at 1.
  apply Forall2_app; [apply tables_eq_refl|].
  destruct (skipn r t) as [|h tl] eqn:E.
  - apply (f_equal (@length _)) in E. rewrite skipn_length in E. cbn in E. lia.
  - assert (Hh : nth r t [] = h).
    { rewrite <- (firstn_skipn r t), E. rewrite app_nth2; rewrite firstn_length_le by lia; [|lia].
      now rewrite Nat.sub_diag. }
    assert (Ht : skipn (S r) t = tl).
    { exact (skipn_S r t h tl E). }
    rewrite Hh, Ht. constructor; [now apply scale_one_row|apply tables_eq_refl].
Qed.

Lemma compressor_map_frame_igva0 c x y ky kz :
  cm_ok c -> ky == 1 -> kz == 1 -> map_eq c (fst (compressor_map c x y ky kz)).
Proof.
  intros Hc Hy Hz. unfold compressor_map.
  destruct (cm_evaluate_x c x) as [[ya za]|e] eqn:E.
  2:{ split; [auto|]. split; apply tables_eq_refl. }
  assert (HV : (forall r, ya = View r -> (r < length (cm_y c))%nat) /\
               (forall r, za = View r -> (r < length (cm_z c))%nat)).
  { unfold cm_evaluate_x in E.
    pose proof (searchsorted_le_length (cm_x c) x) as HL.
    destruct Hc as [Hne _ HLy HLz _ _].
    assert (0 < length (cm_x c))%nat by (destruct (cm_x c); [congruence|cbn; lia]).
    destruct (Nat.eqb (searchsorted (cm_x c) x) (length (cm_x c))) eqn:E1.
    - apply Nat.eqb_eq in E1. destruct (Nat.eqb (searchsorted (cm_x c) x) 0); [discriminate|].
      inversion E; subst. split; intros r Hr; inversion Hr; subst; lia.
    - destruct (Nat.eqb (searchsorted (cm_x c) x) 0).
      + inversion E; subst. split; intros r Hr; inversion Hr; subst; lia.
      + repeat match type of E with
        | rbind ?r _ = _ => destruct r; cbn [rbind] in E; [|discriminate]
        | (if ?b then _ else _) = _ => destruct b; [discriminate|]
        end.
        inversion E; subst. split; intros r Hr; discriminate. }
  destruct HV as [V1 V2].
  pose proof (scale_inplace_one (cm_y c) ya ky Hy V1) as T1.
  pose proof (scale_inplace_one (cm_z c) za kz Hz V2) as T2.
  destruct (scale_inplace (cm_y c) ya ky) as [ty ya']. destruct (scale_inplace (cm_z c) za kz) as [tz za'].
  cbn [fst] in *. split; [reflexivity|]. cbn [cm_y cm_z]. auto.
Qed.

(** Witness of the corruption. *)
Definition wmap : charmap :=
  {| cm_x := [8#10; 1]; cm_y := [[1; 2]; [1; 2]]; cm_z := [[4; 2]; [4; 2]] |}.

Lemma wmap_ok : cm_ok wmap.
Proof.
  constructor; cbn; try congruence; try lia.
  - repeat constructor; reflexivity.
  - exists 2%nat. split; [lia|]. split; intros r [<-|[<-|[]]]; reflexivity.
  - intros r [<-|[<-|[]]]; repeat constructor; reflexivity.
Qed.

Lemma compressor_map_corrupts :
  exists c1 v1 v2,
    char_map_pr wmap (11#10) (3#2) 10 = (c1, Ok v1) /\
    snd (char_map_pr c1 (11#10) (3#2) 10) = Ok v2 /\
    ~ map_eq wmap c1 /\ ~ v1 == v2.
Proof.
  do 3 eexists. split; [vm_compute; reflexivity|]. split; [vm_compute; reflexivity|]. split.
  - intros (_ & H & _). inversion H as [|? ? ? ? _ H']; subst. inversion H' as [|? ? ? ? H'' _]; subst.
    inversion H'' as [|? ? ? ? H0 _]; subst. vm_compute in H0. discriminate.
  - vm_compute. discriminate.
Qed.

Definition wmap_value : Q :=
  match cm_evaluate wmap (9#10) (3#2) with Ok v => v | Err _ => 0 end.

Lemma char_maps_frame_inside c x y igva i xi xj :
  cm_ok c -> nth_error (cm_x c) i = Some xi -> nth_error (cm_x c) (S i) = Some xj ->
  xi < x -> x <= xj ->
  fst (char_map_pr c x y igva) = c /\ fst (char_map_eta_s c x y igva) = c.
Proof.
  intros Hc Hi Hj L1 L2.
  split; exact (compressor_map_frame_inside c x y _ _ xi xj i Hc Hi Hj L1 L2).
Qed.

Lemma char_maps_frame_igva0 c x y igva :
  cm_ok c -> igva == 0 ->
  map_eq c (fst (char_map_pr c x y igva)) /\ map_eq c (fst (char_map_eta_s c x y igva)).
Proof.
  intros Hc H. assert (E1 : 1 - igva / 100 == 1) by (rewrite H; reflexivity).
  assert (E2 : 1 - igva * igva / 10000 == 1) by (rewrite H; reflexivity).
  split; apply compressor_map_frame_igva0; auto.
Qed.

Lemma CharLine_new_spec xs ys ex :
  (length xs = length ys -> CharLine_new xs ys ex = Ok (pts_line (combine xs ys) ex)) /\
  (length xs <> length ys -> CharLine_new xs ys ex = Err ValueError).
Proof.
  unfold CharLine_new. split; intros H.
  - rewrite pts_line_combine by auto. apply Nat.eqb_eq in H. now rewrite H.
  - apply Nat.eqb_neq in H. now rewrite H.
Qed.
