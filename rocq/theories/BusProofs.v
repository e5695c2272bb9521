(** Proofs about busses. *)
From Coq Require Import QArith Qabs Qfield Lqa List Lia.
From Verif Require Import BusModel BusSpec NewtonProofs.
Import ListNotations.
Open Scope Q_scope.

(* ------------------------------------------------------ characteristic lines *)

Lemma number_constant : forall v, constant_char (char_of_number v) v.
Proof.
  intros v x. unfold cl_evaluate, char_of_number. cbn [cl_x cl_y cl_extrapolate searchsorted].
  destruct (Qle_bool x 0) eqn:A.
  - cbn. exists (1 * v). split; [reflexivity | ring].
  - destruct (Qle_bool x 3) eqn:B.
    + cbn. eexists. split; [reflexivity | ring].
    + cbn. exists (1 * v). split; [reflexivity | ring].
Qed.

Lemma qle_bool_compat : forall a b c, a == b -> Qle_bool a c = Qle_bool b c.
Proof.
  intros a b c E. destruct (Qle_bool a c) eqn:A, (Qle_bool b c) eqn:B; try reflexivity.
  - apply Qle_bool_iff in A. rewrite E in A. apply Qle_bool_iff in A. congruence.
  - apply Qle_bool_iff in B. rewrite <- E in B. apply Qle_bool_iff in B. congruence.
Qed.

Lemma searchsorted_compat : forall xs a b, a == b -> searchsorted xs a = searchsorted xs b.
Proof.
  induction xs as [| x xs IH]; intros a b E; cbn; [reflexivity |].
  rewrite (qle_bool_compat a b x E). rewrite (IH a b E). reflexivity.
Qed.

(** equal up to == *)
Definition req (r s : res Q) : Prop :=
  match r, s with
  | Ok a, Ok b => a == b
  | Err x, Err y => x = y
  | _, _ => False
  end.

Lemma interp_compat : forall xs ys a b p, a == b -> req (interp xs ys a p) (interp xs ys b p).
Proof.
  intros xs ys a b p E. unfold interp.
  destruct (pyidx xs (p - 1)) as [x0 |]; cbn [rbind]; [| reflexivity].
  destruct (pyidx xs p) as [x1 |]; cbn [rbind]; [| reflexivity].
  destruct (Qeq_bool (x1 - x0) 0) eqn:Z; [reflexivity |].
  destruct (pyidx ys (p - 1)) as [y0 |]; cbn [rbind]; [| reflexivity].
  destruct (pyidx ys p) as [y1 |]; cbn [rbind]; [| reflexivity].
  cbn [req]. rewrite E. reflexivity.
Qed.

Lemma req_refl : forall r, req r r.
Proof. intros [a | x]; cbn; [reflexivity | reflexivity]. Qed.

Lemma evaluate_compat : forall c a b, a == b -> req (cl_evaluate c a) (cl_evaluate c b).
Proof.
  intros c a b E. unfold cl_evaluate. rewrite (searchsorted_compat _ a b E).
  destruct (Nat.eqb _ _); [destruct (cl_extrapolate c); [apply interp_compat; exact E | apply req_refl] |].
  destruct (Nat.eqb _ 0); [destruct (cl_extrapolate c); [apply interp_compat; exact E | apply req_refl] |].
  apply interp_compat; exact E.
Qed.

Lemma qdiv_ok : forall a b, ~ b == 0 -> qdiv a b = Ok (a / b).
Proof.
  intros a b H. unfold qdiv. destruct (Qeq_bool b 0) eqn:E; [| reflexivity].
  apply Qeq_bool_iff in E. contradiction.
Qed.

(* ------------------------------------------------------------- bus equation *)

Lemma solve_rows_values : forall iv col st rows e acc j r j',
  solve_rows iv col st rows e acc j = (r, j', None) ->
  exists vs, bus_values rows e vs /\ r == acc - qsum vs.
Proof.
  induction rows as [| b rows IH]; intros e acc j r j' H; cbn in H.
  - injection H as <- <-. exists []. split; [constructor | cbn; ring].
  - destruct (calc_bus_value b e) as [v |] eqn:V; [| discriminate H].
    destruct (bus_deriv iv col st b e j) as [j1 [x |]]; [discriminate H |].
    destruct (IH _ _ _ _ _ H) as (vs & F & E). exists (v :: vs). split.
    + constructor; assumption.
    + rewrite E. cbn [qsum]. ring.
Qed.

Lemma constant_expr_ok : forall b e eta, ~ eta == 0 -> constant_char (b_char b) eta ->
  exists x, calc_bus_expr b e = Ok x.
Proof.
  intros b e eta N C. unfold calc_bus_expr. destruct (b_pref b) as [ref |]; [| eexists; reflexivity].
  destruct (Qeq_bool ref 0) eqn:Z; [eexists; reflexivity |].
  assert (R : ~ ref == 0) by (intro Q; apply Qeq_bool_iff in Q; congruence).
  destruct (b_base b); [eexists; reflexivity |].
  set (a := bus_newton_args _ _ _).
  destruct (newton 14 a ref 10) as [[o | x] |] eqn:K; [eexists; reflexivity | |].
  - exfalso. assert (F : forall v, exists y, nk_f a v = Ok y).
    { intro v. unfold a; cbn [nk_f bus_newton_args]. unfold bus_char_evaluation.
      rewrite qdiv_ok by exact R. cbn [rbind]. destruct (C (v / ref)) as (y & E & Q).
      rewrite E. cbn [rbind]. rewrite qdiv_ok by (rewrite Q; exact N). cbn [rbind].
      eexists; reflexivity. }
    assert (D : forall v, exists y, nk_df a v = Ok y /\ y == 1).
    { intro v. unfold a; cbn [nk_df bus_newton_args]. unfold bus_char_derivative.
      rewrite qdiv_ok by exact R. cbn [rbind].
      destruct (C ((v + (1 # 1000)) / ref)) as (yu & Eu & Qu). rewrite Eu. cbn [rbind].
      rewrite qdiv_ok by (rewrite Qu; exact N). cbn [rbind].
      rewrite qdiv_ok by exact R. cbn [rbind].
      destruct (C ((v - (1 # 1000)) / ref)) as (yl & El & Ql). rewrite El. cbn [rbind].
      rewrite qdiv_ok by (rewrite Ql; exact N). cbn [rbind].
      eexists. split; [reflexivity |]. rewrite Qu, Ql. field. exact N. }
    assert (G : forall fuel v it rl mi, newton_loop fuel a v it rl mi <> Some (Err x));
      [| exact (G _ _ _ _ _ K)].
    clear - F D. induction fuel as [| fuel IH]; intros v it rl mi K; cbn [newton_loop] in K; [discriminate |].
    destruct (F v) as (y & E). rewrite E in K. destruct (D v) as (d & E' & Q). rewrite E' in K.
    destruct (Qeq_bool d 0) eqn:Z.
    + apply Qeq_bool_iff in Z. rewrite Q in Z. discriminate Z.
    + destruct (if Nat.eqb (S it) 5 then _ else _) as [rl' mi'].
      destruct (Nat.ltb mi' (S it)); [discriminate |].
      destruct (not_converged a (nk_target a - y)); [eapply IH; exact K | discriminate].
  - exfalso. eapply newton_terminates; exact K.
Qed.

Definition gain (b : brow) (eta : Q) : Q :=
  match b_base b with BaseComponent => eta | BaseBus => / eta end.

Lemma constant_value : forall b e eta, ~ eta == 0 -> constant_char (b_char b) eta ->
  exists v, calc_bus_value b e = Ok v /\ v == gain b eta * bus_func (b_comp b) e.
Proof.
  intros b e eta N C. unfold calc_bus_value, gain.
  destruct (constant_expr_ok b e eta N C) as (x & E). rewrite E. cbn [rbind].
  destruct (C x) as (y & Y & Q). rewrite Y. cbn [rbind]. destruct (b_base b).
  - eexists. split; [reflexivity |]. rewrite Q. ring.
  - rewrite qdiv_ok by (rewrite Q; exact N). eexists. split; [reflexivity |].
    rewrite Q. field. exact N.
Qed.

(* ------------------------------------------------------------------- slopes *)

Definition dlt (k j : nat) (v : Q) : Q := if Nat.eqb k j then v else 0.

Definition fslope (e : env) (m hi ho k : nat) : Q :=
  dlt k m (e ho - e hi) + dlt k ho (e m) - dlt k hi (e m).

Lemma flow_slope : forall e m hi ho k, NoDup [m; hi; ho] ->
  slope_at (fun e => flow_val e m hi ho) e k (fslope e m hi ho k).
Proof.
  intros e m hi ho k H d. unfold flow_val, fslope, dlt, upd.
  apply NoDup_cons_iff in H. destruct H as (N1 & H).
  apply NoDup_cons_iff in H. destruct H as (N2 & _). cbn in N1, N2.
  assert (A : m <> hi) by (intro; subst; tauto). assert (B : m <> ho) by (intro; subst; tauto).
  assert (C : hi <> ho) by (intro; subst; tauto).
  rewrite (Nat.eqb_sym k m), (Nat.eqb_sym k hi), (Nat.eqb_sym k ho).
  destruct (Nat.eqb_spec m k), (Nat.eqb_spec hi k), (Nat.eqb_spec ho k);
    subst; try congruence; ring.
Qed.

Definition bslope (c : bcomp) (e : env) (k : nat) : Q :=
  match c with
  | CFlow false m hi ho => fslope e m hi ho k
  | CFlow true m hi ho => - fslope e m hi ho k
  | CEngineQ m1 hi1 ho1 m2 hi2 ho2 => 0 - fslope e m1 hi1 ho1 k - fslope e m2 hi2 ho2 k
  | CElectrolyzerQ m hi ho => - fslope e m hi ho k
  | CNone => 0
  end.

Lemma nodup6 : forall a b c d e f : nat, NoDup [a; b; c; d; e; f] ->
  NoDup [a; b; c] /\ NoDup [d; e; f].
Proof.
  intros a b c d e f H.
  repeat match goal with X : NoDup (_ :: _) |- _ => apply NoDup_cons_iff in X; destruct X end.
  split; repeat constructor; cbn in *; tauto.
Qed.

Lemma func_slope : forall c e k, regular c -> slope_at (bus_func c) e k (bslope c e k).
Proof.
  intros [neg m hi ho | m1 hi1 ho1 m2 hi2 ho2 | |] e k H d; cbn [regular] in H; try contradiction.
  - assert (F := flow_slope e m hi ho k H d). cbn in F. destruct neg; cbn [bus_func bslope]; rewrite F; ring.
  - destruct (nodup6 _ _ _ _ _ _ H) as [H1 H2].
    assert (F1 := flow_slope e m1 hi1 ho1 k H1 d). assert (F2 := flow_slope e m2 hi2 ho2 k H2 d).
    cbn in F1, F2. cbn [bus_func bslope]. rewrite F1, F2. ring.
Qed.

Lemma dlt_other : forall k j v, k <> j -> dlt k j v = 0.
Proof. intros k j v N. unfold dlt. destruct (Nat.eqb_spec k j); [contradiction | reflexivity]. Qed.

Lemma slope_outside : forall c e k vars, regular c -> deriv_vars c = Some vars ->
  ~ In k vars -> bslope c e k == 0.
Proof.
  intros [neg m hi ho | m1 hi1 ho1 m2 hi2 ho2 | |] e k vars H D N; cbn [regular] in H; try contradiction;
    cbn [deriv_vars] in D; injection D as <-; cbn in N;
    [destruct neg |]; cbn [bslope]; unfold fslope; rewrite !dlt_other by (intro; subst; tauto); ring.
Qed.

Section U.
Variable iv : nat -> bool.
Variable col : nat -> nat.
Variable st : nat -> Q.
Hypothesis st_pos : forall k, 0 < st k.
Hypothesis col_inj : forall k l, iv k = true -> iv l = true -> col k = col l -> k = l.

Lemma row_jsub : forall c c' v j,
  row_value c (jsub c' v j) == if Nat.eqb c c' then row_value c j - v else row_value c j.
Proof.
  induction j as [| [a w] j IH].
  - cbn [jsub row_value]. destruct (Nat.eqb c c'); ring.
  - cbn [jsub]. destruct (Nat.eqb_spec c' a) as [-> | Na]; cbn [row_value].
    + destruct (Nat.eqb_spec c a); reflexivity.
    + destruct (Nat.eqb_spec c a) as [-> | Nc]; [| exact IH].
      destruct (Nat.eqb_spec a c'); [congruence | reflexivity].
Qed.

Lemma numeric_slope : forall b e k eta, ~ eta == 0 -> constant_char (b_char b) eta ->
  regular (b_comp b) ->
  exists v, bus_numeric_deriv st b e k = Ok v /\ v == gain b eta * bslope (b_comp b) e k.
Proof.
  intros b e k eta N C R. unfold bus_numeric_deriv.
  destruct (constant_value b (upd e k (e k + st k)) eta N C) as (u & U & QU).
  destruct (constant_value b (upd e k (e k - st k)) eta N C) as (l & L & QL).
  rewrite U. cbn [rbind]. rewrite L. cbn [rbind]. eexists. split; [reflexivity |].
  rewrite QU, QL. change (e k - st k) with (e k + - st k).
  rewrite (func_slope (b_comp b) e k R (st k)), (func_slope (b_comp b) e k R (- st k)).
  assert (P := st_pos k). field. intro Z. rewrite Z in P. discriminate P.
Qed.

Lemma deriv_loop_ok : forall b e eta, ~ eta == 0 -> constant_char (b_char b) eta ->
  regular (b_comp b) ->
  forall vars j, NoDup vars -> exists j', deriv_loop iv col st b e vars j = (j', None)
    /\ forall k, iv k = true ->
       row_value (col k) j' ==
       row_value (col k) j - (if in_dec Nat.eq_dec k vars
                              then gain b eta * bslope (b_comp b) e k else 0).
Proof.
  intros b e eta N C R. induction vars as [| l vars IH]; intros j ND.
  - exists j. split; [reflexivity |]. intros k K. cbn. ring.
  - apply NoDup_cons_iff in ND. destruct ND as [NI ND]. cbn [deriv_loop].
    destruct (iv l) eqn:IL.
    + destruct (numeric_slope b e l eta N C R) as (v & V & Q). rewrite V.
      destruct (IH (jsub (col l) v j) ND) as (j' & E & H). exists j'. split; [exact E |].
      intros k K. rewrite (H k K). rewrite row_jsub.
      destruct (Nat.eqb_spec (col k) (col l)) as [Ec | Ec].
      * apply col_inj in Ec; [| exact K | exact IL]. subst l.
        destruct (in_dec Nat.eq_dec k vars) as [I | I]; [contradiction |].
        destruct (in_dec Nat.eq_dec k (k :: vars)) as [I' | I']; [| exfalso; apply I'; left; reflexivity].
        rewrite Q. ring.
      * assert (k <> l) by congruence.
        destruct (in_dec Nat.eq_dec k vars) as [I | I];
          destruct (in_dec Nat.eq_dec k (l :: vars)) as [I' | I']; cbn in I'; try tauto; try reflexivity.
        exfalso. destruct I'; [congruence | contradiction].
    + destruct (IH j ND) as (j' & E & H). exists j'. split; [exact E |]. intros k K. rewrite (H k K).
      assert (k <> l) by congruence.
      destruct (in_dec Nat.eq_dec k vars) as [I | I];
        destruct (in_dec Nat.eq_dec k (l :: vars)) as [I' | I']; cbn in I'; try tauto; try reflexivity.
      exfalso. destruct I'; [congruence | contradiction].
Qed.

Lemma regular_vars : forall c, regular c -> exists vars, deriv_vars c = Some vars /\ NoDup vars.
Proof.
  intros [neg m hi ho | m1 hi1 ho1 m2 hi2 ho2 | |] H; cbn [regular] in H; try contradiction;
    eexists; (split; [reflexivity | exact H]).
Qed.

Lemma bus_deriv_ok : forall b e eta j, ~ eta == 0 -> constant_char (b_char b) eta ->
  regular (b_comp b) ->
  exists j', bus_deriv iv col st b e j = (j', None)
    /\ forall k, iv k = true ->
       row_value (col k) j' == row_value (col k) j - gain b eta * bslope (b_comp b) e k.
Proof.
  intros b e eta j N C R. unfold bus_deriv.
  destruct (regular_vars _ R) as (vars & D & ND). rewrite D.
  destruct (deriv_loop_ok b e eta N C R vars j ND) as (j' & E & H). exists j'. split; [exact E |].
  intros k K. rewrite (H k K). destruct (in_dec Nat.eq_dec k vars) as [I | I]; [reflexivity |].
  rewrite (slope_outside _ e k vars R D I). ring.
Qed.

(** all of the sum at once *)
Lemma solve_rows_ok : forall rows, Forall plain_row rows -> forall e acc j,
  exists r j', solve_rows iv col st rows e acc j = (r, j', None).
Proof.
  induction 1 as [| b rows (R & eta & N & C) F IH]; intros e acc j; cbn [solve_rows].
  - exists acc, j. reflexivity.
  - destruct (constant_value b e eta N C) as (v & V & _). rewrite V.
    destruct (bus_deriv_ok b e eta j N C R) as (j1 & E & _). rewrite E. apply IH.
Qed.

Lemma solve_rows_slope : forall rows, Forall plain_row rows -> forall e k d acc acc' j j0,
  iv k = true ->
  exists r j' r' j'' s,
    solve_rows iv col st rows e acc j = (r, j', None)
    /\ solve_rows iv col st rows (upd e k (e k + d)) acc' j0 = (r', j'', None)
    /\ r' - acc' == r - acc + s * d
    /\ row_value (col k) j' == row_value (col k) j + s.
Proof.
  induction 1 as [| b rows (R & eta & N & C) F IH]; intros e k d acc acc' j j0 K; cbn [solve_rows].
  - exists acc, j, acc', j0, 0. split; [reflexivity | split; [reflexivity |]]. split; ring.
  - destruct (constant_value b e eta N C) as (v & V & QV). rewrite V.
    destruct (constant_value b (upd e k (e k + d)) eta N C) as (w & W & QW). rewrite W.
    destruct (bus_deriv_ok b e eta j N C R) as (j1 & E & H1). rewrite E.
    destruct (bus_deriv_ok b (upd e k (e k + d)) eta j0 N C R) as (j2 & E2 & _). rewrite E2.
    destruct (IH e k d (acc - v) (acc' - w) j1 j2 K) as (r & j' & r' & j'' & s & A & B & X & Y).
    exists r, j', r', j'', (s - gain b eta * bslope (b_comp b) e k).
    split; [exact A | split; [exact B | split]].
    + assert (G : r' - acc' == (r' - (acc' - w)) - w) by ring. rewrite G, X, QW, QV.
      rewrite (func_slope (b_comp b) e k R d). ring.
    + rewrite Y, (H1 k K). ring.
Qed.

Lemma bus_jacobian_exact : forall P rows e k, Forall plain_row rows -> iv k = true ->
  exists r j, bus_solve iv col st P rows e [] = (r, j, None)
    /\ forall d, exists r' j', bus_solve iv col st P rows (upd e k (e k + d)) [] = (r', j', None)
         /\ r' == r + row_value (col k) j * d.
Proof.
  intros P rows e k F K. unfold bus_solve.
  destruct (solve_rows_ok rows F e P []) as (r & j & E). exists r, j. split; [exact E |].
  intro d. destruct (solve_rows_slope rows F e k d P P [] [] K) as (r1 & j1 & r' & j' & s & A & B & X & Y).
  rewrite E in A. injection A as <- <-. exists r', j'. split; [exact B |].
  cbn [row_value] in Y. assert (S0 : row_value (col k) j == s) by (rewrite Y; ring).
  rewrite S0. assert (G : r' == (r' - P) + P) by ring. rewrite G, X. ring.
Qed.

(** Any characteristic: the entries are central differences of the residual. *)
Lemma func_outside : forall c e k x vars, regular c -> deriv_vars c = Some vars -> ~ In k vars ->
  bus_func c (upd e k x) = bus_func c e.
Proof.
  assert (U : forall e k x l, k <> l -> upd e k x l = e l).
  { intros e k x l N. unfold upd. destruct (Nat.eqb_spec l k); [congruence | reflexivity]. }
  intros [neg m hi ho | m1 hi1 ho1 m2 hi2 ho2 | |] e k x vars R D NI; cbn [regular] in R; try contradiction;
    cbn [deriv_vars] in D; injection D as <-; cbn [In] in NI;
    unfold bus_func, flow_val; try destruct neg;
    rewrite !U by (intro; subst; apply NI; tauto); reflexivity.
Qed.

Lemma value_outside : forall b e k x vars, regular (b_comp b) ->
  deriv_vars (b_comp b) = Some vars -> ~ In k vars ->
  calc_bus_value b (upd e k x) = calc_bus_value b e.
Proof.
  intros b e k x vars R D NI. unfold calc_bus_value, calc_bus_expr.
  rewrite !(func_outside (b_comp b) e k x vars R D NI). reflexivity.
Qed.

Lemma deriv_loop_central : forall b e k, iv k = true ->
  forall vars j j', NoDup vars -> deriv_loop iv col st b e vars j = (j', None) ->
  (In k vars -> exists v, bus_numeric_deriv st b e k = Ok v
     /\ row_value (col k) j' == row_value (col k) j - v)
  /\ (~ In k vars -> row_value (col k) j' == row_value (col k) j).
Proof.
  intros b e k K. induction vars as [| l vars IH]; intros j j' ND H; cbn [deriv_loop] in H.
  - injection H as <-. split; [intros [] | reflexivity].
  - apply NoDup_cons_iff in ND. destruct ND as [NI ND].
    destruct (iv l) eqn:IL.
    + destruct (bus_numeric_deriv st b e l) as [v |] eqn:V; [| discriminate H].
      destruct (IH _ _ ND H) as [A B]. rewrite row_jsub in B.
      destruct (Nat.eqb_spec (col k) (col l)) as [Ec | Ec].
      * apply col_inj in Ec; [| exact K | exact IL]. subst l. split.
        { intros _. exists v. split; [exact V |]. apply B. exact NI. }
        { intro X. exfalso. apply X. left. reflexivity. }
      * assert (N : l <> k) by congruence. split.
        { intros [X | X]; [contradiction |]. destruct (A X) as (w & W & Q).
          exists w. split; [exact W |]. rewrite row_jsub in Q.
          destruct (Nat.eqb_spec (col k) (col l)); [contradiction | exact Q]. }
        { intro X. apply B. intro Y. apply X. right. exact Y. }
    + assert (N : l <> k) by congruence.
      destruct (IH _ _ ND H) as [A B]. split.
      * intros [X | X]; [contradiction | exact (A X)].
      * intro X. apply B. intro Y. apply X. right. exact Y.
Qed.

Lemma solve_rows_central : forall e k, iv k = true ->
  forall rows acc j r j', Forall (fun b => regular (b_comp b)) rows ->
  solve_rows iv col st rows e acc j = (r, j', None) ->
  exists us ls, bus_values rows (upd e k (e k + st k)) us /\ bus_values rows (upd e k (e k - st k)) ls
    /\ row_value (col k) j' == row_value (col k) j - (qsum us - qsum ls) / (2 * st k).
Proof.
  intros e k K. induction rows as [| b rows IH]; intros acc j r j' F H; cbn [solve_rows] in H.
  - injection H as <- <-. exists [], []. split; [constructor | split; [constructor |]]. cbn [qsum].
    field. specialize (st_pos k). lra.
  - apply Forall_cons_iff in F. destruct F as [R F].
    destruct (calc_bus_value b e) as [v |] eqn:V; [| discriminate H].
    destruct (regular_vars _ R) as (vars & D & ND). unfold bus_deriv in H. rewrite D in H.
    destruct (deriv_loop iv col st b e vars j) as [j1 [x |]] eqn:L; [discriminate H |].
    destruct (IH _ _ _ _ F H) as (us & ls & A & B & Q).
    destruct (deriv_loop_central b e k K vars j j1 ND L) as [C1 C2].
    destruct (in_dec Nat.eq_dec k vars) as [I | I].
    + destruct (C1 I) as (w & W & QW). unfold bus_numeric_deriv in W.
      destruct (calc_bus_value b (upd e k (e k + st k))) as [u |] eqn:EU; cbn [rbind] in W; [| discriminate W].
      destruct (calc_bus_value b (upd e k (e k - st k))) as [l |] eqn:EL; cbn [rbind] in W; [| discriminate W].
      injection W as <-. exists (u :: us), (l :: ls).
      split; [constructor; assumption | split; [constructor; assumption |]].
      rewrite Q, QW. cbn [qsum]. field. specialize (st_pos k). lra.
    + exists (v :: us), (v :: ls).
      split; [constructor; [rewrite (value_outside b e k _ vars R D I); exact V | exact A] |].
      split; [constructor; [rewrite (value_outside b e k _ vars R D I); exact V | exact B] |].
      rewrite Q, (C2 I). cbn [qsum]. field. specialize (st_pos k). lra.
Qed.

Lemma bus_jacobian_central : forall P rows e k r j,
  Forall (fun b => regular (b_comp b)) rows -> iv k = true ->
  bus_solve iv col st P rows e [] = (r, j, None) ->
  exists us ls, bus_values rows (upd e k (e k + st k)) us /\ bus_values rows (upd e k (e k - st k)) ls
    /\ row_value (col k) j == ((P - qsum us) - (P - qsum ls)) / (2 * st k).
Proof.
  intros P rows e k r j F K H.
  destruct (solve_rows_central e k K rows P [] r j F H) as (us & ls & A & B & Q).
  exists us, ls. split; [exact A | split; [exact B |]]. rewrite Q. cbn [row_value].
  field. specialize (st_pos k). lra.
Qed.

End U.

(* --------------------------------------------------------------- design point *)

Lemma newton_at_solution : forall a x fx d,
  nk_f a x = Ok fx -> fx == nk_target a -> nk_df a x = Ok d -> ~ d == 0 ->
  nk_valmin a <= x <= nk_valmax a -> eff_mode a = ModeAbs -> 0 < nk_tol_abs a ->
  exists o, newton 14 a x 10 = Some (Ok o) /\ no_x o == x.
Proof.
  intros a x fx d F Z D N [L U] M T. unfold newton. cbn [newton_loop].
  rewrite F, D. destruct (Qeq_bool d 0) eqn:Q; [apply Qeq_bool_iff in Q; contradiction |].
  cbn [Nat.eqb Nat.ltb Nat.leb].
  assert (R : nk_target a - fx == 0) by (rewrite Z; ring).
  assert (NC : not_converged a (nk_target a - fx) = false).
  { unfold not_converged. rewrite M. cbn [orb].
    destruct (Qle_bool (nk_tol_abs a) (Qabs (nk_target a - fx))) eqn:Q'; [| reflexivity].
    apply Qle_bool_iff in Q'. rewrite R in Q'. cbn in Q'. lra. }
  rewrite NC. eexists. split; [reflexivity |]. cbn [no_x].
  apply clamp_id; [exact L | exact U |]. rewrite R. field. exact N.
Qed.

Lemma bus_eff_mode : forall cv ch ref, eff_mode (bus_newton_args cv ch ref) = ModeAbs.
Proof. reflexivity. Qed.

Lemma ref_load : forall ref, ~ ref == 0 -> ref / ref == 1.
Proof. intros. field. assumption. Qed.

(** the reference value written by a design calculation reproduces the bus value *)
Lemma design_point : forall b e b' cv bv eff,
  process_row Design (reset_pref b) e = Ok (b', (cv, bv, eff)) ->
  (b_base b = BaseBus -> forall ref, b_pref b' = Some ref -> ~ ref == 0 ->
     ~ eff == 0
     /\ (exists d, bus_char_derivative cv (b_char b) ref ref = Ok d /\ ~ d == 0)
     /\ - (1000000000000000 # 1) <= ref <= 1000000000000000 # 1) ->
  req (calc_bus_value b' e) (Ok bv) /\ req (calc_bus_efficiency b' e) (Ok eff)
  /\ req (calc_bus_expr b' e) (Ok 1).
Proof.
  intros b e b' cv bv eff H G. unfold process_row in H.
  assert (X : calc_bus_expr (reset_pref b) e = Ok 1) by reflexivity.
  unfold calc_bus_value, calc_bus_efficiency in H. rewrite X in H. clear X. cbn [rbind] in H.
  cbn [reset_pref b_char b_comp b_base] in H.
  destruct (cl_evaluate (b_char b) 1) as [y |] eqn:Y; cbn [rbind] in H; [| discriminate H].
  destruct (b_base b) eqn:B.
  - cbn [rbind] in H. injection H as <- <- <- <-.
    assert (E : req (calc_bus_expr {| b_comp := b_comp b; b_base := BaseComponent; b_char := b_char b;
              b_pref := Some (bus_func (b_comp b) e) |} e) (Ok 1)).
    { unfold calc_bus_expr; cbn [b_pref b_base b_comp].
      destruct (Qeq_bool (bus_func (b_comp b) e) 0) eqn:Z; [cbn; reflexivity |].
      assert (NZ : ~ bus_func (b_comp b) e == 0) by (intro Q; apply Qeq_bool_iff in Q; congruence).
      cbn [req]. rewrite (ref_load _ NZ). reflexivity. }
    revert E. unfold calc_bus_value, calc_bus_efficiency. cbn [b_char b_base b_comp].
    destruct (calc_bus_expr _ e) as [x |]; cbn [req rbind]; [| intros []]. intro E.
    assert (K := evaluate_compat (b_char b) x 1 E). rewrite Y in K.
    destruct (cl_evaluate (b_char b) x) as [y' |]; cbn [req rbind] in *; [| contradiction].
    split; [rewrite K; reflexivity | split; [exact K | exact E]].
  - destruct (qdiv (bus_func (b_comp b) e) y) as [bv' |] eqn:D; cbn [rbind] in H; [| discriminate H].
    injection H as <- <- <- <-.
    assert (E : req (calc_bus_expr {| b_comp := b_comp b; b_base := BaseBus; b_char := b_char b;
              b_pref := Some bv' |} e) (Ok 1)).
    { unfold calc_bus_expr; cbn [b_pref b_base b_comp b_char].
      destruct (Qeq_bool bv' 0) eqn:Z; [cbn; reflexivity |].
      assert (NZ : ~ bv' == 0) by (intro Q; apply Qeq_bool_iff in Q; congruence).
      destruct (G eq_refl bv' eq_refl NZ) as (NE & (d & Dd & Nd) & Bd).
      set (a := bus_newton_args (bus_func (b_comp b) e) (b_char b) bv').
      assert (F : exists fx, nk_f a bv' = Ok fx /\ fx == nk_target a).
      { unfold a; cbn [nk_f nk_target bus_newton_args]. unfold bus_char_evaluation.
        rewrite qdiv_ok by exact NZ. cbn [rbind].
        assert (K := evaluate_compat (b_char b) (bv' / bv') 1 (ref_load _ NZ)). rewrite Y in K.
        destruct (cl_evaluate (b_char b) (bv' / bv')) as [y' |]; cbn [req] in K; [| contradiction].
        cbn [rbind]. rewrite qdiv_ok by (rewrite K; exact NE). cbn [rbind].
        eexists. split; [reflexivity |]. rewrite qdiv_ok in D by exact NE. injection D as D.
        rewrite K, <- D. ring. }
      destruct F as (fx & F & Q).
      destruct (newton_at_solution a bv' fx d F Q Dd Nd Bd (bus_eff_mode _ _ _) eq_refl) as (o & O & QO).
      rewrite O. cbn [req]. rewrite QO. apply ref_load. exact NZ. }
    revert E. unfold calc_bus_value, calc_bus_efficiency. cbn [b_char b_base b_comp].
    destruct (calc_bus_expr _ e) as [x |]; cbn [req rbind]; [| intros []]. intro E.
    assert (K := evaluate_compat (b_char b) x 1 E). rewrite Y in K.
    destruct (cl_evaluate (b_char b) x) as [y' |]; cbn [req rbind] in *; [| contradiction].
    split; [| split; [exact K | exact E]].
    unfold qdiv in *. destruct (Qeq_bool y 0) eqn:Zy; [discriminate D |]. injection D as <-.
    destruct (Qeq_bool y' 0) eqn:Zy'; cbn [req].
    + apply Qeq_bool_iff in Zy'. rewrite K in Zy'. apply Qeq_bool_iff in Zy'. congruence.
    + rewrite K. reflexivity.
Qed.

(* -------------------------------------------------------- overwritten power *)

Lemma fold_add : forall (A : Type) (g : A -> Q) l acc,
  fold_left (fun a r => a + g r) l acc == acc + qsum (map g l).
Proof.
  induction l as [| x l IH]; intro acc; cbn [fold_left map qsum]; [ring |]. rewrite IH. ring.
Qed.

Lemma rmapM_values : forall md e rows rs,
  rmapM (fun b => process_row md b e) rows = Ok rs ->
  bus_values rows e (map (fun r => snd (fst (snd r))) rs).
Proof.
  induction rows as [| b rows IH]; intros rs H; cbn [rmapM] in H.
  - injection H as <-. constructor.
  - destruct (process_row md b e) as [[b' [[cv bv] eff]] |] eqn:P; cbn [rbind] in H; [| discriminate H].
    destruct (rmapM _ rows) as [rs' |]; cbn [rmap] in H; [| discriminate H].
    injection H as <-. cbn [map snd fst]. constructor; [| apply IH; reflexivity].
    unfold process_row in P. destruct (calc_bus_value b e) as [v |]; cbn [rbind] in P; [| discriminate P].
    destruct (calc_bus_efficiency b e) as [f |]; cbn [rbind] in P; [| discriminate P].
    injection P as _ _ -> _. reflexivity.
Qed.

Lemma process_bus_power : forall md s e s' res,
  process_bus md s e = Ok (s', res) ->
  exists vs, bus_values (bs_rows s) e vs /\ bs_P s' == qsum vs /\ bs_P_set s' = bs_P_set s.
Proof.
  intros md s e s' res H. unfold process_bus in H.
  destruct (rmapM _ (bs_rows s)) as [rs |] eqn:R; cbn [rbind] in H; [| discriminate H].
  injection H as <- _. exists (map (fun r => snd (fst (snd r))) rs).
  split; [eapply rmapM_values; exact R | split; [| reflexivity]].
  cbn [bs_P]. rewrite (fold_add _ (fun r => snd (fst (snd r)))). ring.
Qed.

Lemma bus_values_fun : forall rows e vs vs',
  bus_values rows e vs -> bus_values rows e vs' -> vs = vs'.
Proof.
  unfold bus_values. intros rows e vs vs' A. revert vs'.
  induction A as [| b v rows vs Hv A IH]; intros vs' A'; inversion A'; subst; [reflexivity |].
  f_equal; [congruence | apply IH; assumption].
Qed.

Lemma power_drift : forall iv col st md s e j s' res r j',
  bus_solve iv col st (bs_P s) (bs_rows s) e j = (r, j', None) ->
  process_bus md s e = Ok (s', res) ->
  bs_P s' == bs_P s - r.
Proof.
  intros iv col st md s e j s' res r j' H H'.
  destruct (solve_rows_values _ _ _ _ _ _ _ _ _ H) as (vs & A & E).
  destruct (process_bus_power _ _ _ _ _ H') as (vs' & A' & E' & _).
  rewrite (bus_values_fun _ _ _ _ A A') in E. rewrite E, E'. ring.
Qed.

(* ------------------------------------------------------------- stale columns *)

Lemma row_clear : forall c j, row_value c (clear_jacobian j) == 0.
Proof.
  induction j as [| [a v] j IH]; cbn; [reflexivity |]. destruct (Nat.eqb c a); [reflexivity | exact IH].
Qed.

Lemma deriv_loop_row : forall iv col st b e vars j1 j2 j1' c,
  (forall c, row_value c j1 == row_value c j2) ->
  deriv_loop iv col st b e vars j1 = (j1', None) ->
  exists j2', deriv_loop iv col st b e vars j2 = (j2', None)
    /\ row_value c j1' == row_value c j2'.
Proof.
  intros iv col st b e. induction vars as [| k vars IH]; intros j1 j2 j1' c R H; cbn [deriv_loop] in *.
  - injection H as <-. exists j2. split; [reflexivity | apply R].
  - destruct (iv k); [| eapply IH; eassumption].
    destruct (bus_numeric_deriv st b e k) as [v |]; [| discriminate H].
    eapply IH; [| exact H]. intro c'. rewrite !row_jsub. destruct (Nat.eqb c' (col k)); rewrite R; reflexivity.
Qed.

Lemma solve_rows_row : forall iv col st rows e acc j1 j2 r j1' c,
  (forall c, row_value c j1 == row_value c j2) ->
  solve_rows iv col st rows e acc j1 = (r, j1', None) ->
  exists j2', solve_rows iv col st rows e acc j2 = (r, j2', None)
    /\ row_value c j1' == row_value c j2'.
Proof.
  intros iv col st. induction rows as [| b rows IH]; intros e acc j1 j2 r j1' c R H; cbn [solve_rows] in *.
  - injection H as <- <-. exists j2. split; [reflexivity | apply R].
  - destruct (calc_bus_value b e) as [v |]; [| discriminate H].
    unfold bus_deriv in *. destruct (deriv_vars (b_comp b)) as [vars |]; [| discriminate H].
    destruct (deriv_loop iv col st b e vars j1) as [ja [x |]] eqn:D; [discriminate H |].
    assert (G : exists jb, deriv_loop iv col st b e vars j2 = (jb, None)
              /\ forall c, row_value c ja == row_value c jb).
    { destruct (deriv_loop_row iv col st b e vars j1 j2 ja 0%nat R D) as (jb & D2 & _).
      exists jb. split; [exact D2 |]. intro c'.
      destruct (deriv_loop_row iv col st b e vars j1 j2 ja c' R D) as (jb' & D2' & E).
      rewrite D2 in D2'. injection D2' as <-. exact E. }
    destruct G as (jb & D2 & R'). rewrite D2. eapply IH; [exact R' | exact H].
Qed.

(** keys that are inside the matrix do no harm *)
Lemma stale_zero_harmless : forall iv col st n P rows e j r row jn c,
  (forall c, row_value c j == 0) ->
  solve_bus iv col st n P rows e j = (Ok (r, row), jn) ->
  exists row', bus_solve iv col st P rows e [] = (r, row', None)
    /\ row_value c row == row_value c row' /\ forall c, row_value c jn == 0.
Proof.
  intros iv col st n P rows e j r row jn c Z H. unfold solve_bus, bus_solve in *.
  destruct (solve_rows iv col st rows e P j) as [[r1 j1] [x |]] eqn:E; [discriminate H |].
  destruct (forallb _ j1); [| discriminate H]. injection H as <- <- <-.
  destruct (solve_rows_row iv col st rows e P j [] r1 j1 c) as (row' & A & B); [| exact E |].
  - intro c'. rewrite Z. reflexivity.
  - exists row'. split; [exact A | split; [exact B |]]. intro c'. apply row_clear.
Qed.

(** the bus value is not consistent with the efficiency at that value (P_ref = 1) *)
Definition osc_check (b : brow) (e : env) : bool :=
  match calc_bus_value b e with
  | Ok v => match cl_evaluate (b_char b) (v / 1) with
            | Ok yv => negb (Qle_bool (Qabs (v - bus_func (b_comp b) e / yv)) 1)
            | Err _ => false
            end
  | Err _ => false
  end.
Lemma osc_check_sound : forall b e, osc_check b e = true ->
  exists v yv, calc_bus_value b e = Ok v /\ cl_evaluate (b_char b) (v / 1) = Ok yv
    /\ 1 < Qabs (v - bus_func (b_comp b) e / yv).
Proof.
  intros b e H. unfold osc_check in H.
  destruct (calc_bus_value b e) as [v |] eqn:V; [| discriminate H].
  destruct (cl_evaluate (b_char b) (v / 1)) as [yv |] eqn:Y; [| discriminate H].
  exists v, yv. repeat split; try assumption.
  apply Qnot_le_lt. intro L. apply Qle_bool_iff in L. rewrite L in H. discriminate H.
Qed.
