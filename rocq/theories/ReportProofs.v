(** Proofs about reported parameters and mean temperature differences. *)
From Coq Require Import Reals Lra Bool.
From Verif Require Import Base ReportModel ReportSpec.
Open Scope R_scope.

Lemma leb_t : forall a b, a <= b -> leb a b = true.
Proof. intros a b H. unfold leb. destruct (Rle_dec a b); [reflexivity | lra]. Qed.
Lemma leb_f : forall a b, b < a -> leb a b = false.
Proof. intros a b H. unfold leb. destruct (Rle_dec a b); [lra | reflexivity]. Qed.
Lemma ltb_t : forall a b, a < b -> ltb a b = true.
Proof. intros a b H. unfold ltb. destruct (Rlt_dec a b); [reflexivity | lra]. Qed.
Lemma ltb_f : forall a b, b <= a -> ltb a b = false.
Proof. intros a b H. unfold ltb. destruct (Rlt_dec a b); [lra | reflexivity]. Qed.
Lemma eqb_t : forall a, eqb a a = true.
Proof. intro a. unfold eqb. destruct (Req_EM_T a a); [reflexivity | lra]. Qed.
Lemma eqb_f : forall a b, a <> b -> eqb a b = false.
Proof. intros a b H. unfold eqb. destruct (Req_EM_T a b); [contradiction | reflexivity]. Qed.
Lemma fdiv_ok : forall a b, b <> 0 -> fdiv a b = Ok (a / b).
Proof. intros a b H. unfold fdiv. destruct (Req_EM_T b 0); [contradiction | reflexivity]. Qed.
Lemma fdiv_0 : forall a, fdiv a 0 = Err ZeroDivisionError.
Proof. intros a. unfold fdiv. destruct (Req_EM_T 0 0); [reflexivity | lra]. Qed.
Lemma flog_ok : forall a, 0 < a -> flog a = Ok (ln a).
Proof. intros a H. unfold flog. destruct (Rlt_dec 0 a); [reflexivity | lra]. Qed.
Lemma flog_err : forall a, a <= 0 -> flog a = Err ValueError.
Proof. intros a H. unfold flog. destruct (Rlt_dec 0 a); [lra | reflexivity]. Qed.

(* ------------------------------------------------------------ logarithmic mean *)

Lemma ln_neq0 : forall x, 0 < x -> x <> 1 -> ln x <> 0.
Proof.
  intros x P N E. apply N. rewrite <- ln_1 in E. apply ln_inv; lra.
Qed.

Lemma ln_upper : forall x, 0 < x -> ln x <= x - 1.
Proof.
  intros x P. destruct (Req_dec (ln x) 0) as [E | N].
  - rewrite <- ln_1 in E. apply ln_inv in E; [subst; rewrite ln_1; lra | lra | lra].
  - assert (H := exp_ineq1 (ln x) N). rewrite exp_ln in H by exact P. lra.
Qed.

Lemma ln_lower : forall x, 0 < x -> 1 - / x <= ln x.
Proof.
  intros x P. assert (Q : 0 < / x) by (apply Rinv_0_lt_compat; exact P).
  assert (H := ln_upper (/ x) Q). rewrite ln_Rinv in H by exact P. lra.
Qed.

Lemma ln_pos : forall x, 1 < x -> 0 < ln x.
Proof. intros x H. rewrite <- ln_1. apply ln_increasing; lra. Qed.

Lemma ln_quot : forall a b, 0 < a -> 0 < b -> ln (a / b) = ln a - ln b.
Proof.
  intros a b A B. unfold Rdiv. rewrite ln_mult; [| exact A | apply Rinv_0_lt_compat; exact B].
  rewrite ln_Rinv by exact B. ring.
Qed.

(** bounds of the mean for a > b > 0 *)
Lemma mean_bounds : forall a b, 0 < b -> b < a ->
  b <= (a - b) / ln (a / b) <= a.
Proof.
  intros a b B L. assert (A : 0 < a) by lra.
  assert (Q : 0 < a / b) by (apply Rdiv_lt_0_compat; lra).
  assert (Q1 : 1 < a / b).
  { apply (Rmult_lt_reg_r b); [exact B |]. unfold Rdiv. rewrite Rmult_assoc, Rinv_l by lra. lra. }
  assert (LP := ln_pos _ Q1).
  assert (U := ln_upper _ Q). assert (W := ln_lower _ Q).
  split.
  - apply (Rmult_le_reg_r (ln (a / b))); [exact LP |].
    unfold Rdiv at 2. rewrite Rmult_assoc, Rinv_l by lra.
    apply Rle_trans with (b * (a / b - 1)); [apply Rmult_le_compat_l; lra |].
    apply Req_le. field. lra.
  - apply (Rmult_le_reg_r (ln (a / b))); [exact LP |].
    unfold Rdiv at 1. rewrite Rmult_assoc, Rinv_l by lra.
    apply Rle_trans with (a * (1 - / (a / b))); [| apply Rmult_le_compat_l; lra].
    apply Req_le. field. lra.
Qed.

Lemma mean_swap : forall a b, 0 < a -> 0 < b -> a <> b ->
  (a - b) / ln (a / b) = (b - a) / ln (b / a).
Proof.
  intros a b A B N.
  assert (E : ln (b / a) = - ln (a / b)).
  { rewrite !ln_quot by assumption. ring. }
  assert (Z : ln (a / b) <> 0).
  { apply ln_neq0; [apply Rdiv_lt_0_compat; assumption |].
    intro Q. apply N. apply (f_equal (fun z => z * b)) in Q. unfold Rdiv in Q.
    rewrite Rmult_assoc, Rinv_l in Q by lra. lra. }
  rewrite E. field. exact Z.
Qed.

Lemma mean_is : forall a b, 0 < a -> 0 < b -> a <> b ->
  is_log_mean a b ((a - b) / ln (a / b)).
Proof.
  assert (G : forall a b, 0 < b -> b < a -> is_log_mean a b ((a - b) / ln (a / b))).
  { intros a b B L. assert (A : 0 < a) by lra.
    assert (M := mean_bounds a b B L).
    assert (Z : ln a - ln b <> 0).
    { assert (K := ln_increasing b a B L). lra. }
    repeat split.
    - lra.
    - rewrite Rmin_right by lra. lra.
    - rewrite Rmax_left by lra. lra.
    - rewrite ln_quot by assumption. field. exact Z. }
  intros a b A B N. destruct (Rtotal_order a b) as [L | [E | L]]; [| contradiction | apply G; lra].
  rewrite mean_swap by assumption. destruct (G b a A L) as (P & [M1 M2] & Q).
  repeat split; [exact P | rewrite Rmin_comm; exact M1 | rewrite Rmax_comm; exact M2 |].
  lra.
Qed.

Lemma mean_eq : forall a, 0 < a -> is_log_mean a a a.
Proof.
  intros a A. repeat split; [exact A | | | ring].
  - rewrite Rmin_left; lra.
  - rewrite Rmax_left; lra.
Qed.

Lemma log_mean_unique : forall a b t t', 0 < a -> 0 < b ->
  is_log_mean a b t -> is_log_mean a b t' -> t = t'.
Proof.
  intros a b t t' A B (P & [M1 M2] & E) (P' & [M1' M2'] & E').
  destruct (Req_dec a b) as [-> | N].
  - rewrite Rmin_left in M1, M1' by lra. rewrite Rmax_left in M2, M2' by lra. lra.
  - assert (Z : ln a - ln b <> 0) by (intro Z; apply N, ln_inv; lra).
    apply (Rmult_eq_reg_r (ln a - ln b)); [lra | exact Z].
Qed.

Lemma log_mean_sym : forall a b t, is_log_mean a b t -> is_log_mean b a t.
Proof.
  intros a b t (P & [M1 M2] & E). repeat split;
    [exact P | rewrite Rmin_comm; exact M1 | rewrite Rmax_comm; exact M2 | lra].
Qed.

Lemma quot_neq1 : forall a b, b <> 0 -> a <> b -> a / b <> 1.
Proof.
  intros a b B N Q. apply N. apply (f_equal (fun z => z * b)) in Q. unfold Rdiv in Q.
  rewrite Rmult_assoc, Rinv_l in Q by exact B. lra.
Qed.

Lemma td_log_of_ok : forall a b, 0 < a -> 0 < b ->
  exists t, td_log_of a b = Ok t /\ is_log_mean a b t.
Proof.
  intros a b A B. unfold td_log_of. destruct (Req_dec b a) as [-> | N].
  - rewrite eqb_t. exists a. split; [reflexivity | apply mean_eq; exact A].
  - rewrite eqb_f by exact N. rewrite fdiv_ok by lra. cbn [rbind].
    assert (Q : 0 < a / b) by (apply Rdiv_lt_0_compat; assumption).
    rewrite flog_ok by exact Q. cbn [rbind].
    rewrite fdiv_ok by (apply ln_neq0; [exact Q | apply quot_neq1; lra]).
    eexists. split; [reflexivity | apply mean_is; lra].
Qed.

Lemma hx_td_log_uncrossed : forall T_i1 T_i2 T_o1 T_o2,
  T_o2 < T_i1 -> T_i2 < T_o1 ->
  hx_td_log T_i1 T_i2 T_o1 T_o2 = td_log_of (T_o1 - T_i2) (T_i1 - T_o2).
Proof.
  intros. unfold hx_td_log. cbv zeta.
  repeat (rewrite (leb_f T_i1 T_o2) by lra; cbv iota).
  repeat (rewrite (leb_f T_o1 T_i2) by lra; cbv iota). reflexivity.
Qed.

Lemma hx_td_log_cases : forall T_i1 T_i2 T_o1 T_o2,
  hx_td_log T_i1 T_i2 T_o1 T_o2 =
  td_log_of (if leb T_o1 T_i2 then 2/100 else T_o1 - T_i2)
            (if leb T_i1 T_o2 then 1/100 else T_i1 - T_o2).
Proof.
  intros. unfold hx_td_log. cbv zeta.
  destruct (leb T_i1 T_o2) eqn:E1; cbv iota.
  - repeat (rewrite (leb_f (T_o2 + 1/100) T_o2) by lra; cbv iota).
    destruct (leb T_o1 T_i2); f_equal; lra.
  - repeat (rewrite E1; cbv iota). destruct (leb T_o1 T_i2); f_equal; lra.
Qed.

Lemma hx_td_log_positive : forall T_i1 T_i2 T_o1 T_o2,
  exists t, hx_td_log T_i1 T_i2 T_o1 T_o2 = Ok t /\ 0 < t.
Proof.
  intros. rewrite hx_td_log_cases.
  assert (A : 0 < (if leb T_o1 T_i2 then 2/100 else T_o1 - T_i2)).
  { unfold leb. destruct (Rle_dec T_o1 T_i2); lra. }
  assert (B : 0 < (if leb T_i1 T_o2 then 1/100 else T_i1 - T_o2)).
  { unfold leb. destruct (Rle_dec T_i1 T_o2); lra. }
  destruct (td_log_of_ok _ _ A B) as (t & E & P & _). exists t. auto.
Qed.

Lemma hx_td_log_mean : forall T_i1 T_i2 T_o1 T_o2,
  T_o2 < T_i1 -> T_i2 < T_o1 ->
  exists t, hx_td_log T_i1 T_i2 T_o1 T_o2 = Ok t
    /\ is_log_mean (T_i1 - T_o2) (T_o1 - T_i2) t.
Proof.
  intros. rewrite hx_td_log_uncrossed by assumption.
  destruct (td_log_of_ok (T_o1 - T_i2) (T_i1 - T_o2)) as (t & E & M); [lra | lra |].
  exists t. split; [exact E | apply log_mean_sym; exact M].
Qed.

Lemma hx_td_log_crossed : forall T_i1 T_i2 T_o1 T_o2,
  T_i1 <= T_o2 -> T_o1 <= T_i2 ->
  exists t, hx_td_log T_i1 T_i2 T_o1 T_o2 = Ok t
    /\ is_log_mean (1/100) (2/100) t.
Proof.
  intros. rewrite hx_td_log_cases. rewrite !leb_t by assumption.
  destruct (td_log_of_ok (2/100) (1/100)) as (t & E & M); [lra | lra |].
  exists t. split; [exact E | apply log_mean_sym; exact M].
Qed.

(** exchanging the two ends of the heat exchanger *)
Lemma td_log_of_sym : forall a b, 0 < a -> 0 < b -> td_log_of a b = td_log_of b a.
Proof.
  intros a b A B.
  destruct (td_log_of_ok a b A B) as (t & E & M).
  destruct (td_log_of_ok b a B A) as (t' & E' & M').
  rewrite E, E'. f_equal. apply (log_mean_unique a b); [exact A | exact B | exact M |].
  apply log_mean_sym. exact M'.
Qed.

Lemma cond_td_log_cases : forall s1 s2 s3 s4 T_i1 T_i2 T_o1 T_o2,
  (T_i1 <= T_o2 -> s1 && s4 = false) -> (T_o1 <= T_i2 -> s2 && s3 = false) ->
  cond_td_log s1 s2 s3 s4 T_i1 T_i2 T_o1 T_o2 =
  td_log_of (if leb T_o1 T_i2 then 1 else T_o1 - T_i2)
            (if leb T_i1 T_o2 then 1/2 else T_i1 - T_o2).
Proof.
  intros s1 s2 s3 s4 T_i1 T_i2 T_o1 T_o2 H1 H2. unfold cond_td_log. cbv zeta.
  assert (F : forall x y, 0 < y -> leb (x + y) x = false) by (intros; apply leb_f; lra).
  destruct (leb T_i1 T_o2) eqn:E1; destruct (leb T_o1 T_i2) eqn:E2.
  - unfold leb in E1, E2. destruct (Rle_dec T_i1 T_o2) as [L1 |]; [| discriminate].
    destruct (Rle_dec T_o1 T_i2) as [L2 |]; [| discriminate]. specialize (H1 L1). specialize (H2 L2).
    destruct s1, s2, s3, s4; cbn [andb negb] in *; try discriminate;
      rewrite ?F, ?(leb_t _ _ L1), ?(leb_t _ _ L2) by lra; cbn [andb]; f_equal; lra.
  - unfold leb in E1. destruct (Rle_dec T_i1 T_o2) as [L1 |]; [| discriminate].
    specialize (H1 L1).
    destruct s1, s4; cbn [andb negb] in *; try discriminate;
      rewrite ?F, ?(leb_t _ _ L1), ?E2 by lra; cbn [andb]; rewrite ?E2; cbn [andb]; f_equal; lra.
  - unfold leb in E2. destruct (Rle_dec T_o1 T_i2) as [L2 |]; [| discriminate].
    specialize (H2 L2). cbn [andb]. rewrite E1.
    destruct s2, s3; cbn [andb negb] in *; try discriminate;
      rewrite ?F, ?(leb_t _ _ L2) by lra; cbn [andb]; f_equal; lra.
  - cbn [andb]. rewrite E1. cbn [andb]. rewrite E2. reflexivity.
Qed.

Lemma cond_td_log_positive : forall s1 s2 s3 s4 T_i1 T_i2 T_o1 T_o2,
  (T_i1 <= T_o2 -> s1 && s4 = false) -> (T_o1 <= T_i2 -> s2 && s3 = false) ->
  exists t, cond_td_log s1 s2 s3 s4 T_i1 T_i2 T_o1 T_o2 = Ok t /\ 0 < t.
Proof.
  intros s1 s2 s3 s4 T_i1 T_i2 T_o1 T_o2 H1 H2. rewrite cond_td_log_cases by assumption.
  assert (A : 0 < (if leb T_o1 T_i2 then 1 else T_o1 - T_i2)).
  { unfold leb. destruct (Rle_dec T_o1 T_i2); lra. }
  assert (B : 0 < (if leb T_i1 T_o2 then 1/2 else T_i1 - T_o2)).
  { unfold leb. destruct (Rle_dec T_i1 T_o2); lra. }
  destruct (td_log_of_ok _ _ A B) as (t & E & P & _). exists t. auto.
Qed.

Lemma cond_td_log_raises : 
  cond_td_log true false false true 300 280 290 310 = Err ValueError.
Proof.
  unfold cond_td_log. cbv zeta. repeat (rewrite (leb_t 300 310) by lra; cbn [negb andb]).
  repeat (rewrite (leb_f 290 280) by lra; cbn [andb]).
  unfold td_log_of. rewrite eqb_f by lra. rewrite fdiv_ok by lra. cbn [rbind].
  rewrite flog_err by lra. reflexivity.
Qed.

(* ------------------------------------------------- difference to the ambient *)

Lemma simple_td_same_pos : forall T_i T_o Tamb,
  Tamb < T_i -> Tamb < T_o ->
  exists t, simple_td_log T_i T_o Tamb = Ok t
    /\ simple_report_td T_i T_o Tamb = Ok t
    /\ is_log_mean (T_i - Tamb) (T_o - Tamb) t.
Proof.
  intros T_i T_o Tamb H1 H2. unfold simple_td_log, simple_report_td. cbv zeta.
  set (a := T_i - Tamb). set (b := T_o - Tamb).
  assert (A : 0 < a) by (unfold a; lra). assert (B : 0 < b) by (unfold b; lra).
  clearbody a b.
  assert (Q : 0 < a / b) by (apply Rdiv_lt_0_compat; assumption).
  assert (Q' : 0 < b / a) by (apply Rdiv_lt_0_compat; assumption).
  rewrite (fdiv_ok a b) by lra. cbn [rbind]. rewrite (ltb_f (a / b) 0) by lra.
  destruct (Rtotal_order a b) as [L | [-> | L]].
  - rewrite (ltb_f b a), (ltb_t a b) by lra. rewrite (fdiv_ok b a) by lra. cbn [rbind].
    rewrite (flog_ok _ Q'). cbn [rbind].
    rewrite fdiv_ok by (apply ln_neq0; [exact Q' | apply quot_neq1; lra]).
    eexists. split; [reflexivity | split; [reflexivity | apply log_mean_sym, mean_is; lra]].
  - rewrite (ltb_f b b) by lra. exists b. split; [reflexivity | split; [reflexivity | apply mean_eq; lra]].
  - rewrite (ltb_t b a) by lra. rewrite (flog_ok _ Q). cbn [rbind].
    rewrite fdiv_ok by (apply ln_neq0; [exact Q | apply quot_neq1; lra]).
    eexists. split; [reflexivity | split; [reflexivity | apply mean_is; lra]].
Qed.

Lemma simple_td_same_neg : forall T_i T_o Tamb,
  T_i < Tamb -> T_o < Tamb ->
  exists t, simple_td_log T_i T_o Tamb = Ok (- t)
    /\ simple_report_td T_i T_o Tamb = Ok (- t)
    /\ is_log_mean (Tamb - T_i) (Tamb - T_o) t.
Proof.
  intros T_i T_o Tamb H1 H2. unfold simple_td_log, simple_report_td. cbv zeta.
  replace (T_i - Tamb) with (- (Tamb - T_i)) by ring.
  replace (T_o - Tamb) with (- (Tamb - T_o)) by ring.
  set (a := Tamb - T_i). set (b := Tamb - T_o).
  assert (A : 0 < a) by (unfold a; lra). assert (B : 0 < b) by (unfold b; lra).
  clearbody a b.
  assert (Q : 0 < a / b) by (apply Rdiv_lt_0_compat; assumption).
  assert (Q' : 0 < b / a) by (apply Rdiv_lt_0_compat; assumption).
  assert (E : - a / - b = a / b) by (field; lra).
  assert (E' : - b / - a = b / a) by (field; lra).
  rewrite (fdiv_ok (- a) (- b)) by lra. cbn [rbind]. rewrite E. rewrite (ltb_f (a / b) 0) by lra.
  destruct (Rtotal_order a b) as [L | [-> | L]].
  - rewrite (ltb_t (- b) (- a)) by lra. rewrite (flog_ok _ Q). cbn [rbind].
    assert (Z : ln (a / b) <> 0) by (apply ln_neq0; [exact Q | apply quot_neq1; lra]).
    rewrite fdiv_ok by exact Z.
    exists ((a - b) / ln (a / b)).
    assert (K : (- a - - b) / ln (a / b) = - ((a - b) / ln (a / b))) by (field; exact Z).
    rewrite K. split; [reflexivity | split; [reflexivity | apply mean_is; lra]].
  - rewrite (ltb_f (- b) (- b)) by lra. exists b.
    split; [reflexivity | split; [reflexivity | apply mean_eq; lra]].
  - rewrite (ltb_f (- b) (- a)), (ltb_t (- a) (- b)) by lra.
    rewrite (fdiv_ok (- b) (- a)) by lra. cbn [rbind]. rewrite E'.
    rewrite (flog_ok _ Q'). cbn [rbind].
    assert (Z : ln (b / a) <> 0) by (apply ln_neq0; [exact Q' | apply quot_neq1; lra]).
    rewrite fdiv_ok by exact Z.
    exists ((b - a) / ln (b / a)).
    assert (K : (- b - - a) / ln (b / a) = - ((b - a) / ln (b / a))) by (field; exact Z).
    rewrite K. split; [reflexivity | split; [reflexivity | apply log_mean_sym, mean_is; lra]].
Qed.

Lemma neg_quot : forall a b, 0 < a -> b < 0 -> a / b < 0.
Proof.
  intros a b A B. unfold Rdiv. assert (K := Rinv_lt_0_compat b B).
  assert (M := Rmult_lt_compat_l a (/ b) 0 A K). rewrite Rmult_0_r in M. exact M.
Qed.

Lemma simple_td_opposite : forall T_i T_o Tamb,
  (T_o < Tamb < T_i \/ T_i < Tamb < T_o) ->
  simple_td_log T_i T_o Tamb = Ok ((T_i + T_o) / 2 - Tamb).
Proof.
  intros T_i T_o Tamb H. unfold simple_td_log. cbv zeta.
  rewrite fdiv_ok by lra. cbn [rbind].
  assert (N : (T_i - Tamb) / (T_o - Tamb) < 0).
  { destruct H as [H | H]; [apply neg_quot; lra |].
    replace ((T_i - Tamb) / (T_o - Tamb)) with ((Tamb - T_i) / (Tamb - T_o)) by (field; lra).
    apply neg_quot; lra. }
  rewrite ltb_t by exact N. f_equal. field.
Qed.

Lemma simple_report_opposite : forall T_i T_o Tamb,
  (T_o < Tamb < T_i \/ T_i < Tamb < T_o) ->
  simple_report_td T_i T_o Tamb = Err ValueError.
Proof.
  intros T_i T_o Tamb H. unfold simple_report_td. cbv zeta.
  rewrite fdiv_ok by lra. cbn [rbind]. destruct H as [H | H].
  - rewrite ltb_t by lra. rewrite flog_err; [reflexivity |].
    apply Rlt_le, neg_quot; lra.
  - rewrite (ltb_f (T_o - Tamb)), (ltb_t (T_i - Tamb)) by lra. rewrite fdiv_ok by lra. cbn [rbind].
    rewrite flog_err; [reflexivity |]. apply Rlt_le, neg_quot; lra.
Qed.

Lemma simple_td_zero : forall T_i T_o, simple_td_log T_i T_o T_o = Err ZeroDivisionError.
Proof.
  intros. unfold simple_td_log. cbv zeta. replace (T_o - T_o) with 0 by ring. rewrite fdiv_0. reflexivity.
Qed.
Lemma simple_td_zero_in : forall T_i T_o, T_i <> T_o ->
  exists e, simple_td_log T_i T_o T_i = Err e.
Proof.
  intros T_i T_o N. unfold simple_td_log. cbv zeta. replace (T_i - T_i) with 0 by ring.
  rewrite fdiv_ok by lra. cbn [rbind].
  replace (0 / (T_o - T_i)) with 0 by (field; lra).
  rewrite (ltb_f 0 0) by lra. destruct (Rtotal_order T_i T_o) as [L | [E | L]]; [| contradiction |].
  - rewrite (ltb_f (T_o - T_i) 0), (ltb_t 0 (T_o - T_i)) by lra. rewrite fdiv_0. eexists; reflexivity.
  - rewrite (ltb_t (T_o - T_i) 0) by lra. rewrite flog_err by lra. eexists; reflexivity.
Qed.

Lemma hx_report_ok : forall a b, 0 < a -> 0 < b ->
  exists t, hx_report_td a b = Ok (Some t) /\ td_log_of a b = Ok t /\ is_log_mean a b t.
Proof.
  intros a b A B. destruct (td_log_of_ok a b A B) as (t & E & M). exists t.
  split; [| split; [exact E | exact M]].
  unfold td_log_of in E. unfold hx_report_td. rewrite !ltb_f by lra. cbn [orb].
  destruct (Req_dec b a) as [-> | N].
  - rewrite eqb_t in *. injection E as <-. reflexivity.
  - rewrite eqb_f in E by exact N. rewrite eqb_f by lra.
    destruct (fdiv a b) as [q |]; [| discriminate E]. cbn [rbind] in *.
    destruct (flog q) as [l |]; [| discriminate E]. cbn [rbind] in *. rewrite E. reflexivity.
Qed.

Lemma hx_report_zero_u : forall a, 0 < a -> hx_report_td a 0 = Err ZeroDivisionError.
Proof.
  intros a A. unfold hx_report_td. rewrite !ltb_f by lra. cbn [orb].
  rewrite eqb_f by lra. rewrite fdiv_0. reflexivity.
Qed.
Lemma hx_report_zero_l : forall b, 0 < b -> hx_report_td 0 b = Err ValueError.
Proof.
  intros b B. unfold hx_report_td. rewrite !ltb_f by lra. cbn [orb].
  rewrite eqb_f by lra. rewrite fdiv_ok by lra. cbn [rbind].
  replace (0 / b) with 0 by (field; lra). rewrite flog_err by lra. reflexivity.
Qed.

Lemma hx_kA_round_trip : forall kA m h_i1 h_o1 T_i1 T_i2 T_o1 T_o2,
  T_o2 < T_i1 -> T_i2 < T_o1 ->
  hx_kA_eq kA m h_i1 h_o1 T_i1 T_i2 T_o1 T_o2 = Ok 0 ->
  hx_kA_report m h_i1 h_o1 T_i1 T_i2 T_o1 T_o2 = Ok (Some kA).
Proof.
  intros kA m h_i1 h_o1 T_i1 T_i2 T_o1 T_o2 H1 H2. unfold hx_kA_eq, hx_kA_report.
  rewrite hx_td_log_uncrossed by assumption. unfold ttd_l_report, ttd_u_report, power_report.
  destruct (hx_report_ok (T_o1 - T_i2) (T_i1 - T_o2)) as (t & E & E' & P & _); [lra | lra |].
  rewrite E, E'. cbn [rbind]. intro Z. injection Z as Z.
  rewrite fdiv_ok by lra. cbn [rbind]. do 2 f_equal. apply (Rmult_eq_reg_r t); [| lra].
  unfold Rdiv. rewrite Rmult_assoc, Rinv_l by lra. lra.
Qed.

Lemma simple_kA_round_trip : forall kA m h_i h_o T_i T_o Tamb,
  0 <= kA -> 0 < (T_i - Tamb) * (T_o - Tamb) ->
  simple_kA_eq kA m h_i h_o T_i T_o Tamb = Ok 0 ->
  simple_kA_report m h_i h_o T_i T_o Tamb = Ok kA.
Proof.
  intros kA m h_i h_o T_i T_o Tamb K H. unfold simple_kA_eq, simple_kA_report, power_report.
  assert (G : exists t, t <> 0 /\ simple_td_log T_i T_o Tamb = Ok t
                /\ simple_report_td T_i T_o Tamb = Ok t).
  { destruct (Rle_dec T_i Tamb) as [L | L].
    - assert (T_i < Tamb) by (destruct (Req_dec T_i Tamb) as [-> |]; [rewrite Rminus_diag_eq in H by reflexivity; lra | lra]).
      assert (T_o < Tamb).
      { destruct (Rlt_dec T_o Tamb); [assumption |].
        assert (X : 0 <= (Tamb - T_i) * (T_o - Tamb)) by (apply Rmult_le_pos; lra). lra. }
      destruct (simple_td_same_neg T_i T_o Tamb) as (t & A & B & P & _); [assumption | assumption |].
      exists (- t). split; [lra | split; assumption].
    - assert (Tamb < T_o).
      { destruct (Rlt_dec Tamb T_o); [assumption |].
        assert (X : 0 <= (T_i - Tamb) * (Tamb - T_o)) by (apply Rmult_le_pos; lra). lra. }
      destruct (simple_td_same_pos T_i T_o Tamb) as (t & A & B & P & _); [lra | assumption |].
      exists t. split; [lra | split; assumption]. }
  destruct G as (t & N & E & E'). rewrite E, E'. cbn [rbind]. intro Z. injection Z as Z.
  rewrite fdiv_ok by exact N. cbn [rbind]. f_equal.
  replace (m * (h_o - h_i) / t) with (- kA).
  - rewrite Rabs_Ropp. apply Rabs_right. lra.
  - apply (Rmult_eq_reg_r t); [| exact N]. unfold Rdiv. rewrite Rmult_assoc, Rinv_l by exact N. lra.
Qed.

(* --------------------------------------------------------- simple round trips *)

Lemma pr_round_trip : forall pr p_i p_o, p_i <> 0 ->
  pr_eq pr p_i p_o = 0 -> pr_report p_i p_o = Ok pr.
Proof.
  unfold pr_eq, pr_report. intros pr p_i p_o N H. rewrite fdiv_ok by exact N. f_equal.
  replace p_o with (p_i * pr) by lra. field. exact N.
Qed.

Lemma pump_eta_round_trip : forall eta h_i h_o his, h_o <> h_i ->
  pump_eta_eq eta h_i h_o his = 0 -> pump_eta_report h_i h_o his = Ok eta.
Proof.
  unfold pump_eta_eq, pump_eta_report. intros eta h_i h_o his N H. rewrite fdiv_ok by lra. f_equal.
  replace (his - h_i) with ((h_o - h_i) * eta) by lra. field. lra.
Qed.

Lemma turbine_eta_round_trip : forall eta h_i h_o his, his <> h_i ->
  turbine_eta_eq eta h_i h_o his = 0 -> turbine_eta_report h_i h_o his = Ok eta.
Proof.
  unfold turbine_eta_eq, turbine_eta_report. intros eta h_i h_o his N H. rewrite fdiv_ok by lra. f_equal.
  replace (h_o - h_i) with ((his - h_i) * eta) by lra. field. lra.
Qed.

Lemma eff_round_trip : forall eff dh h_i h_o, dh <> 0 ->
  eff_eq eff dh h_i h_o = 0 -> eff_report dh h_i h_o = Ok eff.
Proof.
  unfold eff_eq, eff_report. intros eff dh h_i h_o N H. rewrite fdiv_ok by exact N. f_equal.
  replace (h_o - h_i) with (eff * dh) by lra. field. exact N.
Qed.

Lemma eff_max_round_trip : forall eff dh1 dh2 h_i1 h_o1 h_i2 h_o2,
  eff_max_eq eff dh1 dh2 h_i1 h_o1 h_i2 h_o2 = Ok 0 ->
  eff_max_report dh1 dh2 h_i1 h_o1 h_i2 h_o2 = Ok eff.
Proof.
  unfold eff_max_eq, eff_max_report. intros.
  destruct (eff_report dh1 h_i1 h_o1) as [a |]; [| discriminate]. cbn [rbind] in *.
  destruct (eff_report dh2 h_i2 h_o2) as [b |]; [| discriminate]. cbn [rbind] in *.
  injection H as H. f_equal. lra.
Qed.

Lemma ttd_min_round_trip : forall ttd T_i1 T_i2 T_o1 T_o2,
  ttd_min_eq ttd T_i1 T_i2 T_o1 T_o2 = 0 -> ttd_min_report T_i1 T_i2 T_o1 T_o2 = ttd.
Proof.
  unfold ttd_min_eq, ttd_min_report, ttd_u_report, ttd_l_report. intros.
  rewrite Rmin_comm. lra.
Qed.

Lemma fc_round_trip : forall P eta e m e0, m <> 0 -> e0 <> 0 ->
  (fc_e_eq P e m = 0 -> e_report P m = Ok e)
  /\ (fc_eta_eq P eta m e0 = 0 -> fc_eta_report P m e0 = Ok eta).
Proof.
  unfold fc_e_eq, fc_eta_eq, fc_eta_report, e_report. intros P eta e m e0 M E0.
  rewrite fdiv_ok by exact M. cbn [rbind]. rewrite fdiv_ok by exact E0. split; intro H; f_equal.
  - replace P with (m * e) by lra. field. exact M.
  - replace P with (eta * m * e0) by lra. field. split; assumption.
Qed.

Lemma el_round_trip : forall P eta e m e0, m <> 0 -> P <> 0 ->
  (el_e_eq P e m = 0 -> e_report P m = Ok e)
  /\ (el_eta_eq P eta m e0 = 0 -> el_eta_report P m e0 = Ok eta).
Proof.
  unfold el_e_eq, el_eta_eq, el_eta_report, e_report. intros P eta e m e0 M NP.
  rewrite fdiv_ok by exact M. cbn [rbind].
  assert (N : P / m <> 0).
  { intro Z. apply NP. replace P with (P / m * m) by (field; exact M). rewrite Z. ring. }
  rewrite fdiv_ok by exact N. split; intro H; f_equal.
  - replace P with (m * e) by lra. field. exact M.
  - apply (Rmult_eq_reg_l P); [| exact NP]. replace (P * eta) with (m * e0) by lra.
    field. split; assumption.
Qed.

(* ----------------------------------------------------------------- pressure loss *)

Lemma m_min_pos : 0 < m_min.
Proof. unfold m_min. lra. Qed.
Lemma PI2_pos : 0 < PI ^ 2.
Proof. apply pow_lt, PI_RGT_0. Qed.

Lemma absm_m : forall m, m_min <= Rabs m ->
  (0 < m -> 0 < Rabs m * m) /\ (m < 0 -> Rabs m * m < 0) /\ m <> 0.
Proof.
  intros m H. assert (P := m_min_pos). assert (A : 0 < Rabs m) by lra.
  repeat split; intros.
  - apply Rmult_lt_0_compat; assumption.
  - replace (Rabs m * m) with (- (Rabs m * (- m))) by ring.
    assert (0 < Rabs m * - m) by (apply Rmult_lt_0_compat; lra). lra.
  - intro Z. subst. rewrite Rabs_R0 in A. lra.
Qed.

(** the drop that satisfies the zeta equation *)
Definition zeta_drop (zeta m vs : R) : R := zeta * (4 * (Rabs m * m) * vs) / PI ^ 2.

Lemma zeta_eq_iff : forall zeta m vs p_i p_o,
  m_min <= Rabs m -> 0 < vs ->
  (zeta_eq zeta m vs p_i p_o = 0 <-> p_i - p_o = zeta_drop zeta m vs).
Proof.
  intros zeta m vs p_i p_o M V. unfold zeta_eq, zeta_drop. rewrite ltb_f by exact M.
  destruct (absm_m m M) as (_ & _ & N). assert (K := PI2_pos).
  assert (A : Rabs m <> 0) by (assert (Q := m_min_pos); lra).
  replace ((p_i - p_o) * PI ^ 2 / (8 * Rabs m * m * vs / 2))
    with ((p_i - p_o) * (PI ^ 2 / (4 * (Rabs m * m) * vs)))
    by (field; repeat split; lra).
  split; intro H.
  - replace zeta with ((p_i - p_o) * (PI ^ 2 / (4 * (Rabs m * m) * vs))) by lra.
    field. repeat split; try lra; try (intro Z; lra).
    apply PI_neq0.
  - rewrite H. field. repeat split; try lra. apply PI_neq0.
Qed.

Lemma zeta_drop_sign : forall zeta m vs, 0 < zeta -> 0 < vs -> m_min <= Rabs m ->
  (0 < m -> 0 < zeta_drop zeta m vs) /\ (m < 0 -> zeta_drop zeta m vs < 0).
Proof.
  intros zeta m vs Z V M. destruct (absm_m m M) as (P & N & _). assert (K := PI2_pos).
  unfold zeta_drop. split; intro H.
  - specialize (P H). apply Rdiv_lt_0_compat; [| exact K].
    apply Rmult_lt_0_compat; [exact Z | apply Rmult_lt_0_compat; lra].
  - specialize (N H).
    replace (zeta * (4 * (Rabs m * m) * vs) / PI ^ 2)
      with (- (zeta * (4 * (- (Rabs m * m)) * vs) / PI ^ 2)) by (field; apply PI_neq0).
    assert (0 < zeta * (4 * (- (Rabs m * m)) * vs) / PI ^ 2); [| lra].
    apply Rdiv_lt_0_compat; [| exact K].
    apply Rmult_lt_0_compat; [exact Z | apply Rmult_lt_0_compat; lra].
Qed.

Lemma zeta_direction : forall zeta m vs p_i p_o,
  0 < zeta -> 0 < vs -> m_min <= Rabs m ->
  zeta_eq zeta m vs p_i p_o = 0 -> drops_along_flow m p_i p_o.
Proof.
  intros zeta m vs p_i p_o Z V M H. apply zeta_eq_iff in H; [| exact M | exact V].
  destruct (zeta_drop_sign zeta m vs Z V M) as [A B]. split; intro S0.
  - specialize (A S0). lra.
  - specialize (B S0). lra.
Qed.

Lemma zeta_unique : forall zeta m vs p_i, 0 < vs ->
  exists! p_o, zeta_eq zeta m vs p_i p_o = 0.
Proof.
  intros zeta m vs p_i V. destruct (Rlt_dec (Rabs m) m_min) as [L | L].
  - exists p_i. unfold zeta_eq. rewrite ltb_t by exact L. split; [ring | intros; lra].
  - assert (M : m_min <= Rabs m) by lra. exists (p_i - zeta_drop zeta m vs). split.
    + apply zeta_eq_iff; [exact M | exact V | ring].
    + intros y H. apply zeta_eq_iff in H; [| exact M | exact V]. lra.
Qed.

Lemma zeta_small : forall zeta m vs p_i p_o, Rabs m < m_min ->
  (zeta_eq zeta m vs p_i p_o = 0 <-> p_o = p_i).
Proof.
  intros. unfold zeta_eq. rewrite ltb_t by assumption. split; intros; lra.
Qed.

(** a larger flow in the same direction loses more pressure *)
Lemma zeta_monotone : forall zeta m m' vs p_i p_o p_o',
  0 < zeta -> 0 < vs -> m_min <= m -> m < m' ->
  zeta_eq zeta m vs p_i p_o = 0 -> zeta_eq zeta m' vs p_i p_o' = 0 -> p_o' < p_o.
Proof.
  intros zeta m m' vs p_i p_o p_o' Z V M L H H'. assert (P := m_min_pos).
  apply zeta_eq_iff in H; [| rewrite Rabs_right by lra; exact M | exact V].
  apply zeta_eq_iff in H'; [| rewrite Rabs_right by lra; lra | exact V].
  unfold zeta_drop in *. rewrite Rabs_right in H, H' by lra.
  assert (K := PI2_pos).
  assert (A : m * m < m' * m') by (apply Rmult_le_0_lt_compat; lra).
  assert (zeta * (4 * (m * m) * vs) / PI ^ 2 < zeta * (4 * (m' * m') * vs) / PI ^ 2); [| lra].
  apply Rmult_lt_compat_r; [apply Rinv_0_lt_compat; exact K |].
  apply Rmult_lt_compat_l; [exact Z |]. apply Rmult_lt_compat_r; [exact V | lra].
Qed.

Lemma zeta_round_trip : forall zeta m vs p_i p_o, 0 < vs -> m_min < m ->
  zeta_eq zeta m vs p_i p_o = 0 -> zeta_report m vs p_i p_o = zeta.
Proof.
  intros zeta m vs p_i p_o V M H. assert (P := m_min_pos).
  apply zeta_eq_iff in H; [| rewrite Rabs_right by lra; lra | exact V].
  unfold zeta_report. rewrite leb_f by (rewrite Rabs_right by lra; exact M).
  rewrite H. unfold zeta_drop. rewrite Rabs_right by lra. field.
  repeat split; first [apply PI_neq0 | lra].
Qed.

Lemma zeta_round_trip_neg : forall zeta m vs p_i p_o, 0 < vs -> m < - m_min ->
  zeta_eq zeta m vs p_i p_o = 0 -> zeta_report m vs p_i p_o = - zeta.
Proof.
  intros zeta m vs p_i p_o V M H. assert (P := m_min_pos).
  apply zeta_eq_iff in H; [| rewrite Rabs_left by lra; lra | exact V].
  unfold zeta_report. rewrite leb_f by (rewrite Rabs_left by lra; lra).
  rewrite H. unfold zeta_drop. rewrite Rabs_left by lra. field.
  repeat split; first [apply PI_neq0 | lra].
Qed.

Lemma zeta_report_small : forall m vs p_i p_o, Rabs m <= m_min -> zeta_report m vs p_i p_o = 0.
Proof. intros. unfold zeta_report. rewrite leb_t by assumption. reflexivity. Qed.

(* -------------------------------------------------------------- pipe equations *)

Definition darcy_drop (lam : R -> R) (L D visc m vs : R) : R :=
  8 * Rabs m * m * vs / 2 * L * lam (4 * Rabs m / (PI * D * visc / 2)) / (PI ^ 2 * D ^ 5).

Lemma darcy_iff : forall lam L D visc m vs p_i p_o, m_min <= Rabs m ->
  (darcy_eq lam L D visc m vs p_i p_o = 0 <-> p_i - p_o = darcy_drop lam L D visc m vs).
Proof.
  intros. unfold darcy_eq, darcy_drop. rewrite ltb_f by assumption. split; intros; lra.
Qed.

Lemma darcy_unique : forall lam L D visc m vs p_i,
  exists! p_o, darcy_eq lam L D visc m vs p_i p_o = 0.
Proof.
  intros. destruct (Rlt_dec (Rabs m) m_min) as [H | H].
  - exists p_i. unfold darcy_eq. rewrite ltb_t by exact H. split; [ring | intros; lra].
  - exists (p_i - darcy_drop lam L D visc m vs). split.
    + apply darcy_iff; [lra | ring].
    + intros y E. apply darcy_iff in E; lra.
Qed.

Lemma darcy_direction : forall lam L D visc m vs p_i p_o,
  (forall re, 0 < re -> 0 < lam re) -> 0 < L -> 0 < D -> 0 < visc -> 0 < vs ->
  m_min <= Rabs m ->
  darcy_eq lam L D visc m vs p_i p_o = 0 -> drops_along_flow m p_i p_o.
Proof.
  intros lam L D visc m vs p_i p_o F HL HD HN HV M H.
  apply darcy_iff in H; [| exact M]. unfold darcy_drop in H.
  set (l := lam (4 * Rabs m / (PI * D * visc / 2))) in *.
  assert (LP : 0 < l).
  { apply F. assert (P := m_min_pos). assert (K := PI_RGT_0).
    apply Rdiv_lt_0_compat; [lra |].
    apply Rdiv_lt_0_compat; [| lra]. apply Rmult_lt_0_compat; [| exact HN].
    apply Rmult_lt_0_compat; assumption. }
  clearbody l. destruct (absm_m m M) as (P & N & _).
  assert (C : 0 < 4 * vs * L * l / (PI ^ 2 * D ^ 5)).
  { apply Rdiv_lt_0_compat.
    - apply Rmult_lt_0_compat; [| exact LP]. apply Rmult_lt_0_compat; [lra | exact HL].
    - apply Rmult_lt_0_compat; [exact PI2_pos | apply pow_lt; exact HD]. }
  assert (E : 8 * Rabs m * m * vs / 2 * L * l / (PI ^ 2 * D ^ 5)
              = (Rabs m * m) * (4 * vs * L * l / (PI ^ 2 * D ^ 5))).
  { field. repeat split; first [apply PI_neq0 | lra]. }
  rewrite E in H. set (c := 4 * vs * L * l / (PI ^ 2 * D ^ 5)) in *. clearbody c.
  split; intro S0.
  - specialize (P S0). assert (0 < Rabs m * m * c) by (apply Rmult_lt_0_compat; assumption). lra.
  - specialize (N S0).
    assert (0 < (- (Rabs m * m)) * c) by (apply Rmult_lt_0_compat; lra). lra.
Qed.

Definition hw_drop (L ks D m vs : R) : R :=
  (10 + 67 / 100) * Rpower (Rabs m) (1852 / 1000) * L
  / (Rpower ks (1852 / 1000) * Rpower D (4871 / 1000))
  * ((9 + 81 / 100) * Rpower (vs / 2) (852 / 1000)).

Lemma rpower_pos : forall x y, 0 < Rpower x y.
Proof. intros. unfold Rpower. apply exp_pos. Qed.

Lemma hw_drop_pos : forall L ks D m vs, 0 < L -> 0 < hw_drop L ks D m vs.
Proof.
  intros L ks D m vs HL. unfold hw_drop.
  assert (A := rpower_pos (Rabs m) (1852 / 1000)). assert (B := rpower_pos ks (1852 / 1000)).
  assert (C := rpower_pos D (4871 / 1000)). assert (E := rpower_pos (vs / 2) (852 / 1000)).
  apply Rmult_lt_0_compat; [| lra].
  apply Rdiv_lt_0_compat; [| apply Rmult_lt_0_compat; assumption].
  apply Rmult_lt_0_compat; [| exact HL]. lra.
Qed.

Lemma hw_forward : forall L ks D m vs p_i p_o, 0 < L -> m_min <= m ->
  (hw_eq L ks D m vs p_i p_o = 0 <->
   p_o = p_i - hw_drop L ks D m vs \/ p_o = p_i + hw_drop L ks D m vs).
Proof.
  intros L ks D m vs p_i p_o HL M. assert (P := m_min_pos).
  unfold hw_eq. rewrite ltb_f by (rewrite Rabs_right by lra; exact M).
  fold (hw_drop L ks D m vs). assert (H := hw_drop_pos L ks D m vs HL).
  set (X := hw_drop L ks D m vs) in *. clearbody X.
  unfold copysign. rewrite ltb_f by lra. unfold Rabs. destruct (Rcase_abs (p_i - p_o)); split; intro E; lra.
Qed.

Lemma hw_backward : forall L ks D m vs p_i p_o, 0 < L -> m <= - m_min ->
  hw_eq L ks D m vs p_i p_o <> 0.
Proof.
  intros L ks D m vs p_i p_o HL M. assert (P := m_min_pos).
  unfold hw_eq. rewrite ltb_f by (rewrite Rabs_left by lra; lra).
  fold (hw_drop L ks D m vs). assert (H := hw_drop_pos L ks D m vs HL).
  unfold copysign. rewrite ltb_t by lra. assert (A := Rabs_pos (p_i - p_o)). lra.
Qed.
