(** Proofs about the reaction equations. *)
From Coq Require Import QArith Qabs Lqa Permutation.
From Verif Require Import Base CombModel CombSpec.
Open Scope Q_scope.

(* ------------------------------------------------------------------- sums *)

Lemma sum_ext : forall A (l : list A) g h, (forall a, In a l -> g a == h a) ->
  sum_over l g == sum_over l h.
Proof.
  intros A l g h. unfold sum_over. induction l as [| a l IH]; cbn [map qsum]; intro H; [reflexivity |].
  rewrite (H a (or_introl eq_refl)), IH; [reflexivity |]. intros x X. apply H. right. exact X.
Qed.
Lemma sum_plus : forall A (l : list A) g h,
  sum_over l (fun a => g a + h a) == sum_over l g + sum_over l h.
Proof.
  intros A l g h. unfold sum_over. induction l as [| a l IH]; cbn [map qsum]; [ring |]. rewrite IH. ring.
Qed.
Lemma sum_scale : forall A (l : list A) c g, sum_over l (fun a => c * g a) == c * sum_over l g.
Proof.
  intros A l c g. unfold sum_over. induction l as [| a l IH]; cbn [map qsum]; [ring |]. rewrite IH. ring.
Qed.
Lemma sum_zero : forall A (l : list A) g, (forall a, In a l -> g a == 0) -> sum_over l g == 0.
Proof.
  intros A l g H. rewrite (sum_ext A l g (fun _ => 0 * 0)).
  - rewrite (sum_scale A l 0 (fun _ => 0)). ring.
  - intros a I. rewrite (H a I). ring.
Qed.
Lemma sum_perm : forall A (l m : list A) g, Permutation l m -> sum_over l g == sum_over m g.
Proof.
  intros A l m g P. unfold sum_over. induction P; cbn [map qsum].
  - reflexivity.
  - rewrite IHP. reflexivity.
  - ring.
  - rewrite IHP1. exact IHP2.
Qed.
Lemma sum_filter : forall A (l : list A) p g, (forall a, In a l -> p a = false -> g a == 0) ->
  sum_over l g == sum_over (filter p l) g.
Proof.
  intros A l p g. unfold sum_over. induction l as [| a l IH]; intro H; [reflexivity |].
  cbn [filter]. destruct (p a) eqn:E; cbn [map qsum].
  - rewrite IH; [reflexivity |]. intros x X. apply H. right. exact X.
  - rewrite (H a (or_introl eq_refl) E), IH; [ring |]. intros x X. apply H. right. exact X.
Qed.
(** a sum whose terms vanish outside [L] *)
Lemma sum_support : forall (fl L : list string) g, NoDup fl -> NoDup L -> incl L fl ->
  (forall f, In f fl -> ~ In f L -> g f == 0) -> sum_over fl g == sum_over L g.
Proof.
  intros fl L g N1 N2 I Z. pose (p := fun f => if in_dec string_dec f L then true else false).
  rewrite (sum_filter _ fl p g).
  - apply sum_perm. apply NoDup_Permutation; [apply NoDup_filter; exact N1 | exact N2 |].
    intro x. rewrite filter_In. unfold p. destruct (in_dec string_dec x L) as [Y | Y]; split.
    + intros _. exact Y.
    + intros _. split; [apply I; exact Y | reflexivity].
    + intros [_ X]. discriminate X.
    + intro X. contradiction.
  - intros a A E. apply Z; [exact A |]. unfold p in E. destruct (in_dec string_dec a L); [discriminate E | assumption].
Qed.
Lemma sum_map : forall A B (l : list A) (k : A -> B) g, sum_over (map k l) g = sum_over l (fun a => g (k a)).
Proof. intros. unfold sum_over. rewrite map_map. reflexivity. Qed.

(* ---------------------------------------------------------- basic evaluations *)

Lemma qdiv_ok : forall a b, ~ b == 0 -> qdiv a b = Ok (a / b).
Proof.
  intros a b N. unfold qdiv. destruct (Qeq_bool b 0) eqn:E; [| reflexivity].
  apply Qeq_bool_iff in E. contradiction.
Qed.
Lemma qlt_true : forall a b, qlt a b = true <-> a < b.
Proof.
  intros a b. unfold qlt. rewrite negb_true_iff. split; intro H.
  - apply Qnot_le_lt. intro L. apply Qle_bool_iff in L. congruence.
  - destruct (Qle_bool b a) eqn:E; [| reflexivity]. apply Qle_bool_iff in E. lra.
Qed.
Lemma qlt_false : forall a b, qlt a b = false <-> b <= a.
Proof.
  intros a b. unfold qlt. rewrite negb_false_iff. apply Qle_bool_iff.
Qed.
Lemma fget_frac : forall d k, dget k d <> None -> fget d k = Ok (frac d k).
Proof. intros d k H. unfold fget, frac. destruct (dget k d); [reflexivity | contradiction]. Qed.

Lemma cancel : forall x y q, ~ q == 0 -> x * (y * q) / q == x * y.
Proof. intros. field. assumption. Qed.

Section Complete.
Variable ch : chamber.
Variable fl : list string.
Hypothesis C : complete ch fl.

Lemma fget_stream : forall f s, In f fl -> In s [c_in1 ch; c_in2 ch; c_out ch] ->
  fget (s_x s) f = Ok (frac (s_x s) f).
Proof. intros f s F S. apply fget_frac. apply (fl_present _ _ C); assumption. Qed.
Lemma fget_M : forall f, In f fl -> fget (c_M ch) f = Ok (frac (c_M ch) f).
Proof.
  intros f F. apply fget_frac. destruct (fl_mass _ _ C f F) as (M & E & _). rewrite E. discriminate.
Qed.
Lemma M_nonzero : forall f, In f fl -> ~ frac (c_M ch) f == 0.
Proof. intros f F. destruct (fl_mass _ _ C f F) as (M & E & N). unfold frac. rewrite E. exact N. Qed.

Lemma amount_ok : forall f s, In f fl -> In s [c_in1 ch; c_in2 ch; c_out ch] ->
  amount ch s f = Ok (flow s f / frac (c_M ch) f).
Proof.
  intros f s F S. unfold amount. rewrite (fget_stream f s F S). cbn [rbind].
  rewrite (fget_M f F). cbn [rbind]. rewrite qdiv_ok; [reflexivity | apply M_nonzero; exact F].
Qed.

Lemma in1_in : In (c_in1 ch) [c_in1 ch; c_in2 ch; c_out ch]. Proof. left. reflexivity. Qed.
Lemma in2_in : In (c_in2 ch) [c_in1 ch; c_in2 ch; c_out ch]. Proof. right. left. reflexivity. Qed.
Lemma out_in : In (c_out ch) [c_in1 ch; c_in2 ch; c_out ch]. Proof. right. right. left. reflexivity. Qed.

Lemma fuel_in : forall f, In f (c_fuels ch) -> In (f_name f) fl.
Proof. intros f F. apply (fl_fuels _ _ C). apply in_map. exact F. Qed.
Lemma co2_in : In "CO2"%string fl. Proof. apply (fl_products _ _ C). left. reflexivity. Qed.
Lemma h2o_in : In "H2O"%string fl. Proof. apply (fl_products _ _ C). right. left. reflexivity. Qed.
Lemma o2_in : In "O2"%string fl. Proof. apply (fl_products _ _ C). right. right. left. reflexivity. Qed.

Definition NH : Q := sum_over (c_fuels ch) (fun f => moles_in ch (f_name f) * f_H f).
Definition NC : Q := sum_over (c_fuels ch) (fun f => moles_in ch (f_name f) * f_C f).

Lemma fuel_sums_ok : forall fs, incl fs (c_fuels ch) -> forall nh nc,
  exists a b, fuel_sums ch fs nh nc = Ok (a, b)
    /\ a == nh + sum_over fs (fun f => moles_in ch (f_name f) * f_H f)
    /\ b == nc + sum_over fs (fun f => moles_in ch (f_name f) * f_C f).
Proof.
  induction fs as [| f fs IH]; intros I nh nc; cbn [fuel_sums].
  - exists nh, nc. split; [reflexivity |]. unfold sum_over. cbn [map qsum]. split; ring.
  - assert (F : In (f_name f) fl) by (apply fuel_in; apply I; left; reflexivity).
    rewrite (amount_ok _ _ F in1_in), (amount_ok _ _ F in2_in). cbn [rbind].
    destruct (IH (fun x X => I x (or_intror X))
      (nh + flow (c_in1 ch) (f_name f) / frac (c_M ch) (f_name f) * f_H f
          + flow (c_in2 ch) (f_name f) / frac (c_M ch) (f_name f) * f_H f)
      (nc + flow (c_in1 ch) (f_name f) / frac (c_M ch) (f_name f) * f_C f
          + flow (c_in2 ch) (f_name f) / frac (c_M ch) (f_name f) * f_C f)) as (a & b & E & A & B).
    exists a, b. split; [exact E |]. rewrite A, B. unfold sum_over. cbn [map qsum]. unfold moles_in.
    split; ring.
Qed.

Lemma needed_split : oxygen_needed ch == NH / 4 + NC.
Proof.
  unfold oxygen_needed, NH, NC.
  assert (E : sum_over (c_fuels ch) (fun f => moles_in ch (f_name f) * (f_C f + f_H f / 4))
    == sum_over (c_fuels ch) (fun f => (1#4) * (moles_in ch (f_name f) * f_H f) + moles_in ch (f_name f) * f_C f)).
  { apply sum_ext. intros f _. field. }
  rewrite E, sum_plus, sum_scale. field.
Qed.

Lemma fuel_moles_ok : forall f, In f fl -> exists n, fuel_moles ch f = Ok n /\ n == moles_in ch f.
Proof.
  intros f F. unfold fuel_moles. rewrite (amount_ok _ _ F in1_in), (amount_ok _ _ F in2_in). cbn [rbind].
  eexists. split; [reflexivity |]. unfold moles_in. ring.
Qed.

Lemma find_fuel_in : forall f, In f (c_fuels ch) -> find_fuel ch (f_name f) = Some f.
Proof.
  intros f F. unfold find_fuel. pose proof (fl_names _ _ C) as N.
  induction (c_fuels ch) as [| g l IH]; [destruct F |].
  cbn [map] in N. apply NoDup_cons_iff in N. destruct N as [NI N]. cbn [find].
  destruct F as [-> | F].
  - rewrite String.eqb_refl. reflexivity.
  - destruct (String.eqb_spec (f_name f) (f_name g)) as [E | E]; [| apply IH; assumption].
    exfalso. apply NI. rewrite <- E. apply in_map. exact F.
Qed.
Lemma find_fuel_none : forall f, ~ In f (map f_name (c_fuels ch)) -> find_fuel ch f = None.
Proof.
  intros f H. unfold find_fuel. induction (c_fuels ch) as [| g l IH]; [reflexivity |]. cbn [find].
  destruct (String.eqb_spec f (f_name g)) as [E | E].
  - exfalso. apply H. left. symmetry. exact E.
  - apply IH. intro X. apply H. right. exact X.
Qed.

(** air ratio *)
Lemma lambda_value : forall l, calc_lambda ch = Ok l -> l == moles_in ch "O2" / oxygen_needed ch.
Proof.
  intros l H. unfold calc_lambda in H.
  destruct (fuel_sums_ok (c_fuels ch) (incl_refl _) 0 0) as (a & b & E & A & B). rewrite E in H. cbn [rbind] in H.
  destruct (fuel_moles_ok "O2" o2_in) as (n & E2 & QN). rewrite E2 in H. cbn [rbind] in H.
  unfold qdiv in H. destruct (Qeq_bool (a / 4 + b) 0); [discriminate H |]. injection H as <-.
  rewrite QN, needed_split, A, B. unfold NH, NC. setoid_replace (0 + sum_over (c_fuels ch) (fun f => moles_in ch (f_name f) * f_H f)) with (sum_over (c_fuels ch) (fun f => moles_in ch (f_name f) * f_H f)) by ring.
  setoid_replace (0 + sum_over (c_fuels ch) (fun f => moles_in ch (f_name f) * f_C f)) with (sum_over (c_fuels ch) (fun f => moles_in ch (f_name f) * f_C f)) by ring.
  reflexivity.
Qed.

(** produced amounts of the species *)
Definition produced (lam : Q) (f : string) : Q :=
  let nst := oxygen_needed ch in
  let nox := moles_in ch "O2" in
  let rich := qlt lam 1 in
  if String.eqb f "CO2" then NC - (if rich then nst - nox else 0)
  else if String.eqb f "H2O" then (NH - (if rich then (nst - nox) * 4 else 0)) / 2
  else if String.eqb f "O2" then (if rich then - nox else - nox / lam)
  else match find_fuel ch f with
       | Some _ => - (moles_in ch f - (if rich then - (nox / nst - 1) * moles_in ch f else 0))
       | None => 0
       end.

Lemma stoichiometry_value : forall f r l, In f fl -> stoichiometry ch f = Ok (r, l) ->
  (c_lamb_set ch = true /\ l = c_lamb ch
   \/ c_lamb_set ch = false /\ l == moles_in ch "O2" / oxygen_needed ch /\ ~ oxygen_needed ch == 0)
  /\ r == produced l f * frac (c_M ch) f + flow (c_in1 ch) f + flow (c_in2 ch) f - flow (c_out ch) f.
Proof.
  intros f r l F H. unfold stoichiometry in H.
  destruct (fuel_sums_ok (c_fuels ch) (incl_refl _) 0 0) as (a & b & E & A & B). rewrite E in H.
  cbn [rbind] in H. clear E.
  destruct (fuel_moles_ok "O2" o2_in) as (n & E2 & QN). rewrite E2 in H. cbn [rbind] in H. clear E2.
  fold NH in A. fold NC in B.
  assert (A' : a == NH) by (rewrite A; unfold NH; ring).
  assert (B' : b == NC) by (rewrite B; unfold NC; ring). clear A B.
  assert (ST : a / 4 + b == oxygen_needed ch) by (rewrite needed_split, A', B'; reflexivity).
  rewrite (fget_stream f _ F in1_in), (fget_stream f _ F in2_in), (fget_stream f _ F out_in) in H.
  cbn [rbind] in H.
  destruct (if c_lamb_set ch then Ok (c_lamb ch) else qdiv n (a / 4 + b)) as [lam |] eqn:L;
    [| discriminate H].
  cbn [rbind] in H.
  assert (G1 : c_lamb_set ch = true /\ lam = c_lamb ch
     \/ c_lamb_set ch = false /\ lam == moles_in ch "O2" / oxygen_needed ch /\ ~ oxygen_needed ch == 0).
  { destruct (c_lamb_set ch); [left; split; [reflexivity | congruence] |]. right. split; [reflexivity |].
    unfold qdiv in L. destruct (Qeq_bool (a / 4 + b) 0) eqn:Z; [discriminate L |]. injection L as <-.
    split; [rewrite QN, ST; reflexivity |]. intro X. rewrite <- ST in X.
    apply Qeq_bool_iff in X. congruence. }
  set (dm := if String.eqb f "CO2" then _ else _) in H.
  assert (G2 : forall v, dm = Ok v -> v == produced lam f * frac (c_M ch) f).
  { unfold dm, produced. intros v V. clear H.
    destruct (String.eqb_spec f "CO2") as [-> |].
    { rewrite (fget_M _ F) in V. cbn [rbind] in V. injection V as <-.
      destruct (qlt lam 1); rewrite <- ?ST, <- ?QN, <- ?B'; ring. }
    destruct (String.eqb_spec f "H2O") as [-> |].
    { rewrite (fget_M _ F) in V. cbn [rbind] in V. injection V as <-.
      destruct (qlt lam 1); rewrite <- ?ST, <- ?QN, <- ?A'; field. }
    destruct (String.eqb_spec f "O2") as [-> |].
    { rewrite (fget_M _ F) in V. cbn [rbind] in V. destruct (qlt lam 1); cbn [rbind] in V.
      - injection V as <-. rewrite QN. ring.
      - unfold qdiv in V. destruct (Qeq_bool lam 0) eqn:Z; [discriminate V |]. cbn [rbind] in V.
        injection V as <-. rewrite QN. reflexivity. }
    destruct (find_fuel ch f) as [g |]; [| injection V as <-; ring].
    destruct (fuel_moles_ok f F) as (nf & E3 & QF). rewrite E3 in V. cbn [rbind] in V.
    rewrite (fget_M _ F) in V.
    destruct (qlt lam 1); cbn [rbind] in V.
    - unfold qdiv in V. destruct (Qeq_bool (a / 4 + b) 0) eqn:Z1; cbn [rbind] in V; [discriminate V |].
      destruct (Qeq_bool (f_H g / 4 + f_C g) 0) eqn:Z2; cbn [rbind] in V; [discriminate V |].
      injection V as <-.
      assert (N1 : ~ a / 4 + b == 0) by (intro X; apply Qeq_bool_iff in X; congruence).
      assert (N2 : ~ f_H g / 4 + f_C g == 0) by (intro X; apply Qeq_bool_iff in X; congruence).
      assert (EQ : - (n / (a / 4 + b) - 1) * (nf * (f_H g / 4 + f_C g)) / (f_H g / 4 + f_C g)
                   == - (n / (a / 4 + b) - 1) * nf).
      { apply cancel. exact N2. }
      rewrite EQ, QN, QF, ST. reflexivity.
    - injection V as <-. rewrite QF. reflexivity. }
  destruct dm as [v |]; cbn [rbind] in H; [| discriminate H]. injection H as <- <-.
  split; [exact G1 |]. rewrite (G2 v eq_refl). unfold flow. ring.
Qed.
Lemma air_ratio_value : forall f r l, air_ratio_consistent ch -> In f fl ->
  stoichiometry ch f = Ok (r, l) -> l == moles_in ch "O2" / oxygen_needed ch.
Proof.
  intros f r l A F H. destruct (stoichiometry_value f r l F H) as [[[S E] | [_ [E _]]] _]; [| exact E].
  destruct (A S) as (d & D & Z). unfold lambda_func in D.
  destruct (calc_lambda ch) as [x |] eqn:X; [| discriminate D]. cbn [rmap] in D. injection D as <-.
  apply lambda_value in X. rewrite E, <- X. lra.
Qed.

Definition support : list string := ("CO2" :: "H2O" :: "O2" :: map f_name (c_fuels ch))%string.
Lemma support_nodup : NoDup support.
Proof.
  pose proof (fl_apart _ _ C) as A. unfold support.
  assert (X : forall s, In s ["CO2"; "H2O"; "O2"]%string -> ~ In s (map f_name (c_fuels ch))).
  { intros s S I. apply in_map_iff in I. destruct I as (f & <- & F). exact (A f F S). }
  repeat (apply NoDup_cons; [cbn [In]; intuition (try discriminate) |]); try apply (fl_names _ _ C);
    eapply X; try eassumption; cbn [In]; tauto.
Qed.
Lemma support_incl : incl support fl.
Proof.
  unfold support. intros x [<- | [<- | [<- | H]]];
    [apply co2_in | apply h2o_in | apply o2_in | apply (fl_fuels _ _ C); exact H].
Qed.

Lemma element_change : forall (z : string -> Q) a,
  (forall f, In f fl -> flow (c_out ch) f == flow (c_in1 ch) f + flow (c_in2 ch) f + z f * frac (c_M ch) f) ->
  (forall f, ~ In f support -> z f == 0) ->
  element a (c_M ch) fl (c_out ch)
  == element a (c_M ch) fl (c_in1 ch) + element a (c_M ch) fl (c_in2 ch)
     + (a "CO2"%string * z "CO2"%string + a "H2O"%string * z "H2O"%string + a "O2"%string * z "O2"%string
        + sum_over (c_fuels ch) (fun f => a (f_name f) * z (f_name f))).
Proof.
  intros z a H Z. unfold element.
  rewrite (sum_ext _ fl _ (fun f => (a f * flow (c_in1 ch) f / frac (c_M ch) f
      + a f * flow (c_in2 ch) f / frac (c_M ch) f) + a f * z f)).
  2:{ intros f F. rewrite (H f F). field. apply M_nonzero. exact F. }
  rewrite sum_plus, sum_plus.
  rewrite (sum_support fl support (fun f => a f * z f) (fl_nodup _ _ C) support_nodup support_incl).
  2:{ intros f _ N. rewrite (Z f N). ring. }
  unfold support. unfold sum_over at 3. cbn [map qsum].
  change (qsum (map (fun f => a f * z f) (map f_name (c_fuels ch))))
    with (sum_over (map f_name (c_fuels ch)) (fun f => a f * z f)).
  rewrite sum_map. ring.
Qed.

Lemma outside_produced : forall l f, ~ In f support -> produced l f = 0.
Proof.
  intros l f N. unfold support in N. cbn [In] in N. unfold produced.
  destruct (String.eqb_spec f "CO2") as [-> |]; [exfalso; apply N; left; reflexivity |].
  destruct (String.eqb_spec f "H2O") as [-> |]; [exfalso; apply N; right; left; reflexivity |].
  destruct (String.eqb_spec f "O2") as [-> |]; [exfalso; apply N; right; right; left; reflexivity |].
  rewrite find_fuel_none; [reflexivity |]. tauto.
Qed.

(** the composition of the outlet, enough air *)
Definition lean_change (f : string) : Q :=
  if String.eqb f "CO2" then NC
  else if String.eqb f "H2O" then NH / 2
  else if String.eqb f "O2" then - oxygen_needed ch
  else match find_fuel ch f with Some _ => - moles_in ch f | None => 0 end.
Definition rich_change (f : string) : Q :=
  let d := oxygen_needed ch - moles_in ch "O2" in
  if String.eqb f "CO2" then NC - d
  else if String.eqb f "H2O" then NH / 2 - 2 * d
  else if String.eqb f "O2" then - moles_in ch "O2"
  else match find_fuel ch f with
       | Some _ => - (moles_in ch "O2" / oxygen_needed ch) * moles_in ch f | None => 0 end.

Lemma out_change : forall f, In f fl -> reactions_hold ch fl -> air_ratio_consistent ch ->
  0 < oxygen_needed ch ->
  (oxygen_needed ch <= moles_in ch "O2" ->
   flow (c_out ch) f == flow (c_in1 ch) f + flow (c_in2 ch) f + lean_change f * frac (c_M ch) f)
  /\ (0 <= moles_in ch "O2" < oxygen_needed ch ->
   flow (c_out ch) f == flow (c_in1 ch) f + flow (c_in2 ch) f + rich_change f * frac (c_M ch) f).
Proof.
  intros f F R A P. destruct (R f F) as (r & l & E & Z).
  destruct (stoichiometry_value f r l F E) as [_ V].
  pose proof (air_ratio_value f r l A F E) as L.
  assert (G : flow (c_out ch) f == flow (c_in1 ch) f + flow (c_in2 ch) f + produced l f * frac (c_M ch) f)
    by (rewrite Z in V; lra).
  clear V Z E R. rewrite G. clear G. split; intro K.
  - assert (L1 : 1 <= l) by (rewrite L; apply Qle_shift_div_l; [exact P | lra]).
    assert (Q1 : qlt l 1 = false) by (apply qlt_false; exact L1).
    apply Qplus_comp; [reflexivity |]. apply Qmult_comp; [| reflexivity].
    unfold produced, lean_change. rewrite Q1.
    destruct (String.eqb f "CO2"); [ring |]. destruct (String.eqb f "H2O"); [field |].
    destruct (String.eqb f "O2").
    + rewrite L. field. split; [lra |]. lra.
    + destruct (find_fuel ch f); ring.
  - assert (L1 : l < 1) by (rewrite L; apply Qlt_shift_div_r; [exact P | lra]).
    assert (Q1 : qlt l 1 = true) by (apply qlt_true; exact L1).
    apply Qplus_comp; [reflexivity |]. apply Qmult_comp; [| reflexivity].
    unfold produced, rich_change. rewrite Q1.
    destruct (String.eqb f "CO2"); [ring |]. destruct (String.eqb f "H2O"); [field |].
    destruct (String.eqb f "O2"); [ring |].
    destruct (find_fuel ch f); [| reflexivity]. field. lra.
Qed.

Lemma outside_lean : forall f, ~ In f support -> lean_change f == 0.
Proof.
  intros f N. unfold support in N. cbn [In] in N. unfold lean_change.
  destruct (String.eqb_spec f "CO2") as [-> |]; [exfalso; apply N; left; reflexivity |].
  destruct (String.eqb_spec f "H2O") as [-> |]; [exfalso; apply N; right; left; reflexivity |].
  destruct (String.eqb_spec f "O2") as [-> |]; [exfalso; apply N; right; right; left; reflexivity |].
  rewrite find_fuel_none; [reflexivity |]. tauto.
Qed.
Lemma outside_rich : forall f, ~ In f support -> rich_change f == 0.
Proof.
  intros f N. unfold support in N. cbn [In] in N. unfold rich_change.
  destruct (String.eqb_spec f "CO2") as [-> |]; [exfalso; apply N; left; reflexivity |].
  destruct (String.eqb_spec f "H2O") as [-> |]; [exfalso; apply N; right; left; reflexivity |].
  destruct (String.eqb_spec f "O2") as [-> |]; [exfalso; apply N; right; right; left; reflexivity |].
  rewrite find_fuel_none; [reflexivity |]. tauto.
Qed.

Lemma fuel_branch : forall f, In f (c_fuels ch) ->
  String.eqb (f_name f) "CO2" = false /\ String.eqb (f_name f) "H2O" = false
  /\ String.eqb (f_name f) "O2" = false.
Proof.
  intros f F. pose proof (fl_apart _ _ C f F) as A. cbn [In] in A.
  repeat split; apply String.eqb_neq; intro X; apply A; rewrite X; tauto.
Qed.
Lemma lean_fuel : forall f, In f (c_fuels ch) -> lean_change (f_name f) = - moles_in ch (f_name f).
Proof.
  intros f F. unfold lean_change. destruct (fuel_branch f F) as (-> & -> & ->).
  rewrite (find_fuel_in f F). reflexivity.
Qed.
Lemma rich_fuel : forall f, In f (c_fuels ch) ->
  rich_change (f_name f) = - (moles_in ch "O2" / oxygen_needed ch) * moles_in ch (f_name f).
Proof.
  intros f F. unfold rich_change. destruct (fuel_branch f F) as (-> & -> & ->).
  rewrite (find_fuel_in f F). reflexivity.
Qed.

Lemma fuel_weighted : forall (z : string -> Q) k (a : string -> Q) (w : fuel -> Q),
  (forall f, In f (c_fuels ch) -> z (f_name f) == k * moles_in ch (f_name f)) ->
  (forall f, In f (c_fuels ch) -> a (f_name f) == w f) ->
  sum_over (c_fuels ch) (fun f => a (f_name f) * z (f_name f))
  == k * sum_over (c_fuels ch) (fun f => moles_in ch (f_name f) * w f).
Proof.
  intros z k a w Hz Ha. rewrite <- sum_scale. apply sum_ext. intros f F.
  rewrite (Hz f F), (Ha f F). ring.
Qed.

(** enough air: every element is conserved *)
Lemma lean_elements : forall aC aH aO, chemistry ch aC aH aO ->
  reactions_hold ch fl -> air_ratio_consistent ch ->
  0 < oxygen_needed ch -> oxygen_needed ch <= moles_in ch "O2" ->
  forall a, In a [aC; aH; aO] ->
  element a (c_M ch) fl (c_out ch)
  == element a (c_M ch) fl (c_in1 ch) + element a (c_M ch) fl (c_in2 ch).
Proof.
  intros aC aH aO K R A P L a I.
  rewrite (element_change lean_change a (fun f F => proj1 (out_change f F R A P) L) outside_lean).
  assert (Z : forall f, In f (c_fuels ch) -> lean_change (f_name f) == (-(1)) * moles_in ch (f_name f)).
  { intros f F. rewrite (lean_fuel f F). ring. }
  pose proof needed_split as NS.
  destruct I as [<- | [<- | [<- | []]]].
  - rewrite (fuel_weighted lean_change (-(1)) aC f_C Z (fuel_C _ _ _ _ K)). fold NC.
    rewrite (co2_C _ _ _ _ K), (h2o_C _ _ _ _ K), (o2_C _ _ _ _ K). unfold lean_change. cbn [String.eqb Ascii.eqb Bool.eqb]. ring.
  - rewrite (fuel_weighted lean_change (-(1)) aH f_H Z (fuel_H _ _ _ _ K)). fold NH.
    rewrite (co2_H _ _ _ _ K), (h2o_H _ _ _ _ K), (o2_H _ _ _ _ K). unfold lean_change. cbn [String.eqb Ascii.eqb Bool.eqb]. field.
  - rewrite (fuel_weighted lean_change (-(1)) aO (fun _ => 0) Z (fuel_O _ _ _ _ K)).
    rewrite (sum_zero _ (c_fuels ch) (fun f => moles_in ch (f_name f) * 0)) by (intros; ring).
    rewrite (co2_O _ _ _ _ K), (h2o_O _ _ _ _ K), (o2_O _ _ _ _ K). unfold lean_change. cbn [String.eqb Ascii.eqb Bool.eqb].
    rewrite NS. field.
Qed.

(** too little air: what is lost *)
Lemma rich_elements : forall aC aH aO, chemistry ch aC aH aO ->
  reactions_hold ch fl -> air_ratio_consistent ch ->
  0 <= moles_in ch "O2" < oxygen_needed ch ->
  let short := oxygen_needed ch - moles_in ch "O2" in
  element aC (c_M ch) fl (c_in1 ch) + element aC (c_M ch) fl (c_in2 ch) - element aC (c_M ch) fl (c_out ch)
    == short * (NH / 4) / oxygen_needed ch
  /\ element aH (c_M ch) fl (c_in1 ch) + element aH (c_M ch) fl (c_in2 ch) - element aH (c_M ch) fl (c_out ch)
    == 4 * short * NC / oxygen_needed ch
  /\ element aO (c_M ch) fl (c_in1 ch) + element aO (c_M ch) fl (c_in2 ch) - element aO (c_M ch) fl (c_out ch)
    == 2 * short.
Proof.
  intros aC aH aO K R A L short.
  assert (P : 0 < oxygen_needed ch) by lra.
  assert (X : forall a, element a (c_M ch) fl (c_out ch)
      == element a (c_M ch) fl (c_in1 ch) + element a (c_M ch) fl (c_in2 ch)
         + (a "CO2"%string * rich_change "CO2"%string + a "H2O"%string * rich_change "H2O"%string
            + a "O2"%string * rich_change "O2"%string
            + sum_over (c_fuels ch) (fun f => a (f_name f) * rich_change (f_name f)))).
  { intro a. apply (element_change rich_change a (fun f F => proj2 (out_change f F R A P) L) outside_rich). }
  set (k := - (moles_in ch "O2" / oxygen_needed ch)).
  assert (Z : forall f, In f (c_fuels ch) -> rich_change (f_name f) == k * moles_in ch (f_name f)).
  { intros f F. rewrite (rich_fuel f F). reflexivity. }
  pose proof needed_split as NS.
  assert (N : ~ oxygen_needed ch == 0) by lra.
  split; [| split].
  - rewrite (X aC). rewrite (fuel_weighted rich_change k aC f_C Z (fuel_C _ _ _ _ K)). fold NC.
    rewrite (co2_C _ _ _ _ K), (h2o_C _ _ _ _ K), (o2_C _ _ _ _ K). unfold rich_change, k, short.
    cbn [String.eqb Ascii.eqb Bool.eqb].
    assert (HN : NH == 4 * (oxygen_needed ch - NC)) by (rewrite NS; field). rewrite HN. field. exact N.
  - rewrite (X aH). rewrite (fuel_weighted rich_change k aH f_H Z (fuel_H _ _ _ _ K)). fold NH.
    rewrite (co2_H _ _ _ _ K), (h2o_H _ _ _ _ K), (o2_H _ _ _ _ K). unfold rich_change, k, short.
    cbn [String.eqb Ascii.eqb Bool.eqb].
    assert (HN : NH == 4 * (oxygen_needed ch - NC)) by (rewrite NS; field). rewrite HN. field. exact N.
  - rewrite (X aO). rewrite (fuel_weighted rich_change k aO (fun _ => 0) Z (fuel_O _ _ _ _ K)).
    rewrite (sum_zero _ (c_fuels ch) (fun f => moles_in ch (f_name f) * 0)) by (intros; ring).
    rewrite (co2_O _ _ _ _ K), (h2o_O _ _ _ _ K), (o2_O _ _ _ _ K). unfold rich_change, k, short.
    cbn [String.eqb Ascii.eqb Bool.eqb].
    assert (HN : NH == 4 * (oxygen_needed ch - NC)) by (rewrite NS; field). rewrite HN. field. exact N.
Qed.

(** the outlet without fuel, inert fluids unchanged *)
Lemma lean_species : reactions_hold ch fl -> air_ratio_consistent ch ->
  0 < oxygen_needed ch -> oxygen_needed ch <= moles_in ch "O2" ->
  (forall f, In f (c_fuels ch) -> flow (c_out ch) (f_name f) == 0)
  /\ (forall f, In f fl -> ~ In f ["CO2"; "H2O"; "O2"]%string -> ~ In f (map f_name (c_fuels ch)) ->
      flow (c_out ch) f == flow (c_in1 ch) f + flow (c_in2 ch) f)
  /\ (flow (c_out ch) "O2" == flow (c_in1 ch) "O2" + flow (c_in2 ch) "O2"
       - oxygen_needed ch * frac (c_M ch) "O2").
Proof.
  intros R A P L. split; [| split].
  - intros f F. pose proof (fuel_in f F) as I.
    rewrite (proj1 (out_change _ I R A P) L), (lean_fuel f F). unfold moles_in.
    field. apply M_nonzero. exact I.
  - intros f F N1 N2. rewrite (proj1 (out_change _ F R A P) L), (outside_lean f); [ring |].
    unfold support. cbn [In] in *. tauto.
  - rewrite (proj1 (out_change _ o2_in R A P) L). unfold lean_change. cbn [String.eqb Ascii.eqb Bool.eqb]. ring.
Qed.

(** total mass *)
Definition mass_total (s : stream) : Q := sum_over fl (flow s).
Lemma mass_total_value : forall s, mass_total s == s_m s * sum_over fl (frac (s_x s)).
Proof. intro s. unfold mass_total, flow. apply sum_scale. Qed.

Lemma lean_mass : forall aC aH aO wC wH wO, chemistry ch aC aH aO ->
  (forall f, In f support -> frac (c_M ch) f == wC * aC f + wH * aH f + wO * aO f) ->
  reactions_hold ch fl -> air_ratio_consistent ch ->
  0 < oxygen_needed ch -> oxygen_needed ch <= moles_in ch "O2" ->
  mass_total (c_out ch) == mass_total (c_in1 ch) + mass_total (c_in2 ch).
Proof.
  intros aC aH aO wC wH wO K W R A P L. unfold mass_total.
  assert (E : forall s, sum_over fl (flow s) == element (frac (c_M ch)) (c_M ch) fl s).
  { intro s. unfold element. apply sum_ext. intros f F. field. apply M_nonzero. exact F. }
  rewrite !E.
  rewrite (element_change lean_change (frac (c_M ch)) (fun f F => proj1 (out_change f F R A P) L) outside_lean).
  set (T := _ + sum_over (c_fuels ch) _).
  assert (T0 : T == 0); [| rewrite T0; ring].
  unfold T. clear T.
  assert (SF : sum_over (c_fuels ch) (fun f => frac (c_M ch) (f_name f) * lean_change (f_name f))
     == - (wC * NC) - wH * NH).
  { rewrite (sum_ext _ (c_fuels ch) _ (fun f => (- wC) * (moles_in ch (f_name f) * f_C f)
        + (- wH) * (moles_in ch (f_name f) * f_H f))).
    - rewrite sum_plus, !sum_scale. unfold NC, NH. ring.
    - intros f F. rewrite (lean_fuel f F), (W (f_name f)).
      + rewrite (fuel_C _ _ _ _ K f F), (fuel_H _ _ _ _ K f F), (fuel_O _ _ _ _ K f F). ring.
      + unfold support. right. right. right. apply in_map. exact F. }
  rewrite SF. rewrite (W "CO2"%string), (W "H2O"%string), (W "O2"%string) by (unfold support; cbn [In]; tauto).
  rewrite (co2_C _ _ _ _ K), (h2o_C _ _ _ _ K), (o2_C _ _ _ _ K), (co2_H _ _ _ _ K), (h2o_H _ _ _ _ K),
    (o2_H _ _ _ _ K), (co2_O _ _ _ _ K), (h2o_O _ _ _ _ K), (o2_O _ _ _ _ K).
  unfold lean_change. cbn [String.eqb Ascii.eqb Bool.eqb]. rewrite needed_split. field.
Qed.

(** thermal input *)
Lemma ti_loop_ok : forall fs, incl fs (c_fuels ch) -> forall t,
  exists v, ti_loop ch fs t = Ok v
    /\ v == t + sum_over fs (fun f => (flow (c_in1 ch) (f_name f) + flow (c_in2 ch) (f_name f)
                                        - flow (c_out ch) (f_name f)) * f_LHV f).
Proof.
  induction fs as [| f fs IH]; intros I t; cbn [ti_loop].
  - exists t. split; [reflexivity |]. unfold sum_over. cbn [map qsum]. ring.
  - assert (F : In (f_name f) fl) by (apply fuel_in; apply I; left; reflexivity).
    rewrite (fget_stream _ _ F in1_in), (fget_stream _ _ F in2_in), (fget_stream _ _ F out_in). cbn [rbind].
    match goal with |- exists v, ti_loop ch fs ?u = Ok v /\ _ =>
      destruct (IH (fun x X => I x (or_intror X)) u) as (v & E & V) end.
    exists v. split; [exact E |]. rewrite V. unfold sum_over. cbn [map qsum]. unfold flow. ring.
Qed.
Lemma ti_value : exists v, calc_ti ch = Ok v
  /\ v == sum_over (c_fuels ch) (fun f => (flow (c_in1 ch) (f_name f) + flow (c_in2 ch) (f_name f)
                                        - flow (c_out ch) (f_name f)) * f_LHV f).
Proof.
  destruct (ti_loop_ok (c_fuels ch) (incl_refl _) 0) as (v & E & V). exists v. split; [exact E |].
  rewrite V. ring.
Qed.
Lemma lean_ti : reactions_hold ch fl -> air_ratio_consistent ch ->
  0 < oxygen_needed ch -> oxygen_needed ch <= moles_in ch "O2" ->
  exists v, calc_ti ch = Ok v
  /\ v == sum_over (c_fuels ch) (fun f => (flow (c_in1 ch) (f_name f) + flow (c_in2 ch) (f_name f)) * f_LHV f).
Proof.
  intros R A P L. destruct ti_value as (v & E & V). exists v. split; [exact E |]. rewrite V.
  apply sum_ext. intros f F. rewrite (proj1 (lean_species R A P L) f F). ring.
Qed.
End Complete.
