(** Proofs about the rows of busses. Source: see JacBusModel.v. *)
From Coq Require Import Reals List String Bool Arith Lra.
From Verif Require Import Base ReportModel EqnModel JacModel EqnSpec EqnProofs JacSpec JacProofs JacProofs2 JacProofs3 JacBusModel JacBusSpec.
Import ListNotations.
Open Scope R_scope.

Fixpoint wsum (q : qty) (ws : list write) : R :=
  match ws with [] => 0 | (q', v) :: r => (if qty_eqb q q' then v else 0) + wsum q r end.
Lemma qty_eqb_spec' : forall a b, reflect (a = b) (qty_eqb a b).
Proof.
  intros a b. destruct (qty_eqb a b) eqn:E; constructor.
  - now apply qty_eqb_eq.
  - intros H. apply qty_eqb_eq in H. congruence.
Qed.
Lemma jsub_run : forall ws j q,
  fold_left jsub ws j q = if in_dec (fun a b => match qty_eqb_spec' a b with ReflectT _ p => left p | ReflectF _ n => right n end) q (map fst ws)
    then Some (match j q with Some x => x | None => 0 end - wsum q ws) else j q.
Proof.
  induction ws as [|[q' v] ws IH]; intros j q; cbn [fold_left map wsum fst].
  - destruct (in_dec _ q []) as [[]|]. reflexivity.
  - rewrite IH. unfold jsub. cbn [fst snd].
    destruct (qty_eqb_spec' q q') as [->|N].
    + match goal with |- context[in_dec ?d q' (q' :: ?l)] => destruct (in_dec d q' (q' :: l)) as [I|I]; [|exfalso; apply I; now left] end.
      destruct (in_dec _ q' (map fst ws)) as [I'|I']; f_equal; [ring|].
      assert (Z : wsum q' ws = 0); [|rewrite Z; ring].
      clear -I'. induction ws as [|[a b] ws IH]; cbn; [reflexivity|].
      destruct (qty_eqb_spec' q' a) as [->|N]; [exfalso; apply I'; now left|].
      rewrite IH; [ring|]. intros H; apply I'; now right.
    + destruct (in_dec _ q (map fst ws)) as [I|I];
        match goal with |- context[in_dec ?d q (q' :: ?l)] => destruct (in_dec d q (q' :: l)) as [I'|I'] end;
        try reflexivity.
      * now rewrite Rplus_0_l.
      * exfalso. apply I'. now right.
      * exfalso. destruct I' as [I'|I']; [congruence|now apply I].
Qed.

Definition okq (isv : qty -> bool) (ds : nat -> R) (f : env -> R) (e : env) (ws : list write) : Prop :=
  forall q v, In (q, v) ws -> v = quotient ds f e q.
Lemma okq_app isv ds f e a b : okq isv ds f e a -> okq isv ds f e b -> okq isv ds f e (a ++ b).
Proof. intros A B q v H. apply in_app_iff in H as [H|H]; auto. Qed.
Lemma okq_flat isv ds f e (g : conn -> list write) l :
  (forall c, In c l -> okq isv ds f e (g c)) -> okq isv ds f e (flat_map g l).
Proof. intros H q v I. apply in_flat_map in I as (c & Hc & I). exact (H c Hc q v I). Qed.
Lemma okq_nm0 isv ds f e c : okq isv ds f e (nm0 isv f e c).
Proof.
  intros q v I. unfold nm0, wr in I. destruct (is_variable _ _ _); [|destruct I].
  destruct I as [I|[]]. injection I as <- <-. now apply num_quotient.
Qed.
Lemma okq_nh0 isv ds f e c : okq isv ds f e (nh0 isv f e c).
Proof.
  intros q v I. unfold nh0, wr in I. destruct (is_variable _ _ _); [|destruct I].
  destruct I as [I|[]]. injection I as <- <-. now apply num_quotient.
Qed.
Lemma okq_nc isv ds f e p : okq isv ds f e (nc ds f e p).
Proof.
  intros q v I. destruct p as [n|x]; [|destruct I]. destruct I as [I|[]]. injection I as <- <-. now apply num_quotient.
Qed.
Lemma okq_nx isv ds f e c l : (forall x, In x l -> 1 / 100000 <= vx e c x <= 1 - 1 / 100000) ->
  okq isv ds f e (nx isv f e c l).
Proof.
  intros H q v I. unfold nx in I. apply in_map_iff in I as (x & E & I). injection E as <- <-.
  apply filter_In in I as [I V].
  specialize (H x I). unfold vx in H. unfold num_x, quotient, ReportModel.leb. cbn [step].
  set (w := e (QF (cf c) x)) in *.
  destruct (Rle_dec (w + 1 / 100000) 1) as [A|A]; [|lra].
  destruct (Rle_dec 0 (w + 1 / 100000 - 2 * (1 / 100000))) as [B|B]; [|lra].
  replace (w + 1 / 100000 - 2 * (1 / 100000)) with (w - 1 / 100000) by lra. reflexivity.
Qed.

(* ------------------------------------------------------------------- keys *)
Lemma keys_nm0 isv f e c : map fst (nm0 isv f e c) = filter isv [QM (cm c)].
Proof. unfold nm0, wr, is_variable. cbn. now destruct (isv _). Qed.
Lemma keys_nh0 isv f e c : map fst (nh0 isv f e c) = filter isv [QH (cid c)].
Proof. unfold nh0, wr, is_variable. cbn. now destruct (isv _). Qed.
Lemma keys_nc isv ds f e p : has_column isv p -> map fst (nc ds f e p) = filter isv (pc p).
Proof. destruct p as [n|x]; cbn; [intros ->|]; reflexivity. Qed.
Lemma keys_nx isv f e c l : map fst (nx isv f e c l) = filter isv (map (QF (cf c)) l).
Proof.
  unfold nx. rewrite map_map. cbn [fst]. induction l as [|x l IH]; cbn; [reflexivity|].
  destruct (isv _); cbn; now rewrite IH.
Qed.
Lemma keys_ports isv f e l : map fst (ports isv f e l) = filter isv (flat_map (fun c => QM (cm c) :: xc c) l).
Proof.
  induction l as [|c l IH]; [reflexivity|].
  change (ports isv f e (c :: l)) with ((nm0 isv f e c ++ nx isv f e c (ckeys c)) ++ ports isv f e l).
  change (flat_map (fun c => QM (cm c) :: xc c) (c :: l)) with (([QM (cm c)] ++ xc c) ++ flat_map (fun c => QM (cm c) :: xc c) l).
  rewrite !map_app. unfold write in *. rewrite IH, !filter_app, keys_nm0, keys_nx. reflexivity.
Qed.

Definition containers (k : bkind) : list qty :=
  match k with
  | BFlow _ i o => [QM (cm i); QH (cid i); QH (cid o)]
  | BHeat2 i1 o1 i2 o2 => [QM (cm i1); QH (cid i1); QH (cid o1); QM (cm i2); QH (cid i2); QH (cid o2)]
  | BThermal _ _ li lo => flat_map (fun c => QM (cm c) :: xc c) (li ++ lo)
  | BPower _ _ li lo _ _ Pw | BLoss _ _ li lo _ _ _ Pw => flat_map (fun c => QM (cm c) :: xc c) (li ++ lo) ++ pc Pw
  | BElPower _ Pw i0 o0 i1 o1 o2 =>
      [QM (cm i0); QH (cid i0); QM (cm i1); QH (cid i1); QH (cid o0); QM (cm o1); QH (cid o1); QM (cm o2); QH (cid o2)] ++ pc Pw
  end.
Lemma keys_writes isv ds k f e : distinct isv k -> map fst (bus_writes isv ds k f e) = filter isv (containers k).
Proof.
  intros D. destruct k; cbn [bus_writes containers distinct] in *.
  - rewrite !map_app. unfold write in *. rewrite !keys_nm0, !keys_nh0, <- !filter_app. reflexivity.
  - rewrite !map_app. unfold write in *. rewrite !keys_nm0, !keys_nh0, <- !filter_app. reflexivity.
  - apply keys_ports.
  - rewrite map_app. unfold write in *. rewrite filter_app, keys_ports, (keys_nc isv) by tauto. reflexivity.
  - rewrite map_app. unfold write in *. rewrite filter_app, keys_ports, (keys_nc isv) by tauto. reflexivity.
  - rewrite !map_app. unfold write in *. rewrite !keys_nm0, !keys_nh0, (keys_nc isv) by tauto. rewrite <- !filter_app. reflexivity.
Qed.
Lemma nodup_app {A} : forall a b : list A, NoDup a -> NoDup b -> (forall x, In x a -> ~ In x b) -> NoDup (a ++ b).
Proof.
  induction a as [|x a IH]; intros b Na Nb D; [exact Nb|]. apply NoDup_cons_iff in Na as [N Na].
  cbn. constructor.
  - rewrite in_app_iff. intros [H|H]; [contradiction|]. exact (D x (or_introl eq_refl) H).
  - apply IH; auto. intros y Hy. apply D. now right.
Qed.
Lemma nodup_ports fuels l : good_ports fuels l -> NoDup (flat_map (fun c => QM (cm c) :: xc c) l).
Proof.
  intros (M & F & K). induction l as [|c l IH]; cbn [flat_map]; [constructor|].
  cbn [map] in M, F. apply NoDup_cons_iff in M as [M1 M]. apply NoDup_cons_iff in F as [F1 F].
  apply nodup_app.
  - constructor.
    + unfold xc. intros H. apply in_map_iff in H as (x & E & _). discriminate E.
    + unfold xc. destruct (K c (or_introl eq_refl)) as [N _]. clear -N.
      induction (ckeys c) as [|x r IHr]; cbn; [constructor|]. apply NoDup_cons_iff in N as [N1 N].
      constructor; [|now apply IHr]. intros H. apply in_map_iff in H as (y & E & Hy). injection E as ->. contradiction.
  - apply IH; auto. intros c' Hc'. apply K. now right.
  - intros x Hx Hl. apply in_flat_map in Hl as (c' & Hc' & Hl).
    destruct Hx as [<-|Hx].
    + destruct Hl as [Hl|Hl].
      * injection Hl as Hl. apply M1. rewrite <- Hl. now apply in_map.
      * unfold xc in Hl. apply in_map_iff in Hl as (y & E & _). discriminate E.
    + unfold xc in Hx. apply in_map_iff in Hx as (y & <- & _). destruct Hl as [Hl|Hl]; [discriminate Hl|].
      unfold xc in Hl. apply in_map_iff in Hl as (z & E & _). injection E as E _.
      apply F1. rewrite <- E. now apply in_map.
Qed.
Lemma nodup_ports_pc fuels l p : good_ports fuels l -> NoDup (flat_map (fun c => QM (cm c) :: xc c) l ++ pc p).
Proof.
  intros G. apply nodup_app.
  - exact (nodup_ports fuels l G).
  - destruct p; cbn; repeat constructor; cbn; tauto.
  - intros x Hx Hp. destruct p as [n|]; cbn in Hp; [|destruct Hp]. destruct Hp as [<-|[]].
    apply in_flat_map in Hx as (c & _ & [H|H]); [discriminate H|].
    unfold xc in H. apply in_map_iff in H as (y & E & _). discriminate E.
Qed.
Ltac nd :=
  repeat match goal with H : NoDup (_ :: _) |- _ => apply NoDup_cons_iff in H; destruct H end;
  cbn [In] in *;
  repeat constructor; cbn [In];
  repeat match goal with |- ~ _ => intro end;
  repeat match goal with H : _ \/ _ |- _ => destruct H end;
  try contradiction; try discriminate;
  repeat match goal with H : QM _ = QM _ |- _ => injection H as H | H : QH _ = QH _ |- _ => injection H as H end;
  try congruence; intuition congruence.
Lemma nodup_containers isv k : distinct isv k -> NoDup (containers k).
Proof.
  destruct k as [neg i o|i1 o1 i2 o2|lhv fs li lo|lhv fs li lo Pd gP Pw|lhv fs li lo Pd gQ gP Pw|e0 Pw i0 o0 i1 o1 o2];
    cbn [distinct containers]; intros D.
  - nd.
  - destruct D as [D1 D2]. nd.
  - exact (nodup_ports fs _ D).
  - apply (nodup_ports_pc fs). tauto.
  - apply (nodup_ports_pc fs). tauto.
  - destruct D as (_ & D1 & D2). apply nodup_app.
    + nd.
    + destruct Pw; cbn; repeat constructor; cbn; tauto.
    + intros x Hx Hp. destruct Pw as [n|]; cbn in Hp; [|destruct Hp]. destruct Hp as [<-|[]].
      cbn in Hx. repeat (destruct Hx as [Hx|Hx]; [discriminate Hx|]). exact Hx.
Qed.

(* ------------------------------------------------------------------ reading *)
Definition composition (k : bkind) : list qty :=
  match k with BElPower _ _ _ _ i1 o1 o2 => xc i1 ++ xc o1 ++ xc o2 | _ => [] end.
Lemma value_reads P k : (match k with BThermal _ fs li lo | BPower _ fs li lo _ _ _ | BLoss _ fs li lo _ _ _ _ =>
    forall c, In c (li ++ lo) -> incl fs (ckeys c) | _ => True end) ->
  reads (comp_value P k) (containers k ++ composition k).
Proof.
  intros G e1 e2 A.
  assert (TI : forall lhv fs li lo, (forall q, In q (flat_map (fun c => QM (cm c) :: xc c) (li ++ lo)) -> e1 q = e2 q) ->
    (forall c, In c (li ++ lo) -> incl fs (ckeys c)) -> ti lhv fs li lo e1 = ti lhv fs li lo e2).
  { intros lhv fs li lo B I. apply ti_agree. intros q Hq. apply B. unfold mxc in Hq.
    apply in_flat_map in Hq as (c & Hc & Hq). apply in_flat_map. exists c. split; [exact Hc|].
    destruct Hq as [<-|Hq]; [now left|right]. apply in_map_iff in Hq as (x & <- & Hx).
    unfold xc. apply in_map. now apply (I c Hc). }
  destruct k as [neg i o|i1 o1 i2 o2|lhv fs li lo|lhv fs li lo Pd gP Pw|lhv fs li lo Pd gQ gP Pw|e0 Pw i0 o0 i1 o1 o2];
    cbn [comp_value containers composition] in *.
  - unfold vm, vh. rewrite !(A (QM (cm i))), !(A (QH (cid i))), !(A (QH (cid o))) by inc. reflexivity.
  - unfold vm, vh. rewrite !(A (QM (cm i1))), !(A (QH (cid i1))), !(A (QH (cid o1))), !(A (QM (cm i2))), !(A (QH (cid i2))), !(A (QH (cid o2))) by inc. reflexivity.
  - apply TI; [|exact G]. intros q Hq. apply A. apply in_app_iff. now left.
  - rewrite (TI lhv fs li lo), (load_agree e1 e2); [reflexivity| | |exact G].
    + intros q Hq. apply A. rewrite !in_app_iff. tauto.
    + intros q Hq. apply A. rewrite !in_app_iff. tauto.
  - rewrite (TI lhv fs li lo), (load_agree e1 e2); [reflexivity| | |exact G].
    + intros q Hq. apply A. rewrite !in_app_iff. tauto.
    + intros q Hq. apply A. rewrite !in_app_iff. tauto.
  - assert (Hr : forall c, In c [i1; o1; o2] -> h_ref P e1 c = h_ref P e2 c).
    { intros c Hc. unfold h_ref. rewrite (xs_agree e1 e2 c); [reflexivity|]. intros q Hq. apply A.
      rewrite !in_app_iff. destruct Hc as [<-|[<-|[<-|[]]]]; tauto. }
    rewrite !Hr by (cbn; tauto). unfold vm, vh.
    rewrite !(A (QM (cm i0))), !(A (QM (cm i1))), !(A (QM (cm o1))), !(A (QM (cm o2))), !(A (QH (cid i0))), !(A (QH (cid i1))),
      !(A (QH (cid o0))), !(A (QH (cid o1))), !(A (QH (cid o2))) by inc. reflexivity.
Qed.
Lemma okq_writes isv ds k f e : inner e k -> okq isv ds f e (bus_writes isv ds k f e).
Proof.
  assert (PT : forall l, inner_fractions e l -> okq isv ds f e (ports isv f e l)).
  { intros l H. apply okq_flat. intros c Hc. apply okq_app; [apply okq_nm0|apply okq_nx].
    intros x Hx. apply H; auto. }
  intros I. destruct k; cbn [bus_writes inner] in *;
    repeat apply okq_app; auto using okq_nm0, okq_nh0, okq_nc.
Qed.

Lemma wsum_once q ws v : NoDup (map fst ws) -> In (q, v) ws -> wsum q ws = v.
Proof.
  induction ws as [|[a b] ws IH]; intros N I; [destruct I|]. cbn [map fst] in N. apply NoDup_cons_iff in N as [N1 N].
  cbn [wsum]. destruct I as [I|I].
  - injection I as -> ->. destruct (qty_eqb_spec' q q) as [_|X]; [|congruence].
    assert (Z : wsum q ws = 0); [|rewrite Z; ring]. clear -N1. induction ws as [|[a b] ws IH]; cbn; [reflexivity|].
    destruct (qty_eqb_spec' q a) as [->|X]; [exfalso; apply N1; now left|]. rewrite IH; [ring|]. intros H; apply N1; now right.
  - destruct (qty_eqb_spec' q a) as [->|X].
    + exfalso. apply N1. change a with (fst (a, v)). now apply in_map.
    + rewrite (IH N I). ring.
Qed.

Lemma independent_quotient ds f e q : independent f e q -> quotient ds f e q = 0.
Proof. intros H. unfold quotient. rewrite !H. unfold Rdiv. ring. Qed.

Lemma row_of isv P ds b e q : distinct isv (fst b) -> inner e (fst b) -> streams_known isv (fst b) -> isv q = true ->
  let ws := bus_writes isv ds (fst b) (bus_value P b) e in
  (In q (map fst ws) -> wsum q ws = quotient ds (bus_value P b) e q)
  /\ (~ In q (map fst ws) -> independent (bus_value P b) e q).
Proof.
  destruct b as [k g]. cbn [fst]. intros D I S V. set (ws := bus_writes isv ds k (bus_value P (k, g)) e). split.
  - intros H. apply in_map_iff in H as ([q' v] & <- & H). cbn [fst].
    rewrite (wsum_once q' ws v); [now apply (okq_writes isv ds k (bus_value P (k, g)) e I)| |exact H].
    unfold ws. rewrite keys_writes by exact D. apply NoDup_filter, (nodup_containers isv), D.
  - intros H. apply (reads_indep _ (containers k ++ composition k)).
    + intros e1 e2 A. unfold bus_value. cbn [fst snd]. f_equal. apply value_reads; [|exact A].
      destruct k; cbn [distinct] in D; try exact Logic.I.
      * intros c Hc. now apply D.
      * intros c Hc. now apply D.
      * intros c Hc. now apply D.
    + intros X. apply in_app_iff in X as [X|X].
      * apply H. unfold ws. rewrite keys_writes by exact D. now apply filter_In.
      * destruct k; cbn [composition] in X; try destruct X. cbn [streams_known] in S.
        rewrite !in_app_iff in X. unfold xc in X.
        destruct X as [X|[X|X]]; apply in_map_iff in X as (x & <- & _); rewrite S in V; try discriminate V; cbn; tauto.
Qed.

Lemma residual_sum P : forall l Pb e, bus_residual P Pb l e = Pb - fold_right (fun b s => bus_value P b e + s) 0 l.
Proof.
  unfold bus_residual. induction l as [|b l IH]; intros Pb e; cbn [fold_left fold_right]; [ring|]. rewrite IH. ring.
Qed.
Lemma quotient_residual P ds Pb l e q :
  quotient ds (bus_residual P Pb l) e q = - fold_right (fun b s => quotient ds (bus_value P b) e q + s) 0 l.
Proof.
  unfold quotient. rewrite !residual_sum. unfold Rdiv.
  induction l as [|b l IH]; cbn [fold_right]; [ring|].
  rewrite Ropp_plus_distr, <- IH. ring.
Qed.

(** entries with the values already there *)
Lemma entries_from isv P ds e q : isv q = true -> forall l,
  Forall (fun b => distinct isv (fst b) /\ inner e (fst b) /\ streams_known isv (fst b)) l ->
  forall j,
  match fold_left (fun j b => fold_left jsub (bus_writes isv ds (fst b) (bus_value P b) e) j) l j q with
  | Some v => v = match j q with Some x => x | None => 0 end - fold_right (fun b s => quotient ds (bus_value P b) e q + s) 0 l
  | None => j q = None /\ Forall (fun b => independent (bus_value P b) e q) l
  end.
Proof.
  intros V l F. induction F as [|b l (D & I & S) F IH]; intros j; cbn [fold_left fold_right].
  - destruct (j q); [ring|]. split; [reflexivity|constructor].
  - specialize (IH (fold_left jsub (bus_writes isv ds (fst b) (bus_value P b) e) j)).
    destruct (row_of isv P ds b e q D I S V) as [A B]. cbv zeta in A, B.
    destruct (fold_left _ l _ q) as [v|].
    + rewrite IH, jsub_run. destruct (in_dec _ q _) as [X|X].
      * rewrite (A X). destruct (j q); ring.
      * rewrite (independent_quotient ds _ e q (B X)). destruct (j q); ring.
    + destruct IH as [J IH]. rewrite jsub_run in J. destruct (in_dec _ q _) as [X|X]; [discriminate J|].
      split; [exact J|]. constructor; [exact (B X)|exact IH].
Qed.

Lemma bus_row : forall isv P ds Pb l e q,
  Forall (fun b => distinct isv (fst b) /\ inner e (fst b) /\ streams_known isv (fst b)) l ->
  isv q = true ->
  match bus_entries isv P ds l e q with
  | Some v => v = quotient ds (bus_residual P Pb l) e q
  | None => independent (bus_residual P Pb l) e q
  end.
Proof.
  intros isv P ds Pb l e q F V. unfold bus_entries. pose proof (entries_from isv P ds e q V l F (fun _ => None)) as H.
  cbv beta in H. destruct (fold_left _ l _ q) as [v|].
  - rewrite quotient_residual, H. ring.
  - destruct H as [_ H]. intros t. rewrite !residual_sum. f_equal. clear F.
    induction H as [|b l Hb H IH]; cbn [fold_right]; [reflexivity|]. now rewrite Hb, IH.
Qed.

Lemma bus_columns : forall isv P ds l e q v,
  Forall (fun b => distinct isv (fst b)) l ->
  bus_entries isv P ds l e q = Some v -> isv q = true.
Proof.
  intros isv P ds l e q v F. unfold bus_entries.
  assert (G : forall j, (forall w, j q = Some w -> isv q = true) ->
    forall v, fold_left (fun j b => fold_left jsub (bus_writes isv ds (fst b) (bus_value P b) e) j) l j q = Some v -> isv q = true).
  { induction F as [|b l D F IH]; intros j Hj w; cbn [fold_left]; [apply Hj|].
    apply IH. intros w'. rewrite jsub_run. destruct (in_dec _ q _) as [X|X]; [|apply Hj].
    intros _. rewrite keys_writes in X by exact D. now apply filter_In in X. }
  intros H. apply (G (fun _ => None)) in H; [exact H|discriminate].
Qed.

(** The value of a component on a bus is the one its equations determine *)
Lemma bus_meaning : forall P e,
  (forall i o Pw, flow_energy_func i o Pw e = 0 <-> comp_value P (BFlow false i o) e = pval e Pw)
  /\ (forall i o Q, engine_Q_func i o Q e = 0 <-> comp_value P (BFlow true i o) e = pval e Q)
  /\ (forall i1 o1 i2 o2 Q1 Q2, engine_Q_func i1 o1 Q1 e = 0 -> engine_Q_func i2 o2 Q2 e = 0 -> comp_value P (BHeat2 i1 o1 i2 o2) e = pval e Q1 + pval e Q2)
  /\ (forall lhv fuels li o Pd gP Pw, gP (load Pd Pw e) <> 0 -> (tiP_func lhv fuels li o Pd gP Pw e = 0 <-> comp_value P (BPower lhv fuels li [o] Pd gP Pw) e = pval e Pw))
  /\ (forall lhv fuels li o Pd gQ gP Pw Ql, gP (load Pd Pw e) <> 0 -> (Qloss_func lhv fuels li o Pd gQ gP Pw Ql e = 0 <-> comp_value P (BLoss lhv fuels li [o] Pd gQ gP Pw) e = pval e Ql))
  /\ (forall e0 Pw i0 o0 i1 o1 o2, electrolyzer_energy_func (phT P i1 100000 298.15 (xs e i1)) (phT P o1 100000 298.15 (xs e o1)) (phT P o2 100000 298.15 (xs e o2)) e0 i0 i1 o0 o1 o2 Pw e = 0
       <-> comp_value P (BElPower e0 Pw i0 o0 i1 o1 o2) e = pval e Pw).
Proof.
  intros P e. assert (T : 298.15 = 29815 / 100) by lra. repeat split.
  - unfold flow_energy_func, comp_value. intros; lra.
  - unfold flow_energy_func, comp_value. intros; lra.
  - unfold engine_Q_func, comp_value. intros; lra.
  - unfold engine_Q_func, comp_value. intros; lra.
  - unfold engine_Q_func, comp_value. intros; lra.
  - unfold tiP_func, comp_value. intros E. apply (Rmult_eq_reg_r (gP (load Pd Pw e))); [|assumption]. field_simplify; [lra|assumption].
  - unfold tiP_func, comp_value. intros E. rewrite <- E. field. assumption.
  - unfold Qloss_func, comp_value. intros E. apply (Rmult_eq_reg_r (gP (load Pd Pw e))); [|assumption]. field_simplify; [lra|assumption].
  - unfold Qloss_func, comp_value. intros E. rewrite <- E. field. assumption.
  - unfold electrolyzer_energy_func, comp_value, h_ref. rewrite T. intros; lra.
  - unfold electrolyzer_energy_func, comp_value, h_ref. rewrite T. intros; lra.
Qed.
