(** Component files for export and import. *)
From Coq Require Import QArith.
From Verif Require Import Base UnitsModel NetUnitsModel UnitsProofs IoModel IoSpec IoProofs IoProofs2.
Open Scope string_scope.
Open Scope list_scope.

Section C.
Variable reg : dict class.
Variable cs : dict (string * obj).
Hypothesis Nc : NoDup (keys cs).
Hypothesis Gc : forall l cls o, In (l, (cls, o)) cs -> exists k, dget cls reg = Some k /\ good_comp k l o.

Lemma data_ok l cls o : In (l, (cls, o)) cs -> exists k d o', dget cls reg = Some k /\ good_comp k l o /\
  comp_data o = Ok d /\ jsonable (VDict d) = true /\ apply_args read_param d (k_new k l) = Ok o' /\ kept_comp k l o o'.
Proof.
  intros H. destruct (Gc l cls o H) as (k & E & G). destruct (comp_back k l o G) as (d & o' & ? & ? & ? & ?).
  exists k, d, o'. tauto.
Qed.

Lemma class_data_ok cls : exists data, class_data cs cls = Ok data /\ NoDup (keys data) /\
  (forall l v, In (l, v) data -> exists o d, In (l, (cls, o)) cs /\ comp_data o = Ok d /\ v = VDict d) /\
  (forall l o, In (l, (cls, o)) cs -> exists d, comp_data o = Ok d /\ In (l, VDict d) data).
Proof.
  unfold class_data.
  set (f := fun e : string * (string * obj) => rmap (fun d => (fst e, VDict d)) (comp_data (snd (snd e)))).
  destruct (rmapM_total f (filter (fun e => String.eqb (fst (snd e)) cls) cs)) as [q E].
  { intros [l [c o]] Hi. apply filter_In in Hi. destruct Hi as [Hi _].
    destruct (data_ok l c o Hi) as (k & d & o' & _ & _ & X & _). unfold f. cbn. rewrite X. cbn. eauto. }
  rewrite E. cbn [rbind].
  assert (F : forall l v, In (l, v) q -> exists o d, In (l, (cls, o)) cs /\ comp_data o = Ok d /\ v = VDict d).
  { intros l v Hi. destruct (rmapM_In _ _ _ _ E Hi) as ([l2 [c o]] & Hf & X). unfold f in X. cbn in X.
    apply filter_In in Hf. destruct Hf as [Hf Ec]. cbn in Ec. apply String.eqb_eq in Ec. subst c.
    destruct (comp_data o) as [d|] eqn:Co; cbn in X; inversion X; subst. exists o, d. auto. }
  assert (U : forall l v w, In (l, v) q -> In (l, w) q -> w = v).
  { intros l v w H1 H2. destruct (F _ _ H1) as (o1 & d1 & I1 & C1 & ->). destruct (F _ _ H2) as (o2 & d2 & I2 & C2 & ->).
    apply In_dget in I1; [|exact Nc]. apply In_dget in I2; [|exact Nc]. congruence. }
  assert (J : jsonable (VDict (build q)) = true).
  { apply jsonable_dict. intros l v Hi. destruct (In_updates _ _ _ Hi) as [X|[]]. destruct (F _ _ X) as (o & d & I1 & C1 & ->).
    destruct (data_ok _ _ _ I1) as (k & d2 & o' & _ & _ & C2 & J2 & _). rewrite C1 in C2; inversion C2; subst. exact J2. }
  unfold dump. rewrite J. exists (build q). split; [reflexivity|]. split; [apply NoDup_updates; constructor|]. split.
  - intros l v Hi. destruct (In_updates _ _ _ Hi) as [X|[]]. auto.
  - intros l o Hi. assert (Hf : In (l, (cls, o)) (filter (fun e => String.eqb (fst (snd e)) cls) cs)).
    { apply filter_In. split; [exact Hi|]. cbn. apply String.eqb_refl. }
    destruct (rmapM_In' _ _ _ _ E Hf) as (e & He & X). unfold f in X. cbn in X.
    destruct (comp_data o) as [d|]; cbn in X; inversion X; subst e. exists d. split; [reflexivity|].
    apply dget_In. apply updates_get; [exact He|]. intros w Hw. exact (U _ _ _ He Hw).
Qed.

Lemma classes_In cls : In cls (classes cs) <-> exists l o, In (l, (cls, o)) cs.
Proof.
  unfold classes. clear Nc Gc.
  assert (G : forall xs acc, In cls (fold_left (fun l (e : string * (string * obj)) => if smem (fst (snd e)) l then l else l ++ [fst (snd e)]) xs acc) <->
    In cls acc \/ exists l o, In (l, (cls, o)) xs).
  { induction xs as [|[l [c o]] xs IH]; intros acc; cbn [fold_left fst snd].
    - split; [auto|]. intros [H|(l & o & [])]; exact H.
    - rewrite IH. split.
      + intros [H|(l2 & o2 & H)]; [|right; exists l2, o2; now right].
        destruct (smem c acc); [now left|]. apply in_app_iff in H. destruct H as [H|[<-|[]]]; [now left|].
        right. exists l, o. now left.
      + intros [H|(l2 & o2 & [H|H])].
        * left. destruct (smem c acc); [exact H|]. apply in_app_iff. now left.
        * inversion H; subst. left. destruct (smem cls acc) eqn:X; [now apply smem_In|]. apply in_app_iff. right. now left.
        * right. exists l2, o2. exact H. }
  rewrite (G cs []). split; [intros [[]|H]; exact H|now right].
Qed.

Lemma comps_data_ok old : NoDup (keys old) -> exists files, comps_data cs old = Ok files /\ NoDup (keys files) /\
  forall cls, match dget cls files with
              | Some data => (In cls (classes cs) /\ class_data cs cls = Ok data) \/ (~ In cls (classes cs) /\ dget cls old = Some data)
              | None => ~ In cls (classes cs)
              end.
Proof.
  unfold comps_data. generalize (classes cs) as cl. intros cl. revert old.
  induction cl as [|c cl IH]; intros old N; cbn [fold_left].
  - exists old. split; [reflexivity|]. split; [exact N|]. intros cls. destruct (dget cls old); [right|]; auto.
  - destruct (class_data_ok c) as (data & E & _). cbn [rbind]. rewrite E. cbn [rmap].
    destruct (IH (dset c data old)) as (files & E2 & N2 & D); [now apply NoDup_keys_dset|].
    exists files. split; [exact E2|]. split; [exact N2|]. intros cls. specialize (D cls).
    destruct (string_dec cls c) as [->|X].
    + rewrite dget_dset_eq in D. destruct (dget c files) as [x|] eqn:Ef.
      * left. split; [now left|]. destruct D as [[_ D]|[_ D]]; [exact D|congruence].
      * exfalso. clear - E2 Ef.
        assert (M : forall ks r f, fold_left (fun r cls => rbind r (fun f => rmap (fun d => dset cls d f) (class_data cs cls))) ks r = Ok f ->
          exists f0, r = Ok f0 /\ forall z, dget z f0 <> None -> dget z f <> None).
        { induction ks as [|z ks IH]; intros r f; cbn; [eauto|]. intros H. destruct (IH _ _ H) as (f1 & E1 & P).
          destruct r as [f0|]; cbn in E1; [|discriminate]. destruct (class_data cs z) as [dz|]; cbn in E1; [|discriminate].
          inversion E1; subst. exists f0. split; [reflexivity|]. intros y Hy. apply P.
          destruct (string_dec y z) as [->|Q]; [rewrite dget_dset_eq; discriminate|]. now rewrite dget_dset_neq by congruence. }
        destruct (M _ _ _ E2) as (f0 & F0 & P). inversion F0; subst. apply (P c); [|exact Ef]. now rewrite dget_dset_eq.
    + rewrite dget_dset_neq in D by congruence. destruct (dget cls files) as [x|].
      * destruct D as [[D1 D2]|[D1 D2]]; [left; split; [now right|exact D2]|right; split; [|exact D2]]. intros [Q|Q]; [congruence|contradiction].
      * intros [Q|Q]; [congruence|contradiction].
Qed.

Lemma construct_ok cls k data : dget cls reg = Some k -> class_data cs cls = Ok data ->
  exists new, construct_components cls k data = Ok new /\
    (forall l x, In (l, x) new -> exists o d o', In (l, (cls, o)) cs /\ comp_data o = Ok d /\ apply_args read_param d (k_new k l) = Ok o' /\ x = (cls, o')) /\
    (forall l o, In (l, (cls, o)) cs -> exists x, In (l, x) new).
Proof.
  intros Ek Ed. destruct (class_data_ok cls) as (data' & Ed' & _ & F & G). rewrite Ed in Ed'; inversion Ed'; subst data'.
  unfold construct_components.
  set (f := fun e : string * value => rbind (mapping (snd e)) (fun d => rmap (fun o => (fst e, (cls, o))) (apply_args read_param d (k_new k (fst e))))).
  destruct (rmapM_total f data) as [new E].
  { intros [l v] Hi. destruct (F l v Hi) as (o & d & I1 & C1 & ->).
    destruct (data_ok _ _ _ I1) as (k2 & d2 & o' & Ek2 & _ & C2 & _ & A & _). rewrite Ek in Ek2; inversion Ek2; subst k2.
    rewrite C1 in C2; inversion C2; subst d2. unfold f. cbn [mapping snd fst rbind]. rewrite A. cbn. eauto. }
  exists new. split; [exact E|]. split.
  - intros l x Hi. destruct (rmapM_In _ _ _ _ E Hi) as ([l2 v] & H2 & X). destruct (F l2 v H2) as (o & d & I1 & C1 & ->).
    unfold f in X. cbn [mapping snd fst rbind] in X. destruct (apply_args read_param d (k_new k l2)) as [o'|] eqn:A; cbn in X; inversion X; subst.
    exists o, d, o'. auto.
  - intros l o Hi. destruct (G l o Hi) as (d & C1 & H2). destruct (rmapM_In' _ _ _ _ E H2) as ([l2 x] & H3 & X).
    unfold f in X. cbn [mapping snd fst rbind] in X. destruct (apply_args read_param d (k_new k l)) as [o'|]; cbn in X; inversion X; subst. eauto.
Qed.

Lemma load_comps_fold files :
  (forall cls data, In (cls, data) files -> dget cls reg = None \/ exists k new, dget cls reg = Some k /\ construct_components cls k data = Ok new) ->
  exists all, load_comps reg files = Ok (updates all []) /\
    forall x, In x all <-> exists cls data k new, In (cls, data) files /\ dget cls reg = Some k /\ construct_components cls k data = Ok new /\ In x new.
Proof.
  unfold load_comps. change (@nil (string * (string * obj))) with (updates (@nil (string * (string * obj))) []) at 1.
  intros H.
  assert (G : forall files done, (forall cls data, In (cls, data) files -> dget cls reg = None \/ exists k new, dget cls reg = Some k /\ construct_components cls k data = Ok new) ->
    exists all, fold_left (fun r f => rbind r (fun cs =>
      match dget (fst f) reg with
      | None => Ok cs
      | Some k => rmap (fun new => fold_left (fun cs e => dset (fst e) (snd e) cs) new cs) (construct_components (fst f) k (snd f))
      end)) files (Ok (updates done [])) = Ok (updates all []) /\
    forall x, In x all <-> In x done \/ exists cls data k new, In (cls, data) files /\ dget cls reg = Some k /\ construct_components cls k data = Ok new /\ In x new).
  { clear files H. induction files as [|[cls data] files IH]; intros done H; cbn [fold_left].
    - exists done. split; [reflexivity|]. intros x. split; [auto|]. intros [X|(c & d & k & new & [] & _)]; exact X.
    - cbn [rbind fst snd]. destruct (dget cls reg) as [k|] eqn:Ek.
      + destruct (H cls data (or_introl eq_refl)) as [X|(k2 & new & X & E)]; [congruence|].
        rewrite Ek in X; inversion X; subst k2. rewrite E. cbn [rmap].
        destruct (IH (done ++ new)) as (all & Ea & Ia); [intros; apply H; now right|].
        exists all. split.
        * rewrite <- Ea. do 2 f_equal. unfold updates. now rewrite fold_left_app.
        * intros x. rewrite Ia, in_app_iff. split.
          -- intros [[Q|Q]|(c2 & d2 & k2 & n2 & Q1 & Q2)]; [now left|right; exists cls, data, k, new; split; [now left|auto]|].
             right. exists c2, d2, k2, n2. split; [now right|exact Q2].
          -- intros [Q|(c2 & d2 & k2 & n2 & [Q1|Q1] & Q2 & Q3 & Q4)]; [auto| |right; exists c2, d2, k2, n2; auto].
             inversion Q1; subst. rewrite Ek in Q2; inversion Q2; subst. rewrite E in Q3; inversion Q3; subst. auto.
      + destruct (IH done) as (all & Ea & Ia); [intros; apply H; now right|].
        exists all. split; [exact Ea|]. intros x. rewrite Ia. split.
        * intros [Q|(c2 & d2 & k2 & n2 & Q1 & Q2)]; [now left|]. right. exists c2, d2, k2, n2. split; [now right|exact Q2].
        * intros [Q|(c2 & d2 & k2 & n2 & [Q1|Q1] & Q2 & Q3)]; [auto| |right; exists c2, d2, k2, n2; auto].
          inversion Q1; subst. congruence. }
  destruct (G files [] H) as (all & E & Ia). exists all. split; [exact E|]. intros x. rewrite Ia. split; [intros [[]|Q]; exact Q|auto].
Qed.

Lemma comps_back old : NoDup (keys old) ->
  (forall cls, In cls (keys old) -> dget cls reg = None \/ exists l o, In (l, (cls, o)) cs) ->
  exists files cs', comps_data cs old = Ok files /\ load_comps reg files = Ok cs' /\
    forall l, match dget l cs, dget l cs' with
              | Some (cls, o), Some (cls', o') => cls' = cls /\ exists k, dget cls reg = Some k /\ good_comp k l o /\ kept_comp k l o o'
              | None, None => True
              | _, _ => False
              end.
Proof.
  intros No Ho. destruct (comps_data_ok old No) as (files & Ef & Nf & Df).
  assert (Hf : forall cls data, In (cls, data) files -> dget cls reg = None \/ (In cls (classes cs) /\ class_data cs cls = Ok data)).
  { intros cls data Hi. apply In_dget in Hi; [|exact Nf]. specialize (Df cls). rewrite Hi in Df.
    destruct Df as [D|[D1 D2]]; [now right|]. destruct (Ho cls) as [X|X]; [|now left|].
    - apply dmem_In. unfold dmem. now rewrite D2.
    - exfalso. apply D1. now apply classes_In. }
  destruct (load_comps_fold files) as (all & El & Ia).
  { intros cls data Hi. destruct (Hf cls data Hi) as [X|[X1 X2]]; [now left|].
    destruct (dget cls reg) as [k|] eqn:Ek; [right|now left]. destruct (construct_ok cls k data Ek X2) as (new & E & _). eauto. }
  exists files, (updates all []). split; [exact Ef|]. split; [exact El|]. intros l.
  assert (A1 : forall x, In (l, x) all -> exists cls o k d o', In (l, (cls, o)) cs /\ dget cls reg = Some k /\ comp_data o = Ok d /\
     apply_args read_param d (k_new k l) = Ok o' /\ x = (cls, o')).
  { intros x Hx. apply Ia in Hx. destruct Hx as (cls & data & k & new & H1 & H2 & H3 & H4).
    destruct (Hf cls data H1) as [X|[_ X]]; [congruence|]. destruct (construct_ok cls k data H2 X) as (new' & E' & F & _).
    rewrite H3 in E'; inversion E'; subst new'. destruct (F l x H4) as (o & d & o' & ? & ? & ? & ?). exists cls, o, k, d, o'. auto. }
  destruct (dget l cs) as [[cls o]|] eqn:El2.
  - pose proof (dget_In _ _ _ El2) as Hi. destruct (data_ok l cls o Hi) as (k & d & o' & Ek & G & Cd & _ & Ap & Kp).
    assert (Hx : exists x, In (l, x) all).
    { assert (Hc : In cls (classes cs)) by (apply classes_In; eauto).
      specialize (Df cls). destruct (dget cls files) as [data|] eqn:Ed; [|contradiction].
      destruct Df as [[_ D]|[D _]]; [|contradiction]. destruct (construct_ok cls k data Ek D) as (new & En & _ & G2).
      destruct (G2 l o Hi) as [x Hx]. exists x. apply Ia. exists cls, data, k, new. split; [now apply dget_In|auto]. }
    destruct Hx as [x Hx].
    assert (Q : forall w, In (l, w) all -> w = (cls, o')).
    { intros w Hw. destruct (A1 w Hw) as (c2 & o2 & k2 & d2 & o3 & I2 & Ek2 & C2 & Ap2 & ->).
      apply In_dget in I2; [|exact Nc]. rewrite El2 in I2; inversion I2; subst. rewrite Ek in Ek2; inversion Ek2; subst.
      rewrite Cd in C2; inversion C2; subst. rewrite Ap in Ap2; inversion Ap2; subst. reflexivity. }
    rewrite (updates_get all [] l (cls, o')).
    + split; [reflexivity|]. exists k. auto.
    + rewrite <- (Q x Hx). exact Hx.
    + exact Q.
  - rewrite updates_none; [exact Logic.I|]. intros x Hx. destruct (A1 x Hx) as (c2 & o2 & _ & _ & _ & I2 & _).
    apply In_dget in I2; [|exact Nc]. congruence.
Qed.
End C.
