(** Components for export and import. *)
From Coq Require Import QArith.
From Verif Require Import Base UnitsModel NetUnitsModel UnitsProofs IoModel IoSpec IoProofs.
Open Scope string_scope.
Open Scope list_scope.

Lemma rmapM_ext {A B} (f g : A -> res B) l : (forall a, f a = g a) -> rmapM f l = rmapM g l.
Proof. intros H. induction l as [|a l IH]; cbn; [reflexivity|]. now rewrite H, IH. Qed.

Lemma dget_app {V} k (d e : dict V) : dget k (d ++ e) = match dget k d with Some v => Some v | None => dget k e end.
Proof. induction d as [|[k' v] d IH]; cbn; [reflexivity|]. destruct (String.eqb k k'); auto. Qed.

Lemma keys_app {V} (d e : dict V) : keys (d ++ e) = keys d ++ keys e.
Proof. apply map_app. Qed.

(* ------------------------------------------------------------------ objects *)
Definition step_ok (read : container -> value -> res container) (o : obj) (e : string * value) : Prop :=
  match dget (fst e) (o_params o) with
  | Some c => exists c', read c (snd e) = Ok c'
  | None => dmem (fst e) (o_attrs o) = true /\ check_attr (o_listed o) (fst e) (snd e) = Ok tt
  end.

Lemma apply_args_spec read l : forall o,
  NoDup (map fst l) -> (forall e, In e l -> step_ok read o e) ->
  exists o', apply_args read l o = Ok o' /\ o_listed o' = o_listed o /\
    forall k, match dget k l with
              | None => dget k (o_params o') = dget k (o_params o) /\ dget k (o_attrs o') = dget k (o_attrs o)
              | Some v => match dget k (o_params o) with
                          | Some c => exists c', read c v = Ok c' /\ dget k (o_params o') = Some c' /\ dget k (o_attrs o') = dget k (o_attrs o)
                          | None => dget k (o_params o') = None /\ dget k (o_attrs o') = Some v
                          end
              end.
Proof.
  induction l as [|[k v] l IH]; intros o N H.
  - exists o. repeat split; reflexivity.
  - cbn in N. inversion N as [|? ? Nk N']; subst.
    assert (L : dget k l = None) by now apply dget_None_notin.
    pose proof (H (k, v) (or_introl eq_refl)) as S. unfold step_ok in S. cbn [fst snd] in S.
    unfold apply_args. cbn [fold_left rbind fst snd]. unfold apply_arg at 2.
    destruct (dget k (o_params o)) as [c|] eqn:P.
    + destruct S as [c' R]. rewrite R. cbn [rmap].
      destruct (IH {| o_attrs := o_attrs o; o_params := dset k c' (o_params o); o_listed := o_listed o |} N') as (o' & E & Li & D).
      { intros [k2 v2] Hi. unfold step_ok. cbn [fst snd o_params o_attrs o_listed].
        assert (X : k2 <> k) by (intros ->; apply Nk, in_map_iff; now exists (k, v2)).
        rewrite dget_dset_neq by congruence. exact (H (k2, v2) (or_intror Hi)). }
      exists o'. split; [exact E|]. split; [exact Li|]. intros k2. specialize (D k2). cbn [o_params o_attrs] in D.
      cbn [dget]. destruct (String.eqb k2 k) eqn:X; [apply String.eqb_eq in X; subst k2|].
      * rewrite L in D. rewrite P. rewrite dget_dset_eq in D. exists c'. tauto.
      * apply String.eqb_neq in X. rewrite dget_dset_neq in D by congruence. exact D.
    + destruct S as [S1 S2]. rewrite S1, S2. cbn [rmap].
      destruct (IH {| o_attrs := dset k v (o_attrs o); o_params := o_params o; o_listed := o_listed o |} N') as (o' & E & Li & D).
      { intros [k2 v2] Hi. unfold step_ok. cbn [fst snd o_params o_attrs o_listed].
        assert (X : k2 <> k) by (intros ->; apply Nk, in_map_iff; now exists (k, v2)).
        pose proof (H (k2, v2) (or_intror Hi)) as S. unfold step_ok in S. cbn [fst snd] in S.
        destruct (dget k2 (o_params o)); [exact S|]. destruct S as [S3 S4]. split; [|exact S4].
        unfold dmem in *. rewrite dget_dset_neq by congruence. exact S3. }
      exists o'. split; [exact E|]. split; [exact Li|]. intros k2. specialize (D k2). cbn [o_params o_attrs] in D.
      cbn [dget]. destruct (String.eqb k2 k) eqn:X; [apply String.eqb_eq in X; subst k2|].
      * rewrite L in D. rewrite P. rewrite dget_dset_eq, P in D. tauto.
      * apply String.eqb_neq in X. rewrite dget_dset_neq in D by congruence. exact D.
Qed.

Lemma strings_map l : strings (VList (map VStr l)) = Ok l.
Proof. unfold strings. induction l as [|a l IH]; cbn; [reflexivity|]. now rewrite IH. Qed.

Lemma good_attr_check listed k v : good_attr listed k v -> check_attr listed k v = Ok tt.
Proof.
  intros (_ & G1 & G2). unfold check_attr.
  destruct (smem k ["design"; "offdesign"]) eqn:E1.
  - apply smem_In in E1. destruct (G1 E1) as (l & -> & Hl). rewrite strings_map. cbn [rbind].
    replace (forallb (fun s => smem s listed) l) with true; [reflexivity|]. symmetry.
    apply forallb_forall. intros s Hs. apply smem_In. auto.
  - destruct (smem k ["printout"; "local_design"; "local_offdesign"; "char_warnings"]) eqn:E2; [|reflexivity].
    apply smem_In in E2. destruct (G2 E2) as [b ->]. reflexivity.
Qed.

Lemma pick_attrs_spec ks o : (forall k, In k ks -> exists v, dget k (o_attrs o) = Some v /\ jsonable v = true) ->
  exists a, pick_attrs ks o = Ok a /\ map fst a = ks /\
    forall k v, In (k, v) a -> dget k (o_attrs o) = Some v /\ jsonable v = true.
Proof.
  intros H. destruct (rmapM_total (fun k => match dget k (o_attrs o) with Some v => Ok (k, v) | None => Err KeyError end) ks) as [a E].
  { intros k Hk. destruct (H k Hk) as (v & -> & _). eauto. }
  exists a. split; [exact E|]. split.
  - apply rmapM_Forall2 in E. clear H. induction E as [|k e ks a X E IH]; cbn; [reflexivity|].
    destruct (dget k (o_attrs o)); inversion X; subst. cbn. now f_equal.
  - intros k v Hi. destruct (rmapM_In _ _ _ _ E Hi) as (k' & Hk & X). destruct (H k' Hk) as (w & Hw & J).
    rewrite Hw in X. inversion X; subst. auto.
Qed.

Lemma pick_params_spec o : (forall p c, In (p, c) (o_params o) -> exists d, serialize c = Ok d) ->
  exists q, pick_params o = Ok q /\ map fst q = keys (o_params o) /\
    (forall p v, In (p, v) q -> exists c d, In (p, c) (o_params o) /\ serialize c = Ok d /\ v = VDict d) /\
    (forall p, match dget p (o_params o), dget p q with
               | Some c, Some v => exists d, serialize c = Ok d /\ v = VDict d
               | None, None => True
               | _, _ => False
               end).
Proof.
  intros H. unfold pick_params.
  destruct (rmapM_total (fun e => rmap (fun d => (fst e, VDict d)) (serialize (snd e))) (o_params o)) as [q E].
  { intros [p c] Hi. destruct (H p c Hi) as [d X]. cbn. rewrite X. cbn. eauto. }
  exists q. split; [exact E|]. split.
  { apply (rmapM_keys _ _ _ E). intros [p c] e'. cbn. destruct (serialize c); cbn; intros X; inversion X; reflexivity. }
  split.
  - intros p v Hi. destruct (rmapM_In _ _ _ _ E Hi) as ([p' c] & Hc & X). cbn in X.
    destruct (serialize c) as [d|] eqn:Sd; cbn in X; inversion X; subst. eauto.
  - intros p. rewrite (rmapM_ext _ (labelled (fun c => rmap VDict (serialize c)))) in E.
    + apply (labelled_get _ _ _ p) in E. destruct (dget p (o_params o)) as [c|], (dget p q) as [v|]; auto.
      destruct (serialize c) as [d|]; cbn in E; inversion E; eauto.
    + intros [a c]. unfold labelled. cbn. now destruct (serialize c).
Qed.

(* --------------------------------------------------------------- components *)
Lemma comp_back k l o : good_comp k l o ->
  exists d o', comp_data o = Ok d /\ jsonable (VDict d) = true /\
    apply_args read_param d (k_new k l) = Ok o' /\ kept_comp k l o o'.
Proof.
  intros (N & Dj & At & Pa & _).
  destruct (pick_attrs_spec comp_keys o) as (a & Ea & Ka & Ga).
  { intros x Hx. destruct (At x Hx) as (_ & v & E & (J & _)). eauto. }
  assert (PB : forall p c, dget p (o_params o) = Some c -> exists fresh d c', dget p (o_params (k_new k l)) = Some fresh /\
     serialize c = Ok d /\ jsonable (VDict d) = true /\ read_param fresh (VDict d) = Ok c' /\ kept_param fresh c c').
  { intros p c E. specialize (Pa p). rewrite E in Pa. destruct (dget p (o_params (k_new k l))) as [f|]; [|contradiction].
    destruct Pa as (A & G & F). destruct (param_back f c A G F) as (d & c' & ?). exists f, d, c'. tauto. }
  destruct (pick_params_spec o) as (q & Eq & Kq & Gq & Dq).
  { intros p c Hi. apply In_dget in Hi; [|exact N]. destruct (PB p c Hi) as (f & d & c' & _ & E & _). eauto. }
  unfold comp_data. rewrite Ea. cbn [rbind]. rewrite Eq. cbn [rmap].
  assert (Nd : NoDup (keys (a ++ q))).
  { rewrite keys_app. change (keys a) with (map fst a). change (keys q) with (map fst q). rewrite Ka, Kq.
    assert (NC : NoDup comp_keys) by (unfold comp_keys; nodup).
    revert N Dj. generalize (keys (o_params o)) as ps. intros ps N Dj.
    clear - NC N Dj. assert (Dj' : forall p, In p ps -> ~ In p comp_keys) by exact Dj. clear Dj.
    revert NC Dj'. generalize comp_keys as cs. induction cs as [|c cs IH]; intros NC Dj; [exact N|].
    inversion NC; subst. cbn. constructor.
    - rewrite in_app_iff. intros [X|X]; [contradiction|]. apply (Dj c X). now left.
    - apply IH; [assumption|]. intros p Hp X. apply (Dj p Hp). now right. }
  set (d := build (a ++ q)).
  assert (Dd : forall x, dget x d = dget x (a ++ q)) by (intros x; apply updates_nodup; exact Nd).
  assert (Id : forall e, In e d -> In e (a ++ q)).
  { intros e Hi. destruct (In_updates _ _ _ Hi) as [X|[]]. exact X. }
  assert (Nk : NoDup (map fst d)) by (apply NoDup_updates; constructor).
  assert (Sp : forall x v, In (x, v) a -> dget x (o_params (k_new k l)) = None).
  { intros x v Hi. assert (Hx : In x comp_keys) by (rewrite <- Ka; apply in_map_iff; now exists (x, v)).
    specialize (Pa x). destruct (dget x (o_params o)) as [c|] eqn:X.
    - exfalso. apply (Dj x); [|exact Hx]. apply dmem_In. unfold dmem. now rewrite X.
    - destruct (dget x (o_params (k_new k l))); [contradiction|reflexivity]. }
  assert (St : forall e, In e d -> step_ok read_param (k_new k l) e).
  { intros [x v] Hi. apply Id in Hi. unfold step_ok. cbn [fst snd]. apply in_app_iff in Hi. destruct Hi as [Hi|Hi].
    - rewrite (Sp x v Hi). assert (Hx : In x comp_keys) by (rewrite <- Ka; apply in_map_iff; now exists (x, v)).
      destruct (At x Hx) as (M & w & Ew & Gw). destruct (Ga x v Hi) as [Ev _]. rewrite Ev in Ew; inversion Ew; subst w.
      split; [exact M|]. now apply good_attr_check.
    - destruct (Gq x v Hi) as (c & dd & Hc & Sc & ->). apply In_dget in Hc; [|exact N].
      destruct (PB x c Hc) as (f & d2 & c' & Ef & Es & _ & R & _). rewrite Ef. rewrite Sc in Es; inversion Es; subst d2. eauto. }
  destruct (apply_args_spec read_param d (k_new k l) Nk St) as (o' & E & _ & D).
  exists d, o'. split; [reflexivity|]. split.
  { apply jsonable_dict. intros x v Hi. apply Id, in_app_iff in Hi. destruct Hi as [Hi|Hi]; [exact (proj2 (Ga x v Hi))|].
    destruct (Gq x v Hi) as (c & dd & Hc & Sc & ->). apply In_dget in Hc; [|exact N].
    destruct (PB x c Hc) as (f & d2 & c' & _ & Es & J & _). rewrite Sc in Es; inversion Es; subst d2. exact J. }
  split; [exact E|]. split.
  - intros x Hx. specialize (D x). rewrite Dd, dget_app in D.
    destruct (dget x a) as [v|] eqn:Xa.
    + apply dget_In in Xa. rewrite (Sp x v Xa) in D. destruct (Ga x v Xa) as [Ev _]. rewrite Ev. exact (proj2 D).
    + exfalso. apply dget_None_notin in Xa. apply Xa. change (keys a) with (map fst a). rewrite Ka. exact Hx.
  - intros p. specialize (D p). rewrite Dd, dget_app in D. specialize (Dq p). specialize (Pa p).
    destruct (dget p a) as [v|] eqn:Xa.
    + apply dget_In in Xa. rewrite (Sp p v Xa) in *. destruct (dget p (o_params o)); [contradiction|]. destruct D as [-> _]. exact Logic.I.
    + destruct (dget p (o_params o)) as [c|] eqn:Xo.
      * destruct (dget p q) as [v|]; [|contradiction]. destruct Dq as (dd & Sc & ->).
        destruct (PB p c Xo) as (f & d2 & c' & Ef & Es & J & R & Kp). rewrite Ef in *.
        rewrite Sc in Es; inversion Es; subst d2. destruct D as (c2 & R2 & -> & _). rewrite R in R2; inversion R2; subst c2. exact Kp.
      * destruct (dget p q) as [v|]; [contradiction|]. destruct D as [D _]. rewrite D.
        destruct (dget p (o_params (k_new k l))); [contradiction|exact Logic.I].
Qed.

(** The connectors of the loaded component are the same. *)
Lemma connectors_back k l o o' p : good_comp k l o -> kept_comp k l o o' -> In p [k_in k; k_out k] -> connectors p o' = connectors p o.
Proof.
  intros (_ & _ & _ & _ & G) [_ K] Hp. specialize (G p Hp). destruct p as [q|q name def]; [reflexivity|].
  destruct G as (c & E & Kc). cbn [connectors]. specialize (K q). rewrite E in *.
  destruct (dget q (o_params o')) as [c'|]; [|contradiction].
  destruct (dget q (o_params (k_new k l))); [|contradiction]. destruct K as (_ & S & _). rewrite Kc in S. unfold same_attr in S.
  rewrite (S "is_set") by (cbn; tauto). rewrite (S "val") by (cbn; tauto). reflexivity.
Qed.
