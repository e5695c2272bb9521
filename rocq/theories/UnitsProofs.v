(** Lemmas about unit conversion and the network's unit settings. *)
From Coq Require Import Lqa.
From Verif Require Import UnitsModel NetUnitsModel.
Open Scope string_scope.
Open Scope Q_scope.

Definition Qpos_b (q : Q) : bool := if Qlt_le_dec 0 q then true else false.

Lemma Qpos_b_true q : Qpos_b q = true -> 0 < q.
Proof. unfold Qpos_b. destruct (Qlt_le_dec 0 q); [auto|discriminate]. Qed.

Lemma units_T_pos : forallb (fun e => Qpos_b (snd (snd e))) units_T = true.
Proof. vm_compute; reflexivity. Qed.

Lemma units_lin_pos :
  forallb (fun e => forallb (fun f => Qpos_b (snd f)) (snd e)) units_lin = true.
Proof. vm_compute; reflexivity. Qed.

Lemma T_factor_pos u c0 c1 : dget u units_T = Some (c0, c1) -> 0 < c1.
Proof.
  intros H; apply dget_In in H.
  pose proof units_T_pos as P; rewrite forallb_forall in P.
  apply P in H; cbn in H. now apply Qpos_b_true.
Qed.

Lemma lin_factor_pos p us u f :
  dget p units_lin = Some us -> dget u us = Some f -> 0 < f.
Proof.
  intros Hp Hu; apply dget_In in Hp; apply dget_In in Hu.
  pose proof units_lin_pos as P; rewrite forallb_forall in P.
  apply P in Hp; cbn in Hp. rewrite forallb_forall in Hp.
  apply Hp in Hu; cbn in Hu. now apply Qpos_b_true.
Qed.

(** Conversion of a known unit is an increasing affine map and its inverse. *)
Lemma conv_affine p u :
  unit_known p u = Some true ->
  exists a b, 0 < a /\ (p <> "T" -> b == 0) /\
    (forall v, exists r, convert_to_SI p v u = Ok r /\ r == a * v + b) /\
    (forall s, exists q, convert_from_SI p s u = Ok q /\ q == (s - b) / a).
Proof.
  unfold unit_known, convert_to_SI, convert_from_SI.
  destruct (String.eqb p "T") eqn:EP.
  - unfold dmem. destruct (dget u units_T) as [[c0 c1]|] eqn:ET; [|discriminate].
    intros _. pose proof (T_factor_pos _ _ _ ET) as Hpos.
    exists c1, (c0 * c1). split; [auto|]. split.
    { apply String.eqb_eq in EP; congruence. }
    split; intros z; eexists; (split; [reflexivity|]).
    + ring.
    + field. lra.
  - destruct (dget p units_lin) as [us|] eqn:EL; [|discriminate].
    unfold dmem. destruct (dget u us) as [f|] eqn:EU; [|discriminate].
    intros _. pose proof (lin_factor_pos _ _ _ _ EL EU) as Hpos.
    exists f, 0. split; [auto|]. split; [intros _; reflexivity|].
    split; intros z; eexists; (split; [reflexivity|]).
    + ring.
    + field. lra.
Qed.

Lemma to_SI_ok_iff p v u :
  is_ok (convert_to_SI p v u) = true <-> unit_known p u = Some true.
Proof.
  unfold unit_known, convert_to_SI, dmem.
  destruct (String.eqb p "T").
  - destruct (dget u units_T) as [[c0 c1]|]; cbn; split; congruence.
  - destruct (dget p units_lin) as [us|]; cbn; [|split; congruence].
    destruct (dget u us); cbn; split; congruence.
Qed.

Lemma from_SI_ok_iff p v u :
  is_ok (convert_from_SI p v u) = true <-> unit_known p u = Some true.
Proof.
  unfold unit_known, convert_from_SI, dmem.
  destruct (String.eqb p "T").
  - destruct (dget u units_T) as [[c0 c1]|]; cbn; split; congruence.
  - destruct (dget p units_lin) as [us|]; cbn; [|split; congruence].
    destruct (dget u us); cbn; split; congruence.
Qed.

Lemma roundtrip_in_out p u v r :
  convert_to_SI p v u = Ok r ->
  exists w, convert_from_SI p r u = Ok w /\ w == v.
Proof.
  intros H.
  assert (K : unit_known p u = Some true).
  { apply (to_SI_ok_iff p v u). rewrite H; reflexivity. }
  destruct (conv_affine _ _ K) as (a & b & Ha & _ & H1 & H2).
  destruct (H1 v) as (r' & E & Er). rewrite H in E; inversion E; subst r'.
  destruct (H2 r) as (w & E2 & Ew). exists w; split; [auto|].
  rewrite Ew, Er. field. lra.
Qed.

Lemma roundtrip_out_in p u s w :
  convert_from_SI p s u = Ok w ->
  exists r, convert_to_SI p w u = Ok r /\ r == s.
Proof.
  intros H.
  assert (K : unit_known p u = Some true).
  { apply (from_SI_ok_iff p s u). rewrite H; reflexivity. }
  destruct (conv_affine _ _ K) as (a & b & Ha & _ & H1 & H2).
  destruct (H2 s) as (w' & E & Ew). rewrite H in E; inversion E; subst w'.
  destruct (H1 w) as (r & E2 & Er). exists r; split; [auto|].
  rewrite Er, Ew. field. lra.
Qed.

Lemma to_SI_monotone p u v1 v2 r1 r2 :
  convert_to_SI p v1 u = Ok r1 -> convert_to_SI p v2 u = Ok r2 ->
  (v1 < v2 <-> r1 < r2).
Proof.
  intros E1 E2.
  assert (K : unit_known p u = Some true).
  { apply (to_SI_ok_iff p v1 u). rewrite E1; reflexivity. }
  destruct (conv_affine _ _ K) as (a & b & Ha & _ & H1 & _).
  destruct (H1 v1) as (s1 & F1 & G1). rewrite E1 in F1; inversion F1; subst s1.
  destruct (H1 v2) as (s2 & F2 & G2). rewrite E2 in F2; inversion F2; subst s2.
  rewrite G1, G2. split; intros H; nra.
Qed.

Lemma scaling_only p u v r :
  p <> "T" -> convert_to_SI p v u = Ok r ->
  exists r1, convert_to_SI p 1 u = Ok r1 /\ r == v * r1.
Proof.
  intros HT E.
  assert (K : unit_known p u = Some true).
  { apply (to_SI_ok_iff p v u). rewrite E; reflexivity. }
  destruct (conv_affine _ _ K) as (a & b & Ha & Hb & H1 & _).
  destruct (H1 v) as (s1 & F1 & G1). rewrite E in F1; inversion F1; subst s1.
  destruct (H1 1) as (r1 & F2 & G2). exists r1; split; [auto|].
  rewrite G1, G2, (Hb HT). ring.
Qed.

Lemma T_Td_same_units u :
  unit_known "T" u = Some true <-> unit_known "Td_bp" u = Some true.
Proof.
  unfold unit_known, dmem; cbn.
  destruct (String.eqb u "K"); [tauto|].
  destruct (String.eqb u "R"); [tauto|].
  destruct (String.eqb u "C"); [tauto|].
  destruct (String.eqb u "F"); tauto.
Qed.

Lemma T_difference u v1 v2 r1 r2 :
  convert_to_SI "T" v1 u = Ok r1 -> convert_to_SI "T" v2 u = Ok r2 ->
  exists d, convert_to_SI "Td_bp" (v1 - v2) u = Ok d /\ r1 - r2 == d.
Proof.
  unfold convert_to_SI; cbn.
  destruct (String.eqb u "K");
    [intros H1 H2; inversion H1; inversion H2; eexists; split; [reflexivity|]; field|].
  destruct (String.eqb u "R");
    [intros H1 H2; inversion H1; inversion H2; eexists; split; [reflexivity|]; field|].
  destruct (String.eqb u "C");
    [intros H1 H2; inversion H1; inversion H2; eexists; split; [reflexivity|]; field|].
  destruct (String.eqb u "F");
    [intros H1 H2; inversion H1; inversion H2; eexists; split; [reflexivity|]; field|].
  discriminate.
Qed.

(* ------------------------------------------------------------------ *)
(** ** Network.set_attr *)

(** The unit in force for a property after the unit loop. *)
Lemma set_units_spec ps kw s s' :
  set_units ps kw s = (s', None) ->
  nu_range_SI s' = nu_range_SI s /\ nu_range s' = nu_range s /\ nu_iter s' = nu_iter s /\
  (forall p, ~ In p ps -> dget p (nu_unit s') = dget p (nu_unit s)) /\
  (forall p, In p ps ->
     match dget p (kw_unit kw) with
     | Some u => dget p (nu_unit s') = Some u /\ unit_known p u = Some true
     | None => dget p (nu_unit s') = dget p (nu_unit s)
     end).
Proof.
  revert s; induction ps as [|q ps IH]; cbn; intros s H.
  - inversion H; subst. repeat split; auto. intros p [].
  - destruct (dget q (kw_unit kw)) as [u|] eqn:EQ.
    + destruct (unit_known q u) as [[|]|] eqn:EK; try discriminate.
      apply IH in H; cbn in H. destruct H as (H1 & H2 & H3 & H4 & H5).
      repeat split; auto.
      * intros p Hp. rewrite H4 by tauto. apply dget_dset_neq. intros ->; tauto.
      * intros p [->|Hp].
        -- rewrite EQ. destruct (in_dec string_dec p ps) as [Hin|Hin].
           ++ specialize (H5 p Hin). rewrite EQ in H5. exact H5.
           ++ rewrite H4 by auto. split; [apply dget_dset_eq|auto].
        -- specialize (H5 p Hp). destruct (dget p (kw_unit kw)) eqn:EP; [auto|].
           rewrite H5. apply dget_dset_neq. intros ->; congruence.
    + apply IH in H; cbn in H. destruct H as (H1 & H2 & H3 & H4 & H5).
      repeat split; auto. intros p [->|Hp].
      * rewrite EQ. destruct (in_dec string_dec p ps) as [Hin|Hin].
        -- specialize (H5 p Hin). now rewrite EQ in H5.
        -- auto.
      * exact (H5 p Hp).
Qed.

(** Every unit in force is a unit of its property. *)
Definition units_valid (s : netunits) : Prop :=
  forall p, In p fpd_keys -> exists u, dget p (nu_unit s) = Some u /\ unit_known p u = Some true.

Lemma set_units_valid ps kw s :
  units_valid s -> units_valid (fst (set_units ps kw s)).
Proof.
  revert s; induction ps as [|q ps IH]; cbn; intros s H; [auto|].
  destruct (dget q (kw_unit kw)) as [u|]; [|auto].
  destruct (unit_known q u) as [[|]|] eqn:EK; cbn; auto.
  apply IH. intros p Hp; cbn.
  destruct (string_dec p q) as [->|Hn].
  - exists u; split; [apply dget_dset_eq|auto].
  - destruct (H p Hp) as (u' & H1 & H2). exists u'; split; [|auto].
    rewrite dget_dset_neq; auto.
Qed.

Lemma set_ranges_unit ps kw s : nu_unit (fst (set_ranges ps kw s)) = nu_unit s.
Proof.
  revert s; induction ps as [|q ps IH]; intros s; cbn [set_ranges]; [auto|].
  destruct (dget q (kw_range kw)) as [[vals|]|]; [|reflexivity|apply IH].
  destruct (rbind _ _) as [v|e]; [|reflexivity].
  destruct (List.length v <? 2)%nat; [reflexivity|]. etransitivity; [apply IH|reflexivity].
Qed.

Lemma update_ranges_unit ps s : nu_unit (fst (update_ranges ps s)) = nu_unit s.
Proof.
  revert s; induction ps as [|q ps IH]; cbn; intros s; [auto|].
  destruct (dget q (nu_range_SI s)) as [vals|]; cbn; auto.
  destruct (rbind _ _) as [v|e]; [|reflexivity]. etransitivity; [apply IH|reflexivity].
Qed.

Lemma nu_set_attr_valid kw s : units_valid s -> units_valid (fst (nu_set_attr kw s)).
Proof.
  intros H. unfold nu_set_attr.
  pose proof (set_units_valid fpd_keys kw s H) as H1.
  destruct (set_units fpd_keys kw s) as [s1 [e1|]]; cbn [fst] in *; [auto|].
  pose proof (set_ranges_unit range_props kw s1) as H2.
  destruct (set_ranges range_props kw s1) as [s2 [e2|]]; cbn [fst] in *;
    [unfold units_valid in *; rewrite H2; auto|].
  pose proof (update_ranges_unit range_props s2) as H3.
  destruct (update_ranges range_props s2) as [s3 [e3|]]; cbn [fst] in *;
    unfold units_valid, set_iter in *; cbn [fst nu_unit]; rewrite H3, H2; auto.
Qed.

Lemma nu_history_valid kws s : units_valid s -> units_valid (nu_history kws s).
Proof.
  unfold nu_history. revert s; induction kws as [|kw kws IH]; cbn; intros s H; auto.
  apply IH. now apply nu_set_attr_valid.
Qed.

Lemma nu_defaults_valid : units_valid nu_defaults.
Proof.
  intros p Hp; cbn in Hp.
  repeat (destruct Hp as [<-|Hp]; [eexists; split; vm_compute; reflexivity|]). destruct Hp.
Qed.

Lemma set_ranges_spec ps kw s s' :
  set_ranges ps kw s = (s', None) ->
  nu_range s' = nu_range s /\ nu_iter s' = nu_iter s /\
  (forall p, ~ In p ps -> dget p (nu_range_SI s') = dget p (nu_range_SI s)) /\
  (forall p, In p ps ->
     match dget p (kw_range kw) with
     | Some (Some vals) =>
         exists u rs, dget p (nu_unit s) = Some u /\
           rmapM (fun v => convert_to_SI p v u) vals = Ok rs /\
           dget p (nu_range_SI s') = Some rs
     | Some None => False
     | None => dget p (nu_range_SI s') = dget p (nu_range_SI s)
     end).
Proof.
  revert s; induction ps as [|q ps IH]; cbn [set_ranges]; intros s H.
  - inversion H; subst. repeat split; auto. intros p [].
  - destruct (dget q (kw_range kw)) as [[vals|]|] eqn:EQ; [|discriminate|].
    + destruct (rbind _ _) as [vs|e] eqn:ER; [|discriminate].
      cbv zeta in H. destruct (List.length vs <? 2)%nat; [discriminate|].
      apply IH in H; cbn in H. destruct H as (H1 & H2 & H3 & H4).
      unfold get_unit in ER. destruct (dget q (nu_unit s)) as [u|] eqn:EU; [|discriminate].
      cbn in ER.
      repeat split; auto.
      * intros p Hp; cbn [In] in Hp. rewrite H3 by tauto. apply dget_dset_neq. intros ->; tauto.
      * intros p [->|Hp].
        -- rewrite EQ. destruct (in_dec string_dec p ps) as [Hin|Hin].
           ++ specialize (H4 p Hin). now rewrite EQ in H4.
           ++ exists u, vs. rewrite H3 by auto. repeat split; auto. apply dget_dset_eq.
        -- specialize (H4 p Hp). destruct (dget p (kw_range kw)) as [[?|]|] eqn:EP; auto.
           rewrite H4. apply dget_dset_neq. intros ->; congruence.
    + apply IH in H; cbn in H. destruct H as (H1 & H2 & H3 & H4).
      repeat split; auto; [intros p Hp; cbn [In] in Hp; auto|]. intros p [->|Hp].
      * rewrite EQ. destruct (in_dec string_dec p ps) as [Hin|Hin].
        -- specialize (H4 p Hin). now rewrite EQ in H4.
        -- auto.
      * exact (H4 p Hp).
Qed.

Lemma update_ranges_spec ps s s' :
  update_ranges ps s = (s', None) ->
  nu_range_SI s' = nu_range_SI s /\ nu_iter s' = nu_iter s /\
  (forall p, ~ In p ps -> dget p (nu_range s') = dget p (nu_range s)) /\
  (forall p, In p ps ->
     exists u rs vals, dget p (nu_unit s) = Some u /\
       dget p (nu_range_SI s) = Some rs /\
       rmapM (fun v => convert_from_SI p v u) rs = Ok vals /\
       dget p (nu_range s') = Some vals).
Proof.
  revert s; induction ps as [|q ps IH]; cbn; intros s H.
  - inversion H; subst. repeat split; auto. intros p [].
  - destruct (dget q (nu_range_SI s)) as [rs|] eqn:EQ; [|discriminate].
    destruct (rbind _ _) as [vs|e] eqn:ER; [|discriminate].
    apply IH in H; cbn in H. destruct H as (H1 & H2 & H3 & H4).
    unfold get_unit in ER. destruct (dget q (nu_unit s)) as [u|] eqn:EU; [|discriminate].
    cbn in ER.
    repeat split; auto.
    + intros p Hp; cbn [In] in Hp. rewrite H3 by tauto. apply dget_dset_neq. intros ->; tauto.
    + intros p [->|Hp]; [|exact (H4 p Hp)].
      destruct (in_dec string_dec p ps) as [Hin|Hin]; [exact (H4 p Hin)|].
      exists u, rs, vs. repeat split; auto. rewrite H3 by auto. apply dget_dset_eq.
Qed.

Lemma rmapM_Forall2 {A B} (f : A -> res B) l l' :
  rmapM f l = Ok l' <-> Forall2 (fun a b => f a = Ok b) l l'.
Proof.
  revert l'; induction l as [|a l IH]; intros l'; cbn.
  - split; [intros H; inversion H; constructor|intros H; inversion H; auto].
  - split.
    + destruct (f a) as [b|] eqn:E; cbn; [|discriminate].
      destruct (rmapM f l) as [bs|]; cbn; [|discriminate].
      intros H; inversion H; subst. constructor; [auto|]. now apply IH.
    + intros H; inversion H as [|? b ? bs Hab Hl]; subst. rewrite Hab; cbn.
      apply IH in Hl. now rewrite Hl.
Qed.

Definition range_dec (p : string) : {In p range_props} + {~ In p range_props} :=
  in_dec string_dec p range_props.

(** Full specification of a successful call. *)
Lemma nu_set_attr_spec kw s s' :
  nu_set_attr kw s = (s', None) ->
  (forall p, In p fpd_keys ->
     match dget p (kw_unit kw) with
     | Some u => dget p (nu_unit s') = Some u /\ unit_known p u = Some true
     | None => dget p (nu_unit s') = dget p (nu_unit s)
     end) /\
  (forall p, In p range_props ->
     exists u rs vals,
       dget p (nu_unit s') = Some u /\
       dget p (nu_range_SI s') = Some rs /\
       dget p (nu_range s') = Some vals /\
       Forall2 (fun r v => convert_from_SI p r u = Ok v) rs vals /\
       match dget p (kw_range kw) with
       | Some (Some given) => Forall2 (fun g r => convert_to_SI p g u = Ok r) given rs
       | Some None => False
       | None => dget p (nu_range_SI s) = Some rs
       end) /\
  nu_iter s' = (match kw_iter kw with Some b => b | None => nu_iter s end) /\
  nu_iter s' <> None.
Proof.
  unfold nu_set_attr. intros H.
  destruct (set_units fpd_keys kw s) as [s1 [e1|]] eqn:E1; [discriminate|].
  destruct (set_ranges range_props kw s1) as [s2 [e2|]] eqn:E2; [discriminate|].
  destruct (update_ranges range_props s2) as [s3 [e3|]] eqn:E3; [discriminate|].
  unfold set_iter in H. inversion H as [[Hs Hit]]; clear H.
  apply set_units_spec in E1. destruct E1 as (U1 & U2 & U3 & U4 & U5).
  pose proof (set_ranges_unit range_props kw s1) as RU. rewrite E2 in RU; cbn in RU.
  pose proof (update_ranges_unit range_props s2) as UU. rewrite E3 in UU; cbn in UU.
  apply set_ranges_spec in E2. destruct E2 as (R1 & R2 & R3 & R4).
  apply update_ranges_spec in E3. destruct E3 as (S1 & S2 & S3 & S4).
  cbn. rewrite UU, RU. split; [exact U5|]. split; [|split].
  - intros p Hp. destruct (S4 p Hp) as (u & rs & vals & A1 & A2 & A3 & A4).
    exists u, rs, vals. rewrite <- RU. rewrite S1. repeat split; auto.
    + now apply rmapM_Forall2.
    + specialize (R4 p Hp).
      destruct (dget p (kw_range kw)) as [[g|]|]; auto.
      * destruct R4 as (u' & rs' & B1 & B2 & B3).
        rewrite RU in A1. rewrite B1 in A1; inversion A1; subst u'.
        rewrite B3 in A2; inversion A2; subst rs'. now apply rmapM_Forall2.
      * rewrite <- U1. now rewrite <- R4.
  - destruct (kw_iter kw) as [b|]; [auto|]. congruence.
  - destruct (match kw_iter kw with Some v => v | None => nu_iter s3 end); congruence.
Qed.

Lemma nu_set_attr_typed_range kw s s' p given :
  nu_set_attr kw s = (s', None) -> In p range_props ->
  dget p (kw_range kw) = Some (Some given) ->
  exists shown, dget p (nu_range s') = Some shown /\ Forall2 Qeq shown given.
Proof.
  intros H Hp Hg. apply nu_set_attr_spec in H. destruct H as (_ & H & _).
  destruct (H p Hp) as (u & rs & vals & _ & _ & A3 & A4 & A5).
  rewrite Hg in A5. exists vals; split; [auto|].
  clear - A4 A5. revert given A5.
  induction A4 as [|r v rs vals Hr Hrs IH]; intros given A5; inversion A5; subst; constructor.
  - match goal with h : convert_to_SI _ _ _ = Ok r |- _ =>
      apply roundtrip_in_out in h; destruct h as (w & Ew & Hw) end.
    rewrite Hr in Ew; inversion Ew; subst. exact Hw.
  - auto.
Qed.

(* ------------------------------------------------------------------ *)
(** ** Agreement with the physical unit definitions *)
From Verif Require Import UnitsSpec.

Lemma physical_known : forallb (fun e => match e with (p, u, _, _) =>
    match unit_known p u with Some b => b | None => false end end) physical_units = true.
Proof. vm_compute; reflexivity. Qed.

Lemma table_physical_T :
  forallb (fun e => existsb (fun e' => match e' with (p, u, a, b) =>
      String.eqb p "T" && String.eqb u (fst e) &&
      Qeq_bool a (snd (snd e)) && Qeq_bool b (fst (snd e) * snd (snd e)) end) physical_units)
    units_T = true.
Proof. vm_compute; reflexivity. Qed.

Lemma table_physical_lin :
  forallb (fun t => forallb (fun e => existsb (fun e' => match e' with (p, u, a, b) =>
      String.eqb p (fst t) && String.eqb u (fst e) &&
      Qeq_bool a (snd e) && Qeq_bool b 0 end) physical_units) (snd t)) units_lin = true.
Proof. vm_compute; reflexivity. Qed.

Definition phys_unique_b : bool :=
  forallb (fun e => forallb (fun e' =>
    match e, e' with (p, u, a, b), (p', u', a', b') =>
      if String.eqb p p' && String.eqb u u' then Qeq_bool a a' && Qeq_bool b b' else true end)
    physical_units) physical_units.

Lemma phys_unique p u a b a' b' :
  In (p, u, a, b) physical_units -> In (p, u, a', b') physical_units -> a == a' /\ b == b'.
Proof.
  assert (H : phys_unique_b = true) by (vm_compute; reflexivity).
  unfold phys_unique_b in H. rewrite forallb_forall in H. intros H1 H2.
  apply H in H1. rewrite forallb_forall in H1. apply H1 in H2.
  rewrite !String.eqb_refl in H2; cbn [andb] in H2.
  apply andb_prop in H2. destruct H2 as [A B].
  split; now apply Qeq_bool_eq.
Qed.

Lemma known_physical p u : unit_known p u = Some true <-> supported p u.
Proof.
  split.
  - unfold unit_known, supported. destruct (String.eqb p "T") eqn:EP.
    + unfold dmem. destruct (dget u units_T) as [c|] eqn:E; [|discriminate]. intros _.
      apply dget_In in E. pose proof table_physical_T as P. rewrite forallb_forall in P.
      apply P in E. apply existsb_exists in E. destruct E as ([[[p' u'] a] b] & Hin & Hb).
      cbn [fst] in Hb.
      apply andb_prop in Hb; destruct Hb as [Hb _]. apply andb_prop in Hb; destruct Hb as [Hb _].
      apply andb_prop in Hb; destruct Hb as [Hp Hu].
      apply String.eqb_eq in Hp, Hu, EP; subst. eauto.
    + destruct (dget p units_lin) as [us|] eqn:EL; [|discriminate].
      unfold dmem. destruct (dget u us) as [c|] eqn:E; [|discriminate]. intros _.
      apply dget_In in E. apply dget_In in EL.
      pose proof table_physical_lin as P. rewrite forallb_forall in P.
      apply P in EL. cbn [snd fst] in EL. rewrite forallb_forall in EL. apply EL in E.
      apply existsb_exists in E. destruct E as ([[[p' u'] a] b] & Hin & Hb).
      cbn [fst] in Hb.
      apply andb_prop in Hb; destruct Hb as [Hb _]. apply andb_prop in Hb; destruct Hb as [Hb _].
      apply andb_prop in Hb; destruct Hb as [Hp Hu].
      apply String.eqb_eq in Hp, Hu; subst. eauto.
  - intros (a & b & Hin). pose proof physical_known as P. rewrite forallb_forall in P.
    apply P in Hin. cbn in Hin. destruct (unit_known p u) as [[|]|]; congruence.
Qed.

Lemma to_SI_physical p u a b v :
  In (p, u, a, b) physical_units ->
  exists r, convert_to_SI p v u = Ok r /\ r == a * v + b.
Proof.
  intros Hin.
  assert (K : unit_known p u = Some true) by (apply known_physical; exists a, b; auto).
  unfold unit_known in K. unfold convert_to_SI.
  destruct (String.eqb p "T") eqn:EP.
  - unfold dmem in K. destruct (dget u units_T) as [[c0 c1]|] eqn:E; [|discriminate].
    eexists; split; [reflexivity|].
    apply dget_In in E. pose proof table_physical_T as P. rewrite forallb_forall in P.
    apply P in E. apply existsb_exists in E. destruct E as ([[[p' u'] a'] b'] & Hin' & Hb).
    cbn [fst snd] in Hb.
    apply andb_prop in Hb; destruct Hb as [Hb B2]. apply andb_prop in Hb; destruct Hb as [Hb B1].
    apply andb_prop in Hb; destruct Hb as [Hp Hu].
    apply String.eqb_eq in Hp, Hu, EP; subst.
    apply Qeq_bool_eq in B1, B2.
    destruct (phys_unique _ _ _ _ _ _ Hin Hin') as [E1 E2].
    rewrite E1, E2, B1, B2. ring.
  - destruct (dget p units_lin) as [us|] eqn:EL; [|discriminate].
    unfold dmem in K. destruct (dget u us) as [c|] eqn:E; [|discriminate].
    eexists; split; [reflexivity|].
    apply dget_In in E. apply dget_In in EL.
    pose proof table_physical_lin as P. rewrite forallb_forall in P.
    apply P in EL. cbn [snd fst] in EL. rewrite forallb_forall in EL. apply EL in E.
    apply existsb_exists in E. destruct E as ([[[p' u'] a'] b'] & Hin' & Hb).
    cbn [fst snd] in Hb.
    apply andb_prop in Hb; destruct Hb as [Hb B2]. apply andb_prop in Hb; destruct Hb as [Hb B1].
    apply andb_prop in Hb; destruct Hb as [Hp Hu].
    apply String.eqb_eq in Hp, Hu; subst.
    apply Qeq_bool_eq in B1, B2.
    destruct (phys_unique _ _ _ _ _ _ Hin Hin') as [E1 E2].
    rewrite E1, E2, B1, B2. ring.
Qed.

Lemma unsupported_rejected p u v :
  ~ supported p u ->
  convert_to_SI p v u = Err KeyError /\ convert_from_SI p v u = Err KeyError.
Proof.
  rewrite <- known_physical. unfold unit_known, convert_to_SI, convert_from_SI, dmem.
  destruct (String.eqb p "T").
  - destruct (dget u units_T) as [[c0 c1]|]; intros H; [exfalso; auto|auto].
  - destruct (dget p units_lin) as [us|]; [|auto].
    destruct (dget u us); intros H; [exfalso; auto|auto].
Qed.

(** The witness for the non-atomic failing call: set p_unit and a bad T_unit. *)
Definition bad_kw : nukw :=
  {| kw_unit := [("p", "bar"); ("T", "degree")]; kw_range := []; kw_iter := None |}.
Definition nu_start : netunits := fst (nu_set_attr {| kw_unit := []; kw_range := []; kw_iter := None |} nu_defaults).

Lemma nu_set_attr_not_atomic :
  snd (nu_set_attr bad_kw nu_start) = Some ValueError /\
  dget "p" (nu_unit nu_start) = Some "Pa" /\
  dget "p" (nu_unit (fst (nu_set_attr bad_kw nu_start))) = Some "bar" /\
  dget "p" (nu_range (fst (nu_set_attr bad_kw nu_start))) = dget "p" (nu_range nu_start).
Proof. vm_compute. auto. Qed.

(** A call that raises because of a unit leaves ranges and iterinfo alone. *)
Lemma set_units_frame ps kw s :
  nu_range_SI (fst (set_units ps kw s)) = nu_range_SI s /\
  nu_range (fst (set_units ps kw s)) = nu_range s /\
  nu_iter (fst (set_units ps kw s)) = nu_iter s.
Proof.
  revert s; induction ps as [|q ps IH]; intros s; cbn [set_units]; [auto|].
  destruct (dget q (kw_unit kw)) as [u|]; [|apply IH].
  destruct (unit_known q u) as [[|]|]; [|auto|auto].
  destruct (IH {| nu_unit := dset q u (nu_unit s); nu_range_SI := nu_range_SI s;
                   nu_range := nu_range s; nu_iter := nu_iter s |}) as (A & B & C).
  auto.
Qed.

Lemma rejected_unit_frame kw s e s1 :
  set_units fpd_keys kw s = (s1, Some e) ->
  nu_set_attr kw s = (s1, Some e) /\
  nu_range_SI s1 = nu_range_SI s /\ nu_range s1 = nu_range s /\ nu_iter s1 = nu_iter s.
Proof.
  intros H. pose proof (set_units_frame fpd_keys kw s) as F. rewrite H in F.
  unfold nu_set_attr. rewrite H. auto.
Qed.
