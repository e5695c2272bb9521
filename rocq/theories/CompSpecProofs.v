(** Lemmas about component specifications. *)
From Verif Require Import CompSpecModel CompSpecSpec.
Open Scope string_scope.

Ltac inv H := inversion H; subst; clear H.

Lemma dc_set_attr_kind fs : forall q, q_kind (fst (dc_set_attr fs q)) = q_kind q.
Proof.
  induction fs as [|f fs IH]; intros q; cbn [dc_set_attr]; [auto|].
  destruct (field_allowed (q_kind q) f); [|auto]. rewrite IH. destruct f; reflexivity.
Qed.

Lemma set_param_kind parse v q : q_kind (fst (set_param parse v q)) = q_kind q.
Proof.
  assert (N : q_kind (fst (set_param parse (CV PNone) q)) = q_kind q).
  { unfold set_param. pose proof (dc_set_attr_kind [FIsSet false] q) as X.
    destruct (dc_set_attr [FIsSet false] q) as [q1 [e|]]; cbn [fst] in *; [auto|].
    rewrite dc_set_attr_kind. auto. }
  unfold set_param in *. destruct v as [w|d|i]; [destruct w; [exact N|..]| |];
  destruct (q_kind q) eqn:E;
  repeat match goal with |- context [if ?b then _ else _] => destruct b end;
  repeat match goal with |- context [match ?x with _ => _ end] =>
     match x with dc_set_attr _ _ => fail 1 | _ => destruct x end end;
  rewrite ?dc_set_attr_kind; cbn [fst]; auto.
Qed.

Lemma cset_one_other parse k v c p : p <> k ->
  dget p (k_params (fst (cset_one parse k v c))) = dget p (k_params c).
Proof.
  intros Hp. unfold cset_one.
  destruct (dget k (k_params c)) as [q|].
  - destruct (set_param parse v q) as [q' e]. cbn. now apply dget_dset_neq.
  - repeat match goal with |- context [match ?x with _ => _ end] => destruct x end; reflexivity.
Qed.

Lemma cset_one_keys parse k v c : keys (k_params (fst (cset_one parse k v c))) = keys (k_params c).
Proof.
  unfold cset_one. destruct (dget k (k_params c)) as [q|] eqn:E.
  - destruct (set_param parse v q) as [q' e]. cbn.
    clear -E. induction (k_params c) as [|[k1 q1] d IH]; [discriminate|].
    cbn in E |- *. destruct (String.eqb k k1); cbn; [auto|]. f_equal. auto.
  - repeat match goal with |- context [match ?x with _ => _ end] => destruct x end; reflexivity.
Qed.

Lemma cset_attr_keys parse kw : forall c, keys (k_params (fst (cset_attr parse kw c))) = keys (k_params c).
Proof.
  induction kw as [|[k v] kw IH]; intros c; cbn [cset_attr]; [auto|].
  pose proof (cset_one_keys parse k v c) as X.
  destruct (cset_one parse k v c) as [c' [e|]]; cbn [fst] in *; [auto|]. rewrite IH. auto.
Qed.

(** A parameter that is not named keeps all its fields, also when the call raises. *)
Lemma cset_attr_frame parse p kw : forall c, dget p kw = None ->
  dget p (k_params (fst (cset_attr parse kw c))) = dget p (k_params c).
Proof.
  induction kw as [|[k v] kw IH]; intros c H; cbn [cset_attr]; [auto|].
  cbn [dget] in H. destruct (String.eqb p k) eqn:E; [discriminate|]. apply String.eqb_neq in E.
  pose proof (cset_one_other parse k v c p E) as X.
  destruct (cset_one parse k v c) as [c' [e|]]; cbn [fst] in *; [auto|]. rewrite IH; auto.
Qed.

Lemma cset_attr_named parse p v kw : forall c c' q,
  NoDup (keys kw) -> dget p kw = Some v -> dget p (k_params c) = Some q ->
  cset_attr parse kw c = (c', None) ->
  exists q', set_param parse v q = (q', None) /\ dget p (k_params c') = Some q'.
Proof.
  induction kw as [|[k w] kw IH]; intros c c' q Hn Hg Hq H; [discriminate|].
  cbn [cset_attr] in H. cbn [dget] in Hg. cbn [keys map fst] in Hn. inversion Hn as [|? ? Hk Hn']; subst.
  destruct (String.eqb p k) eqn:E.
  - apply String.eqb_eq in E; subst k. inv Hg. unfold cset_one in H. rewrite Hq in H.
    destruct (set_param parse v q) as [q' [e|]]; [discriminate|]. exists q'. split; [auto|].
    pose proof (cset_attr_frame parse p kw (k_with_params c (dset p q' (k_params c)))) as X.
    rewrite H in X. cbn [fst] in X. rewrite X; [|now apply dget_None_notin]. cbn. apply dget_dset_eq.
  - apply String.eqb_neq in E.
    pose proof (cset_one_other parse k w c p E) as X.
    destruct (cset_one parse k w c) as [c1 [e|]]; [discriminate|]. cbn [fst] in X.
    apply (IH c1 c' q Hn' Hg); [rewrite X; exact Hq|exact H].
Qed.

Lemma spec_named parse kw c c' p v :
  ordinary c p -> NoDup (keys kw) -> cset_attr parse kw c = (c', None) -> parse "var" = None ->
  dget p kw = Some (CV v) ->
  spec_in_force c' p = Some (match v with
    | PNone => SUnset
    | PStr s => if String.eqb s "var" then SVariable else SFixed v
    | _ => SFixed v end).
Proof.
  intros (q & Hq & Hkind) Hn H Hvar Hv.
  destruct (cset_attr_named parse p (CV v) kw c c' q Hn Hv Hq H) as (q' & Hs & Hg).
  unfold spec_in_force. rewrite Hg. f_equal.
  destruct q as [qk qv qs qr qc qf qn qe]. cbn [q_kind] in Hkind. subst qk.
  unfold set_param in Hs. cbn [q_kind] in Hs.
  assert (S : forall s, parse s = None -> String.eqb s "var" = false ->
     (match s with "var" => dc_set_attr [FIsSet true; FIsVar true]
        {| q_kind := KCp; q_val := qv; q_is_set := qs; q_is_var := qr; q_char := qc; q_func := qf; q_num_eq := qn; q_extra := qe |}
      | _ => ({| q_kind := KCp; q_val := qv; q_is_set := qs; q_is_var := qr; q_char := qc; q_func := qf; q_num_eq := qn; q_extra := qe |}, Some TypeError) end) <> (q', None)).
  { intros s _ Es. apply String.eqb_neq in Es.
    repeat match goal with |- context [match ?x with _ => _ end] =>
      match x with dc_set_attr _ _ => fail 1 | _ => destruct x end end; try discriminate.
    exfalso; apply Es; reflexivity. }
  destruct v as [|n|b|s|l|d|o f d|]; cbn [is_numeric] in Hs; try (cbn in Hs; inv Hs; reflexivity).
  destruct (parse s) eqn:Ep.
  - cbn in Hs; inv Hs. cbn. destruct (String.eqb s "var") eqn:E; [|reflexivity].
    apply String.eqb_eq in E. congruence.
  - destruct (String.eqb s "var") eqn:E.
    + apply String.eqb_eq in E. subst s. cbn in Hs. inv Hs. reflexivity.
    + exfalso. exact (S s Ep E Hs).
Qed.

(* ---- preprocess ---- *)

Definition pset (ps : dict param) (e : string) : bool :=
  match dget e ps with Some q => q_is_set q | None => false end.

Definition final (ps : dict param) (q : param) : param :=
  match q_kind q with KGcp es => put_field (FIsSet (forallb (pset ps) es)) q | _ => q end.

Definition gok (ps : dict param) : Prop := forall p q es e, dget p ps = Some q -> q_kind q = KGcp es ->
  In e es -> exists q', dget e ps = Some q' /\ forall es', q_kind q' <> KGcp es'.

Lemma all_set_ok ps es : (forall e, In e es -> exists q', dget e ps = Some q') ->
  all_set es ps = Ok (forallb (pset ps) es).
Proof.
  induction es as [|e es IH]; intros H; cbn [all_set forallb]; [auto|].
  unfold pset at 1. destruct (H e (or_introl eq_refl)) as (q & E). rewrite E.
  rewrite IH by (intros; apply H; now right). reflexivity.
Qed.

Lemma kind_final ps q : q_kind (final ps q) = q_kind q.
Proof. unfold final. destruct (q_kind q) eqn:E; auto. Qed.

Lemma gok_step ps key q : gok ps -> dget key ps = Some q -> gok (dset key (final ps q) ps).
Proof.
  intros G Hq p q1 es e H1 K1 He.
  assert (exists q0, dget p ps = Some q0 /\ q_kind q0 = KGcp es) as (q0 & A & B).
  { destruct (string_dec p key) as [->|N].
    - rewrite dget_dset_eq in H1. inv H1. exists q. rewrite kind_final in K1. auto.
    - rewrite dget_dset_neq in H1 by auto. eauto. }
  destruct (G p q0 es e A B He) as (q' & C & D).
  destruct (string_dec e key) as [->|N].
  - rewrite dget_dset_eq. eexists. split; [reflexivity|]. rewrite kind_final. congruence.
  - rewrite dget_dset_neq by auto. eauto.
Qed.

Lemma pset_step ps key q e q' : dget key ps = Some q -> dget e ps = Some q' ->
  (forall es', q_kind q' <> KGcp es') -> pset (dset key (final ps q) ps) e = pset ps e.
Proof.
  intros Hq He K. unfold pset. destruct (string_dec e key) as [->|N].
  - rewrite dget_dset_eq, He. rewrite Hq in He. inv He. unfold final.
    destruct (q_kind q') eqn:E; auto. exfalso. eapply K; eauto.
  - now rewrite dget_dset_neq.
Qed.

Lemma final_step ps key q k q1 : gok ps -> dget key ps = Some q -> dget k ps = Some q1 ->
  final (dset key (final ps q) ps) q1 = final ps q1.
Proof.
  intros G Hq H1. unfold final at 1 3. destruct (q_kind q1) eqn:E; auto.
  f_equal. f_equal. assert (X : forall e, In e elements -> pset (dset key (final ps q) ps) e = pset ps e).
  { intros e He. destruct (G k q1 elements e H1 E He) as (q' & A & B). eapply pset_step; eauto. }
  clear -X. induction elements as [|e es IH]; cbn; [auto|].
  rewrite X by now left. rewrite IH; [auto|]. intros; apply X; now right.
Qed.

Lemma preprocess_params_spec todo : forall ps n, gok ps -> NoDup todo ->
  (forall k, In k todo -> exists q, dget k ps = Some q) ->
  exists ps', preprocess_params todo ps n = Ok (ps', n + list_sum (map (fun k => match dget k ps' with Some q => contribution q | None => 0 end) todo))
   /\ keys ps' = keys ps
   /\ (forall k, ~ In k todo -> dget k ps' = dget k ps)
   /\ (forall k q, In k todo -> dget k ps = Some q -> dget k ps' = Some (final ps q)).
Proof.
  induction todo as [|key todo IH]; intros ps n G ND Hin.
  - exists ps. cbn. rewrite Nat.add_0_r. repeat split; auto. intros k q [].
  - inversion ND as [|? ? Hk ND']; subst.
    destruct (Hin key (or_introl eq_refl)) as (q & Hq).
    cbn [preprocess_params]. rewrite Hq.
    assert (E : (match q_kind q with
                 | KGcp es => rbind (all_set es ps) (fun b => Ok (put_field (FIsSet b) q))
                 | _ => Ok q end) = Ok (final ps q)).
    { unfold final. destruct (q_kind q) eqn:K; auto. rewrite all_set_ok; [reflexivity|].
      intros e He. destruct (G key q elements e Hq K He) as (q' & A & _). eauto. }
    rewrite E. cbn [rbind].
    destruct (IH (dset key (final ps q) ps)
      (if q_is_set (final ps q) && q_func (final ps q) then n + q_num_eq (final ps q) else n))
      as (ps' & R & Kk & F1 & F2).
    + now apply gok_step.
    + auto.
    + intros k Hk'. destruct (Hin k (or_intror Hk')) as (q1 & H1).
      rewrite dget_dset_neq by (intros ->; auto). eauto.
    + exists ps'. assert (Dk : dget key ps' = Some (final ps q)).
      { rewrite F1 by auto. apply dget_dset_eq. }
      split; [|split; [|split]].
      * rewrite R. f_equal. f_equal. cbn [map list_sum fold_right]. rewrite Dk. unfold contribution at 2.
        unfold list_sum. destruct (q_is_set (final ps q) && q_func (final ps q))%bool; lia.
      * rewrite Kk. clear -Hq. induction ps as [|[k1 q1] d IH]; [discriminate|].
        cbn in Hq |- *. generalize (final ((k1, q1) :: d) q). intros z. 
        assert (X : forall (d : dict param) z, keys (dset key z d) = keys d \/ dget key d = None).
        { clear. induction d as [|[k1 q1] d IH]; intros z; [now right|]. cbn.
          destruct (String.eqb key k1); [now left|]. cbn. destruct (IH z) as [A|A]; [left; now f_equal|now right]. }
        destruct (String.eqb key k1) eqn:E; cbn; [auto|]. f_equal.
        destruct (X d z) as [A|A]; [exact A|congruence].
      * intros k Hk'. rewrite F1 by (intros A; apply Hk'; now right).
        apply dget_dset_neq. intros ->. apply Hk'. now left.
      * intros k q1 [->|Hk'] H1.
        -- congruence.
        -- assert (k <> key) by (intros ->; auto).
           rewrite (F2 k q1 Hk') by (now rewrite dget_dset_neq). f_equal. eapply final_step; eauto.
Qed.

Lemma map_dget_keys {V B} (f : option V -> B) (d : dict V) : NoDup (keys d) ->
  map (fun k => f (dget k d)) (keys d) = map (fun kv => f (Some (snd kv))) d.
Proof.
  intros ND. unfold keys. rewrite map_map. apply map_ext_in. intros [k v] H. cbn.
  f_equal. now apply In_dget.
Qed.

Lemma preprocess_spec mandatory c : groups_ok c -> NoDup (keys (k_params c)) ->
  exists ps', preprocess mandatory c = Ok (k_with_params c ps', mandatory + list_sum (map (fun kq => contribution (snd kq)) ps'))
   /\ keys ps' = keys (k_params c)
   /\ (forall k q, dget k (k_params c) = Some q -> dget k ps' = Some (final (k_params c) q)).
Proof.
  intros G ND.
  destruct (preprocess_params_spec (keys (k_params c)) (k_params c) mandatory) as (ps' & R & K & _ & F).
  - intros p q es e A B C. eapply G; [exists q; eauto|auto].
  - auto.
  - intros k Hk. destruct (dget k (k_params c)) eqn:E; [eauto|]. apply dget_None_notin in E. tauto.
  - exists ps'. unfold preprocess. rewrite R. cbn [rmap]. split; [|split]; [|auto|].
    + f_equal. f_equal. f_equal. rewrite <- K.
      rewrite (map_dget_keys (fun o => match o with Some q => contribution q | None => 0 end)); [auto|].
      rewrite K. auto.
    + intros k q Hq. apply F; [|auto]. apply dget_In in Hq. change k with (fst (k, q)). now apply in_map.
Qed.

Lemma preprocess_group mandatory c c' n p es : groups_ok c -> NoDup (keys (k_params c)) ->
  preprocess mandatory c = Ok (c', n) -> group_of c p es ->
  (is_specified c' p <-> forall e, In e es -> is_specified c' e).
Proof.
  intros G ND H (q & Hq & Hk).
  destruct (preprocess_spec mandatory c G ND) as (ps' & R & K & F). rewrite R in H. inv H.
  unfold is_specified; cbn [k_params k_with_params].
  assert (X : forall e, In e es -> forall q', dget e (k_params c) = Some q' -> dget e ps' = Some q' /\ (pset (k_params c) e = true <-> exists q, dget e ps' = Some q /\ q_is_set q = true)).
  { intros e He q' Hq'. destruct (G p es e) as (q2 & A & B); [now exists q|auto|].
    assert (q2 = q') by congruence. subst q2.
    assert (Y : dget e ps' = Some q').
    { rewrite (F e q' Hq'). f_equal. unfold final. destruct (q_kind q') eqn:E; auto. exfalso. eapply B; eauto. }
    split; [auto|]. rewrite Y. unfold pset. rewrite Hq'. split; [eauto|]. intros (q3 & C & D). congruence. }
  rewrite (F p q Hq). unfold final. rewrite Hk. split.
  - intros (q1 & A & B) e He. injection A as <-. cbn in B. rewrite forallb_forall in B.
    destruct (G p es e) as (q2 & C & D); [now exists q|auto|].
    destruct (X e He q2 C) as (_ & Y). apply Y. auto.
  - intros A. eexists. split; [reflexivity|]. cbn. apply forallb_forall. intros e He.
    destruct (G p es e) as (q2 & C & D); [now exists q|auto|].
    destruct (X e He q2 C) as (_ & Y). apply Y. apply A. auto.
Qed.

Lemma preprocess_other mandatory c c' n p : groups_ok c -> NoDup (keys (k_params c)) ->
  preprocess mandatory c = Ok (c', n) -> (forall es, ~ group_of c p es) ->
  dget p (k_params c') = dget p (k_params c).
Proof.
  intros G ND H Hn. destruct (preprocess_spec mandatory c G ND) as (ps' & R & K & F).
  rewrite R in H. inv H. cbn [k_params k_with_params].
  destruct (dget p (k_params c)) as [q|] eqn:E.
  - rewrite (F p q E). unfold final. destruct (q_kind q) eqn:Ek; auto. exfalso. apply (Hn elements). now exists q.
  - apply dget_None_notin. rewrite K. now apply dget_None_notin.
Qed.

Lemma preprocess_count mandatory c c' n : groups_ok c -> NoDup (keys (k_params c)) ->
  preprocess mandatory c = Ok (c', n) ->
  n = mandatory + list_sum (map (fun kq => contribution (snd kq)) (k_params c')).
Proof.
  intros G ND H. destruct (preprocess_spec mandatory c G ND) as (ps' & R & K & F).
  rewrite R in H. inv H. reflexivity.
Qed.

(* ---- invariants over histories ---- *)

(** Dictionary arguments give raw access to the container; without them a
    variable parameter is always a specified one. *)
Lemma set_param_inv parse v q : (forall d, v <> CDict d) ->
  (q_is_var q = true -> q_is_set q = true /\ q_kind q = KCp) ->
  let q' := fst (set_param parse v q) in q_is_var q' = true -> q_is_set q' = true /\ q_kind q' = KCp.
Proof.
  intros Hd I. destruct q as [qk qv qs qr qc qf qn qe]. cbn [q_is_var q_is_set q_kind] in I.
  unfold set_param. destruct v as [w|d|i]; [|exfalso; eapply Hd; eauto|].
  - destruct w; destruct qk; cbn; auto; try discriminate;
    repeat match goal with |- context [match ?x with _ => _ end] =>
      match x with dc_set_attr _ _ => fail 1 | _ => destruct x end end; cbn; auto; try discriminate;
    try (intros E; destruct (I E); discriminate); intros E; destruct (I E); auto.
  - destruct qk; cbn; auto; intros E; destruct (I E); auto; discriminate.
Qed.


Lemma cset_one_inv parse k v c : (forall d, v <> CDict d) -> var_ok c -> var_ok (fst (cset_one parse k v c)).
Proof.
  intros Hd I p q Hq. destruct (string_dec p k) as [->|N].
  - destruct (dget k (k_params c)) as [q0|] eqn:E.
    + unfold cset_one in Hq. rewrite E in Hq. pose proof (set_param_inv parse v q0 Hd (I k q0 E)) as X.
      destruct (set_param parse v q0) as [q' e]. cbn in Hq, X. rewrite dget_dset_eq in Hq. inv Hq. auto.
    + exfalso. apply dget_None_notin in E. rewrite <- (cset_one_keys parse k v c) in E.
      apply dget_None_notin in E. congruence.
  - rewrite cset_one_other in Hq by auto. eauto.
Qed.

Lemma cset_attr_inv parse kw : forall c, no_dicts kw -> var_ok c -> var_ok (fst (cset_attr parse kw c)).
Proof.
  induction kw as [|[k v] kw IH]; intros c Hd I; cbn [cset_attr]; [auto|].
  assert (I1 : var_ok (fst (cset_one parse k v c))).
  { apply cset_one_inv; [|auto]. intros d ->. apply (Hd k d). now left. }
  destruct (cset_one parse k v c) as [c1 [e|]]; cbn [fst] in *; [auto|].
  apply IH; [|auto]. intros k' d H. apply (Hd k' d). now right.
Qed.

Lemma history_inv parse calls : forall c, (forall kw, In kw calls -> no_dicts kw) -> var_ok c ->
  var_ok (cset_attr_history parse calls c).
Proof.
  induction calls as [|kw calls IH]; intros c Hd I; cbn; [auto|].
  apply IH; [intros; apply Hd; now right|]. apply cset_attr_inv; [apply Hd; now left|auto].
Qed.

Lemma columns_spec first c : NoDup (keys (k_params c)) ->
  let cols := component_columns first c in
  NoDup (map fst cols) /\ map snd cols = seq first (length cols) /\
  forall p, In p (map fst cols) <->
    exists q, dget p (k_params c) = Some q /\ q_kind q = KCp /\ q_is_var q = true.
Proof.
  intros ND cols. unfold cols, component_columns.
  set (vs := filter _ (k_params c)).
  assert (L : length (map fst vs) = length (seq first (length vs))) by now rewrite map_length, seq_length.
  assert (A : forall (X Y : Type) (l : list X) (m : list Y), length l = length m -> map fst (combine l m) = l /\ map snd (combine l m) = m).
  { clear. induction l as [|x l IH]; intros [|y m] H; try discriminate; cbn; [auto|].
    destruct (IH m) as (B & C); [now inversion H|]. now rewrite B, C. }
  destruct (A _ _ _ _ L) as (B & C). rewrite B, C. split; [|split].
  - unfold vs. clear -ND. induction (k_params c) as [|[k q] d IH]; cbn; [constructor|].
    inversion ND as [|? ? H1 H2]; subst. destruct (match q_kind q with KCp => q_is_var q | _ => false end); [|auto].
    cbn. constructor; [|auto]. intros H. apply H1. apply in_map_iff in H. destruct H as ([k' q'] & E & F).
    cbn in E. subst k'. apply filter_In in F. destruct F as (F & _). change k with (fst (k, q')). now apply in_map.
  - rewrite combine_length, L, Nat.min_id, seq_length. reflexivity.
  - intros p. rewrite in_map_iff. split.
    + intros ([k q] & E & F). cbn in E. subst k. apply filter_In in F. destruct F as (F & G). cbn in G.
      exists q. split; [now apply In_dget|]. destruct (q_kind q); try discriminate. auto.
    + intros (q & E & F & G). exists (p, q). split; [auto|]. apply filter_In. split; [now apply dget_In|].
      cbn. now rewrite F.
Qed.

Lemma cset_one_ordinary parse k v c p : ordinary c p -> ordinary (fst (cset_one parse k v c)) p.
Proof.
  intros (q & A & B). destruct (string_dec p k) as [->|N].
  - unfold cset_one, ordinary. rewrite A. pose proof (set_param_kind parse v q) as Y.
    destruct (set_param parse v q) as [q' e]. cbn in *. exists q'. rewrite dget_dset_eq. split; congruence.
  - exists q. rewrite cset_one_other by auto. auto.
Qed.

Lemma cset_attr_ordinary parse kw p : forall c, ordinary c p -> ordinary (fst (cset_attr parse kw c)) p.
Proof.
  induction kw as [|[k v] kw IH]; intros c Ho; cbn [cset_attr]; [auto|].
  pose proof (cset_one_ordinary parse k v c p Ho) as X.
  destruct (cset_one parse k v c) as [c1 [e|]]; cbn [fst] in *; auto.
Qed.

Lemma history_ordinary parse calls p : forall c, ordinary c p -> ordinary (cset_attr_history parse calls c) p.
Proof.
  unfold cset_attr_history. induction calls as [|kw calls IH]; intros c Ho; cbn; [auto|].
  apply IH. now apply cset_attr_ordinary.
Qed.

Lemma specify_all parse calls : forall c p v kw c', NoDup (keys kw) -> parse "var" = None ->
  ordinary c p -> dget p kw = Some (CV v) ->
  cset_attr parse kw (cset_attr_history parse calls c) = (c', None) ->
  spec_in_force c' p = Some (match v with
    | PNone => SUnset
    | PStr s => if String.eqb s "var" then SVariable else SFixed v
    | _ => SFixed v end).
Proof.
  intros c p v kw c' ND Hv Ho Hp H. eapply (spec_named parse kw (cset_attr_history parse calls c)); eauto. now apply history_ordinary.
Qed.
