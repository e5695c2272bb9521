(** Lemmas about connection specifications. *)
From Verif Require Import ConnSpecModel ConnSpecSpec.
Open Scope string_scope.

Ltac dm H :=
  match type of H with
  | context [match ?x with _ => _ end] => destruct x eqn:?
  end.

(** A quantity that only one keyword can change. *)
Lemma set_attr_obs {A} parse (O : conn -> A) (k : string) (F : pv -> A -> A) :
  (forall k' v c c', k' <> k -> set_one parse k' v c = (c', None) -> O c' = O c) ->
  (forall v c c', set_one parse k v c = (c', None) -> O c' = F v (O c)) ->
  forall kw c c', NoDup (keys kw) -> set_attr parse kw c = (c', None) ->
    O c' = match dget k kw with Some v => F v (O c) | None => O c end.
Proof.
  intros Hother Hk. induction kw as [|[k1 v1] kw IH]; intros c c' Hn H.
  - cbn in H. inversion H; reflexivity.
  - cbn [set_attr] in H. destruct (set_one parse k1 v1 c) as [c1 [e|]] eqn:E; [discriminate|].
    cbn [keys map fst] in Hn. inversion Hn as [|? ? Hk1 Hn']; subst.
    specialize (IH _ _ Hn' H). cbn [dget]. destruct (String.eqb k k1) eqn:Ek.
    + apply String.eqb_eq in Ek; subst k1.
      assert (Z : dget k kw = None) by (now apply dget_None_notin). rewrite Z in IH.
      rewrite IH. eapply Hk; eauto.
    + apply String.eqb_neq in Ek. rewrite IH.
      rewrite (Hother _ _ _ _ (not_eq_sym Ek) E). reflexivity.
Qed.

Ltac inv H := inversion H; subst; clear H.

Ltac crush_one H :=
  unfold set_one, fluid_specification, parameter_specification in H;
  repeat (dm H; try discriminate); inv H.

Lemma smem_property_data_value k :
  smem k property_data = true -> smem k value_props = true \/ smem k ref_props = true \/ contains "fluid" k = true.
Proof.
  intros H. apply smem_In in H. cbn in H.
  repeat (destruct H as [H|H]; [subst; vm_compute; tauto|]). tauto.
Qed.

(* ---- value specification ---- *)

Lemma value_spec_other parse p k v c c' :
  k <> p -> set_one parse k v c = (c', None) -> value_spec c' p = value_spec c p.
Proof.
  intros Hk H. unfold value_spec.
  assert (E : fp_is_set (c_prop c' p) = fp_is_set (c_prop c p) /\ fp_val (c_prop c' p) = fp_val (c_prop c p)).
  { assert (U : forall k0 x f, (k0 = p -> fp_is_set x = fp_is_set (f p) /\ fp_val x = fp_val (f p)) ->
       fp_is_set (upd k0 x f p) = fp_is_set (f p) /\ fp_val (upd k0 x f p) = fp_val (f p)).
    { intros k0 x f G. unfold upd. destruct (String.eqb p k0) eqn:E; [|auto].
      apply String.eqb_eq in E. auto. }
    crush_one H; cbn; auto; apply U; intros ->; try congruence; cbn; auto. }
  destruct E as [-> ->]. reflexivity.
Qed.

Lemma value_spec_self parse p v c c' :
  settable p -> set_one parse p v c = (c', None) ->
  value_spec c' p = match v with PNone => None | PRef _ _ _ => value_spec c p | _ => Some v end.
Proof.
  intros Hp H. unfold value_spec.
  cbn in Hp.
  repeat (destruct Hp as [<-|Hp]; [unfold set_one in H; cbn in H;
    destruct v; cbn in H; repeat (dm H; try discriminate); inv H; reflexivity|]). tauto.
Qed.

Lemma value_spec_set_attr parse p kw c c' :
  settable p -> NoDup (keys kw) -> set_attr parse kw c = (c', None) ->
  value_spec c' p = match dget p kw with
                    | None | Some (PRef _ _ _) => value_spec c p
                    | Some PNone => None
                    | Some v => Some v end.
Proof.
  intros Hp Hn H.
  rewrite (set_attr_obs parse (fun c => value_spec c p) p
    (fun v old => match v with PNone => None | PRef _ _ _ => old | _ => Some v end)
    (fun k' v c0 c1 Hk => value_spec_other parse p k' v c0 c1 Hk)
    (fun v c0 c1 => value_spec_self parse p v c0 c1 Hp) kw c c' Hn H).
  destruct (dget p kw) as [[]|]; reflexivity.
Qed.

(* ---- starting values ---- *)

Lemma strip0_settable k p :
  smem k property_data0 = true -> strip0 k = p -> k = p ++ "0".
Proof.
  intros H <-. apply smem_In in H. cbn in H.
  repeat (destruct H as [<-|H]; [vm_compute; reflexivity|]). tauto.
Qed.

Lemma start_value_other parse p k v c c' :
  k <> p ++ "0" -> set_one parse k v c = (c', None) -> start_value c' p = start_value c p.
Proof.
  intros Hk H. unfold start_value.
  assert (U : forall k0 x f, (k0 = p -> fp_val0 x = fp_val0 (f p)) -> fp_val0 (upd k0 x f p) = fp_val0 (f p)).
  { intros k0 x f G. unfold upd. destruct (String.eqb p k0) eqn:E; [|auto].
    apply String.eqb_eq in E. auto. }
  crush_one H; cbn [c_prop with_prop with_ref with_fluid with_state with_lists with_flags]; auto;
    apply U; intros Hbase; try (rewrite <- Hbase; cbn; auto; fail);
    exfalso; apply Hk; apply strip0_settable; auto;
    match goal with G : (_ || _)%bool = true |- _ => apply orb_prop in G; destruct G; [congruence|auto] end.
Qed.

Lemma start_value_self parse p v c c' :
  settable p -> set_one parse (p ++ "0") v c = (c', None) -> start_value c' p = v.
Proof.
  intros Hp H. unfold start_value. cbn in Hp.
  repeat (destruct Hp as [<-|Hp]; [unfold set_one in H; cbn in H;
    destruct v; cbn in H; repeat (dm H; try discriminate); inv H; reflexivity|]). tauto.
Qed.

Lemma start_value_set_attr parse p kw c c' :
  settable p -> NoDup (keys kw) -> set_attr parse kw c = (c', None) ->
  start_value c' p = match dget (p ++ "0") kw with Some v => v | None => start_value c p end.
Proof.
  intros Hp Hn H.
  exact (set_attr_obs parse (fun c => start_value c p) (p ++ "0") (fun v _ => v)
    (fun k' v c0 c1 Hk => start_value_other parse p k' v c0 c1 Hk)
    (fun v c0 c1 => start_value_self parse p v c0 c1 Hp) kw c c' Hn H).
Qed.

(* ---- references ---- *)

Lemma append_ref_inj a b : (a ++ "_ref" = b ++ "_ref") -> a = b.
Proof.
  revert b. induction a as [|x a IH]; intros b H.
  - destruct b as [|y b]; [auto|]. exfalso.
    assert (L : forall s, String.length (s ++ "_ref") = (String.length s + 4)%nat).
    { induction s as [|z s IHs]; cbn; [auto|]. now rewrite IHs. }
    apply (f_equal String.length) in H. rewrite !L in H. cbn in H. lia.
  - destruct b as [|y b].
    + exfalso. assert (L : forall s, String.length (s ++ "_ref") = (String.length s + 4)%nat).
      { induction s as [|z s IHs]; cbn; [auto|]. now rewrite IHs. }
      apply (f_equal String.length) in H. rewrite !L in H. cbn in H. lia.
    + cbn in H. injection H; intros H1 ->. f_equal. auto.
Qed.

Lemma ref_spec_other parse p k v c c' :
  k <> p -> k <> p ++ "_ref" -> set_one parse k v c = (c', None) -> ref_spec c' p = ref_spec c p.
Proof.
  intros Hk Hk2 H. unfold ref_spec.
  assert (E : c_ref c' (p ++ "_ref") = c_ref c (p ++ "_ref")).
  { crush_one H; cbn; auto; rewrite upd_neq; auto; intros X; try congruence;
      apply append_ref_inj in X; congruence. }
  now rewrite E.
Qed.

Lemma ref_spec_self parse p v c c' :
  referable p -> set_one parse p v c = (c', None) ->
  ref_spec c' p = match v with PNone => None | PRef o f d => Some (o, f, d) | _ => ref_spec c p end.
Proof.
  intros Hp H. unfold ref_spec. cbn in Hp.
  repeat (destruct Hp as [<-|Hp]; [unfold set_one in H; cbn in H;
    destruct v; cbn in H; repeat (dm H; try discriminate); inv H; reflexivity|]). tauto.
Qed.

Lemma ref_spec_set_attr parse p kw c c' :
  referable p -> NoDup (keys kw) -> dget (p ++ "_ref") kw = None ->
  set_attr parse kw c = (c', None) ->
  ref_spec c' p = match dget p kw with
                  | Some PNone => None
                  | Some (PRef o f d) => Some (o, f, d)
                  | _ => ref_spec c p end.
Proof.
  intros Hp. revert c c'. induction kw as [|[k1 v1] kw IH]; intros c c' Hn Hr H.
  - cbn in H. inv H. reflexivity.
  - cbn [set_attr] in H. destruct (set_one parse k1 v1 c) as [c1 [e|]] eqn:E; [discriminate|].
    cbn [keys map fst] in Hn. inversion Hn as [|? ? Hk1 Hn']; subst.
    cbn [dget] in Hr |- *. destruct (String.eqb (p ++ "_ref") k1) eqn:Er; [discriminate|].
    apply String.eqb_neq in Er. specialize (IH _ _ Hn' Hr H).
    destruct (String.eqb p k1) eqn:Ek.
    + apply String.eqb_eq in Ek; subst k1.
      assert (Z : dget p kw = None) by (now apply dget_None_notin). rewrite Z in IH. rewrite IH.
      rewrite (ref_spec_self _ _ _ _ _ Hp E). destruct v1; reflexivity.
    + apply String.eqb_neq in Ek. rewrite IH.
      rewrite (ref_spec_other parse p k1 v1 c c1) by auto. reflexivity.
Qed.

(* ---- the other attributes ---- *)

Ltac other_tac Hk H :=
  crush_one H; cbn; auto; exfalso; apply Hk;
  repeat match goal with
  | G : String.eqb _ _ = true |- _ => apply String.eqb_eq in G
  | G : smem _ _ = true |- _ => apply smem_In in G; cbn in G
  | G : String.eqb _ _ = false |- _ => apply String.eqb_neq in G
  end; intuition congruence.

Ltac self_tac H :=
  unfold set_one in H; cbn in H; repeat (dm H; try discriminate); inv H; cbn; auto.

Lemma design_set_attr parse kw c c' : NoDup (keys kw) -> set_attr parse kw c = (c', None) ->
  c_design c' = match dget "design" kw with Some (PList l) => l | _ => c_design c end.
Proof.
  intros Hn H.
  rewrite (set_attr_obs parse c_design "design" (fun v old => match v with PList l => l | _ => old end))
    with (kw := kw) (c := c); [destruct (dget "design" kw) as [[]|]; reflexivity| | |auto|auto].
  - intros k v c0 c1 Hk G. other_tac Hk G.
  - intros v c0 c1 G. self_tac G.
Qed.

Lemma offdesign_set_attr parse kw c c' : NoDup (keys kw) -> set_attr parse kw c = (c', None) ->
  c_offdesign c' = match dget "offdesign" kw with Some (PList l) => l | _ => c_offdesign c end.
Proof.
  intros Hn H.
  rewrite (set_attr_obs parse c_offdesign "offdesign" (fun v old => match v with PList l => l | _ => old end))
    with (kw := kw) (c := c); [destruct (dget "offdesign" kw) as [[]|]; reflexivity| | |auto|auto].
  - intros k v c0 c1 Hk G. other_tac Hk G.
  - intros v c0 c1 G. self_tac G.
Qed.

Lemma printout_set_attr parse kw c c' : NoDup (keys kw) -> set_attr parse kw c = (c', None) ->
  c_printout c' = match dget "printout" kw with Some (PBool b) => b | _ => c_printout c end.
Proof.
  intros Hn H.
  rewrite (set_attr_obs parse c_printout "printout" (fun v old => match v with PBool l => l | _ => old end))
    with (kw := kw) (c := c); [destruct (dget "printout" kw) as [[]|]; reflexivity| | |auto|auto].
  - intros k v c0 c1 Hk G. other_tac Hk G.
  - intros v c0 c1 G. self_tac G.
Qed.

Lemma local_design_set_attr parse kw c c' : NoDup (keys kw) -> set_attr parse kw c = (c', None) ->
  c_local_design c' = match dget "local_design" kw with Some (PBool b) => b | _ => c_local_design c end.
Proof.
  intros Hn H.
  rewrite (set_attr_obs parse c_local_design "local_design" (fun v old => match v with PBool l => l | _ => old end))
    with (kw := kw) (c := c); [destruct (dget "local_design" kw) as [[]|]; reflexivity| | |auto|auto].
  - intros k v c0 c1 Hk G. other_tac Hk G.
  - intros v c0 c1 G. self_tac G.
Qed.

Lemma local_offdesign_set_attr parse kw c c' : NoDup (keys kw) -> set_attr parse kw c = (c', None) ->
  c_local_offdesign c' = match dget "local_offdesign" kw with Some (PBool b) => b | _ => c_local_offdesign c end.
Proof.
  intros Hn H.
  rewrite (set_attr_obs parse c_local_offdesign "local_offdesign" (fun v old => match v with PBool l => l | _ => old end))
    with (kw := kw) (c := c); [destruct (dget "local_offdesign" kw) as [[]|]; reflexivity| | |auto|auto].
  - intros k v c0 c1 Hk G. other_tac Hk G.
  - intros v c0 c1 G. self_tac G.
Qed.

Lemma mixing_set_attr parse kw c c' : NoDup (keys kw) -> set_attr parse kw c = (c', None) ->
  c_mixing c' = match dget "mixing_rule" kw with Some v => v | _ => c_mixing c end.
Proof.
  intros Hn H.
  rewrite (set_attr_obs parse c_mixing "mixing_rule" (fun v old => v))
    with (kw := kw) (c := c); [destruct (dget "mixing_rule" kw) as [[]|]; reflexivity| | |auto|auto].
  - intros k v c0 c1 Hk G. other_tac Hk G.
  - intros v c0 c1 G. self_tac G.
Qed.

Lemma balance_set_attr parse kw c c' : NoDup (keys kw) -> set_attr parse kw c = (c', None) ->
  c_balance c' = match dget "fluid_balance" kw with Some (PBool b) => b | _ => c_balance c end.
Proof.
  intros Hn H.
  rewrite (set_attr_obs parse c_balance "fluid_balance" (fun v old => match v with PBool l => l | _ => old end))
    with (kw := kw) (c := c); [destruct (dget "fluid_balance" kw) as [[]|]; reflexivity| | |auto|auto].
  - intros k v c0 c1 Hk G. other_tac Hk G.
  - intros v c0 c1 G. self_tac G.
Qed.

Lemma state_set_attr parse kw c c' : NoDup (keys kw) -> set_attr parse kw c = (c', None) ->
  state_spec c' = match dget "state" kw with
                  | Some (PStr s) => Some s
                  | Some PNone => None
                  | _ => state_spec c end.
Proof.
  intros Hn H.
  rewrite (set_attr_obs parse state_spec "state"
    (fun v old => match v with PStr s => Some s | PNone => None | _ => old end))
    with (kw := kw) (c := c); [destruct (dget "state" kw) as [[]|]; reflexivity| | |auto|auto].
  - intros k v c0 c1 Hk G. unfold state_spec. other_tac Hk G.
  - intros v c0 c1 G. unfold state_spec. self_tac G.
Qed.

Lemma design_path_set_attr parse kw c c' : NoDup (keys kw) -> set_attr parse kw c = (c', None) ->
  (c_design_path c', c_new_design c') =
  match dget "design_path" kw with Some v => (v, true) | _ => (c_design_path c, c_new_design c) end.
Proof.
  intros Hn H.
  rewrite (set_attr_obs parse (fun c => (c_design_path c, c_new_design c)) "design_path" (fun v old => (v, true)))
    with (kw := kw) (c := c); [destruct (dget "design_path" kw) as [[]|]; reflexivity| | |auto|auto].
  - intros k v c0 c1 Hk G. other_tac Hk G.
  - intros v c0 c1 G. self_tac G.
Qed.

(* ---- histories ---- *)

Lemma value_history parse p calls : settable p -> Forall (fun kw => NoDup (keys kw)) calls ->
  forall c, all_succeed parse calls c ->
  value_spec (set_attr_history parse calls c) p = value_after (given_for p calls) (value_spec c p).
Proof.
  intros Hp Hn. induction Hn as [|kw calls Hkw Hn IH]; intros c Hs; [reflexivity|].
  destruct Hs as [Hs1 Hs2]. unfold set_attr_history in *. cbn [fold_left].
  rewrite IH by auto. unfold given_for. cbn [flat_map]. unfold value_after. rewrite fold_left_app. f_equal.
  destruct (set_attr parse kw c) as [c1 e] eqn:E. cbn in Hs1; subst e. cbn [fst].
  rewrite (value_spec_set_attr _ _ _ _ _ Hp Hkw E). destruct (dget p kw) as [[]|]; reflexivity.
Qed.

Lemma ref_history parse p calls : referable p -> Forall (fun kw => NoDup (keys kw)) calls ->
  Forall (fun kw => dget (p ++ "_ref") kw = None) calls ->
  forall c, all_succeed parse calls c ->
  ref_spec (set_attr_history parse calls c) p = ref_after (given_for p calls) (ref_spec c p).
Proof.
  intros Hp Hn. induction Hn as [|kw calls Hkw Hn IH]; intros Hr c Hs; [reflexivity|].
  inversion Hr as [|? ? Hr1 Hr2]; subst.
  destruct Hs as [Hs1 Hs2]. unfold set_attr_history in *. cbn [fold_left].
  rewrite IH by auto. unfold given_for. cbn [flat_map]. unfold ref_after. rewrite fold_left_app. f_equal.
  destruct (set_attr parse kw c) as [c1 e] eqn:E. cbn in Hs1; subst e. cbn [fst].
  rewrite (ref_spec_set_attr _ _ _ _ _ Hp Hkw Hr1 E). destruct (dget p kw) as [[]|]; reflexivity.
Qed.

(* ---- fluids ---- *)

Lemma fluid_entry_ok n be v f : fluid_ok f -> fluid_ok (fluid_entry n be v f).
Proof.
  intros (A & B & C).
  assert (S : v <> DNone -> fluid_ok (fluid_entry n be v f)).
  { intros Hv. assert (E : fluid_entry n be v f =
      {| fl_val := dset n v (fl_val f); fl_val0 := fl_val0 f;
         fl_is_set := sadd n (fl_is_set f); fl_is_var := srem n (fl_is_var f);
         fl_engine := fl_engine f; fl_back_end := dset n be (fl_back_end f) |})
      by (destruct v; [congruence|reflexivity|reflexivity]).
    rewrite E. unfold fluid_ok; cbn. split; [|split]; intros x; rewrite sadd_In.
    - rewrite srem_In. intros [->|H] [H1 H2]; [congruence|]. eapply A; eauto.
    - intros H. destruct (string_dec x n) as [->|Hx].
      + rewrite dget_dset_eq. split; congruence.
      + rewrite dget_dset_neq by auto. apply B. tauto.
    - intros H. destruct (string_dec x n) as [->|Hx].
      + rewrite dget_dset_eq. discriminate.
      + rewrite dget_dset_neq by auto. apply C. tauto. }
  destruct v; [|apply S; discriminate|apply S; discriminate].
  unfold fluid_ok; cbn. split; [|split]; intros x; rewrite srem_In.
  - rewrite sadd_In. intros [H1 H2] [H3|H3]; [congruence|]. eapply A; eauto.
  - intros [_ H]. now apply B.
  - intros [_ H]. now apply C.
Qed.

Lemma fluid_entries_ok d : forall f, fluid_ok f -> fluid_ok (fst (fluid_entries d f)).
Proof.
  induction d as [|[n v] d IH]; intros f H; cbn; [auto|].
  destruct (split_back_end n) as [[be fl]|e]; [|auto]. apply IH. now apply fluid_entry_ok.
Qed.

Lemma set_one_fluid_ok parse k v c : fluid_ok (c_fluid c) -> fluid_ok (c_fluid (fst (set_one parse k v c))).
Proof.
  intros H. unfold set_one, fluid_specification, parameter_specification.
  repeat (match goal with
    | |- context [fluid_entries ?d ?f] =>
        let X := fresh in pose proof (fluid_entries_ok d f H) as X; destruct (fluid_entries d f); cbn in X
    | |- context [match ?x with _ => _ end] => destruct x
    end; cbn [fst]); cbn; auto.
Qed.

Lemma set_attr_fluid_ok parse kw : forall c,
  fluid_ok (c_fluid c) -> fluid_ok (c_fluid (fst (set_attr parse kw c))).
Proof.
  induction kw as [|[k v] kw IH]; intros c H; cbn; [auto|].
  pose proof (set_one_fluid_ok parse k v c H) as X.
  destruct (set_one parse k v c) as [c' [e|]]; cbn in *; auto.
Qed.

Lemma history_fluid_ok parse calls : forall c,
  fluid_ok (c_fluid c) -> fluid_ok (c_fluid (set_attr_history parse calls c)).
Proof.
  unfold set_attr_history. induction calls as [|kw calls IH]; intros c H; cbn [fold_left]; [auto|].
  apply IH. now apply set_attr_fluid_ok.
Qed.

Lemma default_fluid_ok : fluid_ok (c_fluid conn_default).
Proof. split; [|split]; intros x []. Qed.

(** One entry and one fluid. *)
Lemma fluid_entry_set n be v f x :
  smem x (fl_is_set (fluid_entry n be v f)) =
  if String.eqb n x then (match v with DNone => false | _ => true end) else smem x (fl_is_set f).
Proof.
  destruct (String.eqb n x) eqn:E.
  - apply String.eqb_eq in E; subst x. destruct v; cbn.
    + destruct (smem n (srem n (fl_is_set f))) eqn:G; [|auto].
      apply smem_In in G. apply srem_In in G. tauto.
    + apply smem_In. apply sadd_In. auto.
    + apply smem_In. apply sadd_In. auto.
  - apply String.eqb_neq in E. destruct v; cbn [fluid_entry fl_is_set];
      apply eq_true_iff_eq; rewrite !smem_In, ?srem_In, ?sadd_In;
      assert (E2 : x <> n) by auto; tauto.
Qed.

Lemma fluid_entry_val n be v f x :
  dget x (fl_val (fluid_entry n be v f)) =
  if String.eqb n x then (match v with DNone => dget x (fl_val f) | _ => Some v end) else dget x (fl_val f).
Proof.
  destruct (String.eqb n x) eqn:E.
  - apply String.eqb_eq in E; subst x. destruct v; cbn; auto; now rewrite dget_dset_eq.
  - apply String.eqb_neq in E. destruct v; cbn; auto; rewrite dget_dset_neq; auto.
Qed.

Lemma fluid_entry_be n be v f x :
  dget x (fl_back_end (fluid_entry n be v f)) =
  if String.eqb n x then (match v with DNone => dget x (fl_back_end f) | _ => Some be end)
  else dget x (fl_back_end f).
Proof.
  destruct (String.eqb n x) eqn:E.
  - apply String.eqb_eq in E; subst x. destruct v; cbn; auto; now rewrite dget_dset_eq.
  - apply String.eqb_neq in E. destruct v; cbn; auto; rewrite dget_dset_neq; auto.
Qed.

Lemma fluid_entries_last d x : forall f f',
  fluid_entries d f = (f', None) ->
  smem x (fl_is_set f') = fixed_after (entries_for x d) (smem x (fl_is_set f)) /\
  dget x (fl_val f') = fraction_after (entries_for x d) (dget x (fl_val f)) /\
  dget x (fl_back_end f') = back_end_after (entries_for x d) (dget x (fl_back_end f)).
Proof.
  induction d as [|[n v] d IH]; intros f f' H; cbn in H.
  - inv H. repeat split.
  - unfold entries_for. cbn [flat_map fst snd].
    destruct (split_back_end n) as [[be fl]|e]; [|discriminate].
    apply IH in H. destruct H as (A & B & C).
    unfold fixed_after, fraction_after, back_end_after in *. rewrite !fold_left_app.
    unfold entries_for in *. rewrite A, B, C, fluid_entry_set, fluid_entry_val, fluid_entry_be.
    destruct (String.eqb fl x); cbn; [|auto]. destruct v; auto.
Qed.

Lemma fluid_attr_set_attr parse kw c c' x : NoDup (keys kw) -> set_attr parse kw c = (c', None) ->
  (smem x (fl_is_set (c_fluid c')), dget x (fl_val (c_fluid c')), dget x (fl_back_end (c_fluid c'))) =
  match dget "fluid" kw with
  | Some (PDict d) =>
      (fixed_after (entries_for x d) (smem x (fl_is_set (c_fluid c))),
       fraction_after (entries_for x d) (dget x (fl_val (c_fluid c))),
       back_end_after (entries_for x d) (dget x (fl_back_end (c_fluid c))))
  | _ => (smem x (fl_is_set (c_fluid c)), dget x (fl_val (c_fluid c)), dget x (fl_back_end (c_fluid c)))
  end.
Proof.
  intros Hn H.
  rewrite (set_attr_obs parse
    (fun c => (smem x (fl_is_set (c_fluid c)), dget x (fl_val (c_fluid c)), dget x (fl_back_end (c_fluid c))))
    "fluid"
    (fun v old => match v with
       | PDict d => (fixed_after (entries_for x d) (fst (fst old)),
                     fraction_after (entries_for x d) (snd (fst old)),
                     back_end_after (entries_for x d) (snd old))
       | _ => old end)) with (kw := kw) (c := c);
    [destruct (dget "fluid" kw) as [[]|]; reflexivity| | |auto|auto].
  - intros k v c0 c1 Hk G. other_tac Hk G.
  - intros v c0 c1 G. unfold set_one in G. cbn in G. unfold fluid_specification in G. cbn in G.
    destruct v; try discriminate. destruct (fluid_entries d (c_fluid c0)) as [f' e] eqn:E.
    inv G. cbn. apply (fluid_entries_last d x) in E. destruct E as (-> & -> & ->). reflexivity.
Qed.

Lemma fluid_history parse calls x : Forall (fun kw => NoDup (keys kw)) calls ->
  forall c, all_succeed parse calls c ->
  let f := c_fluid (set_attr_history parse calls c) in
  smem x (fl_is_set f) = fixed_after (given_entries x calls) (smem x (fl_is_set (c_fluid c))) /\
  dget x (fl_val f) = fraction_after (given_entries x calls) (dget x (fl_val (c_fluid c))) /\
  dget x (fl_back_end f) = back_end_after (given_entries x calls) (dget x (fl_back_end (c_fluid c))).
Proof.
  intros Hn. induction Hn as [|kw calls Hkw Hn IH]; intros c Hs; [repeat split|].
  destruct Hs as [Hs1 Hs2]. unfold set_attr_history in *. cbn [fold_left].
  specialize (IH _ Hs2). cbv zeta in *. destruct IH as (A & B & C). rewrite A, B, C.
  destruct (set_attr parse kw c) as [c1 e] eqn:E. cbn in Hs1; subst e. cbn [fst].
  pose proof (fluid_attr_set_attr parse kw c c1 x Hkw E) as X. revert X.
  unfold given_entries. cbn [flat_map]. unfold fixed_after, fraction_after, back_end_after.
  rewrite !fold_left_app.
  destruct (dget "fluid" kw) as [[]|]; cbn [fold_left]; intros X; injection X; intros -> -> ->; auto.
Qed.

Lemma engines_set_attr parse kw c c' : NoDup (keys kw) -> set_attr parse kw c = (c', None) ->
  fl_engine (c_fluid c') = match dget "fluid_engines" kw with Some (PDict d) => d | _ => fl_engine (c_fluid c) end.
Proof.
  intros Hn H.
  rewrite (set_attr_obs parse (fun c => fl_engine (c_fluid c)) "fluid_engines"
     (fun v old => match v with PDict l => l | _ => old end))
    with (kw := kw) (c := c); [destruct (dget "fluid_engines" kw) as [[]|]; reflexivity| | |auto|auto].
  - intros k v c0 c1 Hk G.
    assert (FE : forall d f, fl_engine (fst (fluid_entries d f)) = fl_engine f).
    { induction d as [|[n w] d IH]; intros f; cbn; [auto|].
      destruct (split_back_end n) as [[be fl]|e]; [|auto]. rewrite IH. destruct w; reflexivity. }
    unfold set_one, fluid_specification, parameter_specification in G.
    repeat (match type of G with
    | context [fluid_entries ?d ?f] =>
        let X := fresh in pose proof (FE d f) as X; destruct (fluid_entries d f); cbn in X
    | context [match ?x with _ => _ end] => destruct x eqn:?
    end; try discriminate); inv G; cbn; auto.
    exfalso; apply Hk. now apply String.eqb_eq.
  - intros v c0 c1 G. unfold set_one in G. cbn in G. unfold fluid_specification in G. cbn in G.
    destruct v; try discriminate. inv G. reflexivity.
Qed.

Lemma none_accepted parse c p : settable p -> exists c', set_attr parse [(p, PNone)] c = (c', None).
Proof.
  intros Hp. cbn in Hp.
  repeat (destruct Hp as [<-|Hp]; [eexists; reflexivity|]). tauto.
Qed.

Lemma none_unsets parse c c' p :
  settable p -> set_attr parse [(p, PNone)] c = (c', None) ->
  value_spec c' p = None /\ (referable p -> ref_spec c' p = None) /\
  (In p ["m"; "p"; "h"] -> fp_is_var (c_prop c' p) = true).
Proof.
  intros Hp H. cbn in Hp.
  repeat (destruct Hp as [<-|Hp];
    [inv H; split; [reflexivity|]; split; intros X; try reflexivity; cbn in X; intuition discriminate|]). tauto.
Qed.

Lemma both_in_force :
  all_succeed (fun _ => None) [[("m", PNum (Fin 5))]; [("m", PRef 1 2 0)]] conn_default /\
  value_spec (set_attr_history (fun _ => None) [[("m", PNum (Fin 5))]; [("m", PRef 1 2 0)]] conn_default) "m" <> None /\
  ref_spec (set_attr_history (fun _ => None) [[("m", PNum (Fin 5))]; [("m", PRef 1 2 0)]] conn_default) "m" <> None.
Proof. vm_compute. repeat split; discriminate. Qed.

Lemma nan_sets :
  exists parse c c', set_attr parse [("p", PNum NaN)] c = (c', None) /\
    value_spec c' "p" = Some (PNum NaN) /\ fp_is_var (c_prop c' "p") = false.
Proof. exists (fun _ => None), conn_default. eexists. split; [reflexivity|]. split; reflexivity. Qed.

Lemma fluid_history_default parse calls x :
  Forall (fun kw => NoDup (keys kw)) calls -> all_succeed parse calls conn_default ->
  let f := c_fluid (set_attr_history parse calls conn_default) in
  (In x (fl_is_set f) <-> fixed_after (given_entries x calls) false = true) /\
  dget x (fl_val f) = fraction_after (given_entries x calls) None /\
  dget x (fl_back_end f) = back_end_after (given_entries x calls) None.
Proof.
  intros Hn Hs. pose proof (fluid_history parse calls x Hn conn_default Hs) as H. cbv zeta in *.
  destruct H as (A & B & C). split; [|split].
  - rewrite <- smem_In, A. tauto.
  - exact B.
  - exact C.
Qed.

Lemma composition_accumulates :
  exists parse calls, all_succeed parse calls conn_default /\
    given_for "fluid" calls = [PDict [("H2O", DNum (Fin 1))]; PDict [("N2", DNum (Fin 1))]] /\
    In "H2O" (fl_is_set (c_fluid (set_attr_history parse calls conn_default))) /\
    In "N2" (fl_is_set (c_fluid (set_attr_history parse calls conn_default))).
Proof.
  exists (fun _ => None), [[("fluid", PDict [("H2O", DNum (Fin 1))])]; [("fluid", PDict [("N2", DNum (Fin 1))])]].
  vm_compute. tauto.
Qed.

(** The values given since the last None. *)
Lemma split_since_none (l : list pv) :
  exists pre suf, l = (pre ++ suf)%list /\ ~ In PNone suf /\
    value_after l None = value_after suf None /\ ref_after l None = ref_after suf None.
Proof.
  induction l as [|v l IH] using rev_ind.
  - exists [], []. repeat split; auto.
  - destruct v as [| | | | | | |]; try (
      destruct IH as (pre & suf & -> & Hn & Hv & Hr);
      match goal with |- context [(_ ++ [?v])%list] => exists pre, (suf ++ [v])%list end;
      split; [now rewrite app_assoc|]; split;
      [intros X; apply in_app_or in X; destruct X as [X|[X|[]]]; [auto|discriminate]|];
      unfold value_after, ref_after in *; rewrite !fold_left_app in *; cbn [fold_left];
      rewrite ?fold_left_app in Hv, Hr; split; congruence).
    exists (l ++ [PNone])%list, []. split; [now rewrite app_nil_r|]. split; [auto|].
    unfold value_after, ref_after. rewrite !fold_left_app. split; reflexivity.
Qed.

Lemma value_after_some suf : value_after suf None <> None ->
  exists v, In v suf /\ v <> PNone /\ forall o f d, v <> PRef o f d.
Proof.
  induction suf as [|v suf IH] using rev_ind; [cbn; congruence|].
  unfold value_after. rewrite fold_left_app. cbn [fold_left]. intros H.
  destruct v; try (exists (PNum n) || exists (PBool b) || exists (PStr s) || exists (PList l) || exists (PDict d) || exists PObj;
    split; [apply in_or_app; right; now left|]; split; [discriminate|discriminate]).
  destruct (IH H) as (v & Hv & Hx). exists v. split; [apply in_or_app; now left|auto].
Qed.

Lemma ref_after_some suf : ref_after suf None <> None -> exists o f d, In (PRef o f d) suf.
Proof.
  induction suf as [|v suf IH] using rev_ind; [cbn; congruence|].
  unfold ref_after. rewrite fold_left_app. cbn [fold_left]. intros H.
  destruct v; try (exfalso; apply H; reflexivity); try (destruct (IH H) as (o & f & d0 & Hv);
    exists o, f, d0; apply in_or_app; now left).
  exists conn, factor, delta. apply in_or_app; right; now left.
Qed.

Lemma both_only_if_given parse p calls :
  referable p -> Forall (fun kw => NoDup (keys kw)) calls ->
  Forall (fun kw => dget (p ++ "_ref") kw = None) calls -> all_succeed parse calls conn_default ->
  value_spec (set_attr_history parse calls conn_default) p <> None ->
  ref_spec (set_attr_history parse calls conn_default) p <> None ->
  exists before since, given_for p calls = (before ++ since)%list /\ ~ In PNone since /\
    (exists o f d, In (PRef o f d) since) /\
    (exists v, In v since /\ v <> PNone /\ forall o f d, v <> PRef o f d).
Proof.
  intros Hp Hn Hr Hs Hv Hrf.
  assert (Hp' : settable p) by (cbn in *; tauto).
  rewrite (value_history parse p calls Hp' Hn conn_default Hs) in Hv.
  rewrite (ref_history parse p calls Hp Hn Hr conn_default Hs) in Hrf.
  change (value_spec conn_default p) with (@None pv) in Hv.
  change (ref_spec conn_default p) with (@None (nat * Q * Q)) in Hrf.
  destruct (split_since_none (given_for p calls)) as (pre & suf & E & Hno & Ev & Er).
  exists pre, suf. rewrite Ev in Hv. rewrite Er in Hrf.
  split; [auto|]. split; [auto|]. split; [now apply ref_after_some|now apply value_after_some].
Qed.

(** A mass flow, pressure or enthalpy is an unknown exactly when no value is set. *)
Definition var_iff_unset (c : conn) : Prop :=
  forall p, In p ["m"; "p"; "h"] -> fp_is_var (c_prop c p) = negb (fp_is_set (c_prop c p)).

Lemma set_one_var parse k v c : var_iff_unset c -> var_iff_unset (fst (set_one parse k v c)).
Proof.
  intros H q Hq. specialize (H q Hq).
  assert (U : forall k0 x f,
    (k0 = q -> fp_is_var x = negb (fp_is_set x)) -> fp_is_var (f q) = negb (fp_is_set (f q)) ->
    fp_is_var (upd k0 x f q) = negb (fp_is_set (upd k0 x f q))).
  { intros k0 x f G1 G2. unfold upd. destruct (String.eqb q k0) eqn:E; [|auto].
    apply String.eqb_eq in E. auto. }
  assert (M : smem q ["m"; "p"; "h"] = true) by (now apply smem_In).
  unfold set_one, fluid_specification, parameter_specification.
  repeat match goal with |- context [match ?x with _ => _ end] =>
     match x with context [match _ with _ => _ end] => fail 1 | _ => destruct x eqn:? end end;
  cbn [fst c_prop with_prop with_ref with_fluid with_state with_lists with_flags]; auto;
  apply U; auto; intros Hb; rewrite ?Hb in *;
  cbn [fp_is_var fp_is_set unset_fp set_fp start_fp]; rewrite ?M; auto.
Qed.

Lemma set_attr_var parse kw : forall c, var_iff_unset c -> var_iff_unset (fst (set_attr parse kw c)).
Proof.
  induction kw as [|[k v] kw IH]; intros c H; cbn [set_attr]; [auto|].
  pose proof (set_one_var parse k v c H) as X.
  destruct (set_one parse k v c) as [c' [e|]]; cbn [fst] in *; auto.
Qed.

Lemma history_var parse calls : forall c, var_iff_unset c -> var_iff_unset (set_attr_history parse calls c).
Proof.
  unfold set_attr_history. induction calls as [|kw calls IH]; intros c H; cbn [fold_left]; [auto|].
  apply IH. now apply set_attr_var.
Qed.

Lemma default_var : var_iff_unset conn_default.
Proof. intros p [<-|[<-|[<-|[]]]]; reflexivity. Qed.

Lemma history_unknown parse calls p : In p ["m"; "p"; "h"] ->
  let c := set_attr_history parse calls conn_default in
  fp_is_var (c_prop c p) = true <-> value_spec c p = None.
Proof.
  intros Hp. cbv zeta. pose proof (history_var parse calls conn_default default_var p Hp) as H.
  unfold value_spec. rewrite H. destruct (fp_is_set _); cbn; split; congruence.
Qed.
