(** Results of components. *)
From Verif Require Import CellModel CellSpec TableSpec TableProofs CompSpecProofs.
Open Scope nat_scope.
Open Scope string_scope.
Open Scope list_scope.

Lemma keys_dset_in {V} k (v : V) d : In k (keys d) -> keys (dset k v d) = keys d.
Proof.
  induction d as [|[x w] d IH]; cbn; [intros []|]. intros I. destruct (String.eqb_spec k x) as [->|D]; cbn; [reflexivity|].
  f_equal. apply IH. destruct I as [->|I]; [congruence|exact I].
Qed.
Lemma write_get w v k p : dget p (k_params (write_values w v k))
  = option_map (fun q => if w p q then put_field (FVal (v p)) q else q) (dget p (k_params k)).
Proof.
  unfold write_values; cbn [k_params k_with_params]. generalize (k_params k). intros d. induction d as [|[x q] d IH]; cbn; [reflexivity|].
  destruct (String.eqb p x) eqn:E; [|exact IH]. apply String.eqb_eq in E as ->. reflexivity.
Qed.
Lemma write_keys w v k : keys (k_params (write_values w v k)) = keys (k_params k).
Proof. unfold write_values, keys; cbn [k_params k_with_params]. rewrite map_map. reflexivity. Qed.
Lemma write_class c w v k : of_class c k -> of_class c (write_values w v k).
Proof.
  intros [K S]. split; [now rewrite write_keys|]. intros p q. rewrite write_get. destruct (dget p (k_params k)) as [q0|] eqn:E; [|discriminate].
  cbn. intros H. injection H as <-. destruct (S _ _ E) as (r & R & X). exists r. split; [exact R|]. destruct (w p q0); exact X.
Qed.
Lemma write_specified w v k p : specified (write_values w v k) p = specified k p.
Proof. unfold specified. rewrite write_get. destruct (dget p (k_params k)) as [q|]; cbn; [|reflexivity]. now destruct (w p q). Qed.
Lemma write_var w v k p : var_flag (write_values w v k) p = var_flag k p.
Proof. unfold var_flag. rewrite write_get. destruct (dget p (k_params k)) as [q|]; cbn; [|reflexivity]. now destruct (w p q). Qed.
Lemma set_class parse c kw k : of_class c k -> of_class c (fst (cset_attr parse kw k)).
Proof.
  intros [K S]. split; [rewrite cset_attr_keys; exact K|]. intros p q H. destruct (cset_attr_static _ _ _ _ _ H) as (q0 & H0 & X).
  destruct (S _ _ H0) as (r & R & Y). exists r. split; [exact R|]. eapply static_trans; eauto.
Qed.
Lemma new_class c : of_class c (new_component c).
Proof. exact (history_class (fun _ => None) c []). Qed.

(** the start of a preparation leaves values alone *)
Definition kept (k k' : comp) : Prop := forall p, value k' p = value k p
  /\ (specified k' p = specified k p /\ var_flag k' p = var_flag k p \/ specified k p = false /\ specified k' p = true /\ var_flag k' p = true).
Lemma kept_refl k : kept k k. Proof. intros p. auto. Qed.
Lemma kept_trans a b d : kept a b -> kept b d -> kept a d.
Proof.
  intros A B p. destruct (A p) as (A1 & A2), (B p) as (B1 & B2). split; [congruence|].
  destruct A2 as [(A2 & A3)|(A2 & A3 & A4)], B2 as [(B2 & B3)|(B2 & B3 & B4)]; [left|right|right|right]; repeat split; congruence.
Qed.
Lemma auto_var_ok parse c p r k : parse "var" = None -> of_class c k -> dget p (class_params c) = Some r -> t_kind r = KCp ->
  exists k', auto_var parse p k = Ok k' /\ of_class c k' /\ kept k k' /\ specified k' p = true.
Proof.
  intros N O H K. destruct (class_get _ _ _ _ O H) as (q & Q & (S1 & S2 & S3)). cbn in S1. rewrite K in S1. unfold auto_var. rewrite Q.
  destruct (q_is_set q) eqn:I.
  { exists k. repeat split; try apply O; auto. unfold specified. now rewrite Q. }
  pose proof (set_class parse c [(p, CV (PStr "var"))] k O) as O'. unfold cset_attr, cset_one in *. rewrite Q in *.
  assert (E : set_param parse (CV (PStr "var")) q = (put_field (FIsVar true) (put_field (FIsSet true) q), None)).
  { unfold set_param. rewrite S1. unfold is_numeric. rewrite N. cbn. rewrite S1. reflexivity. }
  rewrite E in *. cbn [fst] in O'. eexists. split; [reflexivity|]. split; [exact O'|].
  assert (G : dget p (k_params (k_with_params k (dset p (put_field (FIsVar true) (put_field (FIsSet true) q)) (k_params k))))
     = Some (put_field (FIsVar true) (put_field (FIsSet true) q))) by (cbn [k_params k_with_params]; apply dget_dset_eq).
  split; [|unfold specified; now rewrite G].
  intros x. destruct (String.eqb_spec x p) as [->|D].
  - unfold value, specified, var_flag. rewrite G, Q. cbn. split; [reflexivity|]. right. auto.
  - unfold value, specified, var_flag. cbn [k_params k_with_params]. rewrite dget_dset_neq by congruence. auto.
Qed.
Lemma preprocess_kept c k : of_class c k -> exists k' n, preprocess 0 k = Ok (k', n) /\ of_class c k'
  /\ forall p r, dget p (class_params c) = Some r -> t_kind r = KCp -> dget p (k_params k') = dget p (k_params k).
Proof.
  intros O. destruct (prepares_class c k 0 O) as (k' & n & P & O' & _ & _ & F). exists k', n. split; [exact P|]. split; [exact O'|].
  intros p r H K. apply F. intros r' es H'. rewrite H in H'. injection H' as <-. congruence.
Qed.
Lemma prepare_ok parse c k : parse "var" = None -> of_class c k -> exists k', prepare parse c k = Ok k' /\ of_class c k'
  /\ (forall p r, dget p (class_params c) = Some r -> t_kind r = KCp -> value k' p = value k p
       /\ (specified k' p = specified k p /\ var_flag k' p = var_flag k p \/ specified k p = false /\ specified k' p = true /\ var_flag k' p = true))
  /\ (In c [KCombustionEngine; KFuelCell; KWaterElectrolyzer] -> specified k' "P" = true) /\ (c = KCombustionEngine -> specified k' "Qloss" = true).
Proof.
  intros N O.
  assert (D : forall k1, of_class c k1 -> kept k k1 -> (In c [KCombustionEngine; KFuelCell; KWaterElectrolyzer] -> specified k1 "P" = true) -> (c = KCombustionEngine -> specified k1 "Qloss" = true) ->
    exists k', rmap fst (preprocess 0 k1) = Ok k' /\ of_class c k'
  /\ (forall p r, dget p (class_params c) = Some r -> t_kind r = KCp -> value k' p = value k p
       /\ (specified k' p = specified k p /\ var_flag k' p = var_flag k p \/ specified k p = false /\ specified k' p = true /\ var_flag k' p = true))
  /\ (In c [KCombustionEngine; KFuelCell; KWaterElectrolyzer] -> specified k' "P" = true) /\ (c = KCombustionEngine -> specified k' "Qloss" = true)).
  { intros k1 O1 KK SP SQ. destruct (preprocess_kept c k1 O1) as (k' & n & P & O' & F). exists k'. rewrite P. split; [reflexivity|]. split; [exact O'|].
    assert (V : forall p r, dget p (class_params c) = Some r -> t_kind r = KCp -> value k' p = value k1 p /\ specified k' p = specified k1 p /\ var_flag k' p = var_flag k1 p).
    { intros p r H K. unfold value, specified, var_flag. rewrite (F p r H K). auto. }
    split; [|split].
    - intros p r H K. destruct (V p r H K) as (V1 & V2 & V3). rewrite V1, V2, V3. apply KK.
    - intros I. assert (X : exists r, dget "P" (class_params c) = Some r /\ t_kind r = KCp).
      { cbn in I. destruct I as [<-|[<-|[<-|[]]]]; eexists; split; reflexivity. }
      destruct X as (r & H & K). destruct (V _ r H K) as (_ & V2 & _). rewrite V2. auto.
    - intros ->. destruct (V "Qloss" _ eq_refl eq_refl) as (_ & V2 & _). rewrite V2. auto. }
  assert (G : ~ In c [KCombustionEngine; KFuelCell; KWaterElectrolyzer] -> exists k', rmap fst (preprocess 0 k) = Ok k' /\ of_class c k'
  /\ (forall p r, dget p (class_params c) = Some r -> t_kind r = KCp -> value k' p = value k p
       /\ (specified k' p = specified k p /\ var_flag k' p = var_flag k p \/ specified k p = false /\ specified k' p = true /\ var_flag k' p = true))
  /\ (In c [KCombustionEngine; KFuelCell; KWaterElectrolyzer] -> specified k' "P" = true) /\ (c = KCombustionEngine -> specified k' "Qloss" = true)).
  { intros X. apply D; [exact O|apply kept_refl|tauto|]. intros ->. destruct X. now left. }
  assert (R : c = KFuelCell \/ c = KWaterElectrolyzer -> exists k', rmap fst (rbind (auto_var parse "P" k) (preprocess 0)) = Ok k' /\ of_class c k'
  /\ (forall p r, dget p (class_params c) = Some r -> t_kind r = KCp -> value k' p = value k p
       /\ (specified k' p = specified k p /\ var_flag k' p = var_flag k p \/ specified k p = false /\ specified k' p = true /\ var_flag k' p = true))
  /\ (In c [KCombustionEngine; KFuelCell; KWaterElectrolyzer] -> specified k' "P" = true) /\ (c = KCombustionEngine -> specified k' "Qloss" = true)).
  { intros X. assert (Y : exists r, dget "P" (class_params c) = Some r /\ t_kind r = KCp) by (destruct X as [->| ->]; eexists; split; reflexivity).
    destruct Y as (r & H & K). destruct (auto_var_ok parse c "P" r k N O H K) as (k1 & A & O1 & K1 & S1). rewrite A. cbn [rbind].
    apply D; auto. intros ->. destruct X; discriminate. }
  destruct c; try (apply G; cbn; intuition discriminate); try (apply R; auto; fail).
  - unfold prepare, engine_preprocess. destruct (auto_var_ok parse KCombustionEngine "P" _ k N O eq_refl eq_refl) as (k1 & A & O1 & K1 & S1). rewrite A. cbn [rbind].
    destruct (auto_var_ok parse KCombustionEngine "Qloss" _ k1 N O1 eq_refl eq_refl) as (k2 & A2 & O2 & K2 & S2). rewrite A2. cbn [rbind].
    apply D; auto; [eapply kept_trans; eauto|]. intros _. destruct (K2 "P") as (_ & [(E & _)|(E & _)]); congruence.
  - unfold prepare, condenser_preprocess. destruct (class_get KCondenser k "subcooling" _ O eq_refl) as (q & Q & S). rewrite Q.
    set (k1 := k_with_params k _). assert (O1 : of_class KCondenser k1).
    { destruct O as [KK SS]. split; [unfold k1; cbn [k_params k_with_params]; rewrite keys_dset_in; [exact KK|eapply dget_keys; eauto]|].
      intros p q'. unfold k1; cbn [k_params k_with_params]. destruct (String.eqb_spec p "subcooling") as [->|NE].
      - rewrite dget_dset_eq. intros H. injection H as <-. destruct (SS _ _ Q) as (r & R' & X). exists r. split; [exact R'|exact X].
      - rewrite dget_dset_neq by congruence. apply SS. }
    destruct (preprocess_kept KCondenser k1 O1) as (k' & n & P & O' & F). exists k'. rewrite P. split; [reflexivity|]. split; [exact O'|].
    split; [|split; [cbn; intuition discriminate|discriminate]].
    intros p r H K. unfold value, specified, var_flag. rewrite (F p r H K). unfold k1; cbn [k_params k_with_params].
    destruct (String.eqb_spec p "subcooling") as [->|NE]; [injection H as <-; discriminate K|]. rewrite dget_dset_neq by congruence. auto.
Qed.

Lemma calc_class c v k : of_class c k -> of_class c (calc_parameters c v k).
Proof. apply write_class. Qed.
Lemma calculate_ok parse c r s : parse "var" = None -> of_class c (l_comp s) -> exists k s', prepare parse c (l_comp s) = Ok k
  /\ calculate parse c r s = Ok s' /\ of_class c (l_comp s').
Proof.
  intros N O. destruct (prepare_ok parse c _ N O) as (k & P & O' & _). exists k. unfold calculate. rewrite P. cbn [rmap].
  eexists. split; [reflexivity|]. split; [reflexivity|]. destruct (r_end r); cbn [l_comp]; repeat apply write_class; exact O'.
Qed.
Lemma step_class parse c s e : parse "var" = None -> of_class c (l_comp s) -> of_class c (l_comp (step parse c s e)).
Proof.
  intros N O. destruct e as [kw|r]; cbn [step l_comp]; [now apply set_class|].
  destruct (calculate_ok parse c r s N O) as (k & s' & _ & E & O'). now rewrite E.
Qed.
Lemma fold_class parse c evs : parse "var" = None -> forall s, of_class c (l_comp s) -> of_class c (l_comp (fold_left (step parse c) evs s)).
Proof. intros N. induction evs as [|e evs IH]; intros s O; cbn; [exact O|]. apply IH. now apply step_class. Qed.
Lemma lived_class parse c evs : parse "var" = None -> of_class c (l_comp (lived parse c evs)).
Proof. intros N. apply fold_class; [exact N|apply new_class]. Qed.

Lemma columns_eq c k : of_class c k -> columns k = numbers c.
Proof.
  intros O. pose proof (class_nodup c k O) as ND. destruct O as [K S]. unfold columns, numbers.
  rewrite (filter_map_fst (fun p => match dget p (class_params c) with Some r => match t_kind r with KCp => true | _ => false end | None => false end)).
  2:{ intros [p q] I. cbn [fst snd]. pose proof (In_dget _ _ _ ND I) as G. destruct (S _ _ G) as (r & R & (X & _)). rewrite R. cbn in X. rewrite X. reflexivity. }
  rewrite (filter_map_fst (fun p => match dget p (class_params c) with Some r => match t_kind r with KCp => true | _ => false end | None => false end)).
  2:{ intros [p r] I. cbn [fst snd]. rewrite (In_dget _ _ _ (table_nodup c) I). reflexivity. }
  unfold keys in K. rewrite K. reflexivity.
Qed.
Lemma dget_row c k l p : dget p (map (fun p => (p, cell c k p)) l) = if smem p l then Some (cell c k p) else None.
Proof.
  induction l as [|x l IH]; cbn; [reflexivity|]. destruct (String.eqb_spec p x) as [->|D]; cbn; [reflexivity|exact IH].
Qed.
Lemma number_in c p r : dget p (class_params c) = Some r -> t_kind r = KCp -> In p (numbers c).
Proof. intros H K. unfold numbers. apply in_map_iff. exists (p, r). split; [reflexivity|]. apply filter_In. split; [now apply dget_In|]. cbn. now rewrite K. Qed.
Lemma row_get c k p r : of_class c k -> dget p (class_params c) = Some r -> t_kind r = KCp -> dget p (row c k) = Some (cell c k p).
Proof. intros O H K. unfold row. rewrite dget_row, columns_eq with (c := c) by exact O. pose proof (number_in c p r H K) as I. apply smem_In in I. now rewrite I. Qed.
Lemma row_names c k : of_class c k -> map fst (row c k) = numbers c.
Proof. intros O. unfold row. rewrite map_map. cbn. rewrite map_id. now apply columns_eq. Qed.

(** all parameters with an equation and all results are computed; the others are not *)
Lemma written_table c : forallb (fun kr => match t_kind (snd kr) with
   | KCp => implb (has_equation (snd kr) || t_result (snd kr)) (smem (fst kr) (always_written c)) | _ => true end) (class_params c) = true.
Proof. destruct c; reflexivity. Qed.
Lemma written_equation c k p r : dget p (class_params c) = Some r -> t_kind r = KCp -> has_equation r = true \/ t_result r = true -> In p (written c k).
Proof.
  intros H K E. pose proof (written_table c) as T. rewrite forallb_forall in T. specialize (T _ (dget_In _ _ _ H)). cbn [fst snd] in T. rewrite K in T.
  assert (X : (has_equation r || t_result r)%bool = true) by (destruct E as [->| ->]; [reflexivity|apply orb_true_r]). rewrite X in T. cbn in T.
  unfold written. apply in_or_app. left. now apply smem_In.
Qed.
Lemma conditional_table c p g : conditional c = Some (p, g) -> exists r, dget p (class_params c) = Some r /\ t_kind r = KCp /\ has_equation r = false /\ t_result r = false /\ ~ In p (always_written c).
Proof. destruct c; cbn; intros E; try discriminate; injection E as <- <-; eexists; repeat split; cbn; intuition discriminate. Qed.
Lemma arises_conditional c k p r : dget p (class_params c) = Some r -> has_equation r = false -> t_result r = false ->
  arises c k p = match conditional c with Some (q, g) => (String.eqb p q && specified k g)%bool | None => false end.
Proof.
  intros H E T. unfold arises. destruct (String.eqb_spec p "kA") as [->|A].
  { destruct c; try discriminate H; try (injection H as <-; discriminate); cbn; now rewrite ?orb_false_r. }
  destruct (String.eqb_spec p "Q_loss") as [->|B].
  { destruct c; try discriminate H; try (injection H as <-; discriminate); cbn; reflexivity. }
  cbn. destruct c; cbn; try reflexivity; rewrite ?(proj2 (String.eqb_neq _ _) A), ?(proj2 (String.eqb_neq _ _) B); reflexivity.
Qed.
Lemma result_iff c k p r : dget p (class_params c) = Some r -> has_equation r = false -> is_result c k p = (t_result r || arises c k p)%bool.
Proof.
  intros H E. unfold is_result. destruct (t_result r) eqn:T.
  - rewrite H. cbn [orb]. destruct (conditional c) as [[q g]|] eqn:C; [|exact T]. destruct (String.eqb_spec p q) as [->|D]; [|exact T].
    destruct (conditional_table c q g C) as (r' & H' & _ & _ & T' & _). congruence.
  - rewrite (arises_conditional c k p r H E T). rewrite H. cbn [orb]. destruct (conditional c) as [[q g]|]; [|exact T].
    destruct (String.eqb p q); [reflexivity|]. exact T.
Qed.
Lemma written_arises c k p r : dget p (class_params c) = Some r -> has_equation r = false -> t_result r = false -> arises c k p = true -> In p (written c k).
Proof.
  intros H E T A. rewrite (arises_conditional c k p r H E T) in A. unfold written. destruct (conditional c) as [[q g]|]; [|discriminate].
  apply andb_true_iff in A as [A B]. apply String.eqb_eq in A as ->. rewrite B. apply in_or_app. right. now left.
Qed.

Lemma calc_value c v k p : In p (written c k) -> value (calc_parameters c v k) p = option_map (fun _ => v p) (dget p (k_params k)).
Proof. intros I. unfold value, calc_parameters. rewrite write_get. apply smem_In in I. rewrite I. now destruct (dget p (k_params k)). Qed.
Lemma calc_value_other c v k p : ~ In p (written c k) -> value (calc_parameters c v k) p = value k p.
Proof.
  intros I. unfold value, calc_parameters. rewrite write_get. destruct (smem p (written c k)) eqn:S; [apply smem_In in S; contradiction|].
  now destruct (dget p (k_params k)).
Qed.
Lemma solve_value c v k p r : of_class c k -> dget p (class_params c) = Some r -> t_kind r = KCp ->
  value (solve_variables v k) p = if var_flag k p then Some (v p) else value k p.
Proof.
  intros O H K. destruct (class_get _ _ _ _ O H) as (q & Q & (S1 & _)). cbn in S1. rewrite K in S1. unfold value, solve_variables, var_flag. rewrite write_get, Q. cbn. rewrite S1.
  now destruct (q_is_var q).
Qed.
Lemma arises_write c w v k p : arises c (write_values w v k) p = arises c k p.
Proof. unfold arises. now rewrite !write_specified. Qed.
Lemma written_write c w v k : written c (write_values w v k) = written c k.
Proof. unfold written. destruct (conditional c) as [[p g]|]; [|reflexivity]. now rewrite write_specified. Qed.
Lemma cell_spec c k p r : of_class c k -> dget p (class_params c) = Some r -> t_kind r = KCp ->
  cell c k p = if (has_equation r || specified k p || t_result r || arises c k p)%bool then value k p else None.
Proof.
  intros O H K. destruct (class_get _ _ _ _ O H) as (q & Q & (_ & S2 & _)). cbn in S2. unfold cell, value, specified. rewrite Q. cbn [option_map].
  change (match t_func r with Some _ => true | None => false end) with (has_equation r) in S2. rewrite S2.
  destruct (has_equation r) eqn:E; [reflexivity|]. cbn [orb negb andb]. rewrite (result_iff c k p r H E), orb_assoc. now destruct (q_is_set q || t_result r || arises c k p)%bool.
Qed.

Lemma cells : forall parse c evs r, parse "var" = None -> r_end r = Complete ->
  exists s rw, calculate parse c r (lived parse c evs) = Ok s /\ l_row s = Some rw /\ map fst rw = numbers c
  /\ forall p tr, dget p (class_params c) = Some tr -> t_kind tr = KCp ->
     (has_equation tr = true \/ t_result tr = true -> dget p rw = Some (Some (r_calc r p)))
     /\ (forall v, dget p rw = Some (Some v) -> v = r_calc r p
          \/ specified (l_comp s) p = true /\ (if var_flag (l_comp s) p then v = r_sol r p else value (l_comp (lived parse c evs)) p = Some v))
     /\ (dget p rw = Some None <-> has_equation tr = false /\ t_result tr = false /\ specified (l_comp s) p = false /\ arises c (l_comp s) p = false).
Proof.
  intros parse c evs r N E. pose proof (lived_class parse c evs N) as O. destruct (prepare_ok parse c _ N O) as (k & P & Ok' & F & _).
  unfold calculate. rewrite P, E. cbn [rmap]. set (k1 := solve_variables (r_sol r) k). assert (O1 : of_class c k1) by (apply write_class; exact Ok').
  set (k2 := calc_parameters c (r_calc r) k1). assert (O2 : of_class c k2) by (apply write_class; exact O1).
  eexists. exists (row c k2). split; [reflexivity|]. split; [reflexivity|]. split; [now apply row_names|].
  intros p tr H K. cbn [l_comp]. rewrite (row_get c k2 p tr O2 H K). rewrite (cell_spec c k2 p tr O2 H K).
  destruct (class_get _ _ _ _ O1 H) as (q1 & Q1 & _).
  assert (W : In p (written c k1) -> value k2 p = Some (r_calc r p)).
  { intros I. unfold k2. rewrite calc_value by exact I. now rewrite Q1. }
  split; [|split].
  - intros X. rewrite W by (eapply written_equation; eauto). destruct X as [->| ->]; [reflexivity|]. now rewrite orb_true_r.
  - intros v X. destruct (in_dec string_dec p (written c k1)) as [I|I].
    { left. rewrite (W I) in X. destruct (_ || _)%bool; [now injection X as <-|discriminate]. }
    right. assert (A : has_equation tr = false /\ t_result tr = false).
    { split; [destruct (has_equation tr) eqn:Y|destruct (t_result tr) eqn:Y]; try reflexivity; destruct I; eapply written_equation; eauto. }
    destruct A as (A1 & A2). assert (B : arises c k2 p = false).
    { unfold k2. unfold calc_parameters. rewrite arises_write. destruct (arises c k1 p) eqn:Y; [|reflexivity]. destruct I. eapply written_arises; eauto. }
    rewrite A1, A2, B in X. rewrite !orb_false_r in X. cbn [orb] in X. destruct (specified k2 p) eqn:Z; [|discriminate]. split; [reflexivity|].
    assert (V : var_flag k2 p = var_flag k p) by (unfold k2, calc_parameters, k1, solve_variables; now rewrite !write_var). rewrite V.
    unfold k2 in X. rewrite calc_value_other in X by exact I. unfold k1 in X. rewrite (solve_value c (r_sol r) k p tr Ok' H K) in X.
    destruct (var_flag k p) eqn:VF; [now injection X as <-|]. destruct (F p tr H K) as (F1 & _). rewrite F1 in X. now injection X.
  - assert (Y : exists v, value k2 p = Some v). { destruct (class_get _ _ _ _ O2 H) as (q2 & Q2 & _). unfold value. rewrite Q2. cbn. eauto. }
    destruct Y as (v & Y). rewrite Y.
    destruct (has_equation tr), (t_result tr), (specified k2 p), (arises c k2 p); cbn; split; try discriminate; try (intros (? & ? & ? & ?); discriminate); auto.
Qed.

Lemma power_shown : forall parse c evs r, parse "var" = None -> r_end r = Complete -> In c [KCombustionEngine; KFuelCell; KWaterElectrolyzer] ->
  exists s rw v, calculate parse c r (lived parse c evs) = Ok s /\ l_row s = Some rw /\ dget "P" rw = Some (Some v)
  /\ (c <> KCombustionEngine -> if specified (l_comp (lived parse c evs)) "P" && negb (var_flag (l_comp (lived parse c evs)) "P")
      then value (l_comp (lived parse c evs)) "P" = Some v else v = r_sol r "P").
Proof.
  intros parse c evs r N E I. pose proof (lived_class parse c evs N) as O. destruct (prepare_ok parse c _ N O) as (k & P & Ok' & F & G & _). specialize (G I).
  assert (X : exists tr, dget "P" (class_params c) = Some tr /\ t_kind tr = KCp /\ has_equation tr = false).
  { cbn in I. destruct I as [<-|[<-|[<-|[]]]]; eexists; split; (reflexivity || split; reflexivity). }
  destruct X as (tr & H & K & HE). unfold calculate. rewrite P, E. cbn [rmap]. set (k1 := solve_variables (r_sol r) k). assert (O1 : of_class c k1) by (apply write_class; exact Ok').
  set (k2 := calc_parameters c (r_calc r) k1). assert (O2 : of_class c k2) by (apply write_class; exact O1).
  assert (S2 : specified k2 "P" = true) by (unfold k2, calc_parameters, k1, solve_variables; now rewrite !write_specified).
  destruct (class_get _ _ _ _ O2 H) as (q2 & Q2 & _). eexists. exists (row c k2), (q_val q2). split; [reflexivity|]. split; [reflexivity|].
  rewrite (row_get c k2 "P" tr O2 H K), (cell_spec c k2 "P" tr O2 H K), S2, HE. cbn [orb]. unfold value at 1. rewrite Q2. split; [reflexivity|].
  intros NE. assert (V : value k2 "P" = value k1 "P").
  { apply calc_value_other. cbn in I. destruct I as [<-|[<-|[<-|[]]]]; [congruence| |]; unfold written; cbn; intuition discriminate. }
  unfold k1 in V. rewrite (solve_value c (r_sol r) k "P" tr Ok' H K) in V. unfold value at 1 in V. rewrite Q2 in V. cbn [option_map] in V.
  destruct (F "P" tr H K) as (F1 & [(F2 & F3)|(F2 & F3 & F4)]).
  - rewrite <- F2, <- F3, G. cbn [andb]. destruct (var_flag k "P"); cbn [negb]; [congruence|]. rewrite <- F1. congruence.
  - rewrite F2. cbn [andb]. rewrite F4 in V. congruence.
Qed.

Lemma overwritten : forall parse c evs r p tr, parse "var" = None -> r_end r = Complete -> dget p (class_params c) = Some tr -> t_kind tr = KCp ->
  has_equation tr = true \/ t_result tr = true -> fixed (l_comp (lived parse c evs)) p ->
  exists s, calculate parse c r (lived parse c evs) = Ok s /\ fixed (l_comp s) p /\ value (l_comp s) p = Some (r_calc r p).
Proof.
  intros parse c evs r p tr N E H K X [S1 S2]. pose proof (lived_class parse c evs N) as O. destruct (prepare_ok parse c _ N O) as (k & P & Ok' & F & _).
  unfold calculate. rewrite P, E. cbn [rmap]. eexists. split; [reflexivity|]. cbn [l_comp]. destruct (F p tr H K) as (F1 & [(F2 & F3)|(F2 & _)]); [|congruence].
  split.
  - unfold fixed, calc_parameters, solve_variables. rewrite !write_specified, !write_var. now rewrite F2, F3.
  - rewrite calc_value by (eapply written_equation; eauto). assert (O1 : of_class c (solve_variables (r_sol r) k)) by (apply write_class; exact Ok').
    destruct (class_get _ _ _ _ O1 H) as (q & -> & _). reflexivity.
Qed.

Lemma kept_specified : forall parse c evs r p v, parse "var" = None -> number c p -> fixed (l_comp (lived parse c evs)) p -> ~ In p (ignored c) ->
  value (l_comp (lived parse c evs)) p = Some v -> (r_end r = Complete -> r_converged r = true) -> satisfied c (l_comp (lived parse c evs)) r ->
  exists s, calculate parse c r (lived parse c evs) = Ok s /\ fixed (l_comp s) p /\ value (l_comp s) p = Some v
  /\ (r_end r = Complete -> exists rw, l_row s = Some rw /\ dget p rw = Some (Some v)).
Proof.
  intros parse c evs r p v N (tr & H & K) [S1 S2] NI V CO SA. pose proof (lived_class parse c evs N) as O. destruct (prepare_ok parse c _ N O) as (k & P & Ok' & F & _).
  destruct (F p tr H K) as (F1 & [(F2 & F3)|(F2 & _)]); [|congruence].
  assert (V1 : value (solve_variables (r_sol r) k) p = Some v) by (rewrite (solve_value c (r_sol r) k p tr Ok' H K), F3, S2; congruence).
  assert (FX : fixed (solve_variables (r_sol r) k) p) by (unfold fixed, solve_variables; rewrite write_specified, write_var; now rewrite F2, F3).
  unfold calculate. rewrite P. cbn [rmap].
  assert (IC : r_end r <> Complete -> exists s, Ok {| l_comp := solve_variables (r_sol r) k; l_row := l_row (lived parse c evs) |} = Ok s /\ fixed (l_comp s) p /\ value (l_comp s) p = Some v
     /\ (r_end r = Complete -> exists rw, l_row s = Some rw /\ dget p rw = Some (Some v))).
  { intros NC. eexists. split; [reflexivity|]. cbn [l_comp]. split; [exact FX|]. split; [exact V1|]. intros; contradiction. }
  destruct (r_end r) eqn:E; [apply IC; discriminate|apply IC; discriminate|].
  set (k1 := solve_variables (r_sol r) k) in *. assert (O1 : of_class c k1) by (apply write_class; exact Ok').
  set (k2 := calc_parameters c (r_calc r) k1). assert (O2 : of_class c k2) by (apply write_class; exact O1).
  assert (FX2 : fixed k2 p) by (unfold fixed, k2, calc_parameters; rewrite write_specified, write_var; exact FX).
  assert (V2 : value k2 p = Some v).
  { destruct (in_dec string_dec p (written c k1)) as [I|I].
    - unfold k2. rewrite calc_value by exact I. destruct (class_get _ _ _ _ O1 H) as (q & -> & _). cbn. f_equal. apply SA; auto; now split.
    - unfold k2. now rewrite calc_value_other. }
  eexists. split; [reflexivity|]. cbn [l_comp l_row]. split; [exact FX2|]. split; [exact V2|]. intros _. exists (row c k2). split; [reflexivity|].
  rewrite (row_get c k2 p tr O2 H K), (cell_spec c k2 p tr O2 H K). destruct FX2 as [-> _]. rewrite orb_true_r. cbn [orb]. now rewrite V2.
Qed.
Lemma kept_inputs : forall parse c evs r p tr, parse "var" = None -> dget p (class_params c) = Some tr -> t_kind tr = KCp -> has_equation tr = false -> t_result tr = false ->
  ~ In p ["kA"; "Q_loss"; "P"; "Qloss"] -> fixed (l_comp (lived parse c evs)) p ->
  exists s, calculate parse c r (lived parse c evs) = Ok s /\ fixed (l_comp s) p /\ value (l_comp s) p = value (l_comp (lived parse c evs)) p.
Proof.
  intros parse c evs r p tr N H K HE HR NI [S1 S2]. pose proof (lived_class parse c evs N) as O. destruct (prepare_ok parse c _ N O) as (k & P & Ok' & F & _).
  destruct (F p tr H K) as (F1 & [(F2 & F3)|(F2 & _)]); [|congruence].
  assert (V1 : value (solve_variables (r_sol r) k) p = value (l_comp (lived parse c evs)) p) by (rewrite (solve_value c (r_sol r) k p tr Ok' H K), F3, S2; congruence).
  assert (FX : fixed (solve_variables (r_sol r) k) p) by (unfold fixed, solve_variables; rewrite write_specified, write_var; now rewrite F2, F3).
  assert (NW : ~ In p (written c (solve_variables (r_sol r) k))).
  { unfold written. intros I. apply in_app_or in I as [I|I].
    - assert (T : forallb (fun p => match dget p (class_params c) with Some r => (has_equation r || t_result r || smem p ["P"; "Qloss"])%bool | None => false end) (always_written c) = true)
        by (destruct c; reflexivity).
      rewrite forallb_forall in T. specialize (T p I). rewrite H, HE, HR in T. cbn [orb] in T. apply smem_In in T. apply NI. cbn in T |- *. tauto.
    - destruct (conditional c) as [[q g]|] eqn:C; [|destruct I]. destruct (specified _ g); [|destruct I]. destruct I as [<-|[]]. apply NI.
      destruct c; try discriminate C; injection C as <- <-; cbn; auto. }
  unfold calculate. rewrite P. cbn [rmap]. eexists. split; [reflexivity|]. destruct (r_end r); cbn [l_comp]; auto.
  split; [unfold fixed, calc_parameters; rewrite write_specified, write_var; exact FX|]. rewrite calc_value_other by exact NW. exact V1.
Qed.

Lemma stale : forall parse c evs r s, r_end r <> Complete -> calculate parse c r (lived parse c evs) = Ok s -> l_row s = l_row (lived parse c evs).
Proof. intros parse c evs r s NC H. unfold calculate in H. destruct (prepare parse c _) as [k|e]; [|discriminate]. cbn in H. injection H as <-. destruct (r_end r); [reflexivity..|contradiction]. Qed.
Lemma calculate_lived parse c r evs : parse "var" = None -> calculate parse c r (lived parse c evs) = Ok (lived parse c (evs ++ [Run r])).
Proof.
  intros N. unfold lived at 2. rewrite fold_left_app. cbn [fold_left step]. fold (lived parse c evs).
  destruct (calculate_ok parse c r _ N (lived_class parse c evs N)) as (k & s & _ & -> & _). reflexivity.
Qed.
