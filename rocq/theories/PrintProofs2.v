From Coq Require Import QArith Lqa.
From Verif Require Import Base PrintModel PrintSpec PrintProofs.
Open Scope nat_scope.

Lemma conn_section_spec show colored k n s : conn_section show colored k n = Ok (Some s) ->
  exists t rs, dget "Connection"%string (n_results n) = Some t /\ s_title s = "Connection"%string /\
    rmapM (conn_row show colored k n t) (t_rows t) = Ok rs /\ s_rows s = keep rs.
Proof.
  unfold conn_section. intros H. destruct (dget _ _) as [t|]; [|discriminate].
  destruct (negb _); [discriminate|]. destruct (rmapM _ _) as [rs|] eqn:M; [|discriminate]. cbn [rbind] in H.
  destruct (keep rs) eqn:K; [discriminate|]. injection H as <-. exists t, rs. auto.
Qed.

Lemma connection_listed : forall show colored k n l c t vs,
  well_formed n -> print_results show colored k n = Ok l -> In c (n_conns n) ->
  ~ In "Connection"%string (map pc_type (n_comps n)) ->
  dget "Connection"%string (n_results n) = Some t -> NoDup (map fst (t_rows t)) ->
  In (cn_label c, vs) (t_rows t) ->
  (mentions l "Connection" (cn_label c) <-> cn_print c = true) /\
  (forall cells, shows l "Connection" (cn_label c) cells ->
     cells = map (fun p => Text
       (if colored && cn_set c p then (c_set k ++ show (cn_val c p) ++ c_end k)%string
        else show (match col_of t vs p with Some v => v | None => Num None end)))
       ["m"; "p"; "h"; "T"; "x"; "phase"]%string).
Proof.
  intros show colored k n l c t vs W H I NC D U R.
  assert (Uniq : forall vs', In (cn_label c, vs') (t_rows t) -> vs' = vs).
  { intros vs' J. clear -U R J. induction (t_rows t) as [|[a b] r IH]; [destruct R|].
    simpl in U. inversion U as [|x y Na U']; subst.
    destruct R as [E|R], J as [E'|J].
    - congruence.
    - injection E as -> ->. exfalso. apply Na. apply (in_map fst) in J. exact J.
    - injection E' as -> ->. exfalso. apply Na. apply (in_map fst) in R. exact R.
    - auto. }
  pose proof (find_conn_some n c (wf_conns n W) I) as Fc.
  destruct (print_parts _ _ _ _ _ H) as (cs & cc & bs & Hc & Hn & Hb & ->).
  set (cells0 := map _ ["m"; "p"; "h"; "T"; "x"; "phase"]%string).
  assert (Only : forall cells, shows (keep cs ++ keep [cc] ++ keep bs) "Connection" (cn_label c) cells ->
     cn_print c = true /\ cells = cells0).
  { intros cells (s & J & T & X). rewrite !in_app_iff, !keep_in in J. destruct J as [J|[J|J]].
    - apply (rmapM_in _ _ _ Hc) in J. destruct J as (ty & Y & E).
      destruct (comp_section_spec _ _ _ _ _ _ E) as (_ & _ & _ & T' & _). rewrite T in T'. subst ty.
      apply (proj1 (unique_in _ _)) in Y. contradiction.
    - destruct J as [J|[]]. subst cc. destruct (conn_section_spec _ _ _ _ _ Hn) as (t' & rs & D' & _ & M & S).
      assert (t' = t) by congruence. subst t'. rewrite S, keep_in in X.
      apply (rmapM_in _ _ _ M) in X. destruct X as ((a & v) & Z & E). unfold conn_row in E.
      destruct (find_conn n a) as [c'|] eqn:Fa; [|discriminate].
      destruct (negb (cn_print c')) eqn:P; [discriminate|]. injection E as -> E2.
      assert (c' = c) by congruence. subst c'. pose proof (Uniq _ Z). subst v.
      split; [now destruct (cn_print c)|]. rewrite <- E2. reflexivity.
    - apply (rmapM_in _ _ _ Hb) in J. destruct J as (b & _ & E). apply bus_title in E. rewrite T in E. discriminate. }
  split; [|intros cells S; now apply Only in S].
  split; [intros (cells & S); now apply Only in S|]. intros P.
  assert (Row : conn_row show colored k n t (cn_label c, vs) = Ok (Some (cn_label c, cells0))).
  { unfold conn_row. rewrite Fc, P. reflexivity. }
  destruct cc as [s|].
  - destruct (conn_section_spec _ _ _ _ _ Hn) as (t' & rs & D' & T & M & S).
    assert (t' = t) by congruence. subst t'. exists cells0, s.
    split; [rewrite !in_app_iff; right; left; left; reflexivity|]. split; [assumption|].
    rewrite S, keep_in. apply (rmapM_in _ _ _ M). eauto.
  - exfalso. unfold conn_section in Hn. rewrite D in Hn. destruct (negb _); [discriminate|].
    destruct (rmapM (conn_row show colored k n t) (t_rows t)) as [rs|] eqn:M; [|discriminate]. cbn [rbind] in Hn.
    assert (X : In (cn_label c, cells0) (keep rs)) by (rewrite keep_in; apply (rmapM_in _ _ _ M); eauto).
    destruct (keep rs); [destruct X|discriminate].
Qed.

(** Busses. *)
Lemma dset_new {V} (d : dict V) k v : ~ In k (map fst d) -> dset k v d = (d ++ [(k, v)])%list.
Proof.
  induction d as [|[a b] d IH]; intros H; [reflexivity|]. simpl in *.
  destruct (String.eqb k a) eqn:E; [apply String.eqb_eq in E; subst; tauto|].
  rewrite IH by tauto. reflexivity.
Qed.

Lemma col_sum_spec t c : (col_sum t c
  == fold_right (fun r s => match col_of t (snd r) c with Some v => num v | None => 0 end + s) 0 (t_rows t))%Q.
Proof.
  unfold col_sum. generalize (t_rows t). intros l.
  assert (A : forall s, (fold_left (fun s r => s + match col_of t (snd r) c with Some v => num v | None => 0 end) l s
    == s + fold_right (fun r s => match col_of t (snd r) c with Some v => num v | None => 0 end + s) 0 l)%Q).
  { induction l as [|r l IH]; intros s; simpl; [ring|]. rewrite IH. ring. }
  rewrite A. ring.
Qed.

Lemma bus_listed : forall show k n l b t,
  print_results show false k n = Ok l -> In b (n_busses n) ->
  dget (b_label b) (n_results n) = Some t -> b_print b = true -> ~ In "total"%string (map fst (t_rows t)) ->
  exists s q1 q2, In s l /\ s_title s = ("Bus: " ++ b_label b)%string /\
    s_rows s = (map (fun r => (fst r, map (fun c => Value (match col_of t (snd r) c with Some v => v | None => Num None end))
                                 ["component value"; "bus value"; "efficiency"]%string)) (t_rows t)
               ++ [("total"%string, [Value (Num (Some q1)); Value (Num (Some q2)); Value (Num None)])])%list /\
    (q1 == fold_right (fun r s => match col_of t (snd r) "component value" with Some v => num v | None => 0 end + s) 0 (t_rows t))%Q /\
    (q2 == fold_right (fun r s => match col_of t (snd r) "bus value" with Some v => num v | None => 0 end + s) 0 (t_rows t))%Q.
Proof.
  intros show k n l b t H I D P N.
  destruct (print_parts _ _ _ _ _ H) as (cs & cc & bs & Hc & Hn & Hb & ->).
  destruct (rmapM_each _ _ _ _ Hb I) as (o & E & J).
  unfold bus_section in E. rewrite P, D in E. cbn [negb] in E. destruct (negb _); [discriminate|].
  injection E as <-.
  eexists; exists (col_sum t "component value"), (col_sum t "bus value"). split; [rewrite !in_app_iff, !keep_in; right; right; exact J|].
  split; [reflexivity|]. split; [|split; apply col_sum_spec].
  cbn [s_rows]. rewrite dset_new.
  - rewrite map_app, map_map. f_equal. apply map_ext. intros [a vs]. reflexivity.
  - rewrite map_map. intros X. apply N. erewrite map_ext; [exact X|]. intros [a vs]. reflexivity.
Qed.

Lemma bus_hidden : forall show colored k n l b,
  print_results show colored k n = Ok l ->
  (forall b', In b' (n_busses n) -> b_label b' = b_label b -> b_print b' = false) ->
  (forall c, In c (n_comps n) -> pc_type c <> ("Bus: " ++ b_label b)%string) ->
  forall a, ~ mentions l ("Bus: " ++ b_label b) a.
Proof.
  intros show colored k n l b H B NC a (cells & s & J & T & X).
  destruct (print_parts _ _ _ _ _ H) as (cs & cc & bs & Hc & Hn & Hb & ->).
  rewrite !in_app_iff, !keep_in in J. destruct J as [J|[J|J]].
  - apply (rmapM_in _ _ _ Hc) in J. destruct J as (ty & Y & E).
    destruct (comp_section_spec _ _ _ _ _ _ E) as (_ & _ & _ & T' & _). rewrite T in T'. subst ty.
    apply (proj1 (unique_in _ _)) in Y. apply in_map_iff in Y. destruct Y as (c & E1 & E2). now apply (NC c).
  - destruct J as [J|[]]. subst cc. apply conn_title in Hn. rewrite T in Hn. discriminate.
  - apply (rmapM_in _ _ _ Hb) in J. destruct J as (b' & Y & E). pose proof (bus_title _ _ _ _ _ _ E) as T'.
    rewrite T in T'. cbn in T'. injection T' as T'.
    unfold bus_section in E. rewrite (B b' Y (eq_sym T')) in E. discriminate.
Qed.

(** Networks without results. *)
Lemma rmapM_err {A B} (f : A -> res B) : forall l e, rmapM f l = Err e -> exists a, In a l /\ f a = Err e.
Proof.
  induction l as [|a l IH]; intros e H; [discriminate|]. simpl in H.
  destruct (f a) as [x|x] eqn:E; cbn in H; [|injection H as <-; exists a; simpl; auto].
  destruct (rmapM f l) as [r|x']; cbn in H; [discriminate|]. destruct (IH e) as (a' & I & F); [congruence|].
  exists a'. simpl. auto.
Qed.
Lemma comp_section_err show colored k n ty e : comp_section show colored k n ty = Err e ->
  e = KeyError \/ e = AttributeError.
Proof.
  unfold comp_section. intros H. destruct (dget _ _) as [t|]; [|left; congruence].
  destruct (t_cols t) as [|c0 cols] eqn:C; [discriminate|]. destruct (t_rows t) as [|r0 rs] eqn:R; [discriminate|].
  rewrite <- R in H. destruct (rmapM _ (t_rows t)) as [rows|x] eqn:M; cbn in H; [destruct (drop_nan rows); discriminate|].
  injection H as ->. apply rmapM_err in M. destruct M as ((a & vs) & _ & F).
  destruct (find_comp n a); [discriminate|right; congruence].
Qed.
Lemma conn_section_err show colored k n e : conn_section show colored k n = Err e ->
  e = KeyError \/ e = AttributeError.
Proof.
  unfold conn_section. intros H. destruct (dget _ _) as [t|]; [|left; congruence].
  destruct (negb _); [left; congruence|].
  destruct (rmapM _ (t_rows t)) as [rows|x] eqn:M; cbn in H; [destruct (keep rows); discriminate|].
  injection H as ->. apply rmapM_err in M. destruct M as ((a & vs) & _ & F). unfold conn_row in F.
  destruct (find_conn n a) as [c|]; [destruct (negb _); discriminate|right; congruence].
Qed.
Lemma bus_section_err show colored k n b e : bus_section show colored k n b = Err e -> e = KeyError.
Proof.
  unfold bus_section. intros H. destruct (negb _); [discriminate|]. destruct (dget _ _) as [t|]; [|congruence].
  destruct (negb _); [congruence|discriminate].
Qed.

Lemma errors : forall show colored k n e, print_results show colored k n = Err e ->
  e = KeyError \/ e = AttributeError.
Proof.
  unfold print_results. intros show colored k n e H.
  destruct (rmapM _ (unique _)) as [cs|x] eqn:M; cbn in H.
  - destruct (conn_section _ _ _ _) as [c|x] eqn:C; cbn in H.
    + destruct (rmapM _ (n_busses n)) as [bs|x] eqn:B; cbn in H; [discriminate|].
      injection H as <-. apply rmapM_err in B. destruct B as (b & _ & E). left. eapply bus_section_err; eauto.
    + injection H as <-. eapply conn_section_err; eauto.
  - injection H as <-. apply rmapM_err in M. destruct M as (ty & _ & E). eapply comp_section_err; eauto.
Qed.

Lemma unsolved : forall show colored k n,
  dget "Connection"%string (n_results n) = None ->
  exists e, print_results show colored k n = Err e /\ (e = KeyError \/ e = AttributeError).
Proof.
  intros show colored k n D. destruct (print_results show colored k n) as [l|e] eqn:H.
  - destruct (print_parts _ _ _ _ _ H) as (cs & cc & bs & _ & Hn & _ & _).
    unfold conn_section in Hn. rewrite D in Hn. discriminate.
  - exists e. split; [reflexivity|]. eapply errors; eauto.
Qed.

(** When printing succeeds. *)
Lemma prints : forall show colored k n,
  (forall c, In c (n_comps n) -> exists t, dget (pc_type c) (n_results n) = Some t /\
     forall a vs, In (a, vs) (t_rows t) -> find_comp n a <> None) ->
  (exists t, dget "Connection"%string (n_results n) = Some t /\
     (forall c, In c ["m"; "p"; "h"; "T"; "x"; "phase"]%string -> In c (t_cols t)) /\
     forall a vs, In (a, vs) (t_rows t) -> find_conn n a <> None) ->
  (forall b, In b (n_busses n) -> exists t, dget (b_label b) (n_results n) = Some t /\
     (forall c, In c ["component value"; "bus value"; "efficiency"]%string -> In c (t_cols t))) ->
  exists l, print_results show colored k n = Ok l.
Proof.
  intros show colored k n Hc (t & Dt & Ct & Rt) Hb.
  assert (Cols : forall cols l, (forall c, In c l -> In c cols) ->
     negb (forallb (fun c => existsb (String.eqb c) cols) l) = false).
  { intros cols l X. apply negb_false_iff. apply forallb_forall. intros c I. apply existsb_exists.
    exists c. split; [now apply X|apply String.eqb_refl]. }
  unfold print_results.
  destruct (rmapM_ok (comp_section show colored k n) (unique (map pc_type (n_comps n)))) as (cs & ->).
  { intros ty I. apply (proj1 (unique_in _ _)) in I. apply in_map_iff in I. destruct I as (c & <- & I).
    destruct (Hc c I) as (t' & D & F). unfold comp_section. rewrite D.
    destruct (t_cols t') eqn:C; [eauto|]. destruct (t_rows t') eqn:R; [eauto|]. rewrite <- R in *.
    match goal with |- context [rmapM ?f (t_rows t')] => destruct (rmapM_ok f (t_rows t')) as (rows & ->) end.
    { intros (a & vs) J. specialize (F a vs J). destruct (find_comp n a); [eauto|congruence]. }
    cbn [rbind]. destruct (drop_nan rows); eauto. }
  cbn [rbind]. unfold conn_section. rewrite Dt, (Cols _ conn_cols Ct).
  destruct (rmapM_ok (conn_row show colored k n t) (t_rows t)) as (rs & ->).
  { intros (a & vs) J. specialize (Rt a vs J). unfold conn_row. destruct (find_conn n a); [|congruence].
    destruct (negb _); eauto. }
  cbn [rbind].
  destruct (rmapM_ok (bus_section show colored k n) (n_busses n)) as (bs & E).
  { intros b I. unfold bus_section. destruct (negb (b_print b)); [eauto|].
    destruct (Hb b I) as (t' & -> & C'). rewrite (Cols _ bus_cols C'). eauto. }
  rewrite E. destruct (keep rs); cbn [rbind]; eauto.
Qed.
