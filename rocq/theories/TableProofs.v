From Coq Require Import Lia Lqa.
From Verif Require Import TableModel TableSpec CompSpecSpec CompSpecProofs.
Open Scope nat_scope.
Open Scope string_scope.
Open Scope list_scope.

(* ---------------------------------------------------------------- tables *)
Definition is_group (k : pkind) : bool := match k with KGcp _ => true | _ => false end.
Definition row_ok (t : dict prow) (r : prow) : bool :=
  (match t_func r, t_deriv r with Some _, Some _ => Nat.eqb (t_num_eq r) 1 | None, None => Nat.eqb (t_num_eq r) 0 | _, _ => false end
   && Qle_bool (t_min r) (t_max r)
   && match t_kind r with
      | KGcp es => forallb (fun e => match dget e t with Some r' => negb (is_group (t_kind r')) | None => false end) es
      | KGcc es => forallb (fun e => dmem e t) es
      | _ => true end)%bool.
Fixpoint nodupb (l : list string) : bool := match l with [] => true | x :: l => negb (smem x l) && nodupb l end.
Lemma nodupb_ok l : nodupb l = true -> NoDup l.
Proof.
  induction l as [|x l IH]; cbn; [constructor|]. rewrite andb_true_iff, negb_true_iff. intros [A B]. constructor; [|auto].
  rewrite <- smem_In, A. discriminate.
Qed.
Lemma tables_ok c : (nodupb (keys (class_params c)) && forallb (fun kr => row_ok (class_params c) (snd kr)) (class_params c))%bool = true.
Proof. destruct c; reflexivity. Qed.
Lemma table_nodup c : NoDup (keys (class_params c)).
Proof. pose proof (tables_ok c) as H. apply andb_true_iff in H as [H _]. now apply nodupb_ok. Qed.
Lemma table_row c p r : dget p (class_params c) = Some r -> row_ok (class_params c) r = true.
Proof.
  intros H. pose proof (tables_ok c) as T. apply andb_true_iff in T as [_ T]. rewrite forallb_forall in T.
  apply dget_In in H. exact (T _ H).
Qed.

(* ----------------------------------------------------- parameters of a component *)
Lemma dget_map {V W} (f : V -> W) (d : dict V) p : dget p (map (fun kr => (fst kr, f (snd kr))) d) = option_map f (dget p d).
Proof. induction d as [|[k v] d IH]; cbn; [reflexivity|]. destruct (String.eqb p k); [reflexivity|exact IH]. Qed.
Lemma new_get c p : dget p (k_params (new_component c)) = option_map new_param (dget p (class_params c)).
Proof. apply (dget_map new_param). Qed.
Lemma new_keys c : keys (k_params (new_component c)) = keys (class_params c).
Proof. unfold new_component, keys; cbn. rewrite map_map. reflexivity. Qed.

(** what never changes *)
Definition static (q q' : param) : Prop := q_kind q' = q_kind q /\ q_func q' = q_func q /\ q_num_eq q' = q_num_eq q.
Lemma static_refl q : static q q. Proof. now repeat split. Qed.
Lemma static_trans a b c : static a b -> static b c -> static a c.
Proof. intros (A & B & C) (D & E & F). repeat split; congruence. Qed.
Lemma put_static f q : static q (put_field f q).
Proof. destruct f; repeat split. Qed.
Lemma dc_static fs : forall q, static q (fst (dc_set_attr fs q)).
Proof.
  induction fs as [|f fs IH]; intros q; cbn [dc_set_attr]; [apply static_refl|]. destruct (field_allowed (q_kind q) f); [|apply static_refl].
  eapply static_trans; [apply put_static|apply IH].
Qed.
Lemma set_param_static parse v q : static q (fst (set_param parse v q)).
Proof.
  unfold set_param.
  assert (N : static q (fst (let '(q1, e1) := dc_set_attr [FIsSet false] q in match e1 with Some _ => (q1, e1) | None => (fst (dc_set_attr [FIsVar false] q1), None) end))).
  { pose proof (dc_static [FIsSet false] q) as X. destruct (dc_set_attr [FIsSet false] q) as [q1 [e|]]; cbn [fst] in *; [exact X|].
    eapply static_trans; [exact X|]. apply dc_static. }
  destruct v as [[| | | | | | |]|d|i]; try exact N; destruct (q_kind q);
    repeat match goal with
    | |- context [if ?b then _ else _] => destruct b
    | |- context [match ?s with String _ _ => _ | _ => _ end] => destruct s
    | |- context [match ?s with Ascii.Ascii _ _ _ _ _ _ _ _ => _ end] => destruct s
    end; try apply dc_static; try apply static_refl; try apply (put_static (FChar i)).
Qed.
Lemma cset_one_static parse key v k p q' : dget p (k_params (fst (cset_one parse key v k))) = Some q' ->
  exists q, dget p (k_params k) = Some q /\ static q q'.
Proof.
  unfold cset_one. destruct (dget key (k_params k)) as [q|] eqn:E.
  - pose proof (set_param_static parse v q) as X. destruct (set_param parse v q) as [q1 e]. cbn [fst snd k_params k_with_params] in *.
    destruct (string_dec p key) as [->|N].
    + rewrite dget_dset_eq. intros [= <-]. eauto.
    + rewrite dget_dset_neq by auto. intros H. exists q'. split; [exact H|apply static_refl].
  - intros H. exists q'. split; [|apply static_refl]. revert H.
    repeat match goal with |- context [if ?b then _ else _] => destruct b | |- context [match ?b with _ => _ end] => destruct b end; auto.
Qed.
Lemma cset_attr_static parse kw : forall k p q', dget p (k_params (fst (cset_attr parse kw k))) = Some q' ->
  exists q, dget p (k_params k) = Some q /\ static q q'.
Proof.
  induction kw as [|[key v] kw IH]; intros k p q' H; cbn [cset_attr] in H; [exists q'; split; [exact H|apply static_refl]|].
  pose proof (cset_one_static parse key v k p) as X. destruct (cset_one parse key v k) as [k1 [e|]]; cbn [fst] in *; [auto|].
  destruct (IH _ _ _ H) as (q1 & H1 & S1). destruct (X _ H1) as (q & H2 & S2). exists q. split; [exact H2|]. eapply static_trans; eauto.
Qed.
Lemma history_static parse calls : forall k p q', dget p (k_params (cset_attr_history parse calls k)) = Some q' ->
  exists q, dget p (k_params k) = Some q /\ static q q'.
Proof.
  unfold cset_attr_history. induction calls as [|kw calls IH]; intros k p q' H; cbn in H; [exists q'; split; [exact H|apply static_refl]|].
  destruct (IH _ _ _ H) as (q1 & H1 & S1). destruct (cset_attr_static _ _ _ _ _ H1) as (q & H2 & S2). exists q. split; [exact H2|]. eapply static_trans; eauto.
Qed.
Lemma history_keys parse calls : forall k, keys (k_params (cset_attr_history parse calls k)) = keys (k_params k).
Proof.
  unfold cset_attr_history. induction calls as [|kw calls IH]; intros k; cbn; [reflexivity|]. rewrite IH. apply cset_attr_keys.
Qed.

(** A component of the class in any reachable state *)
Definition of_class (c : cls) (k : comp) : Prop :=
  keys (k_params k) = keys (class_params c) /\
  forall p q, dget p (k_params k) = Some q -> exists r, dget p (class_params c) = Some r /\ static (new_param r) q.
Lemma history_class parse c calls : of_class c (cset_attr_history parse calls (new_component c)).
Proof.
  split; [rewrite history_keys; apply new_keys|]. intros p q H. destruct (history_static _ _ _ _ _ H) as (q0 & H0 & S).
  rewrite new_get in H0. destruct (dget p (class_params c)) as [r|]; [|discriminate]. injection H0 as <-. eauto.
Qed.
Lemma in_keys_dget {V} (d : dict V) p : In p (keys d) -> exists v, dget p d = Some v.
Proof. intros H. destruct (dget p d) eqn:E; [eauto|]. apply dget_None_notin in E. contradiction. Qed.
Lemma dget_keys {V} (d : dict V) p v : dget p d = Some v -> In p (keys d).
Proof. intros H. apply dget_In in H. apply (in_map fst) in H. exact H. Qed.
Lemma class_get c k p r : of_class c k -> dget p (class_params c) = Some r -> exists q, dget p (k_params k) = Some q /\ static (new_param r) q.
Proof.
  intros [K S] H. destruct (in_keys_dget (k_params k) p) as (q & Q). { rewrite K. eapply dget_keys; eauto. }
  exists q. split; [exact Q|]. destruct (S _ _ Q) as (r' & H' & X). congruence.
Qed.
Lemma class_groups c k : of_class c k -> groups_ok k.
Proof.
  intros O p es e (q & Hq & Kq) I. destruct O as [K S]. destruct (S _ _ Hq) as (r & Hr & X & _ & _). pose proof (table_row _ _ _ Hr) as T.
  unfold row_ok in T. rewrite !andb_true_iff in T. destruct T as [_ T]. cbn in X. rewrite Kq in X. rewrite <- X in T. rewrite forallb_forall in T. specialize (T e I).
  destruct (dget e (class_params c)) as [r'|] eqn:E; [|discriminate]. destruct (class_get c k e r' (conj K S) E) as (q' & Hq' & Y & _ & _).
  exists q'. split; [exact Hq'|]. intros es' Z. cbn in Y. rewrite Z in Y. rewrite <- Y in T. discriminate.
Qed.
Lemma class_nodup c k : of_class c k -> NoDup (keys (k_params k)).
Proof. intros [K _]. rewrite K. apply table_nodup. Qed.

Lemma specified_iff k p : specified k p = true <-> is_specified k p.
Proof.
  unfold specified, is_specified. split.
  - destruct (dget p (k_params k)) as [q|]; [|discriminate]. eauto.
  - intros (q & -> & H). exact H.
Qed.
Lemma preprocess_class c k mandatory k' n : of_class c k -> preprocess mandatory k = Ok (k', n) -> of_class c k'.
Proof.
  intros O P. destruct (preprocess_spec mandatory k (class_groups c k O) (class_nodup c k O)) as (ps & P1 & KK & F).
  rewrite P in P1. injection P1 as -> _. destruct O as [K S]. unfold of_class. cbn [k_params k_with_params]. split; [congruence|].
  intros p q' H. destruct (in_keys_dget (k_params k) p) as (q & Hq). { rewrite <- KK. eapply dget_keys; eauto. }
  specialize (F p q Hq). rewrite H in F. injection F as ->. destruct (S _ _ Hq) as (r & Hr & X). exists r. split; [exact Hr|].
  eapply static_trans; [exact X|]. unfold final. destruct (q_kind q); try apply static_refl. apply (put_static (FIsSet _)).
Qed.

(* ------------------------------------------------------------------ statements *)
Lemma row_facts : forall c p r, dget p (class_params c) = Some r ->
  (has_equation r = true <-> t_num_eq r = 1) /\ (has_equation r = false <-> t_num_eq r = 0) /\ (has_equation r = true <-> t_deriv r <> None).
Proof.
  intros c p r H. pose proof (table_row _ _ _ H) as T. unfold row_ok in T. rewrite !andb_true_iff in T. destruct T as ((T & _) & _).
  unfold has_equation. destruct (t_func r), (t_deriv r); try discriminate; apply Nat.eqb_eq in T; rewrite T; repeat split; try discriminate; congruence.
Qed.
Lemma keys_sum {V} (d : dict V) (f : string -> nat) : list_sum (map f (keys d)) = list_sum (map (fun kv => f (fst kv)) d).
Proof. unfold keys. now rewrite map_map. Qed.
Lemma filter_length_sum {V} (f : V -> bool) l : length (filter f l) = list_sum (map (fun x => if f x then 1 else 0) l).
Proof. induction l as [|x l IH]; cbn; [reflexivity|]. destruct (f x); cbn; rewrite IH; reflexivity. Qed.
Lemma count_class c k : of_class c k -> list_sum (map (fun kq => contribution (snd kq)) (k_params k)) = equations c k.
Proof.
  intros O. unfold equations. rewrite filter_length_sum.
  pose proof (map_dget_keys (fun o => match o with Some q => contribution q | None => 0 end) (k_params k) (class_nodup c k O)) as A. cbn beta iota in A. rewrite <- A.
  destruct O as [K S]. rewrite K. rewrite keys_sum. f_equal. apply map_ext_in. intros [p r] I. cbn [fst snd].
  assert (G : dget p (class_params c) = Some r) by (apply In_dget; [apply table_nodup|exact I]).
  destruct (class_get c k p r (conj K S) G) as (q & Q & _ & F & N). unfold specified. rewrite Q. unfold contribution.
  rewrite F, N. cbn [new_param q_func q_num_eq]. destruct (row_facts c p r G) as (X & _ & _). unfold has_equation in *.
  destruct (t_func r); [|now rewrite andb_false_r]. rewrite andb_true_r. cbn [andb]. destruct (q_is_set q); [apply X; reflexivity|reflexivity].
Qed.
Lemma prepares_class c k mandatory : of_class c k -> exists k' n, preprocess mandatory k = Ok (k', n) /\ of_class c k'
  /\ n = mandatory + equations c k'
  /\ (forall p r es, dget p (class_params c) = Some r -> t_kind r = KGcp es -> (specified k' p = true <-> forall e, In e es -> specified k' e = true))
  /\ (forall p, (forall r es, dget p (class_params c) = Some r -> t_kind r <> KGcp es) -> dget p (k_params k') = dget p (k_params k)).
Proof.
  intros O. pose proof (class_groups c k O) as G. pose proof (class_nodup c k O) as D.
  destruct (preprocess_spec mandatory k G D) as (ps & P & _). eexists _, _. split; [exact P|].
  pose proof (preprocess_class _ _ _ _ _ O P) as O'. split; [exact O'|]. split; [|split].
  - rewrite <- (count_class _ _ O'). reflexivity.
  - intros p r es H T. rewrite specified_iff. destruct (class_get _ _ _ _ O H) as (q & Q & X & _ & _).
    rewrite (preprocess_group _ _ _ _ p es G D P). 2: { exists q. split; [exact Q|]. now rewrite X. }
    split; intros A e I; apply specified_iff; apply A; exact I.
  - intros p N. apply (preprocess_other _ _ _ _ p G D P). intros es (q & Q & X). destruct O as [_ S]. destruct (S _ _ Q) as (r & H & Y & _ & _).
    apply (N r es H). cbn in Y. congruence.
Qed.
Lemma prepares : forall parse c calls mandatory, let h := cset_attr_history parse calls (new_component c) in
  exists k n, preprocess mandatory h = Ok (k, n)
  /\ n = mandatory + equations c k
  /\ (forall p r es, dget p (class_params c) = Some r -> t_kind r = KGcp es -> (specified k p = true <-> forall e, In e es -> specified k e = true))
  /\ (forall p, (forall r es, dget p (class_params c) = Some r -> t_kind r <> KGcp es) -> dget p (k_params k) = dget p (k_params h)).
Proof.
  intros parse c calls mandatory h. destruct (prepares_class c h mandatory (history_class parse c calls)) as (k & n & A & _ & B & C & D).
  exists k, n. auto.
Qed.

(* numbers *)
Lemma numeric_accepted parse v q : q_kind q = KCp -> is_numeric parse v = true ->
  exists q', set_param parse (CV v) q = (q', None) /\ q_is_set q' = true /\ q_is_var q' = false /\ static q q'.
Proof.
  intros K N. pose proof (set_param_static parse (CV v) q) as S. unfold set_param in *. rewrite K in *.
  destruct v; try discriminate N; rewrite N in *; unfold dc_set_attr, field_allowed in *; cbn in *; rewrite ?K in *; cbn in *; rewrite ?K in *; cbn in *; eexists; (split; [reflexivity|]); (split; [reflexivity|]); (split; [reflexivity|]); exact S.
Qed.
Definition element_free (c : cls) (p : string) : Prop := forall g r es, dget g (class_params c) = Some r -> t_kind r = KGcp es -> ~ In p es.
Lemma specified_dget k k' p : dget p (k_params k) = dget p (k_params k') -> specified k p = specified k' p.
Proof. unfold specified. now intros ->. Qed.
Lemma after_number parse c p r v h : of_class c h -> dget p (class_params c) = Some r -> t_kind r = KCp -> is_numeric parse v = true ->
  exists h', cset_attr parse [(p, CV v)] h = (h', None) /\ of_class c h' /\ specified h' p = true /\ var_flag h' p = false
    /\ forall x, x <> p -> dget x (k_params h') = dget x (k_params h).
Proof.
  intros O H K N. destruct (class_get _ _ _ _ O H) as (q & Q & S). pose proof S as (S1 & _ & _). cbn in S1. rewrite K in S1.
  destruct (numeric_accepted parse v q S1 N) as (q' & E & A & B & C).
  exists (k_with_params h (dset p q' (k_params h))). unfold cset_attr, cset_one. rewrite Q, E. split; [reflexivity|].
  assert (OO : forall x, x <> p -> dget x (k_params (k_with_params h (dset p q' (k_params h)))) = dget x (k_params h)).
  { intros x X. cbn. now rewrite dget_dset_neq. }
  split; [|split; [|split; [|exact OO]]].
  - pose proof (cset_attr_keys parse [(p, CV v)] h) as KK. unfold cset_attr, cset_one in KK. rewrite Q, E in KK. cbn [fst] in KK.
    destruct O as [K0 S0]. split; [congruence|]. intros x qx X. destruct (string_dec x p) as [->|Nx].
    + cbn in X. rewrite dget_dset_eq in X. injection X as <-. exists r. split; [exact H|]. eapply static_trans; [exact S|exact C].
    + rewrite OO in X by exact Nx. eauto.
  - unfold specified. cbn. now rewrite dget_dset_eq.
  - unfold var_flag. cbn. now rewrite dget_dset_eq.
Qed.
Lemma kcp_not_group c p r : dget p (class_params c) = Some r -> is_group (t_kind r) = false -> forall r' es, dget p (class_params c) = Some r' -> t_kind r' <> KGcp es.
Proof. intros H K r' es H' E. rewrite H in H'. injection H' as <-. rewrite E in K. discriminate. Qed.
Lemma group_elements c g r es e : dget g (class_params c) = Some r -> t_kind r = KGcp es -> In e es ->
  exists re, dget e (class_params c) = Some re /\ is_group (t_kind re) = false.
Proof.
  intros H K I. pose proof (table_row _ _ _ H) as T. unfold row_ok in T. rewrite K in T. rewrite !andb_true_iff in T. destruct T as (_ & T).
  rewrite forallb_forall in T. specialize (T e I). destruct (dget e (class_params c)) as [re|]; [|discriminate]. exists re. split; [reflexivity|]. now apply negb_true_iff.
Qed.
Lemma number_effect parse c p r v h mandatory k n : of_class c h -> dget p (class_params c) = Some r -> t_kind r = KCp -> is_numeric parse v = true ->
  preprocess mandatory h = Ok (k, n) ->
  exists h' k' n', cset_attr parse [(p, CV v)] h = (h', None) /\ preprocess mandatory h' = Ok (k', n') /\ of_class c k /\ of_class c k'
  /\ n = mandatory + equations c k /\ n' = mandatory + equations c k'
  /\ specified k' p = true /\ var_flag k' p = false /\ specified k p = specified h p /\ var_flag k p = var_flag h p
  /\ (forall x rx, x <> p -> dget x (class_params c) = Some rx -> is_group (t_kind rx) = false -> dget x (k_params k') = dget x (k_params k))
  /\ (forall x rx es, dget x (class_params c) = Some rx -> t_kind rx = KGcp es ->
       (~ In p es -> specified k' x = specified k x) /\ (specified k x = true -> specified k' x = true)).
Proof.
  intros O H K N P. destruct (after_number parse c p r v h O H K N) as (h' & A & O' & B & C & D).
  destruct (prepares_class c h mandatory O) as (k1 & n1 & P1 & OK & E1 & G1 & F1). rewrite P in P1. injection P1 as <- <-.
  destruct (prepares_class c h' mandatory O') as (k' & n' & P' & OK' & E' & G' & F').
  exists h', k', n'.
  assert (Kp : is_group (t_kind r) = false) by now rewrite K.
  assert (Dp : dget p (k_params k') = dget p (k_params h')) by (apply F'; eapply kcp_not_group; eauto).
  assert (Dk : dget p (k_params k) = dget p (k_params h)) by (apply F1; eapply kcp_not_group; eauto).
  assert (X : forall x rx, x <> p -> dget x (class_params c) = Some rx -> is_group (t_kind rx) = false -> dget x (k_params k') = dget x (k_params k)).
  { intros x rx Nx Hx Kx. rewrite F', F1, D by (try exact Nx; eapply kcp_not_group; eauto). reflexivity. }
  repeat (split; [assumption|]).
  split; [rewrite (specified_dget k' h' p Dp); exact B|]. split; [unfold var_flag in *; rewrite Dp; exact C|].
  split; [now apply specified_dget|]. split; [unfold var_flag; now rewrite Dk|]. split; [exact X|].
  intros x rx es Hx Kx. split.
  - intros Np. destruct (specified k' x) eqn:Sx; destruct (specified k x) eqn:Sy; try reflexivity.
    + rewrite <- Sy. symmetry. apply (G1 x rx es Hx Kx). intros e I. apply (proj1 (G' x rx es Hx Kx)) with (e := e) in Sx; [|exact I].
      destruct (group_elements _ _ _ _ _ Hx Kx I) as (re & Re & Ge). rewrite <- Sx. apply specified_dget. symmetry. eapply X; eauto. intros ->; contradiction.
    + rewrite <- Sx. apply (G' x rx es Hx Kx). intros e I. apply (proj1 (G1 x rx es Hx Kx)) with (e := e) in Sy; [|exact I].
      destruct (group_elements _ _ _ _ _ Hx Kx I) as (re & Re & Ge). rewrite <- Sy. apply specified_dget. eapply X; eauto. intros ->; contradiction.
  - intros Sy. apply (G' x rx es Hx Kx). intros e I. destruct (string_dec e p) as [->|Ne]; [rewrite (specified_dget k' h' p Dp); exact B|].
    apply (proj1 (G1 x rx es Hx Kx)) with (e := e) in Sy; [|exact I].
    destruct (group_elements _ _ _ _ _ Hx Kx I) as (re & Re & Ge). rewrite <- Sy. apply specified_dget. eapply X; eauto.
Qed.

(* columns *)
Definition is_number (c : cls) (p : string) : bool := match dget p (class_params c) with Some r => match t_kind r with KCp => true | _ => false end | None => false end.
Lemma filter_map_fst {V} (f : string -> bool) (g : string * V -> bool) (d : dict V) : (forall kv, In kv d -> f (fst kv) = g kv) -> map fst (filter g d) = filter f (map fst d).
Proof.
  induction d as [|kv d IH]; intros H; cbn; [reflexivity|]. rewrite (H kv) by now left. destruct (g kv); cbn; rewrite IH by (intros; apply H; now right); reflexivity.
Qed.
Lemma columns_class c k first : of_class c k ->
  component_columns first k = (let l := filter (fun p => is_number c p && var_flag k p)%bool (keys (class_params c)) in combine l (seq first (length l))).
Proof.
  intros O. unfold component_columns. pose proof (class_nodup c k O) as D. destruct O as [K S].
  match goal with |- context [filter ?g (k_params k)] => pose proof (filter_map_fst (fun p => is_number c p && var_flag k p)%bool g (k_params k)) as F end.
  cbn zeta. rewrite <- K. unfold keys. rewrite <- F.
  - now rewrite map_length.
  - intros [p q] I. cbn [fst snd]. assert (Q : dget p (k_params k) = Some q) by (apply In_dget; auto).
    destruct (S _ _ Q) as (r & R & X & _ & _). unfold is_number, var_flag. rewrite R, Q. cbn in X. rewrite X. destruct (t_kind r); reflexivity.
Qed.
Lemma ignored_facts c : forallb (fun p => match dget p (class_params c) with
  | Some r => (match t_kind r with KCp => true | _ => false end && negb (has_equation r))%bool | None => false end
  && forallb (fun gr => match t_kind (snd gr) with KGcp es => negb (smem p es) | _ => true end) (class_params c))%bool (ignored c) = true.
Proof. destruct c; reflexivity. Qed.
Lemma ignored_fact c p : In p (ignored c) -> exists r, dget p (class_params c) = Some r /\ t_kind r = KCp /\ has_equation r = false /\ element_free c p.
Proof.
  intros I. pose proof (ignored_facts c) as F. rewrite forallb_forall in F. specialize (F p I). apply andb_true_iff in F as [F G].
  destruct (dget p (class_params c)) as [r|]; [|discriminate]. exists r. apply andb_true_iff in F as [F1 F2]. split; [reflexivity|].
  split; [destruct (t_kind r); try discriminate; reflexivity|]. split; [now apply negb_true_iff|].
  intros g rg es Hg Kg X. rewrite forallb_forall in G. apply dget_In in Hg. specialize (G _ Hg). cbn in G. rewrite Kg in G.
  apply negb_true_iff in G. rewrite <- smem_In in X. congruence.
Qed.
Lemma flag_class c k p : of_class c k -> var_flag k p = true -> exists r, dget p (class_params c) = Some r.
Proof. intros [_ S] H. unfold var_flag in H. destruct (dget p (k_params k)) as [q|] eqn:E; [|discriminate]. destruct (S _ _ E) as (r & R & _). eauto. Qed.
Lemma filter_ext_in' {V} (f g : V -> bool) l : (forall x, In x l -> f x = g x) -> filter f l = filter g l.
Proof. induction l as [|x l IH]; intros H; cbn; [reflexivity|]. rewrite (H x) by now left. rewrite IH by (intros; apply H; now right). reflexivity. Qed.
Lemma flat_map_ext_in' {V W} (f g : V -> list W) l : (forall x, In x l -> f x = g x) -> flat_map f l = flat_map g l.
Proof. induction l as [|x l IH]; intros H; cbn; [reflexivity|]. rewrite (H x) by now left. rewrite IH by (intros; apply H; now right). reflexivity. Qed.
Lemma ignored_no_effect : forall parse c p v calls mandatory first k n, let h := cset_attr_history parse calls (new_component c) in
  In p (ignored c) -> is_numeric parse v = true -> var_flag h p = false -> preprocess mandatory h = Ok (k, n) ->
  exists h' k', cset_attr parse [(p, CV v)] h = (h', None) /\ preprocess mandatory h' = Ok (k', n)
    /\ active_derivs c k' = active_derivs c k /\ component_columns first k' = component_columns first k.
Proof.
  intros parse c p v calls mandatory first k n h I N V P. destruct (ignored_fact c p I) as (r & R & K & E & F).
  destruct (number_effect parse c p r v h mandatory k n (history_class parse c calls) R K N P) as (h' & k' & n' & A & B & O & O' & C & D & S1 & V1 & S2 & V2 & X & G).
  assert (Sx : forall x rx, dget x (class_params c) = Some rx -> has_equation rx = true -> specified k' x = specified k x).
  { intros x rx Rx Ex. destruct (string_dec x p) as [->|Nx]; [congruence|]. destruct (t_kind rx) eqn:Kx;
      try (apply specified_dget; eapply X; eauto; rewrite Kx; reflexivity). apply (proj1 (G x rx elements Rx Kx)). eapply F; eauto. }
  assert (Eq : equations c k' = equations c k).
  { unfold equations. f_equal. apply filter_ext_in'. intros [x rx] Ix. cbn [fst snd].
    assert (Rx : dget x (class_params c) = Some rx) by (apply In_dget; [apply table_nodup|exact Ix]).
    destruct (has_equation rx) eqn:Ex; [|reflexivity]. cbn. eapply Sx; eauto. }
  exists h', k'. split; [exact A|]. split; [rewrite B; do 2 f_equal; lia|]. split.
  - unfold active_derivs. f_equal. apply flat_map_ext_in'. intros [x rx] Ix. cbn [fst snd].
    assert (Rx : dget x (class_params c) = Some rx) by (apply In_dget; [apply table_nodup|exact Ix]).
    specialize (Sx x rx Rx). unfold has_equation in Sx. destruct (t_func rx); [|reflexivity]. specialize (Sx eq_refl).
    destruct (t_deriv rx); [|reflexivity]. destruct (class_get _ _ _ _ O Rx) as (q & Q & _). destruct (class_get _ _ _ _ O' Rx) as (q' & Q' & _).
    unfold specified in Sx. rewrite Q, Q' in *. now rewrite Sx.
  - rewrite (columns_class c k' first O'), (columns_class c k first O). cbn zeta.
    erewrite filter_ext_in'; [reflexivity|]. intros x Ix. unfold is_number. destruct (dget x (class_params c)) as [rx|] eqn:Rx; [|reflexivity].
    destruct (t_kind rx) eqn:Kx; try reflexivity. cbn. destruct (string_dec x p) as [->|Nx]; [congruence|].
    unfold var_flag. erewrite (X x rx Nx Rx); [reflexivity|]. now rewrite Kx.
Qed.
Lemma filter_length_le {V} (f g : V -> bool) l : (forall x, In x l -> f x = true -> g x = true) -> length (filter f l) <= length (filter g l).
Proof.
  induction l as [|x l IH]; intros H; cbn; [lia|]. specialize (IH (fun y Y => H y (or_intror Y))). pose proof (H x (or_introl eq_refl)) as X.
  destruct (f x); [rewrite X by reflexivity; cbn; lia|]. destruct (g x); cbn; lia.
Qed.
Lemma filter_length_lt {V} (f g : V -> bool) l x : (forall x, In x l -> f x = true -> g x = true) -> In x l -> f x = false -> g x = true -> length (filter f l) < length (filter g l).
Proof.
  induction l as [|y l IH]; intros H I F G; [destruct I|]. destruct I as [->|I]; cbn.
  - rewrite F, G. cbn. apply Nat.lt_succ_r. apply filter_length_le. intros; apply H; [now right|assumption].
  - specialize (IH (fun z Z => H z (or_intror Z)) I F G). pose proof (H y (or_introl eq_refl)) as X.
    destruct (f y); [rewrite X by reflexivity; cbn; lia|]. destruct (g y); cbn; lia.
Qed.
Lemma equation_effect : forall parse c p r v calls mandatory k n, let h := cset_attr_history parse calls (new_component c) in
  dget p (class_params c) = Some r -> t_kind r = KCp -> has_equation r = true -> specified h p = false ->
  is_numeric parse v = true -> preprocess mandatory h = Ok (k, n) ->
  exists h' k' n', cset_attr parse [(p, CV v)] h = (h', None) /\ preprocess mandatory h' = Ok (k', n') /\ n < n'
    /\ exists d, t_deriv r = Some d /\ In (d, t_own r) (active_derivs c k').
Proof.
  intros parse c p r v calls mandatory k n h R K E S0 N P.
  destruct (number_effect parse c p r v h mandatory k n (history_class parse c calls) R K N P) as (h' & k' & n' & A & B & O & O' & C & D & S1 & V1 & S2 & V2 & X & G).
  exists h', k', n'. split; [exact A|]. split; [exact B|]. split.
  - assert (equations c k < equations c k'); [|lia]. unfold equations. apply filter_length_lt with (x := (p, r)).
    + intros [x rx] Ix. cbn [fst snd]. rewrite !andb_true_iff. intros [Ex Sx]. split; [exact Ex|].
      assert (Rx : dget x (class_params c) = Some rx) by (apply In_dget; [apply table_nodup|exact Ix]).
      destruct (string_dec x p) as [->|Nx]; [exact S1|]. destruct (t_kind rx) eqn:Kx;
        try (rewrite <- Sx; apply specified_dget; eapply X; eauto; rewrite Kx; reflexivity). now apply (proj2 (G x rx elements Rx Kx)).
    + now apply dget_In.
    + cbn [fst snd]. rewrite S2, S0. now rewrite andb_false_r.
    + cbn [fst snd]. now rewrite E, S1.
  - destruct (row_facts c p r R) as (_ & _ & T). destruct (t_deriv r) as [d|] eqn:Td; [|exfalso; apply T; auto].
    exists d. split; [reflexivity|]. unfold active_derivs. apply in_or_app. right. apply in_flat_map. exists (p, r). split; [now apply dget_In|].
    cbn [fst snd]. unfold has_equation in E. destruct (t_func r); [|discriminate]. rewrite Td. unfold specified in S1.
    destruct (dget p (k_params k')) as [q|]; [|discriminate]. rewrite S1. now left.
Qed.
Lemma numbers_covered_b c : forallb (fun kr => match t_kind (snd kr) with
    | KCp => has_equation (snd kr) || smem (fst kr) (ignored c) || smem (fst kr) ["P"; "Qloss"; "eta_mech"; "T_v_inner"; "dissipative"]
       || existsb (fun gr => match t_kind (snd gr) with KGcp es => smem (fst kr) es && has_equation (snd gr) | _ => false end) (class_params c)
    | _ => true end)%bool (class_params c) = true.
Proof. destruct c; reflexivity. Qed.
Lemma numbers_covered : forall c p r, dget p (class_params c) = Some r -> t_kind r = KCp -> ~ In p (ignored c) -> ~ In p ["P"; "Qloss"; "eta_mech"; "T_v_inner"; "dissipative"] ->
  has_equation r = true \/ exists g rg es, dget g (class_params c) = Some rg /\ t_kind rg = KGcp es /\ In p es /\ has_equation rg = true.
Proof.
  intros c p r H K I J. pose proof (numbers_covered_b c) as F. rewrite forallb_forall in F. pose proof (dget_In _ _ _ H) as M. specialize (F _ M). cbn [fst snd] in F.
  rewrite K in F. rewrite <- smem_In in I, J. destruct (has_equation r); [now left|]. destruct (smem p (ignored c)); [congruence|].
  destruct (smem p ["P"; "Qloss"; "eta_mech"; "T_v_inner"; "dissipative"]); [congruence|]. cbn in F. right. apply existsb_exists in F as ([g rg] & G & F). cbn [snd] in F.
  destruct (t_kind rg) eqn:Kg; try discriminate. apply andb_true_iff in F as [F1 F2]. exists g, rg, elements.
  rewrite smem_In in F1. repeat split; auto. apply In_dget; [apply table_nodup|exact G].
Qed.

(* ------------------------------------------------------------------ unknowns *)
Definition col_of (c : cls) (d own p : string) : bool :=
  if String.eqb d "pr_deriv" then String.eqb own p && dmem "pr" (class_params c) && String.eqb p "pr"
  else if String.eqb d "zeta_deriv" then String.eqb own p else smem p (branch_vars c d).
Lemma rmapM_In {A B} (f : A -> res (list B)) l cols x y : rmap (@concat B) (rmapM f l) = Ok cols -> In x l ->
  exists ys, f x = Ok ys /\ (In y ys -> In y cols).
Proof.
  revert cols. induction l as [|a l IH]; intros cols H I; [destruct I|]. cbn in H.
  destruct (f a) as [b|e] eqn:E; cbn in H; [|discriminate]. destruct (rmapM f l) as [bs|e] eqn:F; cbn in H; [|discriminate]. injection H as <-.
  destruct I as [<-|I].
  - exists b. split; [exact E|]. intros Y. cbn. apply in_or_app. now left.
  - destruct (IH (concat bs) eq_refl I) as (ys & A1 & A2). exists ys. split; [exact A1|]. intros Y. cbn. apply in_or_app. right. auto.
Qed.
Lemma rmapM_inv {A B} (f : A -> res (list B)) l cols y : rmap (@concat B) (rmapM f l) = Ok cols -> In y cols -> exists x ys, In x l /\ f x = Ok ys /\ In y ys.
Proof.
  revert cols. induction l as [|a l IH]; intros cols H I; cbn in H.
  - injection H as <-. destruct I.
  - destruct (f a) as [b|e] eqn:E; cbn in H; [|discriminate]. destruct (rmapM f l) as [bs|e] eqn:F; cbn in H; [|discriminate]. injection H as <-.
    cbn in I. apply in_app_or in I as [I|I].
    + exists a, b. split; [now left|]. auto.
    + destruct (IH (concat bs) eq_refl I) as (x & ys & X & Y & Z). exists x, ys. split; [now right|]. auto.
Qed.
Lemma col_written c k d own p : var_flag k p = true -> col_of c d own p = true ->
  forall ys, deriv_columns c (var_flag k) d own = Ok ys -> In p ys.
Proof.
  intros V C ys. unfold col_of in C. unfold deriv_columns. destruct (String.eqb d "pr_deriv").
  - rewrite !andb_true_iff in C. destruct C as ((C1 & C2) & C3). apply String.eqb_eq in C1, C3. subst own. rewrite V, C2. intros [= <-]. left. congruence.
  - destruct (String.eqb d "zeta_deriv").
    + apply String.eqb_eq in C. subst own. cbn. rewrite V. intros [= <-]. now left.
    + intros [= <-]. apply filter_In. rewrite smem_In in C. auto.
Qed.
Lemma carriers_b c : forallb (fun gp =>
  if String.eqb (fst gp) "" then existsb (fun d => col_of c d "" (snd gp)) (mandatory_derivs c)
  else match dget (fst gp) (class_params c) with
       | Some r => match t_func r, t_deriv r with Some _, Some d => col_of c d (t_own r) (snd gp) | _, _ => false end | None => false end) (carriers c) = true.
Proof. destruct c; reflexivity. Qed.
Lemma carried : forall c g p k cols, In (g, p) (carriers c) -> g = "" \/ specified k g = true -> var_flag k p = true ->
  jac_columns c k = Ok cols -> In p cols.
Proof.
  intros c g p k cols I G V J. pose proof (carriers_b c) as F. rewrite forallb_forall in F. specialize (F _ I). cbn [fst snd] in F.
  unfold jac_columns in J.
  assert (M : exists d own, In (d, own) (active_derivs c k) /\ col_of c d own p = true).
  { destruct (String.eqb g "") eqn:E.
    - apply existsb_exists in F as (d & D & C). exists d, "". split; [|exact C]. unfold active_derivs. apply in_or_app. left. apply in_map_iff. eauto.
    - destruct G as [->|G]; [discriminate|]. destruct (dget g (class_params c)) as [r|] eqn:R; [|discriminate].
      destruct (t_func r) as [f|] eqn:Tf; [|discriminate]. destruct (t_deriv r) as [d|] eqn:Td; [|discriminate]. exists d, (t_own r). split; [|exact F].
      unfold active_derivs. apply in_or_app. right. apply in_flat_map. exists (g, r). split; [now apply dget_In|]. cbn [fst snd]. rewrite Tf, Td.
      unfold specified in G. destruct (dget g (k_params k)) as [q|]; [|discriminate]. rewrite G. now left. }
  destruct M as (d & own & M & C). destruct (rmapM_In _ _ _ _ p J M) as (ys & Y & Z). apply Z. eapply col_written; eauto.
Qed.
(** What can ever be written *)
Definition cols_of (c : cls) (d own : string) : list string :=
  if String.eqb d "pr_deriv" then (if dmem "pr" (class_params c) then (if String.eqb own "" then [] else ["pr"]) else [])
  else if String.eqb d "zeta_deriv" then [own] else branch_vars c d.
Definition in_carriers (c : cls) (g p : string) : bool := existsb (fun gp => String.eqb (fst gp) g && String.eqb (snd gp) p)%bool (carriers c).
Lemma carriers_all c : (forallb (fun d => forallb (in_carriers c "") (cols_of c d "")) (mandatory_derivs c)
  && forallb (fun kr => match t_func (snd kr), t_deriv (snd kr) with
       | Some _, Some d => forallb (in_carriers c (fst kr)) (cols_of c d (t_own (snd kr)))
           && (negb (String.eqb d "pr_deriv") || String.eqb (t_own (snd kr)) "" || negb (dmem "pr" (class_params c)) || String.eqb (t_own (snd kr)) "pr")
       | _, _ => true end) (class_params c)
  && negb (dmem "" (class_params c)))%bool = true.
Proof. destruct c; reflexivity. Qed.
Lemma cols_bound c k d own ys p : var_flag k "" = false -> deriv_columns c (var_flag k) d own = Ok ys -> In p ys -> In p (cols_of c d own).
Proof.
  intros V0. unfold deriv_columns, cols_of. destruct (String.eqb d "pr_deriv").
  - destruct (var_flag k own) eqn:V.
    + destruct (dmem "pr" (class_params c)); [|discriminate]. intros [= <-] I. destruct (String.eqb own "") eqn:E; [apply String.eqb_eq in E; congruence|exact I].
    + intros [= <-] [].
  - destruct (String.eqb d "zeta_deriv").
    + intros [= <-] I. cbn in I. destruct (var_flag k own); [exact I|destruct I].
    + intros [= <-] I. apply filter_In in I. tauto.
Qed.
Lemma in_carriers_ok c g p : in_carriers c g p = true -> In (g, p) (carriers c).
Proof.
  unfold in_carriers. intros H. apply existsb_exists in H as ([a b] & I & E). cbn [fst snd] in E. apply andb_true_iff in E as [E F].
  apply String.eqb_eq in E, F. now subst.
Qed.
Lemma only_carried c k cols p : of_class c k -> jac_columns c k = Ok cols -> In p cols -> exists g, In (g, p) (carriers c) /\ (g = "" \/ specified k g = true).
Proof.
  intros O J I. pose proof (carriers_all c) as F. rewrite !andb_true_iff in F. destruct F as ((F1 & F2) & F3).
  rewrite forallb_forall in F1, F2.
  assert (V0 : var_flag k "" = false).
  { destruct (var_flag k "") eqn:E; [|reflexivity]. destruct (flag_class c k "" O E) as (r & R). unfold dmem in F3. now rewrite R in F3. }
  destruct (rmapM_inv _ _ _ _ J I) as ((d & own) & ys & M & Y & Z). cbn [fst snd] in Y. pose proof (cols_bound _ _ _ _ _ _ V0 Y Z) as B.
  unfold active_derivs in M. apply in_app_or in M as [M|M].
  - apply in_map_iff in M as (d' & [= <- <-] & D). specialize (F1 _ D). rewrite forallb_forall in F1. exists "". split; [|now left]. apply in_carriers_ok, F1, B.
  - apply in_flat_map in M as ((g & r) & G & M). cbn [fst snd] in M. specialize (F2 _ G). cbn [fst snd] in F2.
    destruct (t_func r); [|destruct M]. destruct (t_deriv r); [|destruct M]. destruct (dget g (k_params k)) as [q|] eqn:Q; [|destruct M].
    destruct (q_is_set q) eqn:S; [|destruct M]. destruct M as [[= <- <-]|[]]. apply andb_true_iff in F2 as [F2 _]. rewrite forallb_forall in F2.
    exists g. split; [apply in_carriers_ok, F2, B|]. right. unfold specified. now rewrite Q.
Qed.
Lemma only_carried_history : forall parse c calls mandatory k n cols p, let h := cset_attr_history parse calls (new_component c) in
  preprocess mandatory h = Ok (k, n) -> jac_columns c k = Ok cols -> In p cols ->
  exists g, In (g, p) (carriers c) /\ (g = "" \/ specified k g = true).
Proof. intros parse c calls mandatory k n cols p h P. apply only_carried. exact (preprocess_class _ _ _ _ _ (history_class parse c calls) P). Qed.
Lemma never_written : forall parse c calls mandatory k n cols p, let h := cset_attr_history parse calls (new_component c) in
  preprocess mandatory h = Ok (k, n) -> jac_columns c k = Ok cols -> ~ In p (map snd (carriers c)) -> ~ In p cols.
Proof.
  intros parse c calls mandatory k n cols p h P J N I. destruct (only_carried_history parse c calls mandatory k n cols p P J I) as (g & G & _).
  apply N. change p with (snd (g, p)). now apply in_map.
Qed.
(** declaring a number variable is accepted and gives a column *)
Lemma var_accepted parse c p r h : of_class c h -> dget p (class_params c) = Some r -> t_kind r = KCp -> parse "var" = None ->
  exists h', cset_attr parse [(p, CV (PStr "var"))] h = (h', None) /\ of_class c h' /\ specified h' p = true /\ var_flag h' p = true.
Proof.
  intros O H K N. destruct (class_get _ _ _ _ O H) as (q & Q & S). pose proof S as (S1 & _ & _). cbn in S1. rewrite K in S1.
  pose proof (set_param_static parse (CV (PStr "var")) q) as C.
  pose proof (cset_attr_keys parse [(p, CV (PStr "var"))] h) as KK.
  assert (E : set_param parse (CV (PStr "var")) q = (put_field (FIsVar true) (put_field (FIsSet true) q), None)).
  { unfold set_param. rewrite S1. unfold is_numeric. rewrite N. cbn. rewrite S1. cbn. rewrite ?S1. reflexivity. }
  rewrite E in C. unfold cset_attr, cset_one in *. rewrite Q, E in *. cbn [fst] in *. eexists. split; [reflexivity|]. split; [|split].
  - destruct O as [K0 S0]. split; [congruence|]. intros x qx X. cbn [k_params k_with_params] in X. destruct (string_dec x p) as [->|Nx].
    + rewrite dget_dset_eq in X. injection X as <-. exists r. split; [exact H|]. eapply static_trans; [exact S|exact C].
    + rewrite dget_dset_neq in X by auto. eauto.
  - unfold specified. cbn [k_params k_with_params]. rewrite dget_dset_eq. reflexivity.
  - unfold var_flag. cbn [k_params k_with_params]. rewrite dget_dset_eq. reflexivity.
Qed.
Lemma column_given c k first p : of_class c k -> number c p -> var_flag k p = true -> In p (map fst (component_columns first k)).
Proof.
  intros O (r & R & K) V. apply (columns_spec first k (class_nodup c k O)). destruct (class_get _ _ _ _ O R) as (q & Q & S & _ & _). cbn in S. rewrite K in S.
  exists q. split; [exact Q|]. split; [exact S|]. unfold var_flag in V. now rewrite Q in V.
Qed.
Lemma unknown_without_entry : forall parse c calls mandatory first p, let h := cset_attr_history parse calls (new_component c) in
  number c p -> ~ In p (map snd (carriers c)) -> parse "var" = None ->
  exists h' k n, cset_attr parse [(p, CV (PStr "var"))] h = (h', None) /\ preprocess mandatory h' = Ok (k, n)
    /\ In p (map fst (component_columns first k)) /\ forall cols, jac_columns c k = Ok cols -> ~ In p cols.
Proof.
  intros parse c calls mandatory first p h N C V. pose proof N as (r & R & K).
  destruct (var_accepted parse c p r h (history_class parse c calls) R K V) as (h' & A & O & S & F).
  destruct (prepares_class c h' mandatory O) as (k & n & P & O' & _ & _ & D).
  exists h', k, n. split; [exact A|]. split; [exact P|].
  assert (E : dget p (k_params k) = dget p (k_params h')) by (apply D; eapply kcp_not_group; [exact R|now rewrite K]).
  split.
  - apply (column_given c k first p O' N). unfold var_flag in *. now rewrite E.
  - intros cols J I. destruct (only_carried c k cols p O' J I) as (g & G & _). apply C. change p with (snd (g, p)). now apply in_map.
Qed.
Lemma two_sided_b c : two_sided c = true -> dmem "pr" (class_params c) = false /\
  forallb (fun p => match dget p (class_params c) with Some r => match t_kind r, t_func r, t_deriv r with KCp, Some _, Some d => String.eqb d "pr_deriv" && String.eqb (t_own r) p | _, _, _ => false end | None => false end)%bool ["pr1"; "pr2"] = true.
Proof. destruct c; try discriminate; intros _; split; reflexivity. Qed.
Lemma rmapM_err {A B} (f : A -> res B) l x e : (forall y e', f y = Err e' -> e' = e) -> In x l -> f x = Err e -> rmapM f l = Err e.
Proof.
  intros U. induction l as [|a l IH]; intros I E; [destruct I|]. cbn. destruct (f a) as [b|e'] eqn:F; cbn.
  - destruct I as [->|I]; [congruence|]. rewrite (IH I E). reflexivity.
  - f_equal. eapply U; eauto.
Qed.
Lemma ratio_raises : forall parse c calls mandatory p, let h := cset_attr_history parse calls (new_component c) in
  two_sided c = true -> p = "pr1" \/ p = "pr2" -> parse "var" = None ->
  exists h' k n, cset_attr parse [(p, CV (PStr "var"))] h = (h', None) /\ preprocess mandatory h' = Ok (k, n) /\ jac_columns c k = Err AttributeError.
Proof.
  intros parse c calls mandatory p h T P V. destruct (two_sided_b c T) as (M & F). rewrite forallb_forall in F.
  assert (I : In p ["pr1"; "pr2"]) by (cbn; destruct P as [->| ->]; auto). specialize (F p I).
  destruct (dget p (class_params c)) as [r|] eqn:R; [|discriminate]. destruct (t_kind r) eqn:K; try discriminate.
  destruct (t_func r) eqn:Tf; [|discriminate]. destruct (t_deriv r) as [d|] eqn:Td; [|discriminate]. apply andb_true_iff in F as [F1 F2]. apply String.eqb_eq in F2.
  destruct (var_accepted parse c p r h (history_class parse c calls) R K V) as (h' & A & O & S & W).
  destruct (prepares_class c h' mandatory O) as (k & n & PP & O' & _ & _ & D).
  exists h', k, n. split; [exact A|]. split; [exact PP|].
  assert (E : dget p (k_params k) = dget p (k_params h')) by (apply D; eapply kcp_not_group; [exact R|now rewrite K]).
  unfold jac_columns. erewrite (rmapM_err _ _ (d, t_own r) AttributeError); [reflexivity| | |].
  - intros [d0 o0] e'. unfold deriv_columns. cbn [fst snd]. rewrite M. destruct (String.eqb d0 "pr_deriv"); [destruct (var_flag k o0)|destruct (String.eqb d0 "zeta_deriv")]; congruence.
  - unfold active_derivs. apply in_or_app. right. apply in_flat_map. exists (p, r). split; [now apply dget_In|]. cbn [fst snd]. rewrite Tf, Td.
    unfold specified in S. rewrite <- E in S. destruct (dget p (k_params k)) as [q|]; [|discriminate]. rewrite S. now left.
  - unfold deriv_columns. cbn [fst snd]. rewrite F1, F2, M. unfold var_flag in *. rewrite E. now rewrite W.
Qed.
(* ------------------------------------------------------------------ limits *)
Lemma limits_ordered : forall c p r, dget p (class_params c) = Some r -> (t_min r <= t_max r)%Q.
Proof.
  intros c p r H. pose proof (table_row _ _ _ H) as T. unfold row_ok in T. rewrite !andb_true_iff in T. destruct T as ((_ & T) & _). now apply Qle_bool_iff.
Qed.
Definition within_b (r : prow) : bool := match t_val r with PNum (Fin q) => Qle_bool (t_min r) q && Qle_bool q (t_max r) | _ => true end.
Lemma within_b_ok r : within_b r = true <-> within r.
Proof. unfold within_b, within. destruct (t_val r) as [|[q|]| | | | | |]; try tauto. rewrite andb_true_iff, !Qle_bool_iff. tauto. Qed.
Lemma limits_b c : forallb (fun kr => Bool.eqb (within_b (snd kr)) (negb (smem (fst kr) (out_of_limits c)))) (class_params c)
  && forallb (fun p => dmem p (class_params c)) (out_of_limits c) = true.
Proof. destruct c; reflexivity. Qed.
Lemma defaults_within : forall c p r, dget p (class_params c) = Some r -> (within r <-> ~ In p (out_of_limits c)).
Proof.
  intros c p r H. pose proof (limits_b c) as F. apply andb_true_iff in F as [F _]. rewrite forallb_forall in F. apply dget_In in H. specialize (F _ H).
  cbn [fst snd] in F. apply Bool.eqb_prop in F. rewrite <- within_b_ok, F, negb_true_iff, <- smem_In. destruct (smem p (out_of_limits c)); split; congruence.
Qed.
Lemma defaults_outside : forall c p, In p (out_of_limits c) -> exists r, dget p (class_params c) = Some r /\ ~ within r.
Proof.
  intros c p H. pose proof (limits_b c) as F. apply andb_true_iff in F as [_ F]. rewrite forallb_forall in F. specialize (F p H). unfold dmem in F.
  destruct (dget p (class_params c)) as [r|] eqn:R; [|discriminate]. exists r. split; [reflexivity|]. rewrite (defaults_within c p r R). tauto.
Qed.
(** a value of a new component stays until a number is given *)
Lemma var_keeps_value parse c p r : dget p (class_params c) = Some r -> t_kind r = KCp -> parse "var" = None ->
  exists h q, cset_attr parse [(p, CV (PStr "var"))] (new_component c) = (h, None) /\ dget p (k_params h) = Some q /\ q_is_var q = true /\ q_val q = t_val r.
Proof.
  intros R K N. unfold cset_attr, cset_one. rewrite new_get, R. cbn [option_map].
  assert (E : set_param parse (CV (PStr "var")) (new_param r) = (put_field (FIsVar true) (put_field (FIsSet true) (new_param r)), None)).
  { unfold set_param. cbn [q_kind new_param]. rewrite K. unfold is_numeric. rewrite N. unfold dc_set_attr, field_allowed. cbn [q_kind new_param put_field]. rewrite K. reflexivity. }
  rewrite E. eexists _, _. split; [reflexivity|]. cbn [k_params k_with_params]. rewrite dget_dset_eq. repeat split.
Qed.
Lemma starts_outside : forall parse c p r, In p (out_of_limits c) -> dget p (class_params c) = Some r -> t_kind r = KCp -> parse "var" = None ->
  exists h q x, cset_attr parse [(p, CV (PStr "var"))] (new_component c) = (h, None) /\ dget p (k_params h) = Some q /\ q_is_var q = true
    /\ q_val q = PNum (Fin x) /\ ~ (t_min r <= x <= t_max r)%Q.
Proof.
  intros parse c p r I R K N. destruct (var_keeps_value parse c p r R K N) as (h & q & A & B & C & D). exists h, q.
  destruct (defaults_outside c p I) as (r' & R' & W). assert (r' = r) by congruence. subst r'. unfold within in W.
  destruct (t_val r) as [|[x|]| | | | | |]; try (exfalso; tauto). exists x. auto.
Qed.
(* ------------------------------------------------------------------ witnesses *)
Lemma ignored_witness : exists c p, number c p /\ forall parse v calls mandatory first k n, let h := cset_attr_history parse calls (new_component c) in
  is_numeric parse v = true -> var_flag h p = false -> preprocess mandatory h = Ok (k, n) ->
  exists h' k', cset_attr parse [(p, CV v)] h = (h', None) /\ preprocess mandatory h' = Ok (k', n)
    /\ active_derivs c k' = active_derivs c k /\ component_columns first k' = component_columns first k.
Proof.
  exists KHeatExchanger, "td_log". split; [eexists; split; reflexivity|]. intros. apply ignored_no_effect; auto. now left.
Qed.
Lemma unknown_witness : exists c p, number c p /\ forall parse calls mandatory first, let h := cset_attr_history parse calls (new_component c) in
  parse "var" = None ->
  exists h' k n, cset_attr parse [(p, CV (PStr "var"))] h = (h', None) /\ preprocess mandatory h' = Ok (k, n)
    /\ In p (map fst (component_columns first k)) /\ forall cols, jac_columns c k = Ok cols -> ~ In p cols.
Proof.
  exists KTurbine, "eta_s". assert (N : number KTurbine "eta_s") by (eexists; split; reflexivity). split; [exact N|].
  intros. apply unknown_without_entry; auto. intros [A|[A|[]]]; discriminate.
Qed.
Lemma start_witness : exists c p r, dget p (class_params c) = Some r /\ In p (map snd (carriers c)) /\ forall parse, parse "var" = None ->
  exists h q x, cset_attr parse [(p, CV (PStr "var"))] (new_component c) = (h, None) /\ dget p (k_params h) = Some q /\ q_is_var q = true
    /\ q_val q = PNum (Fin x) /\ ~ (t_min r <= x <= t_max r)%Q.
Proof.
  exists KFuelCell, "e". eexists. split; [reflexivity|]. split; [cbn; tauto|]. intros parse N. eapply starts_outside; [|reflexivity|reflexivity|exact N]. cbn; tauto.
Qed.
(** Equation and derivatives have names with the same stem. *)
Definition paired (r : prow) : bool :=
  match t_func r with
  | None => true
  | Some f => let x := substring 0 (String.length f - 5) f in
      String.eqb f (x ++ "_func") && match t_deriv r with Some d => String.eqb d (x ++ "_deriv") | None => false end
  end.
Lemma table_paired c : forallb (fun kr => paired (snd kr)) (class_params c) = true.
Proof. destruct c; vm_compute; reflexivity. Qed.
Lemma pairs : forall c p r f, dget p (class_params c) = Some r -> t_func r = Some f ->
  exists x, f = (x ++ "_func")%string /\ t_deriv r = Some (x ++ "_deriv")%string.
Proof.
  intros c p r f H F. pose proof (table_paired c) as T. rewrite forallb_forall in T. specialize (T (p, r) (dget_In _ _ _ H)). cbn [snd] in T.
  unfold paired in T. rewrite F in T. apply andb_true_iff in T as (T1 & T2). apply String.eqb_eq in T1. eexists. split; [exact T1|].
  destruct (t_deriv r); [|discriminate]. apply String.eqb_eq in T2. now subst.
Qed.
