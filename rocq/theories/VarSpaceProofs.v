(** Proofs about the numbering of unknowns. *)
From Coq Require Import FinFun.
From Verif Require Import Base MassModel MassProofs VarSpaceModel VarSpaceSpec.
Open Scope nat_scope.
Open Scope list_scope.

Definition is_comp (u : unknown) : Prop := match u with UComp _ _ => True | _ => False end.

(** Invariant of the first two phases. *)
Record core (s : vstate) : Prop := {
  co_num : map fst (vs_dict s) = seq 0 (vs_nconn s);
  co_nd : NoDup (map snd (vs_dict s));
  co_col : forall i u, In (i, u) (vs_dict s) -> column s u = Some i;
  co_vars : forall x, In (UConn x) (map snd (vs_dict s)) <-> In x (vs_vars s);
  co_nocomp : forall u, In u (map snd (vs_dict s)) -> ~ is_comp u;
  co_ncomp : vs_ncomp s = 0;
  co_flags : forall x, In x (vs_vars s) -> v_var (vs_heap s x) = true /\ v_set (vs_heap s x) = false
}.

Lemma existsb_eqb_In x l : existsb (Nat.eqb x) l = true <-> In x l.
Proof.
  rewrite existsb_exists. split.
  - intros (y & H & E). apply Nat.eqb_eq in E. now subst.
  - intros H. exists x. split; [auto|apply Nat.eqb_refl].
Qed.

Lemma seq_snoc n : seq 0 (S n) = seq 0 n ++ [n].
Proof. rewrite seq_S. reflexivity. Qed.

Lemma NoDup_snoc {A} (l : list A) a : NoDup l -> ~ In a l -> NoDup (l ++ [a]).
Proof.
  intros H1 H2. induction l as [|b l IH]; cbn.
  - constructor; [tauto|constructor].
  - inversion H1; subst. constructor.
    + rewrite in_app_iff. cbn. intros [H|[H|[]]]; [auto|]. subst. apply H2; cbn; auto.
    + apply IH; [auto|]. intros H; apply H2; cbn; auto.
Qed.

Lemma core_fresh s : core (fresh s).
Proof. constructor; cbn; try tauto; auto. constructor. Qed.

Lemma fluid_core b s f : core s -> ~ In (UFluid b f) (map snd (vs_dict s)) -> core (assign_fluid b s f).
Proof.
  intros C Hn. constructor; cbn.
  - rewrite map_app, (co_num _ C). symmetry. apply seq_snoc.
  - rewrite map_app. cbn. apply NoDup_snoc; [apply C|auto].
  - intros i u H. apply in_app_iff in H. destruct H as [H|[H|[]]].
    + assert (E := co_col _ C _ _ H). destruct u as [b' f'|x|cp p]; cbn in *; auto.
      destruct (Nat.eqb b' b && String.eqb f' f) eqn:Eb; auto.
      apply andb_true_iff in Eb. destruct Eb as [E1 E2].
      apply Nat.eqb_eq in E1. apply String.eqb_eq in E2. subst. exfalso. apply Hn.
      change (UFluid b f) with (snd (i, UFluid b f)). now apply in_map.
    + inversion H; subst. cbn. now rewrite Nat.eqb_refl, String.eqb_refl.
  - intros x. rewrite map_app, in_app_iff. cbn. rewrite (co_vars _ C). split; [|auto].
    intros [H|[H|[]]]; [auto|discriminate].
  - intros u. rewrite map_app, in_app_iff. cbn. intros [H|[<-|[]]]; [now apply (co_nocomp _ C)|cbn; tauto].
  - apply C.
  - apply C.
Qed.

Lemma fluids_effect b fs s : core s -> NoDup fs -> (forall f, ~ In (UFluid b f) (map snd (vs_dict s))) ->
  let s' := fold_left (assign_fluid b) fs s in
  core s' /\ vs_heap s' = vs_heap s /\ vs_vars s' = vs_vars s /\ vs_eqs s' = vs_eqs s /\
  (forall u, In u (map snd (vs_dict s')) <-> In u (map snd (vs_dict s)) \/ exists f, In f fs /\ u = UFluid b f).
Proof.
  intros C Hd Hn. cbn zeta.
  assert (Hn' : forall f, In f fs -> ~ In (UFluid b f) (map snd (vs_dict s))) by auto.
  clear Hn. revert s C Hn'. induction fs as [|f fs IH]; intros s C Hn; cbn.
  - split; [auto|split; [auto|split; [auto|split; [auto|]]]]. intros u. split; [auto|].
    intros [H|(f & [] & _)]; auto.
  - inversion Hd as [|? ? Hf Hfs]; subst.
    destruct (IH Hfs (assign_fluid b s f)) as (C' & E1 & E2 & E3 & E4).
    + apply fluid_core; auto. apply Hn; cbn; auto.
    + intros f' Hf'. cbn. rewrite map_app, in_app_iff. cbn. intros [H|[H|[]]].
      * eapply Hn; [|exact H]. cbn; auto.
      * inversion H; subst; auto.
    + split; [exact C'|split; [exact E1|split; [exact E2|split; [exact E3|]]]]. intros u. rewrite E4.
      cbn. rewrite map_app, in_app_iff. cbn. split.
      * intros [[H|[<-|[]]]|(f' & H & ->)]; [auto|right; exists f; auto|right; exists f'; auto].
      * intros [H|(f' & [->|H] & ->)]; [auto|left; right; left; reflexivity|right; exists f'; auto].
Qed.

Lemma branches_effect bs s : core s -> NoDup (map fst bs) -> (forall b fs, In (b, fs) bs -> NoDup fs) ->
  (forall b fs f, In (b, fs) bs -> ~ In (UFluid b f) (map snd (vs_dict s))) ->
  let s' := assign_fluids bs s in
  core s' /\ vs_heap s' = vs_heap s /\ vs_vars s' = vs_vars s /\ vs_eqs s' = vs_eqs s /\
  (forall u, In u (map snd (vs_dict s')) <-> In u (map snd (vs_dict s)) \/ exists b fs f, In (b, fs) bs /\ In f fs /\ u = UFluid b f).
Proof.
  unfold assign_fluids. revert s. induction bs as [|[b fs] bs IH]; intros s C Hd Hf Hn; cbn.
  - split; [auto|split; [auto|split; [auto|split; [auto|]]]]. intros u. split; [auto|].
    intros [H|(b & fs & f & [] & _)]; auto.
  - cbn [map fst] in Hd. inversion Hd as [|? ? Hb Hbs]; subst.
    destruct (fluids_effect b fs s) as (C1 & A1 & A2 & A3 & A4); auto.
    { apply (Hf b fs); cbn; auto. }
    { intros f. apply (Hn b fs f); cbn; auto. }
    change (assign_branch s (b, fs)) with (fold_left (assign_fluid b) fs s).
    destruct (IH (fold_left (assign_fluid b) fs s)) as (C' & E1 & E2 & E3 & E4); auto.
    { intros b' fs' H. apply (Hf b' fs'); cbn; auto. }
    { intros b' fs' f H. rewrite A4. intros [H1|(f' & _ & H1)].
      - revert H1. apply (Hn b' fs' f); cbn; auto.
      - inversion H1; subst. apply Hb. change b with (fst (b, fs')). now apply in_map. }
    split; [exact C'|split; [congruence|split; [congruence|split; [congruence|]]]].
    intros u. rewrite E4, A4. split.
    + intros [[H|(f & H & ->)]|(b' & fs' & f & H & H' & ->)]; [auto|right; exists b, fs, f; auto|right; exists b', fs', f; auto].
    + intros [H|(b' & fs' & f & [H|H] & H' & ->)]; [auto| |right; exists b', fs', f; auto].
      inversion H; subst. left; right. exists f; auto.
Qed.

(** One container. *)
Lemma assign_one_effect s x : core s ->
  let s' := assign_one s x in
  core s' /\ vs_eqs s' = vs_eqs s /\ vs_fcol s' = vs_fcol s /\
  (forall y, In y (vs_vars s') <-> In y (vs_vars s) \/ (y = x /\ v_set (vs_heap s x) = false /\ v_solved (vs_heap s x) = false)) /\
  (forall u, (forall y, u <> UConn y) -> (In u (map snd (vs_dict s')) <-> In u (map snd (vs_dict s)))) /\
  (forall y, v_set (vs_heap s' y) = v_set (vs_heap s y)) /\
  (forall y, y <> x -> vs_heap s' y = vs_heap s y) /\
  (~ In x (vs_vars s) -> v_set (vs_heap s x) = false -> v_solved (vs_heap s' x) = false) /\
  (v_solved (vs_heap s x) = false -> v_solved (vs_heap s' x) = false) /\
  (v_var (vs_heap s' x) = true <-> In x (vs_vars s')).
Proof.
  intros C. cbn zeta. unfold assign_one.
  destruct (existsb (Nat.eqb x) (vs_vars s)) eqn:Ei.
  - apply existsb_eqb_In in Ei. destruct (co_flags _ C x Ei) as [F1 F2]. rewrite F2. cbn.
    split; [auto|split; [auto|split; [auto|]]].
    split. { intros y; split; [auto|]. intros [H|(-> & _)]; auto. }
    split; [tauto|split; [auto|split; [auto|split; [tauto|split; [auto|tauto]]]]].
  - assert (Hx : ~ In x (vs_vars s)) by (intros H; apply existsb_eqb_In in H; congruence).
    destruct (v_set (vs_heap s x)) eqn:Es; cbn [negb andb].
    + cbn.
      assert (HS : forall y, v_set (fupd x {| v_set := true; v_solved := v_solved (vs_heap s x); v_var := false; v_jcol := v_jcol (vs_heap s x) |} (vs_heap s) y) = v_set (vs_heap s y)).
      { intros y. unfold fupd. destruct (Nat.eqb y x) eqn:E; auto. apply Nat.eqb_eq in E; subst; auto. }
      split.
      { constructor; cbn; try apply C.
        - intros i u H. assert (E := co_col _ C _ _ H). destruct u; cbn in *; auto.
          unfold fupd. destruct (Nat.eqb container x) eqn:E1; auto. apply Nat.eqb_eq in E1; subst; auto.
        - intros y Hy. unfold fupd. destruct (Nat.eqb y x) eqn:E1.
          + apply Nat.eqb_eq in E1; subst; tauto.
          + now apply C. }
      split; [auto|split; [auto|split; [|split; [tauto|split; [auto|split; [|split; [discriminate|split]]]]]]].
      * intros y. split; [auto|]. intros [H|(_ & H & _)]; [auto|discriminate].
      * intros y Hy. now apply fupd_neq.
      * intros H. now rewrite fupd_eq.
      * rewrite fupd_eq. cbn. split; [discriminate|tauto].
    + destruct (v_solved (vs_heap s x)) eqn:Ev; cbn [negb].
      * cbn.
        split.
        { constructor; cbn; try apply C.
          - intros i u H. assert (E := co_col _ C _ _ H). destruct u; cbn in *; auto.
            unfold fupd. destruct (Nat.eqb container x) eqn:E1; auto. apply Nat.eqb_eq in E1; subst; auto.
          - intros y Hy. unfold fupd. destruct (Nat.eqb y x) eqn:E1.
            + apply Nat.eqb_eq in E1; subst; tauto.
            + now apply C. }
        split; [auto|split; [auto|split; [|split; [tauto|split; [|split; [|split; [|split]]]]]]].
        -- intros y. split; [auto|]. intros [H|(_ & _ & H)]; [auto|discriminate].
        -- intros y. unfold fupd. destruct (Nat.eqb y x) eqn:E; auto. apply Nat.eqb_eq in E; subst; auto.
        -- intros y Hy. now apply fupd_neq.
        -- intros _ _. now rewrite fupd_eq.
        -- discriminate.
        -- rewrite fupd_eq. cbn. split; [discriminate|tauto].
      * cbn.
        split.
        { constructor; cbn.
          - rewrite map_app, (co_num _ C). symmetry. apply seq_snoc.
          - rewrite map_app. cbn. apply NoDup_snoc; [apply C|]. intros H. apply Hx. now apply (co_vars _ C).
          - intros i u H. apply in_app_iff in H. destruct H as [H|[H|[]]].
            + assert (E := co_col _ C _ _ H). destruct u; cbn in *; auto.
              unfold fupd. destruct (Nat.eqb container x) eqn:E1; auto. apply Nat.eqb_eq in E1; subst. exfalso.
              apply Hx. apply (co_vars _ C). change (UConn x) with (snd (i, UConn x)). now apply in_map.
            + inversion H; subst. cbn. now rewrite fupd_eq.
          - intros y. rewrite map_app, !in_app_iff. cbn. rewrite (co_vars _ C). split.
            + intros [H|[H|[]]]; [auto|]. inversion H; auto.
            + intros [H|[H|[]]]; [auto|]. subst; auto.
          - intros u. rewrite map_app, in_app_iff. cbn. intros [H|[<-|[]]]; [now apply (co_nocomp _ C)|cbn; tauto].
          - apply C.
          - intros y Hy. apply in_app_iff in Hy. unfold fupd. destruct (Nat.eqb y x) eqn:E1; [cbn; auto|].
            destruct Hy as [Hy|[Hy|[]]]; [now apply C|]. subst. rewrite Nat.eqb_refl in E1. discriminate. }
        split; [auto|split; [auto|split; [|split; [|split; [|split; [|split; [|split]]]]]]].
        -- intros y. rewrite in_app_iff. cbn. split.
           ++ intros [H|[H|[]]]; [auto|right; auto].
           ++ intros [H|(H & _)]; [auto|subst; auto].
        -- intros u Hu. rewrite map_app, in_app_iff. cbn. split; [|auto].
           intros [H|[H|[]]]; [auto|]. exfalso; eapply Hu; eauto.
        -- intros y. unfold fupd. destruct (Nat.eqb y x) eqn:E; auto. apply Nat.eqb_eq in E; subst; auto.
        -- intros y Hy. now apply fupd_neq.
        -- intros _ _. now rewrite fupd_eq.
        -- intros _. now rewrite fupd_eq.
        -- rewrite fupd_eq. cbn. rewrite in_app_iff. cbn. tauto.
Qed.

(** What simplify_specifications marks. *)
Lemma simplify_marks ms ps hs c mk : simplify ms ps hs c = Ok mk ->
  (mk_p mk = true <-> hs = false /\ ps = false /\ k_T c = true /\ k_x c = true) /\
  (mk_h mk = true <-> hs = false /\ ((ps = true /\ (k_T c = true \/ k_x c = true \/ k_Td c = true)) \/
                                     (ps = false /\ k_T c = true /\ k_x c = true))) /\
  b2n (mk_p mk) + b2n (mk_h mk) = b2n (mk_T mk) + b2n (mk_x mk) + b2n (mk_Td mk) /\
  (mk_T mk = true -> k_T c = true) /\ (mk_x mk = true -> k_x c = true) /\ (mk_Td mk = true -> k_Td c = true).
Proof.
  unfold simplify. destruct (Nat.ltb 3 _); [discriminate|].
  destruct hs, ps, (k_T c) eqn:ET, (k_Td c) eqn:ED, (k_x c) eqn:EX; cbn; intros H; inversion H; subst; cbn;
    intuition congruence.
Qed.

Lemma mark_solved_spec b x h y :
  v_set (mark_solved b x h y) = v_set (h y) /\ v_var (mark_solved b x h y) = v_var (h y) /\
  v_jcol (mark_solved b x h y) = v_jcol (h y) /\
  v_solved (mark_solved b x h y) = (b && Nat.eqb y x) || v_solved (h y).
Proof.
  unfold mark_solved. destruct b; cbn; auto. unfold fupd.
  destruct (Nat.eqb y x) eqn:E; cbn; auto. apply Nat.eqb_eq in E; subst; auto.
Qed.

Lemma core_with_heap s h : core s ->
  (forall y, v_set (h y) = v_set (vs_heap s y) /\ v_var (h y) = v_var (vs_heap s y) /\ v_jcol (h y) = v_jcol (vs_heap s y)) ->
  core (with_heap s h).
Proof.
  intros C H. constructor; cbn; try apply C.
  - intros i u Hi. assert (E := co_col _ C _ _ Hi). destruct u; cbn in *; auto.
    destruct (H container) as (_ & _ & ->). auto.
  - intros x Hx. destruct (H x) as (-> & -> & _). now apply C.
Qed.

(** Effect of one connection. *)
Definition adds (heap : nat -> vcont) (c : vconn) (y : nat) : Prop :=
  v_set (heap y) = false /\
  (y = k_m c \/ (y = k_p c /\ ~ p_pinned heap c) \/ (y = k_h c /\ ~ h_pinned heap c)).

Lemma conn_step_effect s c s' : core s ->
  (forall x, v_solved (vs_heap s x) = false) ->
  k_p c <> k_h c -> k_m c <> k_p c -> k_m c <> k_h c ->
  ~ In (k_p c) (vs_vars s) -> ~ In (k_h c) (vs_vars s) ->
  conn_step s c = (s', None) ->
  core s' /\ (forall x, v_solved (vs_heap s' x) = false) /\
  (forall x, v_set (vs_heap s' x) = v_set (vs_heap s x)) /\
  (forall y, In y (vs_vars s') <-> In y (vs_vars s) \/ adds (vs_heap s) c y) /\
  (forall u, (forall y, u <> UConn y) -> (In u (map snd (vs_dict s')) <-> In u (map snd (vs_dict s)))) /\
  (forall y, y <> k_m c -> y <> k_p c -> y <> k_h c -> v_var (vs_heap s' y) = v_var (vs_heap s y)) /\
  (forall y, y = k_m c \/ y = k_p c \/ y = k_h c -> (v_var (vs_heap s' y) = true <-> In y (vs_vars s'))) /\
  (exists eqs, vs_eqs s' = vs_eqs s ++ [eqs]).
Proof.
  intros C Hs Nph Nmp Nmh Hp Hh. unfold conn_step.
  set (r := if k_known c then simplify _ _ _ c else Ok nomarks).
  destruct r as [mk|e] eqn:Er; [|discriminate]. intros H. apply (f_equal fst) in H. cbn [fst] in H. subst s'.
  assert (Mp : mk_p mk = true <-> p_pinned (vs_heap s) c).
  { unfold r in Er. unfold p_pinned. destruct (k_known c); [|inversion Er; subst; cbn; intuition congruence].
    apply simplify_marks in Er. destruct Er as (-> & _). tauto. }
  assert (Mh : mk_h mk = true <-> h_pinned (vs_heap s) c).
  { unfold r in Er. unfold h_pinned. destruct (k_known c); [|inversion Er; subst; cbn; intuition congruence].
    apply simplify_marks in Er. destruct Er as (_ & -> & _). tauto. }
  clear Er r.
  set (h1 := mark_solved (mk_h mk) (k_h c) (mark_solved (mk_p mk) (k_p c) (vs_heap s))).
  assert (H1 : forall y, v_set (h1 y) = v_set (vs_heap s y) /\ v_var (h1 y) = v_var (vs_heap s y) /\
      v_jcol (h1 y) = v_jcol (vs_heap s y) /\
      v_solved (h1 y) = (mk_h mk && Nat.eqb y (k_h c)) || (mk_p mk && Nat.eqb y (k_p c))).
  { intros y. unfold h1.
    destruct (mark_solved_spec (mk_h mk) (k_h c) (mark_solved (mk_p mk) (k_p c) (vs_heap s)) y) as (-> & -> & -> & ->).
    destruct (mark_solved_spec (mk_p mk) (k_p c) (vs_heap s) y) as (-> & -> & -> & ->).
    rewrite Hs, orb_false_r. auto. }
  clearbody h1.
  assert (C0 : core (with_heap s h1)).
  { apply core_with_heap; auto. intros y. destruct (H1 y) as (? & ? & ? & _); auto. }
  set (s0 := with_heap s h1) in *.
  unfold assign_conn.
  destruct (assign_one_effect s0 (k_m c) C0) as (C1 & Q1 & F1 & V1 & U1 & S1 & K1 & Z1 & Y1 & W1).
  set (s1 := assign_one s0 (k_m c)) in *.
  destruct (assign_one_effect s1 (k_p c) C1) as (C2 & Q2 & F2 & V2 & U2 & S2 & K2 & Z2 & Y2 & W2).
  set (s2 := assign_one s1 (k_p c)) in *.
  destruct (assign_one_effect s2 (k_h c) C2) as (C3 & Q3 & F3 & V3 & U3 & S3 & K3 & Z3 & Y3 & W3).
  set (s3 := assign_one s2 (k_h c)) in *. clearbody s3 s2 s1.
  assert (Sm : v_solved (h1 (k_m c)) = false).
  { destruct (H1 (k_m c)) as (_ & _ & _ & ->).
    apply Nat.eqb_neq in Nmp, Nmh. rewrite Nmp, Nmh, !andb_false_r. reflexivity. }
  assert (Sp : v_solved (h1 (k_p c)) = mk_p mk).
  { destruct (H1 (k_p c)) as (_ & _ & _ & ->).
    apply Nat.eqb_neq in Nph. rewrite Nph, Nat.eqb_refl, andb_false_r, andb_true_r. reflexivity. }
  assert (Sh : v_solved (h1 (k_h c)) = mk_h mk).
  { destruct (H1 (k_h c)) as (_ & _ & _ & ->).
    assert (N : Nat.eqb (k_h c) (k_p c) = false) by (apply Nat.eqb_neq; auto).
    rewrite N, Nat.eqb_refl, andb_false_r, andb_true_r, orb_false_r. reflexivity. }
  assert (P1 : vs_heap s1 (k_p c) = h1 (k_p c)) by (rewrite K1 by auto; reflexivity).
  assert (Hh2 : vs_heap s2 (k_h c) = h1 (k_h c)) by (rewrite K2 by auto; rewrite K1 by auto; reflexivity).
  assert (vp1 : ~ In (k_p c) (vs_vars s1)).
  { rewrite V1. cbn. intros [H|(H & _)]; [auto|congruence]. }
  assert (vh2 : ~ In (k_h c) (vs_vars s2)).
  { rewrite V2, V1. cbn. intros [[H|(H & _)]|(H & _)]; [auto|congruence|congruence]. }
  assert (VV : forall y, In y (vs_vars s3) <-> In y (vs_vars s) \/ adds (vs_heap s) c y).
  { intros y. rewrite V3, V2, V1. unfold adds. rewrite P1, Hh2, Sp, Sh. cbn [vs_heap with_heap s0] in *.
    unfold s0. cbn [vs_heap with_heap vs_vars]. rewrite Sm.
    assert (E1 : v_set (h1 (k_m c)) = v_set (vs_heap s (k_m c))) by apply H1.
    assert (E2 : v_set (h1 (k_p c)) = v_set (vs_heap s (k_p c))) by apply H1.
    assert (E3 : v_set (h1 (k_h c)) = v_set (vs_heap s (k_h c))) by apply H1.
    rewrite E1, E2, E3. rewrite <- Mp, <- Mh. split.
    - intros [[[H|(-> & A & _)]|(-> & A & B)]|(-> & A & B)]; [auto|right|right|right];
        (split; [exact A|]); [auto|right; left; split; [auto|]|right; right; split; [auto|]]; congruence.
    - intros [H|(A & [B|[(B & D)|(B & D)]])]; [auto|left; left; right; subst; auto|left; right|right]; subst y.
      + split; [auto|split; [auto|]]. now apply not_true_is_false.
      + split; [auto|split; [auto|]]. now apply not_true_is_false. }
  split.
  { constructor; apply C3. }
  cbn [vs_heap vs_vars vs_dict vs_eqs].
  split.
  { intros x. destruct (Nat.eq_dec x (k_h c)) as [->|Nh].
    - destruct (v_set (h1 (k_h c))) eqn:Es.
      + apply Y3. rewrite Hh2, Sh. destruct (mk_h mk) eqn:Eh; auto.
        destruct (proj1 Mh eq_refl) as (_ & A & _). destruct (H1 (k_h c)) as (B & _). congruence.
      + apply Z3; auto. rewrite Hh2. exact Es.
    - rewrite K3 by auto. destruct (Nat.eq_dec x (k_p c)) as [->|Np].
      + destruct (v_set (h1 (k_p c))) eqn:Es.
        * apply Y2. rewrite P1, Sp. destruct (mk_p mk) eqn:Ep; auto.
          destruct (proj1 Mp eq_refl) as (_ & _ & A & _). destruct (H1 (k_p c)) as (B & _). congruence.
        * apply Z2; auto. rewrite P1. exact Es.
      + rewrite K2 by auto. destruct (Nat.eq_dec x (k_m c)) as [->|Nm].
        * apply Y1. exact Sm.
        * rewrite K1 by auto. cbn. destruct (H1 x) as (_ & _ & _ & ->).
          apply Nat.eqb_neq in Nh, Np. rewrite Nh, Np, !andb_false_r. reflexivity. }
  split. { intros x. rewrite S3, S2, S1. cbn. apply H1. }
  split. { exact VV. }
  split. { intros u Hu. rewrite U3, U2, U1 by auto. reflexivity. }
  split. { intros y Ym Yp Yh. rewrite K3, K2, K1 by auto. cbn. apply H1. }
  split.
  { intros y Hy. destruct (Nat.eq_dec y (k_h c)) as [->|Nh]; [exact W3|].
    rewrite K3 by auto. rewrite V3. destruct (Nat.eq_dec y (k_p c)) as [->|Np].
    - rewrite W2. intuition congruence.
    - rewrite K2 by auto. destruct Hy as [->|[Hy|Hy]]; [|congruence|congruence].
      rewrite W1. rewrite V2. intuition congruence. }
  eexists. rewrite Q3, Q2, Q1. reflexivity.
Qed.

Lemma adds_ext h h' c y : (forall x, v_set (h x) = v_set (h' x)) -> (adds h c y <-> adds h' c y).
Proof. intros E. unfold adds, p_pinned, h_pinned. rewrite !E. tauto. Qed.

Lemma conn_loop_effect cs : forall s s', core s ->
  (forall x, v_solved (vs_heap s x) = false) ->
  NoDup (flat_map ph cs) -> (forall c c', In c cs -> In c' cs -> ~ In (k_m c) (ph c')) ->
  (forall c x, In c cs -> In x (ph c) -> ~ In x (vs_vars s)) ->
  conn_loop cs s = (s', None) ->
  core s' /\ (forall x, v_solved (vs_heap s' x) = false) /\
  (forall x, v_set (vs_heap s' x) = v_set (vs_heap s x)) /\
  (forall y, In y (vs_vars s') <-> In y (vs_vars s) \/ exists c, In c cs /\ adds (vs_heap s) c y) /\
  (forall u, (forall y, u <> UConn y) -> (In u (map snd (vs_dict s')) <-> In u (map snd (vs_dict s)))) /\
  (forall y, (exists c, In c cs /\ (y = k_m c \/ y = k_p c \/ y = k_h c)) \/ (v_var (vs_heap s y) = true <-> In y (vs_vars s)) ->
     (v_var (vs_heap s' y) = true <-> In y (vs_vars s'))) /\
  length (vs_eqs s') = length (vs_eqs s) + length cs.
Proof.
  induction cs as [|c cs IH]; intros s s' C Hs Hd Hm Hv; cbn [conn_loop].
  - intros H. apply (f_equal fst) in H; cbn [fst] in H. subst s'.
    split; [auto|split; [auto|split; [auto|split; [|split; [tauto|split]]]]].
    + intros y. split; [auto|]. intros [H|(c & [] & _)]; auto.
    + intros y [(c & [] & _)|H]; auto.
    + cbn; lia.
  - destruct (conn_step s c) as [s1 o] eqn:E1. destruct o; [discriminate|]. intros H.
    cbn [flat_map] in Hd. apply NoDup_app_inv in Hd. destruct Hd as (D1 & D2 & D3).
    assert (Nph : k_p c <> k_h c). { inversion D1 as [|? ? A B]; subst. cbn in A. intros X; apply A; auto. }
    assert (Nm := Hm c c (or_introl eq_refl) (or_introl eq_refl)). cbn in Nm.
    destruct (conn_step_effect s c s1) as (C1 & S1 & T1 & V1 & U1 & K1 & W1 & (eqs & Q1)); auto.
    { apply (Hv c); cbn; auto. } { apply (Hv c); cbn; auto. }
    destruct (IH s1 s') as (C2 & S2 & T2 & V2 & U2 & W2 & Q2); auto.
    { intros a b Ha Hb. apply Hm; cbn; auto. }
    { intros c' x Hc Hx. rewrite V1. intros [A|(_ & B)].
      - revert A. apply (Hv c'); cbn; auto.
      - destruct B as [->|[(-> & _)|(-> & _)]].
        + revert Hx. apply Hm; cbn; auto.
        + apply (D3 (k_p c)); [cbn; auto|]. apply in_flat_map. exists c'; auto.
        + apply (D3 (k_h c)); [cbn; auto|]. apply in_flat_map. exists c'; auto. }
    split; [auto|split; [auto|split; [|split; [|split; [|split]]]]].
    + intros x. now rewrite T2, T1.
    + intros y. rewrite V2, V1. split.
      * intros [[A|A]|(c' & A & B)]; [auto|right; exists c; cbn; auto|].
        right. exists c'. split; [cbn; auto|]. eapply adds_ext; [|exact B]. intros x; now rewrite T1.
      * intros [A|(c' & [<-|A] & B)]; [auto|auto|]. right. exists c'. split; [auto|].
        eapply adds_ext; [|exact B]. intros x; now rewrite T1.
    + intros u Hu. rewrite U2, U1 by auto. reflexivity.
    + intros y Hy. apply W2.
      destruct (in_dec Nat.eq_dec y [k_m c; k_p c; k_h c]) as [Hi|Hi].
      * right. apply W1. cbn in Hi. intuition.
      * cbn in Hi. destruct Hy as [(c' & [<-|A] & B)|B]; [exfalso; intuition congruence|left; exists c'; auto|].
        right. rewrite K1 by (intros X; apply Hi; auto). rewrite V1. rewrite B. split; [auto|].
        intros [A|(_ & [A|[(A & _)|(A & _)]])]; [auto|exfalso; apply Hi; auto ..].
    + rewrite Q2, Q1, app_length. cbn. lia.
Qed.

(** Components. *)
Lemma comp_preprocess_spec base n ps l m : comp_preprocess base n ps = (l, m) ->
  map snd l = seq (base + n) (length l) /\ m = n + length l /\
  (forall p, In p (map fst l) <-> In (p, true) ps) /\ (NoDup (map fst ps) -> NoDup (map fst l)).
Proof.
  revert n l m. induction ps as [|[p v] ps IH]; intros n l m; cbn.
  - intros H. inversion H; subst. cbn. split; [auto|split; [lia|split; [tauto|auto]]].
  - destruct v.
    + destruct (comp_preprocess base (S n) ps) as [l1 m1] eqn:E. intros H. inversion H; subst.
      destruct (IH _ _ _ E) as (A & B & D & F). cbn. rewrite A. split; [|split; [lia|split]].
      * f_equal. f_equal. lia.
      * intros q. rewrite D. split; [intros [->|X]; auto|]. intros [X|X]; [inversion X; auto|auto].
      * intros Hd. inversion Hd as [|? ? Hp Hps]; subst. constructor; [|auto]. rewrite D. intros X.
        apply Hp. change p with (fst (p, true)). now apply in_map.
    + intros H. destruct (IH _ _ _ H) as (A & B & D & F). split; [auto|split; [auto|split]].
      * intros q. rewrite D. split; [auto|]. intros [X|X]; [inversion X|auto].
      * intros Hd. inversion Hd; auto.
Qed.

Lemma comp_dict_spec cp i vs : map fst (comp_dict cp i vs) = seq i (length vs) /\
  map snd (comp_dict cp i vs) = map (UComp cp) vs.
Proof.
  revert i. induction vs as [|v vs IH]; intros i; cbn; [auto|].
  destruct (IH (S i)) as [-> ->]. auto.
Qed.

Lemma comp_dict_In cp i vs j u : In (j, u) (comp_dict cp i vs) ->
  exists n p, nth_error vs n = Some p /\ j = i + n /\ u = UComp cp p.
Proof.
  revert i. induction vs as [|v vs IH]; intros i; cbn; [tauto|].
  intros [H|H].
  - inversion H; subst. exists 0, v. cbn. repeat split; lia.
  - destruct (IH _ H) as (n & p & A & B & D). exists (S n), p. cbn. split; [auto|split; [lia|auto]].
Qed.

Lemma dget_nth (l : list (string * nat)) n p base : NoDup (map fst l) -> map snd l = seq base (length l) ->
  nth_error (map fst l) n = Some p -> dget p l = Some (base + n).
Proof.
  revert n base. induction l as [|[k v] l IH]; intros n base Hd Hs Hn; cbn in *.
  - destruct n; discriminate.
  - inversion Hs; subst. inversion Hd as [|? ? Hk Hl]; subst. destruct n as [|n]; cbn in Hn.
    + inversion Hn; subst. rewrite String.eqb_refl. f_equal; lia.
    + destruct (String.eqb p k) eqn:E.
      * apply String.eqb_eq in E; subst. exfalso; apply Hk. eapply nth_error_In; eauto.
      * rewrite (IH n (S base)); auto. f_equal; lia.
Qed.

Record full (s : vstate) : Prop := {
  fu_num : map fst (vs_dict s) = seq 0 (num_vars s);
  fu_nd : NoDup (map snd (vs_dict s));
  fu_col : forall i u, In (i, u) (vs_dict s) -> column s u = Some i
}.

Lemma NoDup_app_intro {A} (l1 l2 : list A) : NoDup l1 -> NoDup l2 -> (forall x, In x l1 -> ~ In x l2) -> NoDup (l1 ++ l2).
Proof.
  induction l1 as [|a l1 IH]; cbn; intros H1 H2 H; [auto|].
  inversion H1; subst. constructor.
  - rewrite in_app_iff. intros [X|X]; [auto|]. apply (H a); auto.
  - apply IH; auto.
Qed.

Lemma comp_step_effect s cp ps : full s -> NoDup (map fst ps) ->
  (forall p, ~ In (UComp cp p) (map snd (vs_dict s))) ->
  let s' := comp_step s (cp, ps) in
  full s' /\ vs_heap s' = vs_heap s /\ vs_vars s' = vs_vars s /\ vs_eqs s' = vs_eqs s /\
  (forall u, In u (map snd (vs_dict s')) <-> In u (map snd (vs_dict s)) \/ exists p, In (p, true) ps /\ u = UComp cp p).
Proof.
  intros Fu Hd Hn. cbn zeta. unfold comp_step.
  destruct (comp_preprocess (vs_nconn s + vs_ncomp s) 0 ps) as [cols n] eqn:E.
  destruct (comp_preprocess_spec _ _ _ _ _ E) as (A & B & D & G).
  set (i := vs_nconn s + vs_ncomp s) in *.
  destruct (comp_dict_spec cp i (map fst cols)) as (M1 & M2).
  split.
  { constructor.
    - unfold num_vars. cbn. rewrite map_app, M1, (fu_num _ Fu), map_length. unfold num_vars. fold i. rewrite B.
      rewrite <- seq_app. f_equal. unfold i. lia.
    - cbn. rewrite map_app, M2. apply NoDup_app_intro; [apply Fu| |].
      + apply FinFun.Injective_map_NoDup; [|auto]. intros a b X; now inversion X.
      + intros u Hu X. apply in_map_iff in X. destruct X as (p & <- & _). eapply Hn; eauto.
    - cbn. intros j u H. apply in_app_iff in H. destruct H as [H|H].
      + assert (X := fu_col _ Fu _ _ H). destruct u; cbn in *; auto.
        destruct (Nat.eqb comp cp) eqn:Ec; auto. apply Nat.eqb_eq in Ec. subst. exfalso. apply (Hn param).
        change (UComp cp param) with (snd (j, UComp cp param)). now apply in_map.
      + apply comp_dict_In in H. destruct H as (m & p & X & Y & ->). cbn. rewrite Nat.eqb_refl.
        rewrite Nat.add_0_r in A. rewrite (dget_nth cols m p i); auto. }
  cbn. split; [auto|split; [auto|split; [auto|]]].
  intros u. rewrite map_app, M2, in_app_iff, (in_map_iff (UComp cp)). split.
  - intros [H|(p & <- & H)]; [auto|]. right. exists p. rewrite <- D. auto.
  - intros [H|(p & H & ->)]; [auto|]. right. exists p. rewrite D. auto.
Qed.

Lemma comps_effect cps : forall s, full s -> NoDup (map fst cps) -> (forall cp ps, In (cp, ps) cps -> NoDup (map fst ps)) ->
  (forall cp ps p, In (cp, ps) cps -> ~ In (UComp cp p) (map snd (vs_dict s))) ->
  let s' := fold_left comp_step cps s in
  full s' /\ vs_heap s' = vs_heap s /\ vs_vars s' = vs_vars s /\ vs_eqs s' = vs_eqs s /\
  (forall u, In u (map snd (vs_dict s')) <-> In u (map snd (vs_dict s)) \/ exists cp ps p, In (cp, ps) cps /\ In (p, true) ps /\ u = UComp cp p).
Proof.
  induction cps as [|[cp ps] cps IH]; intros s Fu Hd Hp Hn; cbn [fold_left].
  - split; [auto|split; [auto|split; [auto|split; [auto|]]]]. intros u. split; [auto|].
    intros [H|(? & ? & ? & [] & _)]; auto.
  - cbn [map fst] in Hd. inversion Hd as [|? ? Hc Hcs]; subst.
    destruct (comp_step_effect s cp ps Fu) as (F1 & A1 & A2 & A3 & A4).
    { apply (Hp cp); cbn; auto. } { intros p. apply (Hn cp ps); cbn; auto. }
    destruct (IH (comp_step s (cp, ps)) F1 Hcs) as (F2 & B1 & B2 & B3 & B4).
    { intros cp' ps' H. apply (Hp cp'); cbn; auto. }
    { intros cp' ps' p H. rewrite A4. intros [X|(q & _ & X)].
      - revert X. apply (Hn cp' ps'); cbn; auto.
      - inversion X; subst. apply Hc. change cp with (fst (cp, ps')). now apply in_map. }
    split; [auto|split; [congruence|split; [congruence|split; [congruence|]]]].
    intros u. rewrite B4, A4. split.
    + intros [[H|(p & H & ->)]|(cp' & ps' & p & H & H' & ->)];
        [auto|right; exists cp, ps, p; cbn; auto|right; exists cp', ps', p; cbn; auto].
    + intros [H|(cp' & ps' & p & [H|H] & H' & ->)]; [auto| |right; exists cp', ps', p; auto].
      inversion H; subst. left; right; exists p; auto.
Qed.

Lemma core_full s : core s -> full s.
Proof.
  intros C. constructor; try apply C. unfold num_vars. rewrite (co_ncomp _ C), Nat.add_0_r. apply C.
Qed.

(** All together. *)
Lemma number_unknowns_sound bs cs cps s s' : wf_net bs cs cps (vs_heap s) ->
  number_unknowns bs cs cps s = (s', None) ->
  map fst (vs_dict s') = seq 0 (num_vars s') /\
  NoDup (map snd (vs_dict s')) /\
  (forall i u, In (i, u) (vs_dict s') -> column s' u = Some i) /\
  (forall u, In u (map snd (vs_dict s')) <-> is_unknown bs cs cps (vs_heap s) u) /\
  (forall c x, In c cs -> x = k_m c \/ x = k_p c \/ x = k_h c ->
     (v_var (vs_heap s' x) = true <-> is_unknown bs cs cps (vs_heap s) (UConn x))) /\
  (forall x, v_set (vs_heap s' x) = v_set (vs_heap s x) /\ v_solved (vs_heap s' x) = false) /\
  length (vs_eqs s') = length cs.
Proof.
  intros (W1 & W2 & W3 & W4 & W5 & W6 & W7). unfold number_unknowns.
  destruct (branches_effect bs (fresh s) (core_fresh s) W1 W2) as (C1 & A1 & A2 & A3 & A4).
  { intros b fs f _. cbn. tauto. }
  set (s1 := assign_fluids bs (fresh s)) in *.
  destruct (conn_loop cs s1) as [s2 o] eqn:El. destruct o; [discriminate|].
  intros H. apply (f_equal fst) in H; cbn [fst] in H. subst s'.
  destruct (conn_loop_effect cs s1 s2 C1) as (C2 & S2 & T2 & V2 & U2 & K2 & Q2); auto.
  { intros x. rewrite A1. apply W7. }
  { intros c x _ _. rewrite A2. cbn. tauto. }
  destruct (comps_effect cps s2 (core_full _ C2) W3 W4) as (F3 & B1 & B2 & B3 & B4).
  { intros cp ps p _ X. apply (co_nocomp _ C2) in X. cbn in X. tauto. }
  assert (VC : forall x, In x (vs_vars s2) <-> is_unknown bs cs cps (vs_heap s) (UConn x)).
  { intros x. rewrite V2, A1, A2. cbn. unfold adds. split.
    - intros [[]|(c & X & Y)]. exists c. tauto.
    - intros (c & X & Y). right. exists c. tauto. }
  split; [apply F3|split; [apply F3|split; [apply F3|split; [|split; [|split]]]]].
  - intros u. rewrite B4. destruct u as [b f|x|cp p].
    + rewrite U2 by discriminate. rewrite A4. cbn. split.
      * intros [[[]|(b' & fs & f' & X & Y & Z)]|(? & ? & ? & _ & _ & X)]; [|discriminate].
        inversion Z; subst. exists fs; auto.
      * intros (fs & X & Y). left; right. exists b, fs, f; auto.
    + rewrite (co_vars _ C2), VC. split; [|auto]. intros [X|(? & ? & ? & _ & _ & X)]; [auto|discriminate].
    + cbn. split.
      * intros [X|(cp' & ps & p' & X & Y & Z)].
        -- apply (co_nocomp _ C2) in X. cbn in X. tauto.
        -- inversion Z; subst. exists ps; auto.
      * intros (ps & X & Y). right. exists cp, ps, p; auto.
  - intros c x Hc Hx. rewrite B1, K2; [apply VC|]. left. exists c; auto.
  - intros x. rewrite B1, T2, A1. cbn. auto.
  - rewrite B3, Q2, A3. reflexivity.
Qed.

(** Presolving a connection removes as many unknowns as equations. *)
Lemma presolve_balance ms ps hs c mk : simplify ms ps hs c = Ok mk ->
  length (equations mk c) + b2n (mk_p mk) + b2n (mk_h mk) = length (equations nomarks c) /\
  (mk_p mk = true -> ps = false) /\ (mk_h mk = true -> hs = false).
Proof.
  intros H. apply simplify_marks in H. destruct H as (A & B & D & E & F & G).
  split; [|split; intros X; [now apply A in X|now apply B in X]].
  unfold equations. rewrite !app_length. cbn [nomarks mk_T mk_x mk_Td].
  destruct (mk_T mk), (mk_x mk), (mk_Td mk), (mk_p mk), (mk_h mk), (k_T c), (k_x c), (k_Td c), (k_v c); cbn in *;
    try lia; try (specialize (E eq_refl); discriminate); try (specialize (F eq_refl); discriminate);
    try (specialize (G eq_refl); discriminate).
Qed.

Lemma columns_distinct bs cs cps s s' : wf_net bs cs cps (vs_heap s) -> number_unknowns bs cs cps s = (s', None) ->
  forall u v, is_unknown bs cs cps (vs_heap s) u -> is_unknown bs cs cps (vs_heap s) v ->
  column s' u = column s' v -> u = v.
Proof.
  intros W H u v Hu Hv E.
  destruct (number_unknowns_sound _ _ _ _ _ W H) as (A & B & D & F & _).
  apply F in Hu, Hv. apply in_map_iff in Hu, Hv.
  destruct Hu as ([i u'] & X1 & X2), Hv as ([j v'] & Y1 & Y2). cbn in X1, Y1. subst u' v'.
  rewrite (D _ _ X2), (D _ _ Y2) in E. inversion E; subst j.
  assert (N : NoDup (map fst (vs_dict s'))) by (rewrite A; apply seq_NoDup).
  clear - X2 Y2 N. induction (vs_dict s') as [|[k w] l IH]; cbn in *; [tauto|].
  inversion N as [|? ? N1 N2]; subst.
  destruct X2 as [X|X], Y2 as [Y|Y].
  - congruence.
  - inversion X; subst. exfalso; apply N1. change i with (fst (i, v)). now apply in_map.
  - inversion Y; subst. exfalso; apply N1. change i with (fst (i, u)). now apply in_map.
  - auto.
Qed.

Lemma assign_one_vset t y x : v_set (vs_heap (assign_one t y) x) = v_set (vs_heap t x).
Proof.
  unfold assign_one. destruct (_ && _); [destruct (negb (v_solved _))|destruct (v_set (vs_heap t y)) eqn:E]; cbn; auto;
    unfold fupd; (destruct (Nat.eqb x y) eqn:E1; [apply Nat.eqb_eq in E1; subst; cbn; congruence|reflexivity]).
Qed.

Lemma conn_step_vset t c x : v_set (vs_heap (fst (conn_step t c)) x) = v_set (vs_heap t x).
Proof.
  unfold conn_step. destruct (if k_known c then _ else _) as [mk|e]; [|reflexivity].
  cbn [fst vs_heap]. unfold assign_conn. rewrite !assign_one_vset. cbn [with_heap vs_heap].
  destruct (mark_solved_spec (mk_h mk) (k_h c) (mark_solved (mk_p mk) (k_p c) (vs_heap t)) x) as (-> & _).
  apply mark_solved_spec.
Qed.

Lemma assign_fluids_heap bs t : vs_heap (assign_fluids bs t) = vs_heap t.
Proof.
  unfold assign_fluids. revert t. induction bs as [|[b fs] bs IH]; intros t; cbn; [auto|]. rewrite IH.
  unfold assign_branch. cbn. clear. revert t. induction fs as [|f fs IH]; intros t; cbn; [auto|]. now rewrite IH.
Qed.

Lemma number_unknowns_error bs cs cps s s' e : number_unknowns bs cs cps s = (s', Some e) ->
  e = TESPyNetworkError /\ exists c, In c cs /\ k_known c = true /\ 3 < num_specs (vs_heap s) c.
Proof.
  unfold number_unknowns. set (s1 := assign_fluids bs (fresh s)).
  assert (E1 : forall x, v_set (vs_heap s1 x) = v_set (vs_heap s x)) by (intros x; unfold s1; now rewrite assign_fluids_heap).
  clearbody s1.
  destruct (conn_loop cs s1) as [s2 o] eqn:E. destruct o as [e'|]; [|discriminate].
  intros H. assert (e' = e) by congruence. subst e'. clear H. revert s1 E1 E.
  induction cs as [|c cs IH]; intros s1 E1; cbn [conn_loop]; [discriminate|].
  destruct (conn_step s1 c) as [s3 o] eqn:E. destruct o as [e'|].
  - intros H. assert (e' = e) by congruence. subst e'. unfold conn_step in E.
    destruct (k_known c) eqn:K; [|discriminate].
    destruct (simplify _ _ _ c) as [mk|e''] eqn:Es; [discriminate|].
    assert (e'' = e) by congruence. subst e''. rewrite !E1 in Es.
    unfold simplify in Es. destruct (Nat.ltb 3 _) eqn:EL.
    + split; [congruence|]. exists c. split; [cbn; auto|split; [auto|]]. apply Nat.ltb_lt in EL. exact EL.
    + destruct (v_set (vs_heap s (k_h c))), (v_set (vs_heap s (k_p c))), (k_T c), (k_Td c), (k_x c); discriminate.
  - intros H. destruct (IH s3) as (A & c' & B & D); auto.
    { intros x. rewrite <- E1, <- (conn_step_vset s1 c x), E. reflexivity. }
    split; [auto|]. exists c'; cbn; auto.
Qed.

(** Conversely an overspecified connection is rejected. *)
Lemma overspecified_rejected bs cs cps s c : In c cs -> k_known c = true -> 3 < num_specs (vs_heap s) c ->
  exists s' e, number_unknowns bs cs cps s = (s', Some e).
Proof.
  intros Hc K L. unfold number_unknowns. set (s1 := assign_fluids bs (fresh s)).
  assert (E1 : forall x, v_set (vs_heap s1 x) = v_set (vs_heap s x)) by (intros x; unfold s1; now rewrite assign_fluids_heap).
  clearbody s1.
  enough (H : exists s2 e, conn_loop cs s1 = (s2, Some e)).
  { destruct H as (s2 & e & ->). exists s2, e. reflexivity. }
  revert s1 E1. induction cs as [|a cs IH]; intros s1 E1; cbn [conn_loop]; [destruct Hc|].
  destruct (conn_step s1 a) as [s3 o] eqn:E. destruct o as [e|]; [exists s3, e; reflexivity|].
  destruct Hc as [->|Hc].
  - exfalso. unfold conn_step in E. rewrite K in E. unfold simplify in E. rewrite !E1 in E.
    assert (X : Nat.ltb 3 (num_specs (vs_heap s) c) = true) by (now apply Nat.ltb_lt).
    unfold num_specs in X. rewrite X in E. discriminate.
  - apply IH; [auto|]. intros x. rewrite <- E1, <- (conn_step_vset s1 a x), E. reflexivity.
Qed.

(** Containers removed by presolving. *)
Definition pins (h : nat -> vcont) (c : vconn) : list nat :=
  match (if k_known c then simplify (v_set (h (k_m c))) (v_set (h (k_p c))) (v_set (h (k_h c))) c else Ok nomarks) with
  | Ok mk => (if mk_p mk then [k_p c] else []) ++ (if mk_h mk then [k_h c] else [])
  | Err _ => []
  end.

Lemma pins_In h c x : (exists mk, (if k_known c then simplify (v_set (h (k_m c))) (v_set (h (k_p c))) (v_set (h (k_h c))) c else Ok nomarks) = Ok mk) ->
  (In x (pins h c) <-> (x = k_p c /\ p_pinned h c) \/ (x = k_h c /\ h_pinned h c)).
Proof.
  intros (mk & E). unfold pins. rewrite E. unfold p_pinned, h_pinned.
  destruct (k_known c) eqn:K.
  - apply simplify_marks in E. destruct E as (A & B & _).
    rewrite in_app_iff. destruct (mk_p mk), (mk_h mk); cbn; intuition congruence.
  - inversion E; subst. cbn. intuition congruence.
Qed.

Lemma pins_ext h h' c : (forall x, v_set (h x) = v_set (h' x)) -> pins h c = pins h' c.
Proof. intros E. unfold pins. now rewrite !E. Qed.

Lemma pins_ph h c x : In x (pins h c) -> In x (ph c).
Proof.
  unfold pins. destruct (if k_known c then _ else _) as [mk|e]; [|cbn; tauto].
  rewrite in_app_iff. destruct (mk_p mk), (mk_h mk); cbn; tauto.
Qed.

Lemma pins_NoDup h c : NoDup (ph c) -> NoDup (pins h c).
Proof.
  unfold pins, ph. intros H. inversion H as [|? ? A B]; subst.
  destruct (if k_known c then _ else _) as [mk|e]; [|constructor].
  destruct (mk_p mk), (mk_h mk); cbn; auto; repeat constructor; auto.
Qed.

Lemma conn_loop_balance cs : forall s s', core s ->
  (forall x, v_solved (vs_heap s x) = false) ->
  NoDup (flat_map ph cs) -> (forall c c', In c cs -> In c' cs -> ~ In (k_m c) (ph c')) ->
  (forall c x, In c cs -> In x (ph c) -> ~ In x (vs_vars s)) ->
  conn_loop cs s = (s', None) ->
  length (flat_map (fun l => l) (vs_eqs s')) + length (flat_map (pins (vs_heap s)) cs) =
  length (flat_map (fun l => l) (vs_eqs s)) + length (flat_map (equations nomarks) cs) /\
  NoDup (flat_map (pins (vs_heap s)) cs) /\
  (forall c, In c cs -> exists mk, (if k_known c then simplify (v_set (vs_heap s (k_m c))) (v_set (vs_heap s (k_p c))) (v_set (vs_heap s (k_h c))) c else Ok nomarks) = Ok mk).
Proof.
  induction cs as [|c cs IH]; intros s s' C Hs Hd Hm Hv; cbn [conn_loop].
  - intros H. apply (f_equal fst) in H; cbn [fst] in H. subst s'. cbn. split; [lia|split; [constructor|tauto]].
  - destruct (conn_step s c) as [s1 o] eqn:E1. destruct o; [discriminate|]. intros H.
    cbn [flat_map] in Hd. apply NoDup_app_inv in Hd. destruct Hd as (D1 & D2 & D3).
    assert (Nph : k_p c <> k_h c). { inversion D1 as [|? ? A B]; subst. cbn in A. intros X; apply A; auto. }
    assert (Nm := Hm c c (or_introl eq_refl) (or_introl eq_refl)). cbn in Nm.
    assert (EQ : exists mk, (if k_known c then simplify (v_set (vs_heap s (k_m c))) (v_set (vs_heap s (k_p c))) (v_set (vs_heap s (k_h c))) c else Ok nomarks) = Ok mk /\
                  vs_eqs s1 = vs_eqs s ++ [equations mk c]).
    { revert E1. unfold conn_step. destruct (if k_known c then _ else _) as [mk|e]; [|discriminate].
      intros E1. exists mk. split; [auto|]. apply (f_equal fst) in E1. cbn [fst] in E1. subst s1. cbn [vs_eqs].
      unfold assign_conn. f_equal.
      assert (X : forall t y, vs_eqs (assign_one t y) = vs_eqs t).
      { intros t y. unfold assign_one. destruct (_ && _); [destruct (negb _)|destruct (v_set _)]; reflexivity. }
      now rewrite !X. }
    destruct EQ as (mk & EQ1 & EQ2).
    destruct (conn_step_effect s c s1) as (C1 & S1 & T1 & V1 & _); auto.
    { apply (Hv c); cbn; auto. } { apply (Hv c); cbn; auto. }
    destruct (IH s1 s') as (A & B & M); auto.
    { intros a b Ha Hb. apply Hm; cbn; auto. }
    { intros c' x Hc Hx. rewrite V1. intros [Z|(_ & Z)].
      - revert Z. apply (Hv c'); cbn; auto.
      - destruct Z as [->|[(-> & _)|(-> & _)]].
        + revert Hx. apply Hm; cbn; auto.
        + apply (D3 (k_p c)); [cbn; auto|]. apply in_flat_map. exists c'; auto.
        + apply (D3 (k_h c)); [cbn; auto|]. apply in_flat_map. exists c'; auto. }
    assert (PE : flat_map (pins (vs_heap s1)) cs = flat_map (pins (vs_heap s)) cs).
    { rewrite !flat_map_concat_map. f_equal. apply map_ext. intros a. now apply pins_ext. }
    rewrite PE in A, B. cbn [flat_map]. rewrite !app_length.
    rewrite EQ2 in A. rewrite flat_map_app, app_length in A. cbn [flat_map] in A. rewrite app_nil_r in A.
    split; [|split].
    + assert (L : length (equations mk c) + length (pins (vs_heap s) c) = length (equations nomarks c)).
      { unfold pins. rewrite EQ1. rewrite app_length. destruct (k_known c).
        - apply presolve_balance in EQ1. destruct EQ1 as (Z & _). destruct (mk_p mk), (mk_h mk); cbn in *; lia.
        - inversion EQ1; subst. cbn. lia. }
      lia.
    + apply NoDup_app_intro; [now apply pins_NoDup|auto|].
      intros x X1 X2. apply pins_ph in X1. apply in_flat_map in X2. destruct X2 as (c' & Y1 & Y2).
      apply pins_ph in Y2. apply (D3 x X1). apply in_flat_map. exists c'; auto.
    + intros c' [<-|Hc]; [exists mk; auto|]. destruct (M c' Hc) as (mk' & Z). exists mk'. now rewrite <- !T1.
Qed.

Lemma same_length {A} (l l' : list A) : NoDup l -> NoDup l' -> (forall x, In x l <-> In x l') -> length l = length l'.
Proof.
  intros H H' E. apply Nat.le_antisymm; apply NoDup_incl_length; auto; intros x; apply E.
Qed.

Lemma filter_split {A} (f : A -> bool) l : length (filter f l) + length (filter (fun x => negb (f x)) l) = length l.
Proof. induction l as [|a l IH]; cbn; [auto|]. destruct (f a); cbn; lia. Qed.

Definition fluid_unknowns (bs : list (nat * list string)) : list unknown := flat_map (fun b => map (UFluid (fst b)) (snd b)) bs.

Lemma fluid_unknowns_NoDup bs : NoDup (map fst bs) -> (forall b fs, In (b, fs) bs -> NoDup fs) -> NoDup (fluid_unknowns bs).
Proof.
  unfold fluid_unknowns. induction bs as [|[b fs] bs IH]; cbn; intros H H'; [constructor|].
  inversion H as [|? ? A B]; subst. apply NoDup_app_intro.
  - apply Injective_map_NoDup; [|apply (H' b); auto]. intros x y E; now inversion E.
  - apply IH; [auto|]. intros b' fs' X. apply (H' b'); auto.
  - intros u X Y. apply in_map_iff in X. destruct X as (f & <- & _). apply in_flat_map in Y.
    destruct Y as ([b' fs'] & Y1 & Y2). apply in_map_iff in Y2. destruct Y2 as (f' & E & _). inversion E; subst.
    apply A. change b with (fst (b, fs')). now apply in_map.
Qed.

Lemma fluid_unknowns_length bs : length (fluid_unknowns bs) = length (flat_map snd bs).
Proof.
  unfold fluid_unknowns. induction bs as [|[b fs] bs IH]; cbn; [auto|]. rewrite !app_length, map_length. lia.
Qed.

Lemma ph_NoDup cs c : NoDup (flat_map ph cs) -> In c cs -> NoDup (ph c).
Proof.
  induction cs as [|a cs IH]; cbn [flat_map]; intros H; [cbn; tauto|].
  apply NoDup_app_inv in H. destruct H as (A & B & _). intros [->|X]; auto.
Qed.

Lemma ph_unique cs c c' x : NoDup (flat_map ph cs) -> In c cs -> In c' cs -> In x (ph c) -> In x (ph c') -> c' = c.
Proof.
  induction cs as [|a cs IH]; cbn [flat_map]; intros H; [cbn; tauto|].
  apply NoDup_app_inv in H. destruct H as (A & B & D).
  intros [->|X] [->|Y] P Q; auto.
  - exfalso. apply (D x P). apply in_flat_map. exists c'; auto.
  - exfalso. apply (D x Q). apply in_flat_map. exists c; auto.
Qed.

Lemma network_balance bs cs s s' : wf_net bs cs [] (vs_heap s) -> number_unknowns bs cs [] s = (s', None) ->
  exists removed,
    length (flat_map (fun l => l) (vs_eqs s')) + removed = length (flat_map (equations nomarks) cs) /\
    num_vars s' + removed = length (flat_map snd bs) + length (nodup Nat.eq_dec
      (filter (fun x => negb (v_set (vs_heap s x))) (flat_map (fun c => [k_m c; k_p c; k_h c]) cs))).
Proof.
  intros W H. assert (W0 := W). destruct W as (W1 & W2 & _ & _ & W5 & W6 & W7).
  destruct (number_unknowns_sound _ _ _ _ _ W0 H) as (A & B & _ & F & _).
  unfold number_unknowns in H. cbn [fold_left] in H.
  destruct (branches_effect bs (fresh s) (core_fresh s) W1 W2) as (C1 & A1 & A2 & A3 & A4).
  { intros b fs f _. cbn. tauto. }
  set (s1 := assign_fluids bs (fresh s)) in *.
  destruct (conn_loop cs s1) as [s2 o] eqn:El. destruct o; [discriminate|].
  apply (f_equal fst) in H; cbn [fst] in H. subst s2.
  destruct (conn_loop_balance cs s1 s' C1) as (L & N & M); auto.
  { intros x. rewrite A1. apply W7. }
  { intros c x _ _. rewrite A2. cbn. tauto. }
  rewrite A1 in L, N, M. rewrite A3 in L. cbn [fresh vs_heap vs_eqs flat_map length Nat.add] in L, N, M.
  exists (length (flat_map (pins (vs_heap s)) cs)). split; [exact L|].
  set (K := nodup Nat.eq_dec (filter (fun x => negb (v_set (vs_heap s x))) (flat_map (fun c => [k_m c; k_p c; k_h c]) cs))).
  set (P := fun x => negb (existsb (Nat.eqb x) (flat_map (pins (vs_heap s)) cs))).
  assert (NK : NoDup K) by apply NoDup_nodup.
  assert (KIn : forall x, In x K <-> v_set (vs_heap s x) = false /\ exists c, In c cs /\ (x = k_m c \/ x = k_p c \/ x = k_h c)).
  { intros x. unfold K. rewrite nodup_In, filter_In, negb_true_iff, in_flat_map. cbn. split.
    - intros ((c & X & Y) & Z). split; [auto|]. exists c. intuition.
    - intros (Z & c & X & Y). split; [|auto]. exists c. intuition. }
  assert (PIn : forall x, In x (flat_map (pins (vs_heap s)) cs) <-> exists c, In c cs /\ ((x = k_p c /\ p_pinned (vs_heap s) c) \/ (x = k_h c /\ h_pinned (vs_heap s) c))).
  { intros x. rewrite in_flat_map. split; intros (c & X & Y); exists c; (split; [auto|]); apply (pins_In _ _ _ (M c X)); auto. }
  assert (E1 : length (filter (fun x => negb (P x)) K) = length (flat_map (pins (vs_heap s)) cs)).
  { apply same_length; [now apply NoDup_filter|auto|]. intros x. unfold P. rewrite filter_In, negb_involutive, existsb_eqb_In.
    split; [tauto|]. intros X. split; [|auto]. apply KIn. apply PIn in X. destruct X as (c & X & [(-> & Y)|(-> & Y)]).
    - split; [apply Y|]. exists c; auto.
    - split; [apply Y|]. exists c; auto. }
  assert (E2 : length (vs_dict s') = length (fluid_unknowns bs ++ map UConn (filter P K))).
  { rewrite <- (map_length snd). apply same_length; [auto| |].
    - apply NoDup_app_intro.
      + now apply fluid_unknowns_NoDup.
      + apply Injective_map_NoDup; [|now apply NoDup_filter]. intros x y E; now inversion E.
      + intros u X Y. apply in_map_iff in Y. destruct Y as (x & <- & _). unfold fluid_unknowns in X.
        apply in_flat_map in X. destruct X as (b & _ & X). apply in_map_iff in X. destruct X as (? & X & _). discriminate.
    - intros u. rewrite F, in_app_iff. destruct u as [b f|x|cp p]; cbn.
      + unfold fluid_unknowns. rewrite in_flat_map, in_map_iff. split.
        * intros (fs & X & Y). left. exists (b, fs). split; [auto|]. now apply in_map.
        * intros [([b' fs] & X & Y)|(x & X & _)]; [|discriminate]. apply in_map_iff in Y.
          destruct Y as (f' & Y & Z). inversion Y; subst. exists fs; auto.
      + rewrite in_map_iff. split.
        * intros (c & X & Y & Z). right. exists x. split; [auto|]. apply filter_In. split.
          -- apply KIn. split; [auto|]. exists c. tauto.
          -- unfold P. apply negb_true_iff. apply not_true_is_false. rewrite existsb_eqb_In, PIn.
             intros (c' & X' & Z').
             assert (In x (ph c')) by (cbn; destruct Z' as [(-> & _)|(-> & _)]; auto).
             destruct Z as [->|[(-> & Z)|(-> & Z)]].
             ++ apply (W6 c c'); auto.
             ++ assert (c' = c) by (eapply ph_unique; eauto; cbn; auto). subst c'.
                destruct Z' as [(_ & Z')|(Z' & _)]; [auto|].
                assert (Hn : NoDup (ph c)) by (eapply ph_NoDup; eauto). inversion Hn as [|? ? Q1 Q2]; subst. apply Q1; cbn; auto.
             ++ assert (c' = c) by (eapply ph_unique; eauto; cbn; auto). subst c'.
                destruct Z' as [(Z' & _)|(_ & Z')]; [|auto].
                assert (Hn : NoDup (ph c)) by (eapply ph_NoDup; eauto). inversion Hn as [|? ? Q1 Q2]; subst. apply Q1; cbn; auto.
        * intros [X|(y & X & Y)].
          -- unfold fluid_unknowns in X. apply in_flat_map in X. destruct X as (b & _ & X). apply in_map_iff in X.
             destruct X as (? & X & _). discriminate.
          -- inversion X; subst y. apply filter_In in Y. destruct Y as [Y1 Y2]. apply KIn in Y1.
             destruct Y1 as (Y1 & c & Y3 & Y4). exists c. split; [auto|split; [auto|]].
             unfold P in Y2. apply negb_true_iff in Y2.
             assert (Y5 : ~ In x (flat_map (pins (vs_heap s)) cs)) by (rewrite <- existsb_eqb_In; congruence).
             rewrite PIn in Y5. destruct Y4 as [Y4|[Y4|Y4]]; [auto|right; left|right; right]; (split; [auto|]);
               intros Z; apply Y5; exists c; auto.
      + rewrite in_map_iff. split.
        * intros (ps & [] & _).
        * intros [X|(y & X & _)]; [|discriminate]. unfold fluid_unknowns in X. apply in_flat_map in X.
          destruct X as (b & _ & X). apply in_map_iff in X. destruct X as (? & X & _). discriminate. }
  assert (E3 : num_vars s' = length (vs_dict s')).
  { rewrite <- (map_length fst), A, seq_length. reflexivity. }
  rewrite E3, E2, app_length, map_length, fluid_unknowns_length, <- E1.
  assert (E4 := filter_split P K). lia.
Qed.

Lemma asked_equations c : length (equations nomarks c) = asked c.
Proof.
  unfold equations, asked, nomarks; cbn [mk_T mk_x mk_Td]. rewrite !app_length, !Bool.andb_true_r.
  destruct (k_T c), (k_v c), (k_x c), (k_Td c); reflexivity.
Qed.
Lemma presolve_asked m_set p_set h_set c mk : simplify m_set p_set h_set c = Ok mk ->
  length (equations mk c) + b2n (mk_p mk) + b2n (mk_h mk) = asked c.
Proof. intros H. rewrite <- asked_equations. now apply presolve_balance in H. Qed.
Lemma network_asked bs cs s s' : wf_net bs cs [] (vs_heap s) -> number_unknowns bs cs [] s = (s', None) ->
  exists removed,
    length (flat_map (fun l => l) (vs_eqs s')) + removed = fold_right (fun c n => asked c + n) 0 cs /\
    num_vars s' + removed = length (flat_map snd bs) + length (nodup Nat.eq_dec
      (filter (fun x => negb (v_set (vs_heap s x))) (flat_map (fun c => [k_m c; k_p c; k_h c]) cs))).
Proof.
  intros W H. destruct (network_balance _ _ _ _ W H) as (r & A & B). exists r. split; [|exact B]. rewrite A.
  clear. induction cs as [|c cs IH]; cbn [flat_map fold_right]; [reflexivity|]. now rewrite app_length, asked_equations, IH.
Qed.
