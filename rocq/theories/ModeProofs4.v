(** Proofs about design and offdesign mode: components, design values. *)
From Coq Require Import QArith.
From Verif Require Import Base ModeModel ModeSpec ModeProofs ModeProofs2 ModeProofs3.
Open Scope string_scope.
Open Scope list_scope.

Lemma history_comp : forall u files rs last st st' l c v q, runs u files (rs ++ [last]) st = Some st' ->
  dget l (t_comps st) = Some c -> p_ldes c = false -> p_loff c = false -> dget v (p_pars c) = Some q ->
  exists c' q', dget l (t_comps st') = Some c' /\ cframe c c' /\ dget v (p_pars c') = Some q' /\ q_num q' = q_num q
  /\ t_redesign st' = t_redesign st || existsb offdesign (rs ++ [last])
  /\ q_set q' = expected (p_des c) (p_off c) (t_redesign st || existsb offdesign (rs ++ [last])) last v (q_set q)
  /\ (offdesign last = true -> smem v (p_off c) = true -> q_num q = true -> q_val q' = q_design q').
Proof.
  intros u files rs. induction rs as [| r rs IH] using rev_ind; intros last st st' l c v k E D LD LO DK.
  - cbn [app runs] in E. destruct (solve u files (r_mode last) (r_path last) (r_sol last) st) as [st1 [e |]] eqn:S; [discriminate |]. injection E as <-.
    cbn [app existsb]. rewrite orb_false_r. unfold expected, offdesign. destruct (solve_mode _ _ _ _ _ _ _ S) as [M | M]; rewrite M in S |- *; cbn [String.eqb Ascii.eqb Bool.eqb].
    + apply solve_off in S as (P & _ & _ & RE & _ & G). destruct (G l c D) as (c' & D' & F & _ & LF & _).
      destruct (LF LD v k DK) as (k' & DK' & S' & N' & I & _). exists c', k'. repeat split; try assumption; try apply F; [rewrite RE; now rewrite orb_true_r | intros _; exact I].
    + apply solve_des in S as (_ & RE & _ & G). destruct (G l c D) as (c' & D' & F & _ & LF). destruct (LF LO) as (_ & V).
      destruct (V v k DK) as (k' & DK' & N' & S'). exists c', k'. rewrite orb_false_r. repeat split; try assumption; try apply F; [| discriminate].
      rewrite S'. destruct (t_redesign st); reflexivity.
  - apply runs_app in E as (st1 & E1 & E2). destruct (IH r st st1 l c v k E1 D LD LO DK) as (c1 & k1 & D1 & F1 & DK1 & N1 & RE1 & S1 & _).
    set (seen := t_redesign st || existsb offdesign (rs ++ [r])) in *.
    assert (SE : t_redesign st || existsb offdesign ((rs ++ [r]) ++ [last]) = seen || offdesign last).
    { unfold seen. rewrite (existsb_app _ (rs ++ [r])). cbn [existsb]. rewrite orb_false_r, orb_assoc. reflexivity. }
    assert (OR : String.eqb (r_mode r) "offdesign" = true -> seen = true).
    { intro X. unfold seen. rewrite existsb_app. cbn [existsb]. unfold offdesign at 2. rewrite X, orb_true_r. apply orb_true_r. }
    rewrite SE. clearbody seen.
    cbn [runs] in E2. destruct (solve u files (r_mode last) (r_path last) (r_sol last) st1) as [st2 [e |]] eqn:S; [discriminate |]. injection E2 as <-.
    assert (LDE : p_ldes c1 = false) by (rewrite <- LD; apply F1). assert (LOE : p_loff c1 = false) by (rewrite <- LO; apply F1).
    assert (OFE : p_off c1 = p_off c) by apply F1. assert (DEE : p_des c1 = p_des c) by apply F1.
    destruct (solve_mode _ _ _ _ _ _ _ S) as [M | M]; unfold offdesign in *; rewrite M in S |- *; cbn [String.eqb Ascii.eqb Bool.eqb].
    + apply solve_off in S as (P & _ & _ & RE & _ & G). destruct (G l c1 D1) as (c' & D' & F & _ & LF & _).
      destruct (LF LDE v k1 DK1) as (k' & DK' & S' & N' & I & _). exists c', k'. rewrite OFE, DEE in *. split; [exact D' |]. split; [exact (cframe_trans _ _ _ F1 F) |]. split; [exact DK' |].
      split; [congruence |]. split; [rewrite RE; now rewrite orb_true_r |]. split; [| intros _ X Y; apply I; congruence]. rewrite S', S1. unfold expected, offdesign. rewrite M. cbn [String.eqb Ascii.eqb Bool.eqb].
      destruct (smem v (p_off c)), (smem v (p_des c)), (String.eqb (r_mode r) "offdesign"), seen; reflexivity.
    + apply solve_des in S as (_ & RE & _ & G). destruct (G l c1 D1) as (c' & D' & F & _ & LF). destruct (LF LOE) as (_ & V).
      destruct (V v k1 DK1) as (k' & DK' & N' & S'). exists c', k'. rewrite OFE, DEE in *. split; [exact D' |]. split; [exact (cframe_trans _ _ _ F1 F) |]. split; [exact DK' |].
      split; [congruence |]. rewrite orb_false_r. split; [congruence |]. split; [| discriminate]. rewrite S', S1, RE1. unfold expected, offdesign. rewrite M. cbn [String.eqb Ascii.eqb Bool.eqb].
      destruct (smem v (p_off c)) eqn:X, (smem v (p_des c)) eqn:Y, (String.eqb (r_mode r) "offdesign") eqn:Z, seen eqn:W; cbn [andb]; try reflexivity; specialize (OR eq_refl); discriminate.
Qed.

(** Statements in terms of the vocabulary *)
Lemma wf_named : forall st l c v k, wf st -> dget l (t_conns st) = Some c -> dget v (n_props c) = Some k -> named c v.
Proof.
  intros st l c v k W D DK. destruct (W l c v D) as (NM & NF). { apply dget_In in DK. apply in_map_iff. exists (v, k). auto. }
  split; [exact NM |]. destruct (dmem v (n_flags c)) eqn:X; [| reflexivity]. apply dmem_In in X. contradiction.
Qed.
Theorem flags_conn : forall u files rs last st st' l c v k, wf st -> runs u files (rs ++ [last]) st = Some st' ->
  dget l (t_conns st) = Some c -> n_ldes c = false -> n_loff c = false -> prop st l v = Some k ->
  exists k', prop st' l v = Some k'
  /\ k_set k' = expected (n_des c) (n_off c) (t_redesign st || existsb offdesign (rs ++ [last])) last v (k_set k)
  /\ (offdesign last = true -> In v (n_off c) -> k_SI k' = k_design k').
Proof.
  intros u files rs last st st' l c v k W E D LD LO P. unfold prop in P. rewrite D in P.
  destruct (history_conn _ _ _ _ _ _ _ _ _ _ E D LD LO (wf_named _ _ _ _ _ W D P) P) as (c' & k' & D' & F & P' & _ & S & I).
  exists k'. unfold prop. rewrite D'. split; [exact P' |]. split; [exact S |]. intros O X. apply I; [exact O | now apply smem_In].
Qed.
Theorem flags_comp : forall u files rs last st st' l c v q, runs u files (rs ++ [last]) st = Some st' ->
  dget l (t_comps st) = Some c -> p_ldes c = false -> p_loff c = false -> param st l v = Some q ->
  exists q', param st' l v = Some q'
  /\ q_set q' = expected (p_des c) (p_off c) (t_redesign st || existsb offdesign (rs ++ [last])) last v (q_set q)
  /\ (offdesign last = true -> In v (p_off c) -> q_num q = true -> q_val q' = q_design q').
Proof.
  intros u files rs last st st' l c v k E D LD LO P. unfold param in P. rewrite D in P.
  destruct (history_comp _ _ _ _ _ _ _ _ _ _ E D LD LO P) as (c' & k' & D' & F & P' & _ & _ & S & I).
  exists k'. unfold param. rewrite D'. split; [exact P' |]. split; [exact S |]. intros O X. apply I; [exact O | now apply smem_In].
Qed.
(** Back in design mode everything is as before *)
Lemma expected_back : forall des off seen last v b, offdesign last = false ->
  (In v des -> b = true) -> (In v off -> b = false) -> expected des off seen last v b = b.
Proof.
  intros des off seen last v b O A B. unfold expected. rewrite O. destruct seen; [| reflexivity].
  destruct (smem v off) eqn:X; [apply smem_In in X; symmetry; auto |]. destruct (smem v des) eqn:Y; [apply smem_In in Y; symmetry; auto | reflexivity].
Qed.
Theorem back_conn : forall u files rs last st st' l c v k, wf st -> runs u files (rs ++ [last]) st = Some st' ->
  offdesign last = false -> dget l (t_conns st) = Some c -> n_ldes c = false -> n_loff c = false -> prop st l v = Some k ->
  (In v (n_des c) -> k_set k = true) -> (In v (n_off c) -> k_set k = false) ->
  exists k', prop st' l v = Some k' /\ k_set k' = k_set k.
Proof.
  intros u files rs last st st' l c v k W E O D LD LO P A B. destruct (flags_conn _ _ _ _ _ _ _ _ _ _ W E D LD LO P) as (k' & P' & S & _).
  exists k'. split; [exact P' |]. rewrite S. now apply expected_back.
Qed.
Theorem back_comp : forall u files rs last st st' l c v q, runs u files (rs ++ [last]) st = Some st' ->
  offdesign last = false -> dget l (t_comps st) = Some c -> p_ldes c = false -> p_loff c = false -> param st l v = Some q ->
  (In v (p_des c) -> q_set q = true) -> (In v (p_off c) -> q_set q = false) ->
  exists q', param st' l v = Some q' /\ q_set q' = q_set q.
Proof.
  intros u files rs last st st' l c v k E O D LD LO P A B. destruct (flags_comp _ _ _ _ _ _ _ _ _ _ E D LD LO P) as (k' & P' & S & _).
  exists k'. split; [exact P' |]. rewrite S. now apply expected_back.
Qed.

(** References *)
Lemma off_refs : forall u files path sol st st' l c v b, solve u files "offdesign" path sol st = (st', None) ->
  dget l (t_conns st) = Some c -> n_ldes c = false -> v <> "m" -> reference st l v = Some b ->
  reference st' l v = Some (if smem v (n_des c) || existsb (fun w => String.eqb v (w ++ "_ref")%string) (n_des c) then false else b).
Proof.
  intros u files path sol st st' l c v b E D LD NM R. apply solve_off in E as (P & _ & _ & _ & G & _). destruct (G l c D) as (c' & D' & F & LF & _).
  destruct (LF LD) as (_ & L & _). unfold reference in *. rewrite D in R. rewrite D', L, R by exact NM.
  destruct (smem v (n_des c) || _); reflexivity.
Qed.

(** Design values *)
Definition fresh_or_read (files : string -> file) (st : net) : Prop :=
  forall P, t_path st = Some P ->
  (forall l c v k, dget l (t_conns st) = Some c -> n_ldes c = false -> n_new c = false -> named c v -> dget v (n_props c) = Some k ->
     k_design k = table_conn (tables files (n_path c) P) l v)
  /\ (forall l c v q, dget l (t_comps st) = Some c -> p_ldes c = false -> (p_loff c = false \/ p_path c <> None) -> p_new c = false ->
     dget l (f_comps (files P)) <> None -> dget v (p_pars c) = Some q -> q_num q = true ->
     q_design q = table_comp (tables files (p_path c) P) l v).
Lemma keys_back : forall V W (a : dict V) (b : dict W) k y, keys a = keys b -> dget k b = Some y -> exists x, dget k a = Some x.
Proof.
  intros V W a b k y E D. destruct (dget k a) eqn:X; [eauto |]. apply dget_None_notin in X. exfalso. apply X. rewrite E.
  apply dget_In in D. apply in_map_iff. exists (k, y). auto.
Qed.
Lemma existsb_false : forall V (f : string * V -> bool) d l c, existsb f d = false -> dget l d = Some c -> f (l, c) = false.
Proof.
  intros V f d l c E D. apply dget_In in D. destruct (f (l, c)) eqn:X; [| reflexivity].
  assert (existsb f d = true) by (apply existsb_exists; eauto). congruence.
Qed.
Lemma reload_false : forall st P, needs_design st (Some P) = false -> t_path st = Some P
  /\ (forall l c, dget l (t_conns st) = Some c -> n_new c = false) /\ (forall l c, dget l (t_comps st) = Some c -> p_new c = false).
Proof.
  intros st P E. unfold needs_design in E. destruct (t_path st) as [P' |]; [| discriminate]. destruct (String.eqb P' P) eqn:X; [| discriminate]. apply String.eqb_eq in X. subst P'.
  apply orb_false_elim in E as (A & B). split; [reflexivity |]. split; intros l c D; [exact (existsb_false _ _ _ _ _ A D) | exact (existsb_false _ _ _ _ _ B D)].
Qed.
(** After one calculation; the tables of connections and components have the same
    labels before and after *)
Lemma solve_keys : forall u files mode path sol st st', solve u files mode path sol st = (st', None) ->
  keys (t_conns st') = keys (t_conns st) /\ keys (t_comps st') = keys (t_comps st).
Proof.
  intros u files mode path sol st st' E. unfold solve in E. destruct (negb (String.eqb mode "design" || String.eqb mode "offdesign")); [discriminate |].
  apply andthen_ok in E as (st1 & I & E). unfold initialise in I. apply andthen_ok in I as (sa & I1 & I). apply andthen_ok in I as (sb & I2 & I).
  destruct (head_conns u _ _ _ I1 I2) as ((KA & _) & CA & _). cbn [start t_conns t_comps] in KA, CA.
  apply andthen_ok in E as (s1 & E1 & E). apply andthen_ok in E as (s2 & E2 & E3).
  destruct (tail_spec u sol _ _ _ _ E1 E2 E3) as ((KT & _) & _ & _ & CT & _). clear E1 E2 E3 s1 s2.
  assert (X : keys (t_conns st1) = keys (t_conns sb) /\ keys (t_comps st1) = keys (t_comps sb)).
  { destruct (String.eqb mode "offdesign").
    - cbn [redesigned t_path t_new] in I. destruct (t_path sb) as [P |]; [| discriminate]. apply andthen_ok in I as (sc & I3 & I4).
      unfold init_offdesign in I4. apply andthen_ok in I4 as (sd & I4 & I5). apply over_conns_get in I4 as (C4 & _ & _ & _ & _ & K4 & _).
      apply over_comps_get in I5 as (C5 & _ & _ & _ & _ & _ & K5 & _). rewrite C5, K5, K4, C4.
      destruct (t_new sb); [| injection I3 as <-; auto]. unfold load in I3. apply andthen_ok in I3 as (se & I3 & I6).
      apply over_conns_get in I6 as (C6 & _ & _ & _ & _ & K6 & _). rewrite K6, C6. pose proof (load_comps_spec _ _ _ _ I3) as (C3 & _). rewrite C3.
      split; [reflexivity |]. clear - I3. unfold load_comps in I3. set (step := fun (r : net * option pyerr) l => andthen r _) in I3.
      assert (STUCK : forall ls s e, fold_left step ls (s, Some e) = (s, Some e)) by (induction ls; intros; cbn; auto).
      change (keys (t_comps sb)) with (keys (t_comps (redesigned sb))). revert I3. generalize (redesigned sb) as s. generalize (keys (f_comps (files P))) as ls.
      induction ls as [| l0 ls IH]; intros s I3; [injection I3 as <-; reflexivity |]. cbn [fold_left] in I3. unfold step in I3 at 2. cbn [andthen] in I3.
      destruct (dget l0 (t_comps s)) as [c0 |] eqn:D0; [| rewrite STUCK in I3; discriminate].
      destruct (dget l0 (f_comps (match p_path c0 with Some p => files p | None => files P end))) as [row |]; [| rewrite STUCK in I3; discriminate].
      destruct (set_parameters false (Some row) c0) as [c1 [e |]]; [rewrite STUCK in I3; discriminate |]. apply IH in I3. rewrite I3. cbn.
      now apply (dset_keys _ _ _ c0).
    - unfold init_design in I. apply andthen_ok in I as (sc & I3 & I4). apply over_conns_get in I3 as (C3 & _ & _ & _ & _ & K3 & _).
      apply over_comps_get in I4 as (C4 & _ & _ & _ & _ & _ & K4 & _). rewrite C4, K4, K3, C3. auto. }
  destruct X as (X & Y). split; congruence.
Qed.

Lemma read_step : forall u files mode path sol st st', solve u files mode path sol st = (st', None) ->
  fresh_or_read files st -> fresh_or_read files st'.
Proof.
  intros u files mode path sol st st' E INV P TP. destruct (solve_keys _ _ _ _ _ _ _ E) as (KC & KP). destruct (solve_mode _ _ _ _ _ _ _ E) as [-> | ->].
  - apply solve_off in E as (P' & -> & TP' & _ & G & H). assert (P' = P) by congruence. subst P'. split.
    + intros l c' v k' D' LD NN NV DK'. destruct (keys_back _ _ _ _ _ _ (eq_sym KC) D') as (c & D). destruct (G l c D) as (c2 & D2 & F & LF & _).
      rewrite D' in D2. injection D2 as <-. assert (LDE : n_ldes c = false) by (rewrite <- LD; symmetry; apply F). destruct (LF LDE) as (_ & _ & V).
      assert (KP' : keys (n_props c') = keys (n_props c)) by apply F. destruct (keys_back _ _ _ _ _ _ (eq_sym KP') DK') as (k & DK).
      assert (NVc : named c v). { destruct NV as (A & B). split; [exact A |]. rewrite <- B. apply dmem_keys. symmetry. apply F. }
      destruct (V v k DK NVc) as (k2 & DK2 & _ & E2 & _). rewrite DK' in DK2. injection DK2 as <-.
      assert (PE : n_path c' = n_path c) by apply F. rewrite PE, E2. destruct (needs_design st (Some P)) eqn:ND; [reflexivity |].
      apply reload_false in ND as (TPS & ND & _). apply (proj1 (INV P TPS) l c v k D LDE (ND l c D) NVc DK).
    + intros l c' v q' D' LD LO NN COV DQ' QN. destruct (keys_back _ _ _ _ _ _ (eq_sym KP) D') as (c & D). destruct (H l c D) as (c2 & D2 & F & _ & LF & _).
      rewrite D' in D2. injection D2 as <-. assert (LDE : p_ldes c = false) by (rewrite <- LD; symmetry; apply F).
      assert (KP' : keys (p_pars c') = keys (p_pars c)) by apply F. destruct (keys_back _ _ _ _ _ _ (eq_sym KP') DQ') as (q & DQ).
      destruct (LF LDE v q DQ) as (q2 & DQ2 & _ & N2 & _ & RF & RT). rewrite DQ' in DQ2. injection DQ2 as <-.
      assert (PE : p_path c' = p_path c) by apply F. rewrite PE. assert (LOE : p_loff c' = p_loff c) by apply F.
      destruct (needs_design st (Some P)) eqn:ND; [apply RT; congruence || exact COV |]. rewrite RF by reflexivity.
      apply reload_false in ND as (TPS & _ & ND). apply (proj2 (INV P TPS) l c v q D LDE); [rewrite <- LOE, <- PE; exact LO | exact (ND l c D) | exact COV | exact DQ | congruence].
  - apply solve_des in E as (TP' & _ & G & H). split.
    + intros l c' v k' D' LD NN NV DK'. destruct (keys_back _ _ _ _ _ _ (eq_sym KC) D') as (c & D). destruct (G l c D) as (c2 & D2 & F & LT & LF).
      rewrite D' in D2. injection D2 as <-. destruct (n_loff c) eqn:LO; [| destruct (LF eq_refl); congruence]. destruct (LT eq_refl) as (p & PP & _ & V).
      assert (KP' : keys (n_props c') = keys (n_props c)) by apply F. destruct (keys_back _ _ _ _ _ _ (eq_sym KP') DK') as (k & DK).
      assert (NVc : named c v). { destruct NV as (A & B). split; [exact A |]. rewrite <- B. apply dmem_keys. symmetry. apply F. }
      destruct (V v k DK NVc) as (k2 & DK2 & E2 & _). rewrite DK' in DK2. injection DK2 as <-. assert (PE : n_path c' = n_path c) by apply F. rewrite PE, PP. exact E2.
    + intros l c' v q' D' LD LO NN COV DQ' QN. destruct (keys_back _ _ _ _ _ _ (eq_sym KP) D') as (c & D). destruct (H l c D) as (c2 & D2 & F & LT & LF).
      rewrite D' in D2. injection D2 as <-. assert (PE : p_path c' = p_path c) by apply F. assert (LOE : p_loff c' = p_loff c) by apply F.
      destruct (p_loff c) eqn:LOc; [| destruct (LF eq_refl); congruence].
      assert (KP' : keys (p_pars c') = keys (p_pars c)) by apply F. destruct (keys_back _ _ _ _ _ _ (eq_sym KP') DQ') as (q & DQ).
      destruct LO as [LO | LO]; [congruence |]. rewrite PE in LO. destruct (proj2 (LT eq_refl) LO) as (_ & V). destruct (V v q DQ) as (q2 & p & DQ2 & PP & N2 & E2).
      rewrite DQ' in DQ2. injection DQ2 as <-. rewrite PE, PP. cbn. apply E2. congruence.
Qed.
Lemma read_runs : forall u files rs st st', runs u files rs st = Some st' -> fresh_or_read files st -> fresh_or_read files st'.
Proof.
  induction rs as [| r rs IH]; intros st st' E INV; cbn in E; [injection E as <-; exact INV |].
  destruct (solve u files (r_mode r) (r_path r) (r_sol r) st) as [st1 [e |]] eqn:S; [discriminate |]. apply (IH _ _ E). exact (read_step _ _ _ _ _ _ _ S INV).
Qed.
Lemma fresh_read : forall files st, (forall l c, dget l (t_conns st) = Some c -> n_new c = true) -> (forall l c, dget l (t_comps st) = Some c -> p_new c = true) ->
  fresh_or_read files st.
Proof. intros files st A B P _. split; intros; [rewrite (A _ _ H) in *; discriminate | rewrite (B _ _ H) in *; discriminate]. Qed.

Theorem design_conn_values : forall u files rs last st st' P, wf st ->
  (forall l c, dget l (t_conns st) = Some c -> n_new c = true) -> (forall l c, dget l (t_comps st) = Some c -> p_new c = true) ->
  runs u files (rs ++ [last]) st = Some st' -> offdesign last = true -> r_path last = Some P ->
  (forall l c v k', dget l (t_conns st) = Some c -> n_ldes c = false -> prop st' l v = Some k' ->
     k_design k' = table_conn (tables files (n_path c) P) l v)
  /\ (forall l c v q', dget l (t_comps st) = Some c -> p_ldes c = false -> (p_loff c = false \/ p_path c <> None) ->
     dget l (f_comps (files P)) <> None -> param st' l v = Some q' -> q_num q' = true ->
     q_design q' = table_comp (tables files (p_path c) P) l v).
Proof.
  intros u files rs last st st' P W A B E O RP.
  assert (INV : fresh_or_read files st') by exact (read_runs _ _ _ _ _ E (fresh_read _ _ A B)).
  assert (OWN : forall rs st st', runs u files rs st = Some st' -> own st st').
  { clear. induction rs as [| r rs IH]; intros st st' E; cbn in E.
    - injection E as <-. split; intros l c D; exists c; auto using frame_refl, cframe_refl.
    - destruct (solve u files (r_mode r) (r_path r) (r_sol r) st) as [st1 [e |]] eqn:S; [discriminate |]. apply solve_own in S as (S1 & S2). apply IH in E as (E1 & E2). split; intros l c D.
      + destruct (S1 l c D) as (c1 & D1 & F1). destruct (E1 l c1 D1) as (c2 & D2 & F2). exists c2. split; [exact D2 | exact (frame_trans _ _ _ F1 F2)].
      + destruct (S2 l c D) as (c1 & D1 & F1). destruct (E2 l c1 D1) as (c2 & D2 & F2). exists c2. split; [exact D2 | exact (cframe_trans _ _ _ F1 F2)]. }
  destruct (OWN _ _ _ E) as (OC & OP). apply runs_app in E as (st1 & E1 & E2). cbn [runs] in E2.
  destruct (solve u files (r_mode last) (r_path last) (r_sol last) st1) as [st2 [e |]] eqn:S; [discriminate |]. injection E2 as <-.
  destruct (OWN _ _ _ E1) as (OC1 & OP1).
  unfold offdesign in O. apply String.eqb_eq in O. rewrite O, RP in S. apply solve_off in S as (P' & PP & TP & _ & G & H). injection PP as <-.
  destruct (INV P TP) as (IC & IP). split.
  - intros l c v k' D LD DK'. destruct (OC l c D) as (c' & D' & F). destruct (OC1 l c D) as (c1 & D1 & F1). destruct (G l c1 D1) as (c2 & D2 & _ & LF & _).
    rewrite D' in D2. injection D2 as <-. unfold prop in DK'. rewrite D' in DK'. assert (PE : n_path c' = n_path c) by apply F. rewrite <- PE.
    apply (IC l c' v k' D'); [rewrite <- LD; apply F | apply LF; rewrite <- LD; apply F1 | | exact DK'].
    assert (KK : keys (n_props c') = keys (n_props c)) by apply F. destruct (keys_back _ _ _ _ _ _ (eq_sym KK) DK') as (k & DK).
    apply (named_frame _ _ _ F). exact (wf_named _ _ _ _ _ W D DK).
  - intros l c v q' D LD LO COV DQ' QN. destruct (OP l c D) as (c' & D' & F). destruct (OP1 l c D) as (c1 & D1 & F1). destruct (H l c1 D1) as (c2 & D2 & _ & NN & _).
    rewrite D' in D2. injection D2 as <-. unfold param in DQ'. rewrite D' in DQ'. assert (PE : p_path c' = p_path c) by apply F. rewrite <- PE.
    apply (IP l c' v q' D'); try assumption; [rewrite <- LD; apply F | rewrite PE; destruct LO as [LO | LO]; [left; rewrite <- LO; apply F | now right]].
Qed.

(** Local modes *)
Theorem local_off_conn : forall u files path sol st st' l c v k p, wf st -> solve u files "design" path sol st = (st', None) ->
  dget l (t_conns st) = Some c -> n_loff c = true -> n_path c = Some p -> prop st l v = Some k ->
  exists k', prop st' l v = Some k' /\ k_design k' = table_conn (files p) l v
  /\ k_set k' = if smem v (n_off c) then true else if smem v (n_des c) then false else k_set k.
Proof.
  intros u files path sol st st' l c v k p W E D LO PP P. unfold prop in P. rewrite D in P. apply solve_des in E as (_ & _ & G & _).
  destruct (G l c D) as (c' & D' & _ & LT & _). destruct (LT LO) as (p' & PP' & _ & V). rewrite PP in PP'. injection PP' as <-.
  destruct (V v k P (wf_named _ _ _ _ _ W D P)) as (k' & DK' & E1 & E2). exists k'. unfold prop. rewrite D'. auto.
Qed.
Theorem local_off_comp : forall u files path sol st st' l c v q p, solve u files "design" path sol st = (st', None) ->
  dget l (t_comps st) = Some c -> p_loff c = true -> p_path c = Some p -> param st l v = Some q ->
  exists q', param st' l v = Some q'
  /\ q_set q' = (if smem v (p_off c) then true else if smem v (p_des c) then false else q_set q)
  /\ (q_num q = true -> q_design q' = table_comp (files p) l v)
  /\ (In v (p_off c) -> q_num q = true -> q_val q' = table_comp (files p) l v).
Proof.
  intros u files path sol st st' l c v q p E D LO PP P. unfold param in P. rewrite D in P. apply solve_des in E as (_ & _ & _ & G).
  destruct (G l c D) as (c' & D' & _ & LT & _). destruct (LT LO) as (V & W). destruct (V v q P) as (q' & DQ' & S & I).
  assert (PN : p_path c <> None) by congruence. destruct (proj2 (W PN) v q P) as (q2 & p2 & DQ2 & PP2 & _ & E2).
  rewrite DQ' in DQ2. injection DQ2 as <-. rewrite PP in PP2. injection PP2 as <-. exists q'. unfold param. rewrite D'.
  split; [exact DQ' |]. split; [exact S |]. split; [exact E2 |]. intros X Y. rewrite I; [auto | now apply smem_In | exact Y].
Qed.
Theorem local_des_conn : forall u files path sol st st' l c v k, solve u files "offdesign" path sol st = (st', None) ->
  dget l (t_conns st) = Some c -> n_ldes c = true -> prop st l v = Some k ->
  exists k', prop st' l v = Some k' /\ k_set k' = k_set k.
Proof.
  intros u files path sol st st' l c v k E D LO P. unfold prop in P. rewrite D in P. apply solve_off in E as (P0 & _ & _ & _ & G & _).
  destruct (G l c D) as (c' & D' & _ & _ & LT). destruct (LT LO) as (_ & _ & V). destruct (V v k P) as (k' & DK' & E1). exists k'. unfold prop. rewrite D'. auto.
Qed.
Theorem local_des_comp : forall u files path sol st st' l c v q, solve u files "offdesign" path sol st = (st', None) ->
  dget l (t_comps st) = Some c -> p_ldes c = true -> param st l v = Some q ->
  exists q', param st' l v = Some q' /\ q_set q' = q_set q.
Proof.
  intros u files path sol st st' l c v k E D LO P. unfold param in P. rewrite D in P. apply solve_off in E as (P0 & _ & _ & _ & _ & G).
  destruct (G l c D) as (c' & D' & _ & _ & _ & LT). destruct (LT LO v k P) as (k' & DK' & E1). exists k'. unfold param. rewrite D'. auto.
Qed.
