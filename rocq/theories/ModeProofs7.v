(** Proofs about design and offdesign mode: the mass flow of a branch after a
    calculation. *)
From Coq Require Import QArith.
From Verif Require Import Base ModeModel ModeSpec ModeProofs ModeProofs2 ModeProofs3 ModeProofs5 ModeProofs6 ModeSpec2.
Open Scope string_scope.
Open Scope list_scope.

Definition any : cont -> cont -> Prop := fun _ _ => True.
Lemma any_pre : preorder any.
Proof. split; unfold any; auto. Qed.
Definition same_spec (k k' : cont) : Prop := k_set k' = k_set k /\ k_val k' = k_val k /\ k_SI k' = k_SI k.
Lemma same_spec_pre : preorder same_spec.
Proof. split; [now repeat split |]. intros a b c (?&?&?) (?&?&?). repeat split; congruence. Qed.
Lemma eq_pre : preorder eq.
Proof. split; [reflexivity | intros; congruence]. Qed.
Lemma all_any : forall c, unlisted any c.
Proof. intros c _ a b. exact I. Qed.

(** Wiring and containers of one part of a calculation *)
Definition quiet (st st' : net) : Prop :=
  all_conns wiring st st' /\ (forall R mn, preorder R -> (forall l c, dget l (t_conns st) = Some c -> n_m c <> mn) -> forall k, dget mn (t_m st) = Some k -> exists k', dget mn (t_m st') = Some k' /\ R k k')
  /\ (forall mn k, dget mn (t_m st) = Some k -> exists k', dget mn (t_m st') = Some k').
Lemma quiet_over : forall f st st', over_conns f st = (st', None) -> NoDup (keys (t_conns st)) ->
  (forall l h c h' c', f l h c = (h', c', None) -> tame any h c h' c') -> quiet st st'.
Proof.
  intros f st st' E ND T. destruct (over_tame f st st' E ND T) as (A & B & _). split; [exact A |]. split.
  - intros R mn P N k D. apply (B R mn P); [| exact D]. intros l h c h' c' _ G M. exfalso. exact (N l c G M).
  - intros mn k D. destruct (B any mn any_pre) with (k := k) as (k' & D' & _); [| exact D | eauto]. intros l h c h' c' F _ _. exact (T _ _ _ _ _ F).
Qed.
Lemma wiring_all_refl : forall st, all_conns wiring st st.
Proof. intro st. split; [reflexivity |]. intros l c D. exists c. auto using wiring_refl. Qed.
Lemma quiet_same : forall st st', t_conns st' = t_conns st -> t_m st' = t_m st -> quiet st st'.
Proof.
  intros st st' C M. split; [split; [now rewrite C |]; intros l c D; exists c; rewrite C; auto using wiring_refl |]. rewrite M. split.
  - intros R mn (P & _) _ k D. exists k. auto.
  - intros mn k D. eauto.
Qed.
Lemma wiring_back : forall st st' l c', NoDup (keys (t_conns st)) -> all_conns wiring st st' -> dget l (t_conns st') = Some c' ->
  exists c, dget l (t_conns st) = Some c /\ wiring c c'.
Proof.
  intros st st' l c' ND (K & G) D. destruct (dget l (t_conns st)) as [c |] eqn:E.
  - destruct (G l c E) as (c2 & D2 & W). exists c. split; [reflexivity |]. congruence.
  - apply dget_None_notin in E. exfalso. apply E. rewrite <- K. apply dget_In in D. apply in_map_iff. exists (l, c'). auto.
Qed.
Lemma quiet_trans : forall a b c, NoDup (keys (t_conns a)) -> quiet a b -> quiet b c -> quiet a c.
Proof.
  intros a b c ND (W1 & U1 & X1) (W2 & U2 & X2). split; [exact (all_trans _ wiring_trans _ _ _ W1 W2) |]. split.
  - intros R mn P N k D. destruct (U1 R mn P N k D) as (k1 & D1 & R1).
    destruct (U2 R mn P) with (k := k1) as (k2 & D2 & R2); [| exact D1 |].
    + intros l c1 G M. destruct (wiring_back a b l c1 ND W1 G) as (c0 & G0 & (M0 & _)). apply (N l c0 G0). congruence.
    + exists k2. split; [exact D2 |]. destruct P as (_ & T). exact (T _ _ _ R1 R2).
  - intros mn k D. apply X1 in D as (k1 & D). now apply X2 in D.
Qed.

Lemma load_comps_same : forall files P st st', load_comps files P st = (st', None) -> t_conns st' = t_conns st /\ t_m st' = t_m st.
Proof.
  intros files P st st' E. unfold load_comps in E. revert st E. generalize (keys (f_comps (files P))) as ls. induction ls as [| l ls IH]; intros st E.
  - cbn in E. injection E as <-. auto.
  - cbn [fold_left] in E. unfold andthen at 2 in E.
    set (r := match dget l (t_comps st) with Some _ => _ | None => _ end) in E.
    assert (X : t_conns (fst r) = t_conns st /\ t_m (fst r) = t_m st).
    { subst r. destruct (dget l (t_comps st)); [| auto]. destruct (dget l (f_comps _)); [| auto]. destruct (set_parameters _ _ _). auto. }
    destruct r as [st1 [e |]].
    + exfalso. clear - E. induction ls; cbn in E; [discriminate | auto].
    + apply IH in E as (A & B). cbn in X. destruct X. split; congruence.
Qed.

(** The second part of [initialise] *)
Definition switch (files : string -> file) (off : bool) (st : net) : net * option pyerr :=
  if off then
    let st := redesigned st in
    match t_path st with
    | None => (st, Some TESPyNetworkError)
    | Some p => andthen (if t_new st then load files p st else (st, None)) init_offdesign
    end
  else init_design files st.
Lemma load_loop_tame : forall files P l h c h' c', load_conn (tables files (n_path c) P) l h c = (h', c', None) -> tame any h c h' c'.
Proof. intros files P l h c h' c'. apply load_tame; [exact any_pre | intros k; exact I]. Qed.
Lemma switch_quiet : forall files off st st', switch files off st = (st', None) -> NoDup (keys (t_conns st)) -> quiet st st'.
Proof.
  intros files off st st' E ND. unfold switch in E. destruct off.
  - cbv zeta in E. destruct (t_path (redesigned st)) as [p |]; [| discriminate E]. apply andthen_ok in E as (st1 & E1 & E2).
    assert (Q1 : quiet st st1).
    { destruct (t_new (redesigned st)); [| injection E1 as <-; now apply quiet_same].
      unfold load in E1. apply andthen_ok in E1 as (st0 & E0 & E1). apply load_comps_same in E0 as (C0 & M0). cbn in C0, M0.
      apply (quiet_trans _ st0); [exact ND | now apply quiet_same |].
      eapply quiet_over; [exact E1 | now rewrite C0 |]. intros l h c h' c' F. exact (load_loop_tame files p l h c h' c' F). }
    assert (ND1 : NoDup (keys (t_conns st1))) by (destruct Q1 as ((K & _) & _); now rewrite K).
    apply (quiet_trans _ st1); [exact ND | exact Q1 |].
    unfold init_offdesign in E2. apply andthen_ok in E2 as (st2 & E2 & E3). apply over_comps_get in E3 as (C3 & M3 & _).
    apply (quiet_trans _ st2); [exact ND1 | | now apply quiet_same].
    eapply quiet_over; [exact E2 | exact ND1 |]. intros l h c h' c' F. exact (offdesign_tame any l h c h' c' any_pre (all_any c) F).
  - unfold init_design in E. apply andthen_ok in E as (st1 & E1 & E2). apply over_comps_get in E2 as (C2 & M2 & _).
    apply (quiet_trans _ st1); [exact ND | | now apply quiet_same].
    eapply quiet_over; [exact E1 | exact ND |]. intros l h c h' c' F. exact (design_tame any files _ l h c h' c' any_pre (all_any c) (fun _ _ => I) F).
Qed.
(** Containers whose users do not list the mass flow *)
Definition quiet_users (st : net) (mn : string) : Prop :=
  forall l c, dget l (t_conns st) = Some c -> n_m c = mn -> ~ In "m" (n_des c) /\ ~ In "m" (n_off c).
Lemma quiet_users_step : forall st st' mn, NoDup (keys (t_conns st)) -> all_conns wiring st st' -> quiet_users st mn -> quiet_users st' mn.
Proof.
  intros st st' mn ND W U l c' D M. destruct (wiring_back st st' l c' ND W D) as (c & D0 & (M0 & _ & DE & OF & _)).
  rewrite DE, OF. apply (U l c D0). congruence.
Qed.
Lemma unlisted_any_R : forall (R : cont -> cont -> Prop) st mn l c, quiet_users st mn -> dget l (t_conns st) = Some c -> n_m c = mn -> unlisted R c.
Proof. intros R st mn l c U D M H. destruct (U l c D M). tauto. Qed.
Lemma switch_spec : forall files off st st' mn k, switch files off st = (st', None) -> NoDup (keys (t_conns st)) -> quiet_users st mn ->
  dget mn (t_m st) = Some k -> exists k', dget mn (t_m st') = Some k' /\ same_spec k k'.
Proof.
  intros files off st st' mn k E ND U D. unfold switch in E. destruct off.
  - cbv zeta in E. destruct (t_path (redesigned st)) as [p |]; [| discriminate E]. apply andthen_ok in E as (st1 & E1 & E2).
    assert (Q1 : (exists k1, dget mn (t_m st1) = Some k1 /\ same_spec k k1) /\ NoDup (keys (t_conns st1)) /\ quiet_users st1 mn).
    { destruct (t_new (redesigned st)).
      - unfold load in E1. apply andthen_ok in E1 as (st0 & E0 & E1). apply load_comps_same in E0 as (C0 & M0). cbn in C0, M0.
        rewrite <- C0 in ND. rewrite <- M0 in D.
        destruct (over_tame _ st0 st1 E1 ND (load_loop_tame files p)) as (W & B & _).
        split; [apply (B same_spec mn same_spec_pre); [| exact D] | split].
        + intros l h c h' c' F _ _. apply (load_tame same_spec (tables files (n_path c) p) l h c h' c' same_spec_pre); [| exact F]. now repeat split.
        + destruct W as (K & _). now rewrite K.
        + apply (quiet_users_step st0 st1 mn ND W). unfold quiet_users. rewrite C0. exact U.
      - injection E1 as <-. split; [exists k; split; [exact D | apply same_spec_pre] |]. split; [exact ND | exact U]. }
    destruct Q1 as ((k1 & D1 & S1) & ND1 & U1).
    unfold init_offdesign in E2. apply andthen_ok in E2 as (st2 & E2 & E3). apply over_comps_get in E3 as (_ & M3 & _). rewrite M3.
    destruct (over_tame _ st1 st2 E2 ND1 (fun l h c h' c' F => offdesign_tame any l h c h' c' any_pre (all_any c) F)) as (_ & B & _).
    destruct (B same_spec mn same_spec_pre) with (k := k1) as (k2 & D2 & S2); [| exact D1 |].
    + intros l h c h' c' F G M. apply (offdesign_tame same_spec l h c h' c' same_spec_pre); [| exact F]. exact (unlisted_any_R _ _ _ _ _ U1 G M).
    + exists k2. split; [exact D2 |]. destruct same_spec_pre as (_ & T). exact (T _ _ _ S1 S2).
  - unfold init_design in E. apply andthen_ok in E as (st1 & E1 & E2). apply over_comps_get in E2 as (_ & M2 & _). rewrite M2.
    destruct (over_tame _ st st1 E1 ND (fun l h c h' c' F => design_tame any files _ l h c h' c' any_pre (all_any c) (fun _ _ => I) F)) as (_ & B & _).
    apply (B same_spec mn same_spec_pre); [| exact D].
    intros l h c h' c' F G M. apply (design_tame same_spec files (t_redesign st) l h c h' c' same_spec_pre); [| now repeat split | exact F].
    exact (unlisted_any_R _ _ _ _ _ U G M).
Qed.
(** The design value read from the tables *)
Lemma switch_design : forall files st st' mn k P d, switch files true st = (st', None) -> NoDup (keys (t_conns st)) -> quiet_users st mn ->
  t_new st = true -> t_path st = Some P -> dget mn (t_m st) = Some k -> (exists l c, dget l (t_conns st) = Some c /\ n_m c = mn) ->
  (forall l c, dget l (t_conns st) = Some c -> n_m c = mn -> table_conn (tables files (n_path c) P) l "m" = d) ->
  exists k', dget mn (t_m st') = Some k' /\ k_design k' = d.
Proof.
  intros files st st' mn k P d E ND U NEW PATH D EX TB. unfold switch in E. cbv zeta in E. cbn [redesigned t_path t_new] in E. rewrite NEW, PATH in E.
  apply andthen_ok in E as (st1 & E1 & E2).
  unfold load in E1. apply andthen_ok in E1 as (st0 & E0 & E1). apply load_comps_same in E0 as (C0 & M0). cbn in C0, M0.
  rewrite <- C0 in ND, EX, TB. rewrite <- M0 in D.
  destruct (over_tame _ st0 st1 E1 ND (load_loop_tame files P)) as (W & _ & B).
  destruct (B (fun _ => True) (fun k => k_design k = d) mn EX) with (k := k) as (k1 & D1 & _ & S1); [| exact D | exact I |].
  { intros l h c h' c' F G M. unfold load_conn in F. specialize (TB l c G M). unfold table_conn, tables in TB. 
    destruct (dget l (f_conns match n_path c with Some p => files p | None => files P end)) as [row |]; [| discriminate F].
    injection F as <- <-. apply put_tame; [| repeat split]. intros k0 _. split; [exact I | exact TB]. }
  assert (ND1 : NoDup (keys (t_conns st1))) by (destruct W as (K & _); now rewrite K).
  assert (U1 : quiet_users st1 mn) by (apply (quiet_users_step st0 st1 mn ND W); unfold quiet_users; rewrite C0; exact U).
  unfold init_offdesign in E2. apply andthen_ok in E2 as (st2 & E2 & E3). apply over_comps_get in E3 as (_ & M3 & _). rewrite M3.
  destruct (over_tame _ st1 st2 E2 ND1 (fun l h c h' c' F => offdesign_tame any l h c h' c' any_pre (all_any c) F)) as (_ & B2 & _).
  destruct (B2 eq mn eq_pre) with (k := k1) as (k2 & D2 & <-); [| exact D1 | exists k1; auto].
  intros l h c h' c' F G M. apply (offdesign_tame eq l h c h' c' eq_pre); [| exact F]. exact (unlisted_any_R _ _ _ _ _ U1 G M).
Qed.

(** Everything before the solver *)
Lemma wired_step : forall owner st st', NoDup (keys (t_conns st)) -> all_conns wiring st st' -> wired owner (t_conns st) -> wired owner (t_conns st').
Proof.
  intros owner st st' ND W H l c' D. destruct (wiring_back st st' l c' ND W D) as (c & D0 & (M & T & _)). destruct (H l c D0) as (A & B).
  rewrite M, T. auto.
Qed.
Definition listed (st : net) (l : string) : Prop := In l (keys (t_conns st)).
Lemma listed_get : forall st l, listed st l -> exists c, dget l (t_conns st) = Some c.
Proof. intros st l H. destruct (dget l (t_conns st)) as [c |] eqn:D; [eauto |]. apply dget_None_notin in D. contradiction. Qed.

Lemma init_mass : forall u files off st st1, initialise u files off st = (st1, None) -> own st -> disjoint_branches st ->
  exists owner, wired owner (t_conns st1) /\ idem owner /\ keys (t_conns st1) = keys (t_conns st)
  /\ (forall l, listed st l -> exists k1, dget l (t_m st1) = Some k1)
  /\ forall b, In b (t_branches st) -> b <> [] -> exists main, In main b /\ (forall l, In l b -> owner l = main)
     /\ (forall l k, In l b -> dget l (t_m st) = Some k -> k_set k = true -> main = l)
     /\ (forall l k, In l b -> l <> main -> dget l (t_m st) = Some k -> dget l (t_m st1) = Some k)
     /\ (mass_unlisted st b -> forall k, dget main (t_m st) = Some k -> exists k1, dget main (t_m st1) = Some k1
         /\ k_set k1 = k_set k /\ k_val k1 = k_val k /\ (k_set k = true -> k_SI k1 = option_map (u_si u "m") (k_val k)))
     /\ (mass_unlisted st b -> off = true -> t_new st = true -> forall P d, t_path st = Some P ->
         (forall l c, In l b -> dget l (t_conns st) = Some c -> table_conn (tables files (n_path c) P) l "m" = d) ->
         exists k1, dget main (t_m st1) = Some k1 /\ k_design k1 = d).
Proof.
  intros u files off st st1 E (ND & OWN) (DB & IB). unfold initialise in E. apply andthen_ok in E as (sa & EA & E). apply andthen_ok in E as (sb & EB & E).
  change (switch files off sb = (st1, None)) in E.
  assert (W0 : wired (fun l => l) (t_conns st)). { intros l c D. destruct (OWN l c D) as (M & T & _). auto. }
  pose proof EA as EA0. pose proof (presolve_rewired st sa EA) as (KA & GA). destruct (presolve_conns true st sa EA) as (_ & _ & (BRA & PA & NA) & _).
  unfold presolve in EA.
  destruct (presolve_loop (t_branches st) st sa (fun l => l) EA DB IB) as (owner & WA & ID & MA & _ & FREE & BO & _).
  { intros l I. destruct (listed_get st l I) as (c & D). destruct (OWN l c D) as (_ & _ & X). exact X. }
  { exact W0. }
  { intro l. reflexivity. }
  { intros l _. split; [reflexivity |]. intros x Ex. exact Ex. }
  assert (NDA : NoDup (keys (t_conns sa))) by now rewrite KA.
  destruct (over_tame _ sa sb EB NDA (fun l h c h' c' F => set_tame any u l h c h' c' (fun _ => I) F)) as (WB & B1 & B2).
  pose proof (quiet_over _ sa sb EB NDA (fun l h c h' c' F => set_tame any u l h c h' c' (fun _ => I) F)) as QB.
  assert (NDB : NoDup (keys (t_conns sb))) by (destruct WB as (K & _); now rewrite K).
  pose proof (switch_quiet files off sb st1 E NDB) as QC.
  pose proof (quiet_trans sa sb st1 NDA QB QC) as QAC.
  pose proof (over_conns_get _ _ _ EB) as (_ & _ & _ & PB & NB & _).
  exists owner. split; [exact (wired_step owner sa st1 NDA (proj1 QAC) WA) |]. split; [exact ID |].
  split; [destruct QAC as ((K & _) & _); congruence |]. split.
  { intros l I. destruct (listed_get st l I) as (c & D). destruct (OWN l c D) as (_ & _ & (k & DK)). rewrite <- MA in DK.
    destruct QAC as (_ & _ & X). exact (X l k DK). }
  intros b Ib NE. destruct (BO b Ib NE) as (main & IM & OM & OM2 & S). exists main. split; [exact IM |]. split; [exact OM |]. split; [exact S |]. split; [| split].
  - intros l k Il N D. rewrite <- MA in D. destruct QAC as (_ & U & _). destruct (U eq l eq_pre) with (k := k) as (k' & D' & <-); [| exact D | exact D'].
    intros x c Dx M. destruct (WA x c Dx) as (Mx & _). apply N. rewrite <- (OM l Il), <- M, Mx. symmetry. apply ID.
  - intros UL k D. rewrite <- MA in D.
    assert (UA : quiet_users sa main).
    { intros l c' Dl M. destruct (WA l c' Dl) as (Ml & _). assert (Il : In l b) by (apply OM2; congruence).
      destruct (listed_get st l) as (c & Dc); [now apply (IB b) |]. destruct (GA l c Dc) as (c2 & D2 & R2). assert (c2 = c') as -> by congruence.
      destruct R2 as (m & t & ->). cbn. now apply (UL l c). }
    assert (EX : exists l c, dget l (t_conns sa) = Some c /\ n_m c = main).
    { destruct (listed_get sa main) as (c & Dc); [unfold listed; rewrite KA; now apply (IB b) |]. exists main, c. split; [exact Dc |].
      destruct (WA main c Dc) as (M & _). rewrite M. now apply OM. }
    destruct (B2 (fun k' => k_set k' = k_set k /\ k_val k' = k_val k) (fun k' => k_set k = true -> k_SI k' = option_map (u_si u "m") (k_val k)) main EX) with (k := k) as (kb & Db & (SB & VB) & XB); [| exact D | auto |].
    { intros l h c h' c' F _ _. apply (set_tame _ u l h c h' c'); [| exact F]. intros k0 (S0 & V0). unfold to_SI. destruct (k_set k0) eqn:E0; cbn.
      - split; [split; congruence |]. intros _. now rewrite V0.
      - split; [split; congruence |]. congruence. }
    destruct (switch_spec files off sb st1 main kb E NDB (quiet_users_step sa sb main NDA WB UA) Db) as (kc & Dc & (SC & VC & IC)).
    exists kc. split; [exact Dc |]. split; [congruence |]. split; [congruence |]. intro H. rewrite IC. now apply XB.
  - intros UL -> NEW P d PP TB.
    assert (UA : quiet_users sa main).
    { intros l c' Dl M. destruct (WA l c' Dl) as (Ml & _). assert (Il : In l b) by (apply OM2; congruence).
      destruct (listed_get st l) as (c & Dc); [now apply (IB b) |]. destruct (GA l c Dc) as (c2 & D2 & R2). assert (c2 = c') as -> by congruence.
      destruct R2 as (m & t & ->). cbn. now apply (UL l c). }
    destruct (listed_get st main) as (cm & Dm); [now apply (IB b) |]. destruct (OWN main cm Dm) as (_ & _ & (k & DK)). rewrite <- MA in DK.
    destruct QB as (_ & _ & XB). destruct (XB main k DK) as (kb & Db).
    apply (switch_design files sb st1 main kb P d E NDB (quiet_users_step sa sb main NDA WB UA)); [congruence | congruence | exact Db | |].
    + destruct (listed_get sb main) as (c & Dc); [unfold listed; destruct WB as (K & _); rewrite K, KA; now apply (IB b) |]. exists main, c. split; [exact Dc |].
      destruct (wired_step owner sa sb NDA WB WA main c Dc) as (M & _). rewrite M. now apply OM.
    + intros l c' Dl M. destruct (wired_step owner sa sb NDA WB WA l c' Dl) as (Ml & _). assert (Il : In l b) by (apply OM2; congruence).
      destruct (wiring_back sa sb l c' NDA WB Dl) as (ca & Da & (_ & _ & _ & _ & Pa)). destruct (listed_get st l) as (c & Dc); [now apply (IB b) |].
      destruct (GA l c Dc) as (c2 & D2 & R2). assert (c2 = ca) as -> by congruence. destruct R2 as (m & t & ->). cbn in Pa. rewrite Pa. now apply TB.
Qed.

(** After the solver *)
Lemma tail_mass : forall u sol owner st st1 st2 st', over_conns reset_conn (solver sol st) = (st1, None) ->
  over_conns (report_conn u) st1 = (st2, None) -> over_comps (report_comp sol) st2 = (st', None) ->
  NoDup (keys (t_conns st)) -> wired owner (t_conns st) -> idem owner ->
  (forall l, listed st l -> exists k, dget l (t_m st) = Some k) ->
  keys (t_conns st') = keys (t_conns st) /\ (forall l c, dget l (t_conns st') = Some c -> n_m c = l /\ n_tmp c = None)
  /\ forall l k, listed st l -> dget l (t_m st) = Some k -> exists k', dget l (t_m st') = Some k'
     /\ k_set k' = k_set k /\ k_design k' = k_design k
     /\ k_SI k' = SIof (t_m (solver sol st)) (owner l) /\ k_val k' = option_map (u_un u "m") (k_SI k').
Proof.
  intros u sol owner st st1 st2 st' E1 E2 E3 ND W ID HC.
  apply over_comps_get in E3 as (C3 & M3 & _). rewrite C3, M3. clear C3 M3 st'.
  assert (KS : keys (t_conns (solver sol st)) = keys (t_conns st)).
  { cbn [solver t_conns]. apply (keys_mapk _ _ (fun l c => with_props c (map (fun e => (fst e, solved_cont (s_conn sol l (fst e)) (snd e))) (n_props c)))). }
  assert (GS : forall l c, dget l (t_conns (solver sol st)) = Some c -> exists c0, dget l (t_conns st) = Some c0 /\ n_m c = n_m c0 /\ n_tmp c = n_tmp c0).
  { intros l c D. cbn [solver t_conns] in D. rewrite (dget_mapk _ _ (fun l c => with_props c (map (fun e => (fst e, solved_cont (s_conn sol l (fst e)) (snd e))) (n_props c)))) in D.
    destruct (dget l (t_conns st)) as [c0 |]; [| discriminate D]. injection D as <-. exists c0. repeat split. }
  pose proof (over_conns_get _ _ _ E1) as (_ & _ & _ & _ & _ & K1 & _).
  unfold over_conns in E1. destruct (sweep reset_conn (t_m (solver sol st)) (t_conns (solver sol st))) as [[h1 cs1] e1] eqn:S1.
  injection E1 as <- ->. cbn [with_conns t_conns t_m] in *.
  assert (NDS : NoDup (keys (t_conns (solver sol st)))) by now rewrite KS.
  destruct (reset_sweep owner ID _ _ _ _ S1 NDS) as (_ & B & C).
  { intros l c I. apply (dget_pair _ _ _ _ NDS) in I. destruct (GS l c I) as (c0 & D0 & -> & ->). now apply W. }
  assert (T : forall l h c h' c', report_conn u l h c = (h', c', None) -> tame any h c h' c').
  { intros l h c h' c' F. injection F as <- <-. apply put_tame; [intro; exact I | repeat split]. }
  assert (ND1 : NoDup (keys cs1)) by (rewrite K1; exact NDS).
  destruct (over_tame _ (with_conns (solver sol st) h1 cs1) _ E2 ND1 T) as (W2 & _ & B2). cbn [with_conns t_conns t_m] in B2.
  split; [destruct W2 as (K2 & _); rewrite K2; rewrite <- KS; exact K1 |]. split.
  - intros l c D. destruct (wiring_back (with_conns (solver sol st) h1 cs1) st2 l c ND1 W2 D) as (c1 & D1 & (M & TM & _)). rewrite M, TM. apply C. now apply dget_In.
  - intros l k L D.
    assert (DS : dget l (t_m (solver sol st)) = Some (solved_cont (s_conn sol l "m") k)).
    { cbn [solver t_m]. rewrite (dget_mapk _ _ (fun l => solved_cont (s_conn sol l "m"))), D. reflexivity. }
    destruct (B l _ ltac:(rewrite KS; exact L) DS) as (k1 & D1 & (S & _ & _ & DD) & SI).
    destruct (B2 (fun k' => k_set k' = k_set k1 /\ k_design k' = k_design k1 /\ k_SI k' = k_SI k1) (fun k' => k_val k' = option_map (u_un u "m") (k_SI k1)) l) with (k := k1) as (k2 & D2 & (S2 & DD2 & SI2) & V2).
    + destruct (listed_get (with_conns (solver sol st) h1 cs1) l) as (c & Dc).
      { unfold listed. cbn [with_conns t_conns]. rewrite K1, KS. exact L. }
      exists l, c. split; [exact Dc |]. apply C. now apply dget_In.
    + intros l0 h c h' c' F _ _. injection F as <- <-. apply put_tame; [| repeat split]. intros k0 (A0 & B0 & C0). cbn. now rewrite C0.
    + exact D1.
    + auto.
    + exists k2. split; [exact D2 |]. assert (SS : forall x, k_set (solved_cont x k) = k_set k /\ k_design (solved_cont x k) = k_design k).
      { intro x. unfold solved_cont. destruct (k_set k) eqn:EK; cbn; auto. }
      destruct (SS (s_conn sol l "m")) as (SS1 & SS2). split; [congruence |]. split; [congruence |]. split; [congruence |]. now rewrite SI2.
Qed.

Lemma branch_solve : forall u files mode path sol st st', solve u files mode path sol st = (st', None) -> own st -> disjoint_branches st ->
  own st' /\ t_branches st' = t_branches st /\ keys (t_conns st') = keys (t_conns st)
  /\ forall b, In b (t_branches st) -> exists x : option Q,
     (forall l, In l b -> exists k', dget l (t_m st') = Some k' /\ k_SI k' = x /\ k_val k' = option_map (u_un u "m") x)
     /\ (mass_unlisted st b ->
         (forall l k, In l b -> dget l (t_m st) = Some k -> k_set k = true -> x = option_map (u_si u "m") (k_val k))
         /\ (b <> [] -> (forall l k, In l b -> dget l (t_m st) = Some k -> k_set k = false) -> exists l, In l b /\ x = Some (s_conn sol l "m"))
         /\ (forall l k k', In l b -> dget l (t_m st) = Some k -> dget l (t_m st') = Some k' -> k_set k' = k_set k)
         /\ (forall P d l k k', mode = "offdesign" -> path = Some P -> needs_design st path = true ->
             (forall l c, In l b -> dget l (t_conns st) = Some c -> table_conn (tables files (n_path c) P) l "m" = d) ->
             In l b -> dget l (t_m st) = Some k -> k_set k = true -> dget l (t_m st') = Some k' -> k_design k' = d)).
Proof.
  intros u files mode path sol st st' E OWN DB. 
  unfold solve in E. cbv zeta in E. destruct (negb (String.eqb mode "design" || String.eqb mode "offdesign")); [discriminate E |].
  apply andthen_ok in E as (s1 & E1 & E). apply andthen_ok in E as (s2 & E2 & E). apply andthen_ok in E as (s3 & E3 & E4).
  assert (OWN0 : own (start path st)) by exact OWN. assert (DB0 : disjoint_branches (start path st)) by exact DB.
  destruct (init_mass u files _ _ s1 E1 OWN0 DB0) as (owner & W & ID & K & HC & BR). cbn [start t_conns t_m t_branches t_new t_path] in *.
  assert (ND1 : NoDup (keys (t_conns s1))) by (rewrite K; exact (proj1 OWN)).
  assert (HC1 : forall l, listed s1 l -> exists k, dget l (t_m s1) = Some k).
  { intros l L. apply HC. unfold listed in *. exact (eq_ind _ (In l) L _ K). }
  destruct (tail_mass u sol owner s1 s2 s3 st' E2 E3 E4 ND1 W ID HC1) as (K' & WF & G).
  assert (BS : t_branches st' = t_branches st).
  { pose proof (over_conns_get _ _ _ E2) as (_ & T2 & _). pose proof (over_conns_get _ _ _ E3) as (_ & T3 & _). pose proof (over_comps_get _ _ _ E4) as (_ & _ & T4 & _).
    cbn in T2. rewrite T4, T3, T2. clear - E1. unfold initialise in E1. apply andthen_ok in E1 as (sa & EA & E). apply andthen_ok in E as (sb & EB & E).
    destruct (presolve_conns true _ sa EA) as (_ & _ & (BA & _) & _). pose proof (over_conns_get _ _ _ EB) as (_ & TB & _). cbn in BA.
    transitivity (t_branches sb); [| congruence]. destruct (String.eqb mode "offdesign").
    - cbv zeta in E. destruct (t_path (redesigned sb)) as [p |]; [| discriminate E]. apply andthen_ok in E as (sc & EC & E).
      assert (X : t_branches sc = t_branches sb).
      { destruct (t_new (redesigned sb)); [| injection EC as <-; reflexivity]. unfold load in EC. apply andthen_ok in EC as (sd & ED & EC).
        pose proof (over_conns_get _ _ _ EC) as (_ & TC & _). rewrite TC. clear - ED. unfold load_comps in ED.
        change (t_branches sb) with (t_branches (redesigned sb)). revert ED. generalize (redesigned sb) as s. generalize (keys (f_comps (files p))) as ls.
        induction ls as [| l ls IH]; intros s E; [cbn in E; injection E as <-; reflexivity |]. cbn [fold_left] in E. unfold andthen at 2 in E.
        set (r := match dget l (t_comps s) with Some _ => _ | None => _ end) in E.
        assert (X : t_branches (fst r) = t_branches s).
        { subst r. destruct (dget l (t_comps s)); [| auto]. destruct (dget l (f_comps _)); [| auto]. destruct (set_parameters _ _ _). auto. }
        destruct r as [s1 [e |]]; [exfalso; clear - E; induction ls; cbn in E; [discriminate | auto] |]. apply IH in E. cbn in X. congruence. }
      unfold init_offdesign in E. apply andthen_ok in E as (sd & ED & E). pose proof (over_conns_get _ _ _ ED) as (_ & TD & _).
      pose proof (over_comps_get _ _ _ E) as (_ & _ & TE & _). congruence.
    - unfold init_design in E. apply andthen_ok in E as (sd & ED & E). pose proof (over_conns_get _ _ _ ED) as (_ & TD & _).
      pose proof (over_comps_get _ _ _ E) as (_ & _ & TE & _). congruence. }
  assert (LI : forall b l, In b (t_branches st) -> In l b -> listed s1 l).
  { intros b l Ib Il. unfold listed. rewrite K. destruct DB as (_ & X). exact (X b l Ib Il). }
  split.
  { split; [rewrite K', K; exact (proj1 OWN) |]. intros l c D. destruct (WF l c D) as (A & B). split; [exact A |]. split; [exact B |].
    assert (L : listed s1 l). { unfold listed. rewrite <- K'. apply dget_In in D. apply in_map_iff. exists (l, c). auto. }
    destruct (HC1 l L) as (k & Dk). destruct (G l k L Dk) as (k' & D' & _). eauto. }
  split; [exact BS |]. split; [congruence |]. intros b Ib.
  destruct b as [| b0 br]. { exists None. split; [intros l [] |]. intros _. split; [intros l k [] |]. split; [congruence |]. split; [intros l k k' [] | intros P d l k k' _ _ _ _ []]. }
  set (b := b0 :: br) in *. assert (NE : b <> []) by discriminate.
  destruct (BR b Ib NE) as (main & IM & OM & S & UN & SP & DE).
  exists (SIof (t_m (solver sol s1)) main). split.
  { intros l Il. destruct (HC1 l (LI b l Ib Il)) as (k & Dk). destruct (G l k (LI b l Ib Il) Dk) as (k' & D' & _ & _ & SI & V).
    exists k'. split; [exact D' |]. rewrite OM in SI by exact Il. rewrite V, SI. auto. }
  intro UL. destruct OWN as (_ & OWN).
  assert (KM : exists k, dget main (t_m st) = Some k).
  { destruct (listed_get st main) as (c & D); [destruct DB as (_ & X); exact (X b main Ib IM) |]. now destruct (OWN main c D) as (_ & _ & X). }
  destruct KM as (km & Dm). destruct (SP UL km Dm) as (k1 & D1 & S1 & V1 & SI1).
  assert (SX : SIof (t_m (solver sol s1)) main = k_SI (solved_cont (s_conn sol main "m") k1)).
  { unfold SIof. cbn [solver t_m]. rewrite (dget_mapk _ _ (fun l => solved_cont (s_conn sol l "m"))), D1. reflexivity. }
  assert (SETS : forall l k k', In l b -> dget l (t_m st) = Some k -> dget l (t_m st') = Some k' -> k_set k' = k_set k /\ (l = main -> k_design k' = k_design k1)).
  { intros l k k' Il D D'. destruct (string_dec l main) as [-> | N].
    - destruct (G main k1 (LI b main Ib IM) D1) as (k2 & D2 & S2 & DD2 & _). split; [congruence |]. congruence.
    - destruct (G l k (LI b l Ib Il) (UN l k Il N D)) as (k2 & D2 & S2 & _). split; [congruence | contradiction]. }
  split; [| split; [| split]].
  - intros l k Il D SET. assert (main = l) as -> by exact (S l k Il D SET). assert (km = k) as -> by congruence.
    rewrite SX. unfold solved_cont. rewrite S1, SET. now apply SI1.
  - intros _ NS. exists main. split; [exact IM |]. rewrite SX. unfold solved_cont. rewrite S1, (NS main km IM Dm). reflexivity.
  - intros l k k' Il D D'. now apply (SETS l k k').
  - intros P d l k k' -> -> NEW TB Il D SET D'. assert (main = l) as -> by exact (S l k Il D SET).
    destruct (DE UL eq_refl NEW P d eq_refl TB) as (k3 & D3 & DD). destruct (SETS l k k' Il D D') as (_ & X). rewrite X by reflexivity. congruence.
Qed.
Lemma branch_runs : forall u files rs st st', runs u files rs st = Some st' -> rs <> [] -> own st -> disjoint_branches st ->
  own st' /\ disjoint_branches st'
  /\ forall b, In b (t_branches st) -> exists x : option Q,
     forall l, In l b -> exists k', dget l (t_m st') = Some k' /\ k_SI k' = x /\ k_val k' = option_map (u_un u "m") x.
Proof.
  induction rs as [| r rs IH]; intros st st' E NE O D; [now elim NE |]. cbn [runs] in E.
  destruct (solve u files (r_mode r) (r_path r) (r_sol r) st) as [st1 [e |]] eqn:S; [discriminate E |].
  destruct (branch_solve _ _ _ _ _ _ _ S O D) as (O1 & B1 & K & G1).
  assert (D1 : disjoint_branches st1).
  { destruct D as (N & X). split; [now rewrite B1 |]. intros b l. rewrite B1. intros Ib Il. specialize (X b l Ib Il).
    now rewrite K. }
  destruct rs as [| r2 rs].
  - cbn in E. injection E as <-. split; [exact O1 |]. split; [exact D1 |]. intros b Ib. destruct (G1 b Ib) as (x & X & _). exists x. exact X.
  - destruct (IH st1 st' E ltac:(discriminate) O1 D1) as (O2 & D2 & G2). split; [exact O2 |]. split; [exact D2 |]. intros b Ib. apply G2. now rewrite B1.
Qed.
