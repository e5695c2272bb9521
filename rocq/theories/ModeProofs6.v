(** Proofs about design and offdesign mode: mass flow of branches. *)
From Coq Require Import QArith.
From Verif Require Import Base ModeModel ModeSpec ModeProofs ModeProofs2 ModeProofs3 ModeProofs5 ModeSpec2.
Open Scope string_scope.
Open Scope list_scope.

(** Connection [l] uses the container of [owner l] and keeps its own *)
Definition wired (owner : string -> string) (cs : dict conn) : Prop :=
  forall l c, dget l cs = Some c -> n_m c = owner l /\ (n_tmp c = Some l \/ n_tmp c = None /\ owner l = l).
Definition idem (owner : string -> string) : Prop := forall l, owner (owner l) = owner l.

(* ---------------------------------------------------------------- presolve *)

Lemma NoDup_parts : forall (A : Type) (a b : list A), NoDup (a ++ b) -> NoDup a /\ (forall x, In x a -> ~ In x b) /\ NoDup b.
Proof.
  induction a as [| x a IH]; intros b N; cbn in N; [split; [constructor |]; split; [intros _ [] | exact N] |].
  inversion N as [| ? ? NI N2]; subst. destruct (IH b N2) as (NA & D & NB). split; [constructor; [intro I; apply NI, in_or_app; now left | exact NA] |].
  split; [| exact NB]. intros y [<- | I]; [intro J; apply NI, in_or_app; now right | now apply D].
Qed.

Definition redirect (main : string) (ls : list string) (owner : string -> string) (l : string) : string :=
  if smem l ls then main else owner l.
Lemma fold_with_m : forall m ls cs, NoDup ls -> forall l,
  dget l (fold_left (fun cs l => put l (fun c => with_m c m (Some (n_m c))) cs) ls cs)
  = if smem l ls then option_map (fun c => with_m c m (Some (n_m c))) (dget l cs) else dget l cs.
Proof.
  intros m ls. induction ls as [| x ls IH]; intros cs ND l; [reflexivity |]. inversion ND; subst. cbn [fold_left].
  rewrite IH by assumption. rewrite dget_put, smem_cons. destruct (String.eqb_spec l x) as [-> | N]; cbn [orb]; [| reflexivity].
  destruct (smem x ls) eqn:S; [apply smem_In in S; contradiction | reflexivity].
Qed.
Lemma share_wired : forall main ls st owner, NoDup ls -> wired owner (t_conns st) -> In main (keys (t_conns st)) ->
  (forall l, In l ls -> owner l = l) -> owner main = main -> 
  wired (redirect main ls owner) (t_conns (share main ls st)) /\ t_m (share main ls st) = t_m st.
Proof.
  intros main ls st owner ND W I O OM. unfold share.
  destruct (dget main (t_conns st)) as [cm |] eqn:D.
  2:{ apply dget_None_notin in D. contradiction. }
  split; [| reflexivity]. cbn [with_conns t_conns]. intros l c E. rewrite fold_with_m in E by exact ND.
  destruct (W main cm D) as (MM & _). unfold redirect. destruct (smem l ls) eqn:S.
  - destruct (dget l (t_conns st)) as [c0 |] eqn:D0; [| discriminate E]. cbn in E. injection E as <-. cbn.
    destruct (W l c0 D0) as (M0 & _). apply smem_In in S. rewrite MM, M0. split; [exact OM |]. left. f_equal. now apply O.
  - exact (W l c E).
Qed.
Lemma redirect_idem : forall main ls owner, idem owner -> owner main = main ->
  (forall l, In (owner l) ls -> owner l = l) -> idem (redirect main ls owner).
Proof.
  intros main ls owner ID OM O l. unfold redirect. destruct (smem l ls) eqn:S.
  - destruct (smem main ls); [reflexivity | exact OM].
  - destruct (smem (owner l) ls) eqn:S2; [| apply ID]. apply smem_In in S2. rewrite (O l S2) in S2. apply smem_In in S2. congruence.
Qed.

(** After the presolving: branches share the container of one of their connections *)
Definition branch_owner (owner : string -> string) (st : net) (b : list string) : Prop :=
  exists main, In main b /\ (forall l, In l b -> owner l = main) /\ (forall l, owner l = main -> In l b)
  /\ forall l k, In l b -> dget l (t_m st) = Some k -> k_set k = true -> main = l.

Lemma m_set_own : forall st l c k, dget l (t_conns st) = Some c -> n_m c = l -> dget l (t_m st) = Some k -> m_set st l = k_set k.
Proof. intros st l c k D M K. unfold m_set. rewrite D, M, K. reflexivity. Qed.

Lemma presolve_loop : forall bs st1 st' owner,
  fold_left (fun r b => andthen r (presolve_branch b)) bs (st1, None) = (st', None) ->
  NoDup (concat bs) -> (forall b l, In b bs -> In l b -> In l (keys (t_conns st1))) ->
  (forall l, In l (keys (t_conns st1)) -> exists k, dget l (t_m st1) = Some k) ->
  wired owner (t_conns st1) -> idem owner -> (forall l, In l (concat bs) -> owner l = l /\ forall x, owner x = l -> x = l) ->
  exists owner', wired owner' (t_conns st') /\ idem owner' /\ t_m st' = t_m st1 /\ keys (t_conns st') = keys (t_conns st1)
  /\ (forall l, ~ In l (concat bs) -> owner' l = owner l)
  /\ (forall b, In b bs -> b <> [] -> branch_owner owner' st1 b)
  /\ (forall l, In l (concat bs) -> In (owner' l) (concat bs)).
Proof.
  induction bs as [| b bs IH]; intros st1 st' owner E ND IN HC W ID FR; cbn [fold_left] in E.
  - injection E as <-. exists owner. do 5 (split; [auto |]). split; [intros b [] | intros l []].
  - cbn [andthen] in E. destruct (presolve_branch b st1) as [st2 [e |]] eqn:B.
    { exfalso. clear - E. induction bs; cbn in E; [discriminate | auto]. }
    cbn [concat] in *. pose proof ND as ND0. apply NoDup_parts in ND as (NB & DJ & NR).
    assert (X : exists owner2, wired owner2 (t_conns st2) /\ idem owner2 /\ t_m st2 = t_m st1 /\ keys (t_conns st2) = keys (t_conns st1)
       /\ (forall l, ~ In l b -> owner2 l = owner l) /\ (b <> [] -> branch_owner owner2 st1 b)
       /\ (forall l, In l b -> In (owner2 l) b)).
    { assert (OB : forall l, In l b -> owner l = l) by (intros l I; destruct (FR l) as (F & _); [apply in_or_app; now left | exact F]).
      assert (OI : forall l, In (owner l) b -> owner l = l).
      { intros l I. destruct (FR (owner l)) as (_ & F); [apply in_or_app; now left |]. symmetry. now apply F. }
      assert (OJ : forall l x, In x b -> owner l = x -> In l b) by (intros l x I <-; rewrite <- (OI l I); exact I).
      assert (KB : forall l, In l b -> In l (keys (t_conns st1))) by (intros l I; apply (IN b l); [now left | exact I]).
      unfold presolve_branch in B. destruct (filter (m_set st1) b) as [| x [| y q]] eqn:FI; [destruct b as [| x q] | |].
      - injection B as <-. exists owner. do 5 (split; [auto |]). split; [intro N; now elim N | intros l []].
      - injection B as <-. inversion NB; subst.
        destruct (share_wired x q st1 owner H2 W (KB x (or_introl eq_refl)) (fun l I => OB l (or_intror I)) (OB x (or_introl eq_refl))) as (W2 & M2).
        exists (redirect x q owner). split; [exact W2 |]. split.
        { apply redirect_idem; [exact ID | apply OB; now left |]. intros l I. apply OI. now right. }
        split; [exact M2 |]. split; [apply (share_rewired x q st1) |].
        split. { intros l N. unfold redirect. destruct (smem l q) eqn:S; [| reflexivity]. apply smem_In in S. exfalso. apply N. now right. }
        assert (OX : forall l, In l (x :: q) -> redirect x q owner l = x).
        { intros l I. unfold redirect. destruct (smem l q) eqn:S; [reflexivity |]. destruct I as [<- | I]; [apply OB; now left |].
          apply smem_In in I. congruence. }
        split. { intros _. exists x. split; [now left |]. split; [exact OX |]. split.
          { intros l. unfold redirect. destruct (smem l q) eqn:S; [intros _; right; now apply smem_In |]. apply (OJ l x). now left. }
          intros l k I K S. exfalso. assert (N : ~ In l (filter (m_set st1) (x :: q))) by (rewrite FI; intros []).
          apply N. apply filter_In. split; [exact I |].
          destruct (dget l (t_conns st1)) as [c |] eqn:D; [| apply dget_None_notin in D; exfalso; apply D; now apply KB].
          destruct (W l c D) as (M & _). rewrite OB in M by exact I. rewrite (m_set_own st1 l c k D M K). exact S. }
        intros l I. rewrite OX by exact I. now left.
      - injection B as <-. assert (IX : In x b). { assert (I : In x (filter (m_set st1) b)) by (rewrite FI; now left). now apply filter_In in I. }
        destruct (share_wired x b st1 owner NB W (KB x IX) OB (OB x IX)) as (W2 & M2).
        exists (redirect x b owner). split; [exact W2 |]. split.
        { apply redirect_idem; [exact ID | now apply OB | exact OI]. }
        split; [exact M2 |]. split; [apply (share_rewired x b st1) |].
        split. { intros l N. unfold redirect. destruct (smem l b) eqn:S; [| reflexivity]. apply smem_In in S. contradiction. }
        assert (OX : forall l, In l b -> redirect x b owner l = x).
        { intros l I. unfold redirect. apply smem_In in I. now rewrite I. }
        split. { intros _. exists x. split; [exact IX |]. split; [exact OX |]. split.
          { intros l. unfold redirect. destruct (smem l b) eqn:S; [intros _; now apply smem_In |]. now apply OJ. }
          intros l k I K S. assert (J : In l (filter (m_set st1) b)).
          { apply filter_In. split; [exact I |].
            destruct (dget l (t_conns st1)) as [c |] eqn:D; [| apply dget_None_notin in D; exfalso; apply D; now apply KB].
            destruct (W l c D) as (M & _). rewrite OB in M by exact I. rewrite (m_set_own st1 l c k D M K). exact S. }
          rewrite FI in J. destruct J as [J | []]. exact J. }
        intros l I. rewrite OX by exact I. exact IX.
      - discriminate B. }
    destruct X as (owner2 & W2 & ID2 & M2 & K2 & O2 & BO & IB).
    destruct (IH st2 st' owner2 E NR) as (owner' & W' & ID' & M' & K' & O' & BO' & IB').
    { intros b' l I J. rewrite K2. apply (IN b' l); [now right | exact J]. }
    { intros l I. rewrite M2. apply HC. now rewrite <- K2. }
    { exact W2. }
    { exact ID2. }
    { intros l I. assert (N : ~ In l b) by (intro J; exact (DJ l J I)). rewrite O2 by exact N.
      destruct (FR l) as (F1 & F2); [apply in_or_app; now right |]. split; [exact F1 |].
      intros x OX. destruct (in_dec string_dec x b) as [J | J].
      - exfalso. apply N. rewrite <- OX. now apply IB.
      - apply F2. now rewrite <- O2. }
    exists owner'. split; [exact W' |]. split; [exact ID' |]. split; [congruence |]. split; [congruence |].
    split. { intros l N. rewrite O' by (intro; apply N, in_or_app; now right). apply O2. intro. apply N, in_or_app. now left. }
    assert (OB : forall l, In l b -> owner' l = owner2 l). { intros l I. apply O'. intro J. exact (DJ l I J). }
    split.
    + intros b' [<- | I] NE.
      * destruct (BO NE) as (main & I & OM & OM2 & S). exists main. split; [exact I |].
        split; [intros l J; rewrite OB by exact J; now apply OM |]. split; [| exact S].
        intros l OL. destruct (in_dec string_dec l (concat bs)) as [J | J].
        -- exfalso. apply (DJ main I). rewrite <- OL. now apply IB'.
        -- apply OM2. rewrite <- O' by exact J. exact OL.
      * destruct (BO' b' I NE) as (main & J & OM & OM2 & S). exists main. split; [exact J |]. split; [exact OM |]. split; [exact OM2 |]. now rewrite M2 in S.
    + intros l I. apply in_app_or in I as [I | I].
      * rewrite OB by exact I. apply in_or_app. left. now apply IB.
      * apply in_or_app. right. now apply IB'.
Qed.

(* ------------------------------------------------------------- steps on the heap *)

(** A step at connection [c] changes the container in use only, by [R] *)
Definition wiring (c c' : conn) : Prop :=
  n_m c' = n_m c /\ n_tmp c' = n_tmp c /\ n_des c' = n_des c /\ n_off c' = n_off c /\ n_path c' = n_path c.
Lemma wiring_refl : forall c, wiring c c.
Proof. intro c. repeat split. Qed.
Lemma wiring_trans : forall a b c, wiring a b -> wiring b c -> wiring a c.
Proof. unfold wiring. intros a b c (?&?&?&?&?) (?&?&?&?&?). repeat split; congruence. Qed.
Definition preorder (R : cont -> cont -> Prop) : Prop := (forall k, R k k) /\ forall a b c, R a b -> R b c -> R a c.
Definition tame (R : cont -> cont -> Prop) (h : dict cont) (c : conn) (h' : dict cont) (c' : conn) : Prop :=
  wiring c c' /\ (forall mn, mn <> n_m c -> dget mn h' = dget mn h)
  /\ forall k, dget (n_m c) h = Some k -> exists k', dget (n_m c) h' = Some k' /\ R k k'.
Lemma tame_refl : forall R h c, preorder R -> tame R h c h c.
Proof. intros R h c (P & _). split; [apply wiring_refl |]. split; [reflexivity |]. intros k D. exists k. auto. Qed.
Lemma tame_trans : forall R h c h1 c1 h2 c2, preorder R -> tame R h c h1 c1 -> tame R h1 c1 h2 c2 -> tame R h c h2 c2.
Proof.
  intros R h c h1 c1 h2 c2 (_ & T) (W1 & A1 & B1) (W2 & A2 & B2). split; [exact (wiring_trans _ _ _ W1 W2) |].
  destruct W1 as (M & _). rewrite M in A2, B2. split.
  - intros mn N. rewrite A2 by exact N. now apply A1.
  - intros k D. apply B1 in D as (k1 & D & R1). apply B2 in D as (k2 & D & R2). exists k2. split; [exact D | exact (T _ _ _ R1 R2)].
Qed.
Lemma put_tame : forall (R : cont -> cont -> Prop) g h c c', (forall k, R k (g k)) -> wiring c c' -> tame R h c (put (n_m c) g h) c'.
Proof.
  intros R g h c c' G W. split; [exact W |]. split.
  - intros mn N. rewrite dget_put. destruct (String.eqb_spec mn (n_m c)); [contradiction | reflexivity].
  - intros k D. exists (g k). rewrite dget_put, String.eqb_refl, D. split; [reflexivity | apply G].
Qed.
Lemma same_tame : forall R h c c', preorder R -> wiring c c' -> tame R h c h c'.
Proof. intros R h c c' (P & _) W. split; [exact W |]. split; [reflexivity |]. intros k D. exists k. auto. Qed.
Lemma touch_tame : forall R g b h c v, preorder R -> (v = "m" -> forall k, R k (g k)) ->
  tame R h c (fst (touch g b (h, c) v)) (snd (touch g b (h, c) v)).
Proof.
  intros R g b h c v P G. unfold touch. destruct (String.eqb_spec v "m") as [E | N].
  - apply put_tame; [exact (G E) | apply wiring_refl].
  - destruct (dmem v (n_flags c)); apply same_tame; try exact P; repeat split.
Qed.
Lemma fold_touch_tame : forall R g b vs h c, preorder R -> (In "m" vs -> forall k, R k (g k)) ->
  tame R h c (fst (fold_left (touch g b) vs (h, c))) (snd (fold_left (touch g b) vs (h, c))).
Proof.
  intros R g b vs. induction vs as [| v vs IH]; intros h c P G; [now apply tame_refl |]. cbn [fold_left].
  pose proof (touch_tame R g b h c v P) as T. destruct (touch g b (h, c) v) as [h1 c1].
  eapply tame_trans; [exact P | apply T; intros ->; apply G; now left |]. apply IH; [exact P |]. intro I. apply G. now right.
Qed.

(** The steps of [initialise]; [R] relates everything where the mass flow is listed *)
Definition unlisted (R : cont -> cont -> Prop) (c : conn) : Prop :=
  In "m" (n_des c) \/ In "m" (n_off c) -> forall a b, R a b.
Lemma load_tame : forall (R : cont -> cont -> Prop) fi l h c h' c', preorder R -> (forall k, R k (with_design (table_conn fi l "m") k)) ->
  load_conn fi l h c = (h', c', None) -> tame R h c h' c'.
Proof.
  intros R fi l h c h' c' P D E. unfold load_conn, table_conn in *. destruct (dget l (f_conns fi)) as [row |]; [| discriminate E].
  injection E as <- <-. apply put_tame; [exact D | repeat split].
Qed.
Lemma offdesign_tame : forall R l h c h' c', preorder R -> unlisted R c ->
  offdesign_conn l h c = (h', c', None) -> tame R h c h' c'.
Proof.
  intros R l h c h' c' P U E. unfold offdesign_conn in E. destruct (n_ldes c); [injection E as <- <-; now apply tame_refl |].
  set (F1 := fold_left _ (n_des c) (h, c)) in E.
  assert (T1 : tame R h c (fst F1) (snd F1)).
  { subst F1. assert (UD : In "m" (n_des c) -> forall a b, R a b) by (intro I; apply U; now left). revert UD.
    generalize (n_des c) as vs. clear - P. intro vs. revert h c. induction vs as [| v vs IH]; intros h c UD; [now apply tame_refl |].
    cbn [fold_left]. pose proof (touch_tame R unset false h c v P) as T. destruct (touch unset false (h, c) v) as [h1 c1].
    eapply tame_trans; [exact P | apply T; intros -> k; apply UD; now left |]. 
    eapply tame_trans; [exact P | | apply IH; intro I; apply UD; now right]. apply same_tame; [exact P | repeat split]. }
  destruct F1 as [h1 c1]. cbn [fst snd] in T1.
  assert (U1 : In "m" (n_off c) -> forall a b, R a b) by (intro I; apply U; now right).
  set (F2 := fold_left _ (n_off c) (h1, c1, None)) in E. destruct F2 as [[h2 c2] [e |]] eqn:E2; [discriminate E |].
  injection E as <- <-. eapply tame_trans; [exact P | exact T1 |].
  assert (T2 : tame R h1 c1 h2 c2).
  { subst F2. change (fold_left set_step (n_off c) (h1, c1, None) = (h2, c2, None)) in E2. revert U1 E2. generalize (n_off c) as vs. clear - P.
    intro vs. revert h1 c1. induction vs as [| v vs IH]; intros h c UD E; [cbn in E; injection E as <- <-; now apply tame_refl |].
    cbn [fold_left] in E. unfold set_step at 2 in E. pose proof (touch_tame R set_to_design true h c v P) as T.
    destruct (touch set_to_design true (h, c) v) as [h' c']. destruct (dmem v (n_flags c)); [rewrite set_step_stuck in E; discriminate E |].
    eapply tame_trans; [exact P | apply T; intros -> k; apply UD; now left |]. apply IH; [intro I; apply UD; now right | exact E]. }
  eapply tame_trans; [exact P | exact T2 |]. apply same_tame; [exact P | repeat split].
Qed.
Lemma design_tame : forall (R : cont -> cont -> Prop) files re l h c h' c', preorder R -> unlisted R c -> (forall d k, R k (with_design d k)) ->
  design_conn files re l h c = (h', c', None) -> tame R h c h' c'.
Proof.
  intros R files re l h c h' c' P U D E. unfold design_conn in E.
  assert (F : forall b1 b2 vs1 vs2 h c, (In "m" vs1 \/ In "m" vs2 -> forall a b, R a b) ->
    tame R h c (fst (fold_left (touch (set_flag b1) b1) vs1 (fold_left (touch (set_flag b2) b2) vs2 (h, c))))
               (snd (fold_left (touch (set_flag b1) b1) vs1 (fold_left (touch (set_flag b2) b2) vs2 (h, c))))).
  { clear - P. intros b1 b2 vs1 vs2 h c U. pose proof (fold_touch_tame R (set_flag b2) b2 vs2 h c P) as T.
    destruct (fold_left (touch (set_flag b2) b2) vs2 (h, c)) as [h1 c1]. eapply tame_trans; [exact P | apply T; intros I k; apply U; now right |].
    apply fold_touch_tame; [exact P |]. intros I k. apply U. now left. }
  destruct (n_loff c).
  - destruct (n_path c) as [p |]; [| discriminate E].
    pose proof (F true false (n_off c) (n_des c) h c) as T.
    destruct (fold_left _ (n_off c) _) as [h1 c1]. eapply tame_trans; [exact P | apply T; intros [I | I]; apply U; auto |].
    apply (load_tame R (files p) l h1 c1); [exact P | intro k; apply D | exact E].
  - set (c0 := with_new _ true) in E.
    assert (T0 : tame R h c (put (n_m c) (with_design None) h) c0) by (apply put_tame; [intro k; apply D | repeat split]).
    destruct re.
    + pose proof (F false true (n_off c) (n_des c) (put (n_m c) (with_design None) h) c0) as T.
      destruct (fold_left _ (n_off c) _) as [h1 c1]. injection E as <- <-. eapply tame_trans; [exact P | exact T0 | apply T; intros [I | I]; apply U; auto].
    + injection E as <- <-. exact T0.
Qed.
Lemma set_tame : forall (R : cont -> cont -> Prop) u l h c h' c', (forall k, R k (to_SI u "m" k)) -> set_properties_conn u l h c = (h', c', None) -> tame R h c h' c'.
Proof. intros R u l h c h' c' G E. injection E as <- <-. apply put_tame; [exact G | repeat split]. Qed.

(* -------------------------------------------------------------------------- loops *)

Lemma sweep_tame : forall f R mn (ok : string -> conn -> Prop) cs h h' cs',
  sweep f h cs = (h', cs', None) -> (forall l c, In (l, c) cs -> ok l c) ->
  preorder R -> (forall l h c h' c', f l h c = (h', c', None) -> tame (fun _ _ => True) h c h' c') ->
  (forall l h c h' c', f l h c = (h', c', None) -> ok l c -> n_m c = mn -> tame R h c h' c') ->
  forall k, dget mn h = Some k -> exists k', dget mn h' = Some k' /\ R k k'.
Proof.
  intros f R mn ok cs. induction cs as [| [l0 c0] cs IH]; intros h h' cs' E OK P T TR k D; cbn [sweep] in E.
  - injection E as <- <-. exists k. split; [exact D | apply P].
  - destruct (f l0 h c0) as [[h1 c1] [e |]] eqn:F; [discriminate |]. destruct (sweep f h1 cs) as [[h2 cs2] e2] eqn:S.
    injection E as <- <- ->.
    assert (X : exists k1, dget mn h1 = Some k1 /\ R k k1).
    { destruct (string_dec mn (n_m c0)) as [-> | N].
      - destruct (TR _ _ _ _ _ F (OK l0 c0 (or_introl eq_refl)) eq_refl) as (_ & _ & B). now apply B.
      - destruct (T _ _ _ _ _ F) as (_ & A & _). exists k. rewrite A by exact N. split; [exact D | apply P]. }
    destruct X as (k1 & D1 & R1). destruct (IH h1 h2 cs2 S (fun l c I => OK l c (or_intror I)) P T TR k1 D1) as (k2 & D2 & R2).
    exists k2. split; [exact D2 |]. destruct P as (_ & PT). exact (PT _ _ _ R1 R2).
Qed.
(** A connection of the list establishes [Q], the others keep it *)
Lemma sweep_once : forall f (I Q : cont -> Prop) mn (ok : string -> conn -> Prop) cs h h' cs',
  sweep f h cs = (h', cs', None) -> (forall l c, In (l, c) cs -> ok l c) -> (exists l c, In (l, c) cs /\ n_m c = mn) ->
  (forall l h c h' c', f l h c = (h', c', None) -> tame (fun _ _ => True) h c h' c') ->
  (forall l h c h' c', f l h c = (h', c', None) -> ok l c -> n_m c = mn -> tame (fun k k' => I k -> I k' /\ Q k') h c h' c') ->
  forall k, dget mn h = Some k -> I k -> exists k', dget mn h' = Some k' /\ I k' /\ Q k'.
Proof.
  intros f I Q mn ok cs. induction cs as [| [l0 c0] cs IH]; intros h h' cs' E OK EX T TR k D IK; cbn [sweep] in E.
  - destruct EX as (? & ? & [] & _).
  - destruct (f l0 h c0) as [[h1 c1] [e |]] eqn:F; [discriminate |]. destruct (sweep f h1 cs) as [[h2 cs2] e2] eqn:S.
    injection E as <- <- ->. destruct (string_dec mn (n_m c0)) as [-> | N].
    + destruct (TR _ _ _ _ _ F (OK l0 c0 (or_introl eq_refl)) eq_refl) as (_ & _ & B). apply B in D as (k1 & D1 & R1).
      destruct (R1 IK) as (I1 & Q1).
      destruct (sweep_tame f (fun k k' => I k /\ Q k -> I k' /\ Q k') (n_m c0) ok cs h1 h2 cs2 S (fun l c J => OK l c (or_intror J)) ) with (k := k1) as (k2 & D2 & R2).
      * split; auto.
      * exact T.
      * intros l h3 c h4 c4 F4 O4 M4. destruct (TR _ _ _ _ _ F4 O4 M4) as (W4 & A4 & B4). split; [exact W4 |]. split; [exact A4 |].
        intros k3 D3. apply B4 in D3 as (k4 & D4 & R4). exists k4. split; [exact D4 |]. intros (J & _). now apply R4.
      * exact D1.
      * exists k2. split; [exact D2 | now apply R2].
    + destruct (T _ _ _ _ _ F) as (_ & A & _). apply (IH h1 h2 cs2 S) with (k := k); auto.
      * intros l c J. apply OK. now right.
      * destruct EX as (l & c & [J | J] & M); [injection J as <- <-; congruence | exists l, c; auto].
      * rewrite A by exact N. exact D.
Qed.
Lemma dget_pair : forall V (d : dict V) l c, NoDup (keys d) -> In (l, c) d -> dget l d = Some c.
Proof. intros V d l c ND I. now apply In_dget. Qed.
Lemma over_tame : forall f st st', over_conns f st = (st', None) -> NoDup (keys (t_conns st)) ->
  (forall l h c h' c', f l h c = (h', c', None) -> tame (fun _ _ => True) h c h' c') ->
  all_conns wiring st st'
  /\ (forall R mn, preorder R ->
       (forall l h c h' c', f l h c = (h', c', None) -> dget l (t_conns st) = Some c -> n_m c = mn -> tame R h c h' c') ->
       forall k, dget mn (t_m st) = Some k -> exists k', dget mn (t_m st') = Some k' /\ R k k')
  /\ (forall (I Q : cont -> Prop) mn, (exists l c, dget l (t_conns st) = Some c /\ n_m c = mn) ->
       (forall l h c h' c', f l h c = (h', c', None) -> dget l (t_conns st) = Some c -> n_m c = mn -> tame (fun k k' => I k -> I k' /\ Q k') h c h' c') ->
       forall k, dget mn (t_m st) = Some k -> I k -> exists k', dget mn (t_m st') = Some k' /\ I k' /\ Q k').
Proof.
  intros f st st' E ND T. pose proof E as E0. apply over_conns_get in E0 as (_ & _ & _ & _ & _ & K & G).
  unfold over_conns in E. destruct (sweep f (t_m st) (t_conns st)) as [[h cs] e] eqn:S. injection E as <- ->. cbn [with_conns t_m t_conns] in *.
  split; [| split].
  - split; [exact K |]. intros l c D. destruct (G l c D) as (h1 & h2 & c' & F & D'). exists c'. split; [exact D' |]. now apply T in F as (W & _).
  - intros R mn P TR. apply (sweep_tame f R mn (fun l c => dget l (t_conns st) = Some c) _ _ _ _ S); auto. intros l c. now apply dget_pair.
  - intros I Q mn (l & c & D & M) TR. apply (sweep_once f I Q mn (fun l c => dget l (t_conns st) = Some c) _ _ _ _ S); auto.
    + intros l' c'. now apply dget_pair.
    + exists l, c. split; [now apply dget_In | exact M].
Qed.

(* ----------------------------------------------------------------- after the solver *)

Definition SIof (h : dict cont) (l : string) : option Q := match dget l h with Some k => k_SI k | None => None end.
Definition same_but_SI (k k' : cont) : Prop := k_set k' = k_set k /\ k_var k' = k_var k /\ k_val k' = k_val k /\ k_design k' = k_design k.
Lemma reset_sweep : forall owner, idem owner -> forall cs h h' cs', sweep reset_conn h cs = (h', cs', None) -> NoDup (keys cs) ->
  (forall l c, In (l, c) cs -> n_m c = owner l /\ (n_tmp c = Some l \/ n_tmp c = None /\ owner l = l)) ->
  (forall l, ~ In l (keys cs) -> dget l h' = dget l h)
  /\ (forall l k, In l (keys cs) -> dget l h = Some k -> exists k', dget l h' = Some k' /\ same_but_SI k k' /\ k_SI k' = SIof h (owner l))
  /\ (forall l c', In (l, c') cs' -> n_m c' = l /\ n_tmp c' = None).
Proof.
  intros owner ID. induction cs as [| [l0 c0] cs IH]; intros h h' cs' E ND W; cbn [sweep] in E.
  - injection E as <- <-. split; [reflexivity |]. split; [intros l k [] | intros l c' []].
  - destruct (reset_conn l0 h c0) as [[h1 c1] [e |]] eqn:F; [discriminate |]. destruct (sweep reset_conn h1 cs) as [[h2 cs2] e2] eqn:S.
    injection E as <- <- ->. inversion ND as [| ? ? NI ND2]; subst.
    destruct (IH h1 h2 cs2 S ND2 (fun l c I => W l c (or_intror I))) as (A & B & C).
    destruct (W l0 c0 (or_introl eq_refl)) as (M0 & T0).
    assert (X : (forall x, x <> l0 -> dget x h1 = dget x h) /\ n_m c1 = l0 /\ n_tmp c1 = None
              /\ forall k, dget l0 h = Some k -> exists k', dget l0 h1 = Some k' /\ same_but_SI k k' /\ k_SI k' = SIof h (owner l0)).
    { unfold reset_conn in F. destruct T0 as [T0 | (T0 & O0)]; rewrite T0 in F; injection F as <- <-.
      - split; [intros x N; rewrite dget_put; destruct (String.eqb_spec x l0); [contradiction | reflexivity] |]. split; [reflexivity |]. split; [reflexivity |].
        intros k D. rewrite dget_put, String.eqb_refl, D, M0. eexists. split; [reflexivity |]. split; [repeat split | reflexivity].
      - split; [reflexivity |]. split; [congruence |]. split; [exact T0 |]. intros k D. exists k. split; [exact D |]. split; [repeat split |].
        unfold SIof. rewrite O0, D. reflexivity. }
    destruct X as (X1 & X2 & X3 & X4).
    assert (OWN : forall x, SIof h1 (owner x) = SIof h (owner x)).
    { intro x. destruct (string_dec (owner x) l0) as [EO | N]; [| unfold SIof; now rewrite X1].
      rewrite EO. destruct (dget l0 h) as [k |] eqn:D.
      - destruct (X4 k eq_refl) as (k' & D' & _ & SI). unfold SIof at 1. rewrite D', SI.
        assert (O0 : owner l0 = l0) by (rewrite <- EO; apply ID). now rewrite O0.
      - assert (D1 : dget l0 h1 = None).
        { unfold reset_conn in F. destruct T0 as [T0 | (T0 & O0)]; rewrite T0 in F; injection F as <- <-; [| exact D].
          rewrite dget_put, String.eqb_refl, D. reflexivity. }
        unfold SIof. now rewrite D, D1. }
    split; [| split].
    + intros l N. cbn in N. rewrite A by tauto. apply X1. intros ->. tauto.
    + intros l k I D. destruct (string_dec l l0) as [-> | N].
      * rewrite A by exact NI. now apply X4.
      * destruct I as [I | I]; [cbn in I; congruence |]. destruct (B l k I) as (k' & D' & S' & SI'); [now rewrite X1 |].
        exists k'. split; [exact D' |]. split; [exact S' |]. now rewrite SI', OWN.
    + intros l c' [I | I]; [injection I as <- <-; auto | now apply C].
Qed.
