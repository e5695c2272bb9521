(** Proofs about design and offdesign mode: one calculation and histories. *)
From Coq Require Import QArith.
From Verif Require Import Base ModeModel ModeSpec ModeProofs.
Open Scope string_scope.
Open Scope list_scope.

(** A step that keeps flags and design values *)
Definition keeps (si : bool) (c c' : conn) : Prop :=
  frame c c' /\ n_flags c' = n_flags c /\ n_new c' = n_new c
  /\ forall v k, dget v (n_props c) = Some k -> exists k', dget v (n_props c') = Some k'
     /\ k_set k' = k_set k /\ k_design k' = k_design k /\ (si = true -> k_set k = true -> k_SI k' = k_SI k).
Lemma keeps_same : forall si c c', frame c c' -> n_flags c' = n_flags c -> n_new c' = n_new c -> n_props c' = n_props c -> keeps si c c'.
Proof. intros si c c' F G N P. repeat split; try apply F; auto. intros v k D. exists k. rewrite P. auto. Qed.
Lemma keeps_refl : forall si c, keeps si c c.
Proof. intros. apply keeps_same; auto using frame_refl. Qed.
Lemma keeps_trans : forall si a b c, keeps si a b -> keeps si b c -> keeps si a c.
Proof.
  intros si a b c (A1 & A2 & A3 & A4) (B1 & B2 & B3 & B4). split; [exact (frame_trans _ _ _ A1 B1) |]. split; [congruence |]. split; [congruence |].
  intros v k D. apply A4 in D as (k1 & D1 & S1 & E1 & I1). apply B4 in D1 as (k2 & D2 & S2 & E2 & I2). exists k2.
  split; [exact D2 |]. split; [congruence |]. split; [congruence |]. intros X Y. rewrite I2, I1; congruence.
Qed.
Lemma keeps_map : forall si c (F : string -> cont -> cont),
  (forall v k, k_set (F v k) = k_set k /\ k_design (F v k) = k_design k /\ (si = true -> k_set k = true -> k_SI (F v k) = k_SI k)) ->
  keeps si c (with_props c (map (fun e => (fst e, F (fst e) (snd e))) (n_props c))).
Proof.
  intros si c F H. split. { repeat split. cbn. apply keys_mapk. } split; [reflexivity |]. split; [reflexivity |].
  intros v k D. exists (F v k). cbn. rewrite dget_mapk, D. split; [reflexivity | apply H].
Qed.

(** Connections of two states *)
Definition all_conns (R : conn -> conn -> Prop) (st st' : net) : Prop :=
  keys (t_conns st') = keys (t_conns st)
  /\ forall l c, dget l (t_conns st) = Some c -> exists c', dget l (t_conns st') = Some c' /\ R c c'.
Definition rest (st st' : net) : Prop := t_branches st' = t_branches st /\ t_path st' = t_path st /\ t_new st' = t_new st.
Lemma all_trans : forall (R : conn -> conn -> Prop), (forall a b c, R a b -> R b c -> R a c) ->
  forall a b c, all_conns R a b -> all_conns R b c -> all_conns R a c.
Proof.
  intros R T a b c (K1 & G1) (K2 & G2). split; [congruence |]. intros l x D. apply G1 in D as (y & D & RY). apply G2 in D as (z & D & RZ).
  exists z. split; [exact D | exact (T _ _ _ RY RZ)].
Qed.

Lemma share_conns : forall si main ls st, all_conns (keeps si) st (share main ls st) /\ t_comps (share main ls st) = t_comps st
  /\ rest st (share main ls st) /\ t_redesign (share main ls st) = t_redesign st.
Proof.
  intros si main ls st. unfold share. destruct (dget main (t_conns st)) as [cm |].
  2:{ split; [| repeat split]. split; [reflexivity |]. intros l c D. exists c. auto using keeps_refl. }
  split; [| repeat split]. unfold all_conns. cbn [with_conns t_conns].
  generalize (t_conns st) as cs. clear st. induction ls as [| l0 ls IH]; intro cs.
  - split; [reflexivity |]. intros l c D. exists c. auto using keeps_refl.
  - cbn [fold_left]. destruct (IH (put l0 (fun c => with_m c (n_m cm) (Some (n_m c))) cs)) as (K & G). split; [rewrite K; apply keys_put |].
    intros l c D. destruct (String.eqb_spec l l0) as [-> | N].
    + destruct (G l0 (with_m c (n_m cm) (Some (n_m c)))) as (c' & D' & R); [rewrite dget_put, String.eqb_refl, D; reflexivity |].
      exists c'. split; [exact D' |]. apply (keeps_trans _ _ _ _ (keeps_same si c _ (frame_refl c) eq_refl eq_refl eq_refl) R).
    + apply G. rewrite dget_put. destruct (String.eqb_spec l l0); [contradiction | exact D].
Qed.
Lemma presolve_conns : forall si st st', presolve st = (st', None) ->
  all_conns (keeps si) st st' /\ t_comps st' = t_comps st /\ rest st st' /\ t_redesign st' = t_redesign st.
Proof.
  intros si st st' E. unfold presolve in E.
  assert (REFL : all_conns (keeps si) st st /\ t_comps st = t_comps st /\ rest st st /\ t_redesign st = t_redesign st).
  { split; [| repeat split]. split; [reflexivity |]. intros l c D. exists c. auto using keeps_refl. }
  enough (G : forall bs st1, fold_left (fun r b => andthen r (presolve_branch b)) bs (st1, None) = (st', None) ->
     all_conns (keeps si) st st1 /\ t_comps st1 = t_comps st /\ rest st st1 /\ t_redesign st1 = t_redesign st ->
     all_conns (keeps si) st st' /\ t_comps st' = t_comps st /\ rest st st' /\ t_redesign st' = t_redesign st)
    by exact (G _ _ E REFL).
  clear E REFL. induction bs as [| b bs IH]; intros st1 E H; cbn [fold_left] in E.
  - injection E as <-. exact H.
  - cbn [andthen] in E. destruct (presolve_branch b st1) as [st2 [e |]] eqn:B.
    { exfalso. clear - E. induction bs; cbn in E; [discriminate | auto]. }
    apply (IH st2 E). destruct H as (A & C & (R1 & R2 & R3) & RE).
    assert (X : exists main ls, st2 = share main ls st1 \/ st2 = st1).
    { unfold presolve_branch in B. destruct (filter (m_set st1) b) as [| x [| y l]]; [destruct b as [| x l] | |].
      - injection B as <-. exists ""%string, []. now right.
      - injection B as <-. exists x, l. now left.
      - injection B as <-. exists x, b. now left.
      - discriminate. }
    destruct X as (main & ls & [-> | ->]); [| repeat split; assumption || apply A].
    destruct (share_conns si main ls st1) as (A2 & C2 & (Q1 & Q2 & Q3) & RE2).
    split; [exact (all_trans _ (keeps_trans si) _ _ _ A A2) |]. repeat split; congruence.
Qed.
Lemma over_conns_keeps : forall si f st st', (forall l h c h' c' e, f l h c = (h', c', e) -> keeps si c c') ->
  over_conns f st = (st', None) -> all_conns (keeps si) st st' /\ t_comps st' = t_comps st /\ rest st st' /\ t_redesign st' = t_redesign st.
Proof.
  intros si f st st' H E. apply over_conns_get in E as (C & B & RE & P & N & K & G). split; [| repeat split; assumption].
  split; [exact K |]. intros l c D. apply G in D as (h1 & h2 & c' & F & D). exists c'. split; [exact D | exact (H _ _ _ _ _ _ F)].
Qed.

(** Before the switch *)
Lemma head_conns : forall u st st1 st2, presolve st = (st1, None) -> over_conns (set_properties_conn u) st1 = (st2, None) ->
  all_conns (keeps false) st st2 /\ t_comps st2 = t_comps st /\ rest st st2 /\ t_redesign st2 = t_redesign st.
Proof.
  intros u st st1 st2 E1 E2. apply (presolve_conns false) in E1 as (A1 & C1 & (B1 & P1 & N1) & R1).
  apply (over_conns_keeps false) in E2 as (A2 & C2 & (B2 & P2 & N2) & R2).
  - split; [exact (all_trans _ (keeps_trans false) _ _ _ A1 A2) |]. repeat split; congruence.
  - intros l h c h' c' e E. injection E as <- <- <-. apply keeps_map. intros v k. unfold to_SI. destruct (k_set k) eqn:S; cbn; rewrite ?S; auto; repeat split; congruence.
Qed.

(** Components *)
Definition cframe (c c' : comp) : Prop :=
  p_des c' = p_des c /\ p_off c' = p_off c /\ p_path c' = p_path c /\ p_ldes c' = p_ldes c /\ p_loff c' = p_loff c
  /\ keys (p_pars c') = keys (p_pars c).
Lemma cframe_refl : forall c, cframe c c.
Proof. repeat split. Qed.
Lemma cframe_trans : forall a b c, cframe a b -> cframe b c -> cframe a c.
Proof. intros a b c (A1 & A2 & A3 & A4 & A5 & A6) (B1 & B2 & B3 & B4 & B5 & B6). repeat split; congruence. Qed.
(** Values of specified parameters and design values are kept *)
Definition ckeeps (c c' : comp) : Prop :=
  cframe c c' /\ p_new c' = p_new c
  /\ forall v q, dget v (p_pars c) = Some q -> exists q', dget v (p_pars c') = Some q'
     /\ q_set q' = q_set q /\ q_num q' = q_num q /\ q_design q' = q_design q /\ (q_set q = true -> q_val q' = q_val q).

(** After the switch *)
Lemma tail_spec : forall u sol st st1 st2 st', over_conns reset_conn (solver sol st) = (st1, None) ->
  over_conns (report_conn u) st1 = (st2, None) -> over_comps (report_comp sol) st2 = (st', None) ->
  all_conns (keeps true) st st' /\ rest st st' /\ t_redesign st' = t_redesign st /\ keys (t_comps st') = keys (t_comps st)
  /\ forall l c, dget l (t_comps st) = Some c -> exists c', dget l (t_comps st') = Some c' /\ ckeeps c c'.
Proof.
  intros u sol st st1 st2 st' E1 E2 E3.
  assert (A0 : all_conns (keeps true) st (solver sol st)).
  { split; [cbn; apply (keys_mapk _ _ (fun l c => with_props c (map (fun e => (fst e, solved_cont (s_conn sol l (fst e)) (snd e))) (n_props c)))) |].
    intros l c D. exists (with_props c (map (fun e => (fst e, solved_cont (s_conn sol l (fst e)) (snd e))) (n_props c))).
    split. { cbn [solver t_conns]. rewrite (dget_mapk _ _ (fun l c => with_props c (map (fun e => (fst e, solved_cont (s_conn sol l (fst e)) (snd e))) (n_props c)))), D. reflexivity. }
    apply (keeps_map true c (fun v => solved_cont (s_conn sol l v))). intros v k. unfold solved_cont. destruct (k_set k) eqn:S; cbn; rewrite ?S; auto; repeat split; congruence. }
  apply (over_conns_keeps true) in E1 as (A1 & C1 & (B1 & P1 & N1) & R1).
  2:{ intros l h c h' c' e E. unfold reset_conn in E. destruct (n_tmp c); injection E as <- <- <-; [now apply keeps_same; auto using frame_refl | apply keeps_refl]. }
  apply (over_conns_keeps true) in E2 as (A2 & C2 & (B2 & P2 & N2) & R2).
  2:{ intros l h c h' c' e E. injection E as <- <- <-. apply keeps_map. intros v k. auto. }
  apply over_comps_get in E3 as (C3 & M3 & B3 & R3 & P3 & N3 & K3 & G3).
  split. { pose proof (all_trans _ (keeps_trans true) _ _ _ (all_trans _ (keeps_trans true) _ _ _ A0 A1) A2) as (K & G). split; [congruence |]. rewrite C3. exact G. }
  split; [repeat split; cbn in *; congruence |]. split; [cbn in *; congruence |]. split; [rewrite K3, C2, C1; reflexivity |].
  intros l c D. destruct (G3 l c) as (c' & F & D'); [rewrite C2, C1; exact D |]. exists c'. split; [exact D' |].
  unfold report_comp in F. injection F as <-.
  set (G := fun v q => if q_num q && negb (q_set q) then {| q_set := false; q_num := true; q_val := Some (s_comp sol l v); q_design := q_design q |} else q).
  split. { repeat split. cbn [with_pars p_pars]. apply (keys_mapk _ _ G). }
  split; [reflexivity |]. intros v q DQ. exists (G v q). split. { cbn [with_pars p_pars]. rewrite (dget_mapk _ _ G), DQ. reflexivity. }
  unfold G. destruct (q_num q) eqn:QN, (q_set q) eqn:QS; cbn; rewrite ?QN, ?QS; auto; repeat split; congruence.
Qed.

(** Parameters of a component *)
Lemma fold_put : forall V (g : V -> V) vs d v, (forall k, g (g k) = g k) ->
  dget v (fold_left (fun d w => put w g d) vs d) = if smem v vs then option_map g (dget v d) else dget v d.
Proof.
  intros V g vs d v I. revert d. induction vs as [| w vs IH]; intro d; [reflexivity |]. cbn [fold_left]. rewrite IH, dget_put, smem_cons.
  destruct (String.eqb v w); cbn [orb]; [| reflexivity]. destruct (smem v vs); [| reflexivity]. destruct (dget v d); cbn; [now rewrite I | reflexivity].
Qed.
Lemma fold_put_keys : forall V (g : V -> V) vs (d : dict V), keys (fold_left (fun d w => put w g d) vs d) = keys d.
Proof. intros V g vs. induction vs as [| w vs IH]; intro d; [reflexivity |]. cbn [fold_left]. rewrite IH. apply keys_put. Qed.
Lemma par_design_idem : forall q, par_design (par_design q) = par_design q.
Proof. intros [s n x d]. unfold par_design. cbn. destruct n; reflexivity. Qed.
Lemma comp_off_get : forall c v, dget v (comp_off c) = if smem v (p_off c) then option_map par_design (dget v (p_pars c))
  else if smem v (p_des c) then option_map (par_flag false) (dget v (p_pars c)) else dget v (p_pars c).
Proof.
  intros. unfold comp_off. rewrite fold_put by exact par_design_idem. rewrite fold_put by reflexivity.
  destruct (smem v (p_off c)); [| reflexivity]. destruct (smem v (p_des c)); [| reflexivity]. destruct (dget v (p_pars c)); reflexivity.
Qed.
Lemma comp_off_keys : forall c, keys (comp_off c) = keys (p_pars c).
Proof. intros. unfold comp_off. rewrite !fold_put_keys. reflexivity. Qed.

Lemma set_parameters_spec : forall dm data c c', set_parameters dm data c = (c', None) ->
  cframe c c' /\ p_new c' = (if dm || p_ldes c then true else p_new c)
  /\ forall v, dget v (p_pars c') = option_map (fun q => if q_num q
       then {| q_set := q_set q; q_num := true; q_val := q_val q;
               q_design := if (negb dm && negb (p_ldes c)) || (dm && p_loff c)
                           then match data with Some row => match dget v row with Some x => x | None => None end | None => None end
                           else None |} else q) (dget v (p_pars c)).
Proof.
  intros dm data c c' E. unfold set_parameters in E.
  set (value := fun v => match data with Some row => match dget v row with Some x => x | None => None end | None => None end) in *.
  set (W := fun (f : string -> option Q) v q => if q_num q then {| q_set := q_set q; q_num := true; q_val := q_val q; q_design := f v |} else q).
  destruct ((negb dm && negb (p_ldes c)) || (dm && p_loff c)).
  - match type of E with context [if ?m then _ else _] => destruct m end; [discriminate |]. injection E as <-.
    split. { repeat split. cbn [p_pars]. apply (keys_mapk _ _ (W value)). }
    split; [reflexivity |]. intro v. cbn [p_pars]. apply (dget_mapk _ _ (W value)).
  - injection E as <-. split. { repeat split. cbn [p_pars]. apply (keys_mapk _ _ (W (fun _ => None))). }
    split; [reflexivity |]. intro v. cbn [p_pars]. apply (dget_mapk _ _ (W (fun _ => None))).
Qed.

(** One component loaded *)
Definition loaded (files : string -> file) (path : string) (l : string) (c c' : comp) : Prop :=
  cframe c c' /\ (p_ldes c = false -> p_new c' = p_new c)
  /\ forall v q, dget v (p_pars c) = Some q -> exists q', dget v (p_pars c') = Some q' /\ q_set q' = q_set q /\ q_num q' = q_num q /\ q_val q' = q_val q
     /\ (p_ldes c = false -> q_num q = true -> dget l (f_comps (files path)) <> None ->
         q_design q' = table_comp (tables files (p_path c) path) l v).
Lemma load_comps_spec : forall files path st st', load_comps files path st = (st', None) ->
  t_conns st' = t_conns st /\ t_m st' = t_m st /\ rest st st' /\ t_redesign st' = t_redesign st
  /\ forall l c, dget l (t_comps st) = Some c -> exists c', dget l (t_comps st') = Some c' /\ loaded files path l c c'.
Proof.
  intros files path st st' E. unfold load_comps in E. 
  set (step := fun (r : net * option pyerr) l => andthen r _) in E.
  assert (STUCK : forall ls s e, fold_left step ls (s, Some e) = (s, Some e)) by (induction ls; intros; cbn; auto).
  assert (G : forall ls s, fold_left step ls (s, None) = (st', None) ->
    t_conns st' = t_conns s /\ t_m st' = t_m s /\ rest s st' /\ t_redesign st' = t_redesign s
    /\ forall l c, dget l (t_comps s) = Some c -> exists c', dget l (t_comps st') = Some c' /\ cframe c c' /\ (p_ldes c = false -> p_new c' = p_new c)
       /\ forall v q, dget v (p_pars c) = Some q -> exists q', dget v (p_pars c') = Some q' /\ q_set q' = q_set q /\ q_num q' = q_num q /\ q_val q' = q_val q
       /\ (p_ldes c = false -> q_num q = true -> In l ls \/ q_design q = table_comp (tables files (p_path c) path) l v ->
           q_design q' = table_comp (tables files (p_path c) path) l v)).
  { induction ls as [| l0 ls IH]; intros s E1.
    - cbn in E1. injection E1 as ->. repeat split. intros l c D. exists c. split; [exact D |]. split; [apply cframe_refl |]. split; [auto |].
      intros v q DQ. exists q. repeat split; try assumption. intros _ _ [[] | X]. exact X.
    - cbn [fold_left] in E1. unfold step in E1 at 2. cbn [andthen] in E1.
      destruct (dget l0 (t_comps s)) as [c0 |] eqn:D0; [| rewrite STUCK in E1; discriminate].
      fold (tables files (p_path c0) path) in E1.
      destruct (dget l0 (f_comps (tables files (p_path c0) path))) as [row |] eqn:DR; [| rewrite STUCK in E1; discriminate].
      destruct (set_parameters false (Some row) c0) as [c1 [e |]] eqn:SP; [rewrite STUCK in E1; discriminate |].
      apply IH in E1 as (T1 & T2 & T3 & T4 & T5). cbn [with_comps t_conns t_m t_comps t_redesign] in *.
      split; [exact T1 |]. split; [exact T2 |]. split; [exact T3 |]. split; [exact T4 |].
      intros l c D. destruct (String.eqb_spec l l0) as [-> | N].
      + rewrite D0 in D. injection D as ->. destruct (T5 l0 c1 (dget_dset_eq _ _ _)) as (c' & D' & F' & N' & P').
        apply set_parameters_spec in SP as (F1 & N1 & P1). exists c'. split; [exact D' |]. split; [exact (cframe_trans _ _ _ F1 F') |].
        assert (LD : p_ldes c1 = p_ldes c) by apply F1. assert (PP : p_path c1 = p_path c) by apply F1.
        split. { intro L. rewrite N' by congruence. rewrite N1, L. reflexivity. }
        intros v q DQ. pose proof (P1 v) as P1v. rewrite DQ in P1v. cbn [option_map] in P1v.
        destruct (P' _ _ P1v) as (q' & DQ' & A1 & A2 & A3 & A4). exists q'. split; [exact DQ' |].
        split. { rewrite A1. destruct (q_num q); reflexivity. } split. { rewrite A2. destruct (q_num q) eqn:QN; [reflexivity | exact QN]. }
        split. { rewrite A3. destruct (q_num q); reflexivity. }
        intros L QN _. rewrite PP in A4. apply A4; [congruence | now rewrite QN |]. right. rewrite QN, L. cbn.
        unfold table_comp. rewrite DR. reflexivity.
      + destruct (T5 l c) as (c' & D' & F' & N' & P'); [rewrite dget_dset_neq by exact N; exact D |]. exists c'. split; [exact D' |]. split; [exact F' |]. split; [exact N' |].
        intros v q DQ. destruct (P' _ _ DQ) as (q' & DQ' & A1 & A2 & A3 & A4). exists q'. repeat split; try assumption. intros L QN [[X | X] | X]; [congruence | |]; apply A4; auto. }
  apply G in E as (T1 & T2 & T3 & T4 & T5). split; [exact T1 |]. split; [exact T2 |]. split; [exact T3 |]. split; [exact T4 |].
  intros l c D. destruct (T5 l c D) as (c' & D' & F' & N' & P'). exists c'. split; [exact D' |]. split; [exact F' |]. split; [exact N' |].
  intros v q DQ. destruct (P' _ _ DQ) as (q' & DQ' & A1 & A2 & A3 & A4). exists q'. repeat split; try assumption.
  intros L QN X. apply A4; auto. left. destruct (dget l (f_comps (files path))) eqn:Y; [| congruence]. apply dget_In in Y. apply in_map_iff. eexists. split; [| exact Y]. reflexivity.
Qed.
