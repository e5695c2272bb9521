(** Proofs about design and offdesign mode: containers of one calculation, exactly. *)
From Coq Require Import QArith.
From Verif Require Import Base ModeModel ModeSpec ModeProofs ModeProofs2 ModeProofs3.
Open Scope string_scope.
Open Scope list_scope.

(** Connections that differ in the mass flow containers only *)
Definition rewired (c c' : conn) : Prop := exists m t, c' = with_m c m t.
Lemma rewired_refl : forall c, rewired c c.
Proof. intros []. exists n_m, n_tmp. reflexivity. Qed.
Lemma rewired_trans : forall a b c, rewired a b -> rewired b c -> rewired a c.
Proof. intros a b c (m & t & ->) (m' & t' & ->). exists m', t'. reflexivity. Qed.
Lemma rewired_props : forall c c', rewired c c' -> n_props c' = n_props c /\ n_flags c' = n_flags c /\ frame c c' /\ n_new c' = n_new c.
Proof. intros c c' (m & t & ->). repeat split. Qed.

Lemma share_rewired : forall main ls st, all_conns rewired st (share main ls st).
Proof.
  intros main ls st. unfold share. destruct (dget main (t_conns st)) as [cm |].
  2:{ split; [reflexivity |]. intros l c D. exists c. auto using rewired_refl. }
  unfold all_conns. cbn [with_conns t_conns].
  generalize (t_conns st) as cs. clear st. induction ls as [| l0 ls IH]; intro cs.
  - split; [reflexivity |]. intros l c D. exists c. auto using rewired_refl.
  - cbn [fold_left]. destruct (IH (put l0 (fun c => with_m c (n_m cm) (Some (n_m c))) cs)) as (K & G). split; [rewrite K; apply keys_put |].
    intros l c D. destruct (String.eqb_spec l l0) as [-> | N].
    + destruct (G l0 (with_m c (n_m cm) (Some (n_m c)))) as (c' & D' & R); [rewrite dget_put, String.eqb_refl, D; reflexivity |].
      exists c'. split; [exact D' |]. eapply rewired_trans; [| exact R]. do 2 eexists. reflexivity.
    + apply G. rewrite dget_put. destruct (String.eqb_spec l l0); [contradiction | exact D].
Qed.
Lemma presolve_rewired : forall st st', presolve st = (st', None) -> all_conns rewired st st'.
Proof.
  intros st st' E. unfold presolve in E.
  assert (REFL : all_conns rewired st st).
  { split; [reflexivity |]. intros l c D. exists c. auto using rewired_refl. }
  enough (G : forall bs st1, fold_left (fun r b => andthen r (presolve_branch b)) bs (st1, None) = (st', None) ->
     all_conns rewired st st1 -> all_conns rewired st st') by exact (G _ _ E REFL).
  clear E REFL. induction bs as [| b bs IH]; intros st1 E H; cbn [fold_left] in E.
  - injection E as <-. exact H.
  - cbn [andthen] in E. destruct (presolve_branch b st1) as [st2 [e |]] eqn:B.
    { exfalso. clear - E. induction bs; cbn in E; [discriminate | auto]. }
    apply (IH st2 E). unfold presolve_branch in B.
    destruct (filter (m_set st1) b) as [| x [| y l]]; [destruct b as [| x l] | |]; try discriminate B; injection B as <-; [exact H | |];
      exact (all_trans _ rewired_trans _ _ _ H (share_rewired _ _ _)).
Qed.

(** Before and after the switch *)
Definition step_props (g : string -> cont -> cont) (c c' : conn) : Prop :=
  frame c c' /\ n_flags c' = n_flags c /\ n_new c' = n_new c
  /\ forall v, dget v (n_props c') = option_map (g v) (dget v (n_props c)).
Lemma head_exact : forall u st st1 st2, presolve st = (st1, None) -> over_conns (set_properties_conn u) st1 = (st2, None) ->
  forall l c, dget l (t_conns st) = Some c -> exists c', dget l (t_conns st2) = Some c' /\ step_props (to_SI u) c c'.
Proof.
  intros u st st1 st2 E1 E2 l c D. apply presolve_rewired in E1 as (_ & G1). destruct (G1 l c D) as (c1 & D1 & R1).
  apply rewired_props in R1 as (P1 & L1 & F1 & N1). apply over_conns_get in E2 as (_ & _ & _ & _ & _ & _ & G2).
  destruct (G2 l c1 D1) as (h1 & h2 & c2 & S & D2). injection S as <- <-. eexists. split; [exact D2 |].
  split; [| split; [exact L1 | split; [exact N1 |]]].
  - apply (frame_trans _ _ _ F1). repeat split. cbn. apply keys_mapk.
  - intro v. cbn. rewrite dget_mapk, P1. reflexivity.
Qed.
Lemma tail_exact : forall u sol st st1 st2 st', over_conns reset_conn (solver sol st) = (st1, None) ->
  over_conns (report_conn u) st1 = (st2, None) -> over_comps (report_comp sol) st2 = (st', None) ->
  forall l c, dget l (t_conns st) = Some c -> exists c', dget l (t_conns st') = Some c'
    /\ step_props (fun v k => to_val u v (solved_cont (s_conn sol l v) k)) c c'.
Proof.
  intros u sol st st1 st2 st' E1 E2 E3 l c D.
  apply over_conns_get in E1 as (_ & _ & _ & _ & _ & _ & G1). apply over_conns_get in E2 as (_ & _ & _ & _ & _ & _ & G2).
  apply over_comps_get in E3 as (C3 & _). rewrite C3.
  set (S := fun l c => with_props c (map (fun e => (fst e, solved_cont (s_conn sol l (fst e)) (snd e))) (n_props c))) in *.
  assert (D0 : dget l (t_conns (solver sol st)) = Some (S l c)).
  { cbn [solver t_conns]. change (dget l (map (fun lc => (fst lc, S (fst lc) (snd lc))) (t_conns st)) = Some (S l c)). rewrite (dget_mapk _ _ S), D. reflexivity. }
  destruct (G1 l _ D0) as (h1 & h2 & c1 & R & D1). destruct (G2 l c1 D1) as (h3 & h4 & c2 & T & D2). injection T as <- <-.
  exists (with_props c1 (map (fun e => (fst e, to_val u (fst e) (snd e))) (n_props c1))). split; [exact D2 |].
  assert (W : rewired (S l c) c1).
  { unfold reset_conn in R. destruct (n_tmp (S l c)); injection R as <- <-; [do 2 eexists; reflexivity | apply rewired_refl]. }
  apply rewired_props in W as (P1 & L1 & F1 & N1).
  split; [| split; [exact L1 | split; [exact N1 |]]].
  - apply (frame_trans c (S l c)). { repeat split. unfold S. cbn. apply (keys_mapk _ _ (fun v => solved_cont (s_conn sol l v))). }
    apply (frame_trans _ _ _ F1). repeat split. cbn. apply keys_mapk.
  - intro v. cbn. rewrite dget_mapk, P1. unfold S. cbn [with_props n_props].
    rewrite (dget_mapk _ _ (fun v => solved_cont (s_conn sol l v))). destruct (dget v (n_props c)); reflexivity.
Qed.

(** The container of an offdesign calculation *)
Definition off_result (u : units) (reload : bool) (d : option Q) (off des : bool) (v : string) (x : Q) (k : cont) : cont :=
  let k1 := to_SI u v k in
  let k2 := if reload then with_design d k1 else k1 in
  let k3 := if off then set_to_design k2 else if des then unset k2 else k2 in
  to_val u v (solved_cont x k3).
Lemma off_exact : forall u files P sol st st', solve u files "offdesign" (Some P) sol st = (st', None) ->
  forall l c v k, dget l (t_conns st) = Some c -> n_ldes c = false -> dget v (n_props c) = Some k -> named c v ->
  exists c', dget l (t_conns st') = Some c'
  /\ dget v (n_props c') = Some (off_result u (needs_design st (Some P)) (table_conn (tables files (n_path c) P) l v)
                                  (smem v (n_off c)) (smem v (n_des c)) v (s_conn sol l v) k).
Proof.
  intros u files P sol st st' E l c v k D LD DK NV. unfold solve in E. cbn [String.eqb Ascii.eqb Bool.eqb orb negb] in E.
  apply andthen_ok in E as (st1 & I & E). unfold initialise in I. apply andthen_ok in I as (sa & I1 & I). apply andthen_ok in I as (sb & I2 & I).
  destruct (head_conns u _ _ _ I1 I2) as (_ & CA & (BA & PA & NA) & RA). cbn [start t_comps t_branches t_path t_new t_redesign] in CA, BA, PA, NA, RA.
  destruct (head_exact u _ _ _ I1 I2 l c D) as (c1 & D1 & F1 & L1 & N1 & V1).
  cbn [redesigned t_path t_new] in I. rewrite PA in I.
  apply andthen_ok in E as (s1 & E1 & E). apply andthen_ok in E as (s2 & E2 & E3).
  apply andthen_ok in I as (sc & I3 & I4). rewrite NA in I3.
  assert (X : exists c2, dget l (t_conns sc) = Some c2 /\ frame c1 c2 /\ n_flags c2 = n_flags c1
     /\ dget v (n_props c2) = Some (if needs_design st (Some P) then with_design (table_conn (tables files (n_path c) P) l v) (to_SI u v k) else to_SI u v k)).
  { assert (PE : n_path c1 = n_path c) by apply F1.
    destruct (needs_design st (Some P)).
    - apply load_spec in I3 as (_ & _ & _ & G & _). destruct (G l c1 D1) as (c2 & D2 & F2 & N2 & L2 & V2). exists c2.
      split; [exact D2 |]. split; [exact F2 |]. split; [exact L2 |]. rewrite V2, V1, DK, PE. reflexivity.
    - injection I3 as <-. exists c1. split; [exact D1 |]. split; [apply frame_refl |]. split; [reflexivity |]. rewrite V1, DK. reflexivity. }
  destruct X as (c2 & D2 & F2 & L2 & V2). unfold init_offdesign in I4. apply andthen_ok in I4 as (sd & I4 & I5).
  apply over_conns_get in I4 as (_ & _ & _ & _ & _ & _ & G4). apply over_comps_get in I5 as (C5 & _).
  destruct (G4 l c2 D2) as (h1 & h2 & c3 & O & D3). rewrite <- C5 in D3.
  destruct (tail_exact u sol _ _ _ _ E1 E2 E3 l c3 D3) as (c4 & D4 & F4 & L4 & N4 & V4).
  exists c4. split; [exact D4 |]. apply offdesign_conn_spec in O as (F3 & _ & LF).
  pose proof (frame_trans _ _ _ F1 F2) as F12.
  assert (LDE : n_ldes c2 = n_ldes c) by apply F12. assert (OFE : n_off c2 = n_off c) by apply F12. assert (DEE : n_des c2 = n_des c) by apply F12.
  rewrite LDE in LF. destruct (LF LD) as (_ & V3 & _). destruct (named_frame _ _ _ F12 NV) as (NM & NF).
  rewrite V4, V3 by assumption. rewrite OFE, DEE, V2. unfold off_result. cbv zeta.
  destruct (smem v (n_off c)); [reflexivity |]. destruct (smem v (n_des c)); reflexivity.
Qed.

(** The container of a design calculation *)
Lemma design_conn_exact : forall files re l h c h' c', design_conn files re l h c = (h', c', None) -> n_loff c = false ->
  forall v, v <> "m" -> dmem v (n_flags c) = false ->
  dget v (n_props c') = option_map (fun k =>
    let k1 := if String.eqb v "h" || String.eqb v "p" then with_design None k else k in
    if re && smem v (n_off c) then set_flag false k1 else if re && smem v (n_des c) then set_flag true k1 else k1) (dget v (n_props c)).
Proof.
  intros files re l h c h' c' E LO v NM NF. unfold design_conn in E. rewrite LO in E.
  set (h0 := put (n_m c) (with_design None) h) in *. clearbody h0.
  set (c0 := with_new (with_props c (put "h" (with_design None) (put "p" (with_design None) (n_props c)))) true) in *.
  assert (F0 : frame c c0). { repeat split. unfold c0. cbn [with_new with_props n_props]. rewrite !keys_put. reflexivity. }
  assert (G0 : dget v (n_props c0) = option_map (fun k => if String.eqb v "h" || String.eqb v "p" then with_design None k else k) (dget v (n_props c))).
  { unfold c0. cbn [with_new with_props n_props]. rewrite !dget_put. destruct (String.eqb v "h"), (String.eqb v "p"), (dget v (n_props c)); reflexivity. }
  destruct re; cbn [andb].
  - destruct (fold_touch (set_flag true) true (n_des c) (h0, c0) (fun _ => eq_refl)) as (F & N & M & V & L).
    set (hc1 := fold_left (touch (set_flag true) true) (n_des c) (h0, c0)) in *. clearbody hc1.
    destruct (fold_touch (set_flag false) false (n_off c) hc1 (fun _ => eq_refl)) as (F2 & N2 & M2 & V2 & L2).
    destruct (fold_left (touch (set_flag false) false) (n_off c) hc1) as [h1 c1]. cbn [snd] in *. injection E as <- <-.
    rewrite V2; [| exact NM |].
    2:{ rewrite <- NF. apply dmem_keys. destruct (frame_trans _ _ _ F0 F) as (_ & _ & _ & _ & _ & _ & K). exact K. }
    rewrite V; [| exact NM |]. 2:{ rewrite <- NF. apply dmem_keys. apply F0. }
    rewrite G0. destruct (dget v (n_props c)), (smem v (n_off c)), (smem v (n_des c)); reflexivity.
  - injection E as <- <-. rewrite G0. destruct (dget v (n_props c)); reflexivity.
Qed.
Definition des_result (u : units) (re off des : bool) (v : string) (x : Q) (k : cont) : cont :=
  let k1 := to_SI u v k in
  let k2 := if String.eqb v "h" || String.eqb v "p" then with_design None k1 else k1 in
  let k3 := if re && off then set_flag false k2 else if re && des then set_flag true k2 else k2 in
  to_val u v (solved_cont x k3).
Lemma des_exact : forall u files path sol st st', solve u files "design" path sol st = (st', None) ->
  forall l c v k, dget l (t_conns st) = Some c -> n_loff c = false -> dget v (n_props c) = Some k -> named c v ->
  exists c', dget l (t_conns st') = Some c'
  /\ dget v (n_props c') = Some (des_result u (t_redesign st) (smem v (n_off c)) (smem v (n_des c)) v (s_conn sol l v) k).
Proof.
  intros u files path sol st st' E l c v k D LO DK NV. unfold solve in E. cbn [String.eqb Ascii.eqb Bool.eqb orb negb] in E.
  apply andthen_ok in E as (st1 & I & E). unfold initialise in I. apply andthen_ok in I as (sa & I1 & I). apply andthen_ok in I as (sb & I2 & I).
  destruct (head_conns u _ _ _ I1 I2) as (_ & CA & (BA & PA & NA) & RA). cbn [start t_comps t_branches t_path t_new t_redesign] in CA, BA, PA, NA, RA.
  destruct (head_exact u _ _ _ I1 I2 l c D) as (c1 & D1 & F1 & L1 & N1 & V1).
  apply andthen_ok in E as (s1 & E1 & E). apply andthen_ok in E as (s2 & E2 & E3).
  unfold init_design in I. rewrite RA in I. apply andthen_ok in I as (sc & I3 & I4).
  apply over_conns_get in I3 as (_ & _ & _ & _ & _ & _ & G3). apply over_comps_get in I4 as (C4 & _).
  destruct (G3 l c1 D1) as (h1 & h2 & c2 & O & D2). rewrite <- C4 in D2.
  destruct (tail_exact u sol _ _ _ _ E1 E2 E3 l c2 D2) as (c3 & D3 & F3 & L3 & N3 & V3).
  exists c3. split; [exact D3 |].
  assert (LOE : n_loff c1 = n_loff c) by apply F1. assert (OFE : n_off c1 = n_off c) by apply F1. assert (DEE : n_des c1 = n_des c) by apply F1.
  destruct (named_frame _ _ _ F1 NV) as (NM & NF).
  rewrite V3, (design_conn_exact _ _ _ _ _ _ _ O) by congruence. rewrite V1, DK, OFE, DEE. reflexivity.
Qed.
Lemma wf_named : forall st l c v k, wf st -> dget l (t_conns st) = Some c -> dget v (n_props c) = Some k -> named c v.
Proof.
  intros st l c v k W D DK. destruct (W l c v D) as (NM & NF).
  { apply dget_In in DK. apply in_map_iff. exists (v, k). auto. }
  split; [exact NM |]. destruct (dmem v (n_flags c)) eqn:M; [| reflexivity]. apply dmem_In in M. contradiction.
Qed.

(* ------------------------------------------------------------------ statements *)

(** What is a variable, specified, and its value after an offdesign calculation *)
Lemma off_values : forall u files P sol st st' l c v k, wf st -> solve u files "offdesign" (Some P) sol st = (st', None) ->
  dget l (t_conns st) = Some c -> n_ldes c = false -> prop st l v = Some k ->
  exists k', prop st' l v = Some k'
  /\ k_var k' = (if smem v (n_off c) then false else if smem v (n_des c) then true else k_var k)
  /\ (~ In v (n_off c) -> In v (n_des c) -> k_SI k' = Some (s_conn sol l v))
  /\ (~ In v (n_off c) -> ~ In v (n_des c) ->
        k_SI k' = if k_set k then option_map (u_si u v) (k_val k) else Some (s_conn sol l v))
  /\ k_val k' = option_map (u_un u v) (k_SI k').
Proof.
  intros u files P sol st st' l c v k W E D LD DK. unfold prop in DK |- *. rewrite D in DK.
  destruct (off_exact u files P sol st st' E l c v k D LD DK (wf_named _ _ _ _ _ W D DK)) as (c' & D' & DK').
  rewrite D'. eexists. split; [exact DK' |]. unfold off_result. cbv zeta.
  destruct (smem v (n_off c)) eqn:S1; [apply smem_In in S1 | assert (~ In v (n_off c)) by (rewrite <- smem_In; congruence)];
  (destruct (smem v (n_des c)) eqn:S2; [apply smem_In in S2 | assert (~ In v (n_des c)) by (rewrite <- smem_In; congruence)]);
  clear DK DK'; destruct k as [[|] kv kx ki kd]; destruct (needs_design st (Some P)); cbn; repeat split; intros; try contradiction; try tauto; try congruence.
Qed.
(** Back in design mode the design parameters keep the values of the last
    calculation *)
Lemma design_values : forall u files path sol st st' l c v k, wf st -> solve u files "design" path sol st = (st', None) ->
  dget l (t_conns st) = Some c -> n_loff c = false -> prop st l v = Some k ->
  exists k', prop st' l v = Some k'
  /\ (t_redesign st = true -> In v (n_des c) -> ~ In v (n_off c) -> k_set k = false -> k_SI k' = k_SI k)
  /\ (k_set k = true -> t_redesign st = false \/ ~ In v (n_off c) -> k_SI k' = option_map (u_si u v) (k_val k))
  /\ (t_redesign st = true -> In v (n_off c) -> k_SI k' = Some (s_conn sol l v))
  /\ k_val k' = option_map (u_un u v) (k_SI k').
Proof.
  intros u files path sol st st' l c v k W E D LO DK. unfold prop in DK |- *. rewrite D in DK.
  destruct (des_exact u files path sol st st' E l c v k D LO DK (wf_named _ _ _ _ _ W D DK)) as (c' & D' & DK').
  rewrite D'. eexists. split; [exact DK' |]. unfold des_result. cbv zeta.
  destruct (smem v (n_off c)) eqn:S1; [apply smem_In in S1 | assert (~ In v (n_off c)) by (rewrite <- smem_In; congruence)];
  (destruct (smem v (n_des c)) eqn:S2; [apply smem_In in S2 | assert (~ In v (n_des c)) by (rewrite <- smem_In; congruence)]);
  clear DK DK'; destruct k as [[|] kv kx ki kd]; destruct (t_redesign st), (String.eqb v "h" || String.eqb v "p"); cbn;
  repeat split; intros; try contradiction; try tauto; try congruence; intuition (try congruence).
Qed.
