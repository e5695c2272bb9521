(** Proofs about design and offdesign mode: histories of calculations. *)
From Coq Require Import QArith.
From Verif Require Import Base ModeModel ModeSpec ModeProofs ModeProofs2.
Open Scope string_scope.
Open Scope list_scope.

Definition named (c : conn) (v : string) : Prop := v <> "m" /\ dmem v (n_flags c) = false.
Lemma named_frame : forall c c' v, frame c c' -> named c v -> named c' v.
Proof. intros c c' v F (N & D). split; [exact N |]. rewrite <- D. apply dmem_keys. apply F. Qed.
Lemma named_keeps : forall si c c' v, keeps si c c' -> named c v -> named c' v.
Proof. intros si c c' v K. apply named_frame, K. Qed.

(** Connections and components read from the tables *)
Lemma load_spec : forall files P st st', load files P st = (st', None) ->
  rest st st' /\ t_redesign st' = t_redesign st /\ keys (t_conns st') = keys (t_conns st)
  /\ (forall l c, dget l (t_conns st) = Some c -> exists c', dget l (t_conns st') = Some c' /\ frame c c' /\ n_new c' = n_new c /\ n_flags c' = n_flags c
        /\ forall v, dget v (n_props c') = option_map (with_design (table_conn (tables files (n_path c) P) l v)) (dget v (n_props c)))
  /\ (forall l c, dget l (t_comps st) = Some c -> exists c', dget l (t_comps st') = Some c' /\ loaded files P l c c').
Proof.
  intros files P st st' E. unfold load in E. apply andthen_ok in E as (st1 & E1 & E2).
  apply load_comps_spec in E1 as (C1 & M1 & (B1 & P1 & N1) & R1 & G1).
  apply over_conns_get in E2 as (C2 & B2 & R2 & P2 & N2 & K2 & G2).
  split; [repeat split; congruence |]. split; [congruence |]. split; [congruence |]. split.
  - intros l c D. destruct (G2 l c) as (h1 & h2 & c' & F & D'); [now rewrite C1 |]. exists c'. split; [exact D' |].
    fold (tables files (n_path c) P) in F. apply load_conn_spec in F as (F & N & L & V). auto.
  - intros l c D. destruct (G1 l c D) as (c' & D' & L). exists c'. rewrite C2. auto.
Qed.

(** An offdesign calculation *)
Definition off_conn (files : string -> file) (P : string) (reload : bool) (l : string) (c c' : conn) : Prop :=
  frame c c'
  /\ (n_ldes c = false -> n_new c' = false
      /\ (forall v, v <> "m" -> dget v (n_flags c') =
            if smem v (n_des c) || existsb (fun w => String.eqb v (w ++ "_ref")%string) (n_des c)
            then option_map (fun _ => false) (dget v (n_flags c)) else dget v (n_flags c))
      /\ forall v k, dget v (n_props c) = Some k -> named c v -> exists k', dget v (n_props c') = Some k'
         /\ k_set k' = (if smem v (n_off c) then true else if smem v (n_des c) then false else k_set k)
         /\ k_design k' = (if reload then table_conn (tables files (n_path c) P) l v else k_design k)
         /\ (smem v (n_off c) = true -> k_SI k' = k_design k'))
  /\ (n_ldes c = true -> n_new c' = n_new c /\ n_flags c' = n_flags c
      /\ forall v k, dget v (n_props c) = Some k -> exists k', dget v (n_props c') = Some k' /\ k_set k' = k_set k).
Definition off_comp (files : string -> file) (P : string) (reload : bool) (l : string) (c c' : comp) : Prop :=
  cframe c c' /\ p_new c' = false
  /\ (p_ldes c = false -> forall v q, dget v (p_pars c) = Some q -> exists q', dget v (p_pars c') = Some q'
      /\ q_set q' = (if smem v (p_off c) then true else if smem v (p_des c) then false else q_set q)
      /\ q_num q' = q_num q
      /\ (smem v (p_off c) = true -> q_num q = true -> q_val q' = q_design q')
      /\ (reload = false -> q_design q' = q_design q)
      /\ (reload = true -> q_num q = true -> dget l (f_comps (files P)) <> None ->
          q_design q' = table_comp (tables files (p_path c) P) l v))
  /\ (p_ldes c = true -> forall v q, dget v (p_pars c) = Some q -> exists q', dget v (p_pars c') = Some q' /\ q_set q' = q_set q).

Lemma solve_off : forall u files path sol st st', solve u files "offdesign" path sol st = (st', None) ->
  exists P, path = Some P /\ t_path st' = Some P /\ t_redesign st' = true
  /\ (forall l c, dget l (t_conns st) = Some c -> exists c', dget l (t_conns st') = Some c' /\ off_conn files P (needs_design st path) l c c')
  /\ (forall l c, dget l (t_comps st) = Some c -> exists c', dget l (t_comps st') = Some c' /\ off_comp files P (needs_design st path) l c c').
Proof.
  intros u files path sol st st' E. unfold solve in E. cbn [String.eqb Ascii.eqb Bool.eqb orb negb] in E.
  apply andthen_ok in E as (st1 & I & E). unfold initialise in I. apply andthen_ok in I as (sa & I1 & I). apply andthen_ok in I as (sb & I2 & I).
  destruct (head_conns u _ _ _ I1 I2) as (A & CA & (BA & PA & NA) & RA). cbn [start t_comps t_branches t_path t_new t_redesign] in CA, BA, PA, NA, RA.
  cbn [redesigned t_path t_new] in I. rewrite PA in I. destruct path as [P |]; [| discriminate]. exists P. split; [reflexivity |].
  apply andthen_ok in E as (s1 & E1 & E). apply andthen_ok in E as (s2 & E2 & E3).
  destruct (tail_spec u sol _ _ _ _ E1 E2 E3) as (AT & (BT & PT & NT) & RT & KT & GT). clear E1 E2 E3 s1 s2.
  apply andthen_ok in I as (sc & I3 & I4). rewrite NA in I3.
  assert (L : rest (redesigned sb) sc /\ t_redesign sc = true
    /\ (forall l c, dget l (t_conns sb) = Some c -> exists c', dget l (t_conns sc) = Some c' /\ frame c c' /\ n_new c' = n_new c /\ n_flags c' = n_flags c
          /\ forall v k, dget v (n_props c) = Some k -> exists k', dget v (n_props c') = Some k' /\ k_set k' = k_set k
             /\ k_design k' = if needs_design st (Some P) then table_conn (tables files (n_path c) P) l v else k_design k)
    /\ (forall l c, dget l (t_comps sb) = Some c -> exists c', dget l (t_comps sc) = Some c' /\ cframe c c'
          /\ forall v q, dget v (p_pars c) = Some q -> exists q', dget v (p_pars c') = Some q' /\ q_set q' = q_set q /\ q_num q' = q_num q
             /\ (needs_design st (Some P) = false -> q_design q' = q_design q)
             /\ (needs_design st (Some P) = true -> p_ldes c = false -> q_num q = true -> dget l (f_comps (files P)) <> None ->
                 q_design q' = table_comp (tables files (p_path c) P) l v))).
  { destruct (needs_design st (Some P)).
    - apply load_spec in I3 as (R & RE & _ & G & H). split; [exact R |]. split; [exact RE |]. split.
      + intros l c D. destruct (G l c D) as (c' & D' & F & N & FL & V). exists c'. split; [exact D' |]. split; [exact F |]. split; [exact N |]. split; [exact FL |].
        intros v k DK. eexists. rewrite V, DK. split; [reflexivity |]. split; reflexivity.
      + intros l c D. destruct (H l c D) as (c' & D' & F & N & V). exists c'. split; [exact D' |]. split; [exact F |].
        intros v q DQ. destruct (V v q DQ) as (q' & DQ' & Q1 & Q2 & Q3 & Q4). exists q'. repeat split; try assumption; [discriminate | intros _; exact Q4].
    - injection I3 as <-. split; [repeat split |]. split; [reflexivity |]. split.
      + intros l c D. exists c. split; [exact D |]. split; [apply frame_refl |]. split; [reflexivity |]. split; [reflexivity |]. intros v k DK. exists k. auto.
      + intros l c D. exists c. split; [exact D |]. split; [apply cframe_refl |]. intros v q DQ. exists q. repeat split; auto. discriminate. }
  destruct L as ((BL & PL & NL) & RL & GL & HL). unfold init_offdesign in I4. apply andthen_ok in I4 as (sd & I4 & I5).
  apply over_conns_get in I4 as (C4 & B4 & R4 & P4 & N4 & K4 & G4). apply over_comps_get in I5 as (C5 & M5 & B5 & R5 & P5 & N5 & K5 & G5).
  split. { rewrite PT, P5, P4, PL. cbn. exact PA. } split. { rewrite RT, R5, R4. exact RL. } split.
  - intros l c D. destruct A as (_ & A). destruct (A l c D) as (c1 & D1 & K1). destruct (GL l c1 D1) as (c2 & D2 & F2 & N2 & FL2 & V2).
    destruct (G4 l c2 D2) as (h1 & h2 & c3 & O & D3). rewrite <- C5 in D3. destruct AT as (_ & AT). destruct (AT l c3 D3) as (c4 & D4 & K4').
    exists c4. split; [exact D4 |]. apply offdesign_conn_spec in O as (F3 & LT & LF).
    destruct K1 as (F1 & FL1 & N1 & V1). destruct K4' as (F4 & FL4 & N4' & V4).
    pose proof (frame_trans _ _ _ F1 F2) as F12. pose proof (frame_trans _ _ _ F12 F3) as F123.
    assert (LDE : n_ldes c2 = n_ldes c) by apply F12. assert (OFE : n_off c2 = n_off c) by apply F12. assert (DEE : n_des c2 = n_des c) by apply F12.
    assert (PAE : n_path c1 = n_path c) by apply F1.
    split; [exact (frame_trans _ _ _ F123 F4) |]. split.
    + intro LD. rewrite LDE in LF. destruct (LF LD) as (N3 & V3 & L3). split; [congruence |]. split.
      * intros v NM. rewrite FL4, L3 by exact NM. rewrite FL2, FL1, DEE. reflexivity.
      * intros v k DK NV. destruct (V1 v k DK) as (k1 & DK1 & S1 & E1 & _). destruct (V2 v k1 DK1) as (k2 & DK2 & S2 & E2).
        pose proof (named_frame _ _ _ F12 NV) as (NM & NF). pose proof (V3 v NM NF) as V3v. rewrite DK2, OFE, DEE in V3v.
        assert (X : exists k3, dget v (n_props c3) = Some k3 /\ k_set k3 = (if smem v (n_off c) then true else if smem v (n_des c) then false else k_set k2)
                 /\ k_design k3 = k_design k2 /\ (smem v (n_off c) = true -> k_SI k3 = k_design k3)).
        { rewrite V3v. destruct (smem v (n_off c)); [| destruct (smem v (n_des c))]; cbn [option_map]; eexists; split; try reflexivity; auto; repeat split; auto; discriminate. }
        destruct X as (k3 & DK3 & S3 & E3 & I3'). destruct (V4 v k3 DK3) as (k4 & DK4 & S4 & E4 & I4').
        exists k4. split; [exact DK4 |]. split; [rewrite S4, S3, S2, S1; reflexivity |]. split; [rewrite E4, E3, E2, PAE, E1; reflexivity |].
        intro OFF. rewrite I4'; [rewrite E4; now apply I3' | reflexivity |]. rewrite S3, OFF. reflexivity.
    + intro LD. rewrite LDE in LT. destruct (LT LD) as (_ & ->). split; [congruence |]. split; [congruence |].
      intros v k DK. destruct (V1 v k DK) as (k1 & DK1 & S1 & E1 & _). destruct (V2 v k1 DK1) as (k2 & DK2 & S2 & E2). destruct (V4 v k2 DK2) as (k4 & DK4 & S4 & E4 & _).
      exists k4. split; [exact DK4 | congruence].
  - intros l c D. rewrite <- CA in D. destruct (HL l c D) as (c1 & D1 & F1 & V1). rewrite <- C4 in D1. destruct (G5 l c1 D1) as (c2 & O & D2).
    destruct (GT l c2 D2) as (c3 & D3 & F3 & N3 & V3). exists c3. split; [exact D3 |]. unfold offdesign_comp in O.
    assert (LDE : p_ldes c1 = p_ldes c) by apply F1. assert (OFE : p_off c1 = p_off c) by apply F1. assert (DEE : p_des c1 = p_des c) by apply F1.
    destruct (p_ldes c1) eqn:LD; injection O as <-.
    + split. { apply (cframe_trans _ _ _ F1). destruct F3 as (X1 & X2 & X3 & X4 & X5 & X6). repeat split; assumption. }
      split; [exact N3 |]. split; [congruence |]. intros _ v q DQ. destruct (V1 v q DQ) as (q1 & DQ1 & Q1 & _). destruct (V3 v q1 DQ1) as (q3 & DQ3 & Q3 & _).
      exists q3. split; [exact DQ3 | congruence].
    + split. { apply (cframe_trans _ _ _ F1). destruct F3 as (X1 & X2 & X3 & X4 & X5 & X6). repeat split; try assumption. rewrite X6. cbn. apply comp_off_keys. }
      split; [exact N3 |]. split; [| congruence]. intros LDF v q DQ. destruct (V1 v q DQ) as (q1 & DQ1 & Q1 & Q2 & Q3 & Q4).
      pose proof (comp_off_get c1 v) as G. rewrite DQ1, OFE, DEE in G.
      assert (X : exists q2, dget v (comp_off c1) = Some q2 /\ q_set q2 = (if smem v (p_off c) then true else if smem v (p_des c) then false else q_set q1)
         /\ q_num q2 = q_num q1 /\ q_design q2 = q_design q1 /\ (smem v (p_off c) = true -> q_num q1 = true -> q_val q2 = q_design q1)).
      { rewrite G. destruct (smem v (p_off c)); [| destruct (smem v (p_des c))]; cbn [option_map]; eexists; (split; [reflexivity |]); repeat split; try discriminate.
        intros _ N. cbn. now rewrite N. }
      destruct X as (q2 & DQ2 & S2 & M2 & E2 & I2'). destruct (V3 v q2 DQ2) as (q3 & DQ3 & S3 & M3 & E3 & I3'). exists q3. split; [exact DQ3 |].
      split; [rewrite S3, S2, Q1; reflexivity |]. split; [congruence |]. split.
      { intros OFF NUM. rewrite I3'; [| rewrite S2, OFF; reflexivity]. rewrite I2'; [congruence | exact OFF | congruence]. }
      split. { intro RF. rewrite E3, E2. now apply Q3. }
      intros RT' NUM HAS. rewrite E3, E2. now apply Q4.
Qed.

(** A design calculation *)
Definition des_conn (files : string -> file) (re : bool) (l : string) (c c' : conn) : Prop :=
  frame c c'
  /\ (n_loff c = true -> exists p, n_path c = Some p /\ n_new c' = n_new c
      /\ forall v k, dget v (n_props c) = Some k -> named c v -> exists k', dget v (n_props c') = Some k'
         /\ k_design k' = table_conn (files p) l v
         /\ k_set k' = (if smem v (n_off c) then true else if smem v (n_des c) then false else k_set k))
  /\ (n_loff c = false -> n_new c' = true
      /\ forall v k, dget v (n_props c) = Some k -> named c v -> exists k', dget v (n_props c') = Some k'
         /\ k_set k' = (if re && smem v (n_off c) then false else if re && smem v (n_des c) then true else k_set k)).
Definition des_comp (files : string -> file) (re : bool) (l : string) (c c' : comp) : Prop :=
  cframe c c'
  /\ (p_loff c = true -> (forall v q, dget v (p_pars c) = Some q -> exists q', dget v (p_pars c') = Some q'
         /\ q_set q' = (if smem v (p_off c) then true else if smem v (p_des c) then false else q_set q)
         /\ (smem v (p_off c) = true -> q_num q = true -> q_val q' = q_design q'))
      /\ (p_path c <> None -> p_new c' = false
      /\ forall v q, dget v (p_pars c) = Some q -> exists q' p, dget v (p_pars c') = Some q' /\ p_path c = Some p /\ q_num q' = q_num q
         /\ (q_num q = true -> q_design q' = table_comp (files p) l v)))
  /\ (p_loff c = false -> p_new c' = true
      /\ forall v q, dget v (p_pars c) = Some q -> exists q', dget v (p_pars c') = Some q' /\ q_num q' = q_num q
         /\ q_set q' = (if re && smem v (p_off c) then false else if re && smem v (p_des c) then true else q_set q)).
Lemma solve_des : forall u files path sol st st', solve u files "design" path sol st = (st', None) ->
  t_path st' = path /\ t_redesign st' = t_redesign st
  /\ (forall l c, dget l (t_conns st) = Some c -> exists c', dget l (t_conns st') = Some c' /\ des_conn files (t_redesign st) l c c')
  /\ (forall l c, dget l (t_comps st) = Some c -> exists c', dget l (t_comps st') = Some c' /\ des_comp files (t_redesign st) l c c').
Proof.
  intros u files path sol st st' E. unfold solve in E. cbn [String.eqb Ascii.eqb Bool.eqb orb negb] in E.
  apply andthen_ok in E as (st1 & I & E). unfold initialise in I. apply andthen_ok in I as (sa & I1 & I). apply andthen_ok in I as (sb & I2 & I).
  destruct (head_conns u _ _ _ I1 I2) as (A & CA & (BA & PA & NA) & RA). cbn [start t_comps t_branches t_path t_new t_redesign] in CA, BA, PA, NA, RA.
  apply andthen_ok in E as (s1 & E1 & E). apply andthen_ok in E as (s2 & E2 & E3).
  destruct (tail_spec u sol _ _ _ _ E1 E2 E3) as (AT & (BT & PT & NT) & RT & KT & GT). clear E1 E2 E3 s1 s2.
  unfold init_design in I. rewrite RA in I. apply andthen_ok in I as (sc & I3 & I4).
  apply over_conns_get in I3 as (C3 & B3 & R3 & P3 & N3 & K3 & G3). apply over_comps_get in I4 as (C4 & M4 & B4 & R4 & P4 & N4 & K4 & G4).
  split; [congruence |]. split; [congruence |]. split.
  - intros l c D. destruct A as (_ & A). destruct (A l c D) as (c1 & D1 & (F1 & FL1 & N1 & V1)).
    destruct (G3 l c1 D1) as (h1 & h2 & c2 & O & D2). rewrite <- C4 in D2. destruct AT as (_ & AT). destruct (AT l c2 D2) as (c3 & D3' & (F3 & FL3 & N3' & V3)).
    exists c3. split; [exact D3' |]. apply design_conn_spec in O as (F2 & LT & LF).
    assert (LOE : n_loff c1 = n_loff c) by apply F1. assert (OFE : n_off c1 = n_off c) by apply F1. assert (DEE : n_des c1 = n_des c) by apply F1.
    assert (PAE : n_path c1 = n_path c) by apply F1.
    split; [exact (frame_trans _ _ _ F1 (frame_trans _ _ _ F2 F3)) |]. split.
    + intro LO. rewrite LOE in LT. destruct (LT LO) as (p & PP & N2 & V2). exists p. split; [congruence |]. split; [congruence |].
      intros v k DK NV. destruct (V1 v k DK) as (k1 & DK1 & S1 & E1 & _). pose proof (named_frame _ _ _ F1 NV) as (NM & NF).
      destruct (V2 v NM NF) as (W & WS). rewrite DK1 in W, WS. destruct (dget v (n_props c2)) as [k2 |] eqn:DK2; [| discriminate W]. cbn in W. injection W as W.
      destruct (V3 v k2 DK2) as (k3 & DK3 & S3 & E3 & _). exists k3. split; [exact DK3 |]. split; [congruence |]. rewrite S3. rewrite OFE, DEE in WS.
      destruct (smem v (n_off c)), (smem v (n_des c)); cbn in WS; injection WS as WS; congruence.
    + intro LO. rewrite LOE in LF. destruct (LF LO) as (N2 & V2 & _). split; [congruence |].
      intros v k DK NV. destruct (V1 v k DK) as (k1 & DK1 & S1 & E1 & _). pose proof (named_frame _ _ _ F1 NV) as (NM & NF).
      pose proof (V2 v NM NF) as W. rewrite DK1, OFE, DEE in W. destruct (dget v (n_props c2)) as [k2 |] eqn:DK2.
      2:{ exfalso. destruct (t_redesign st && smem v (n_off c)), (t_redesign st && smem v (n_des c)); discriminate W. }
      destruct (V3 v k2 DK2) as (k3 & DK3 & S3 & E3 & _). exists k3. split; [exact DK3 |]. rewrite S3.
      destruct (t_redesign st && smem v (n_off c)), (t_redesign st && smem v (n_des c)); cbn in W; injection W as W; congruence.
  - intros l c D. rewrite <- CA, <- C3 in D. destruct (G4 l c D) as (c1 & O & D1). destruct (GT l c1 D1) as (c2 & D2 & F2 & N2 & V2).
    exists c2. split; [exact D2 |]. unfold design_comp in O. destruct (p_loff c) eqn:LO.
    + destruct (p_path c) as [p |] eqn:PP.
      * destruct (dget l (f_comps (files p))) as [row |] eqn:DR; [| discriminate].
        destruct (set_parameters true (Some row) c) as [ca [e |]] eqn:SP; [discriminate |]. injection O as <-.
        apply set_parameters_spec in SP as (Fa & Na & Va). split.
        { apply (cframe_trans _ _ _ Fa). destruct F2 as (X1 & X2 & X3 & X4 & X5 & X6). repeat split; try assumption. rewrite X6. cbn. apply comp_off_keys. }
        assert (OFE : p_off ca = p_off c) by apply Fa. assert (DEE : p_des ca = p_des c) by apply Fa.
        split; [| congruence]. intros _. split.
        { intros v q DQ. pose proof (Va v) as Vv. rewrite DQ, LO in Vv. cbn in Vv. pose proof (comp_off_get ca v) as G. rewrite Vv, OFE, DEE in G. cbn [option_map] in G.
          assert (X : exists q2, dget v (comp_off ca) = Some q2 /\ q_num q2 = q_num q
             /\ q_set q2 = (if smem v (p_off c) then true else if smem v (p_des c) then false else q_set q)
             /\ (smem v (p_off c) = true -> q_num q = true -> q_val q2 = q_design q2)).
          { rewrite G. destruct (smem v (p_off c)); [| destruct (smem v (p_des c))]; eexists; (split; [reflexivity |]); destruct (q_num q) eqn:QN; cbn; rewrite ?QN;
              repeat split; auto; discriminate. }
          destruct X as (q2 & DQ2 & M2 & S2 & J2). destruct (V2 v q2 DQ2) as (q3 & DQ3 & S3 & M3 & E3 & J3). exists q3. split; [exact DQ3 |]. split; [congruence |].
          intros X Y. rewrite E3, J3; [now apply J2 |]. rewrite S2, X. reflexivity. }
        intros _. split; [exact N2 |]. intros v q DQ. pose proof (Va v) as Vv. rewrite DQ, LO in Vv. cbn in Vv.
        pose proof (comp_off_get ca v) as G. rewrite Vv in G.
        assert (X : exists q2, dget v (comp_off ca) = Some q2 /\ q_num q2 = q_num q /\ (q_num q = true -> q_design q2 = table_comp (files p) l v)).
        { unfold table_comp. rewrite G, DR. destruct (smem v (p_off ca)); [| destruct (smem v (p_des ca))]; cbn [option_map]; eexists; (split; [reflexivity |]);
            destruct (q_num q) eqn:QN; cbn; rewrite ?QN; split; auto; discriminate. }
        destruct X as (q2 & DQ2 & M2 & E2). destruct (V2 v q2 DQ2) as (q3 & DQ3 & S3 & M3 & E3 & _). exists q3, p.
        split; [exact DQ3 |]. split; [exact PP |]. split; [congruence |]. intro QN. rewrite E3. now apply E2.
      * injection O as <-. split. { destruct F2 as (X1 & X2 & X3 & X4 & X5 & X6). repeat split; try assumption. rewrite X6. cbn. apply comp_off_keys. }
        split; [| congruence]. intros _. split; [| congruence].
        intros v q DQ. pose proof (comp_off_get c v) as G. rewrite DQ in G. cbn [option_map] in G.
        assert (X : exists q2, dget v (comp_off c) = Some q2
             /\ q_set q2 = (if smem v (p_off c) then true else if smem v (p_des c) then false else q_set q)
             /\ (smem v (p_off c) = true -> q_num q = true -> q_val q2 = q_design q2)).
        { rewrite G. destruct (smem v (p_off c)); [| destruct (smem v (p_des c))]; eexists; (split; [reflexivity |]); cbn; split; auto; try discriminate.
          intros _ ->. reflexivity. }
        destruct X as (q2 & DQ2 & S2 & J2). destruct (V2 v q2 DQ2) as (q3 & DQ3 & S3 & M3 & E3 & J3). exists q3. split; [exact DQ3 |]. split; [congruence |].
        intros X Y. rewrite E3, J3; [now apply J2 |]. rewrite S2, X. reflexivity.
    + set (cr := if t_redesign st then _ else c) in O.
      assert (FR : cframe c cr /\ p_loff cr = false /\ forall v, dget v (p_pars cr) =
         if t_redesign st && smem v (p_off c) then option_map (par_flag false) (dget v (p_pars c))
         else if t_redesign st && smem v (p_des c) then option_map (par_flag true) (dget v (p_pars c)) else dget v (p_pars c)).
      { unfold cr. destruct (t_redesign st); cbn [andb].
        - split. { repeat split. cbn [with_pars p_pars]. rewrite !fold_put_keys. reflexivity. } split; [exact LO |].
          intro v. cbn [with_pars p_pars]. rewrite !fold_put by reflexivity. destruct (smem v (p_off c)), (smem v (p_des c)), (dget v (p_pars c)); reflexivity.
        - split; [apply cframe_refl |]. split; [exact LO | reflexivity]. }
      clearbody cr. destruct FR as (FR & LR & VR). apply set_parameters_spec in O as (Fa & Na & Va).
      split; [exact (cframe_trans _ _ _ FR (cframe_trans _ _ _ Fa F2)) |]. split; [congruence |]. intros _. split; [rewrite N2, Na; reflexivity |].
      intros v q DQ. pose proof (Va v) as Vv. rewrite VR, DQ in Vv.
      assert (X : exists q1, dget v (p_pars c1) = Some q1 /\ q_num q1 = q_num q
         /\ q_set q1 = (if t_redesign st && smem v (p_off c) then false else if t_redesign st && smem v (p_des c) then true else q_set q)).
      { rewrite Vv. destruct (t_redesign st && smem v (p_off c)), (t_redesign st && smem v (p_des c)); cbn [option_map]; eexists; (split; [reflexivity |]);
          cbn; destruct (q_num q) eqn:QN; auto. }
      destruct X as (q1 & DQ1 & M1 & S1). destruct (V2 v q1 DQ1) as (q2 & DQ2 & S2 & M2 & _). exists q2. split; [exact DQ2 |]. split; congruence.
Qed.

Lemma solve_mode : forall u files mode path sol st st', solve u files mode path sol st = (st', None) -> mode = "offdesign" \/ mode = "design".
Proof.
  intros u files mode path sol st st' E. unfold solve in E. destruct (String.eqb_spec mode "design"); [now right |].
  destruct (String.eqb_spec mode "offdesign"); [now left | discriminate].
Qed.

(** Histories *)
Definition own (st st' : net) : Prop :=
  (forall l c, dget l (t_conns st) = Some c -> exists c', dget l (t_conns st') = Some c' /\ frame c c')
  /\ (forall l c, dget l (t_comps st) = Some c -> exists c', dget l (t_comps st') = Some c' /\ cframe c c').
Lemma solve_own : forall u files mode path sol st st', solve u files mode path sol st = (st', None) -> own st st'.
Proof.
  intros u files mode path sol st st' E. destruct (solve_mode _ _ _ _ _ _ _ E) as [-> | ->].
  - apply solve_off in E as (P & _ & _ & _ & G & H). split; intros l c D; [destruct (G l c D) as (c' & D' & F & _) | destruct (H l c D) as (c' & D' & F & _)]; eauto.
  - apply solve_des in E as (_ & _ & G & H). split; intros l c D; [destruct (G l c D) as (c' & D' & F & _) | destruct (H l c D) as (c' & D' & F & _)]; eauto.
Qed.
Lemma runs_app : forall u files a b st st', runs u files (a ++ b) st = Some st' ->
  exists st1, runs u files a st = Some st1 /\ runs u files b st1 = Some st'.
Proof.
  induction a as [| r a IH]; intros b st st' E; cbn in *; [eauto |].
  destruct (solve u files (r_mode r) (r_path r) (r_sol r) st) as [st1 [e |]]; [discriminate | now apply IH].
Qed.

(** What is specified after a history, for one container: [None] stands for the
    state before *)
Lemma history_conn : forall u files rs last st st' l c v k, runs u files (rs ++ [last]) st = Some st' ->
  dget l (t_conns st) = Some c -> n_ldes c = false -> n_loff c = false -> named c v -> dget v (n_props c) = Some k ->
  exists c' k', dget l (t_conns st') = Some c' /\ frame c c' /\ dget v (n_props c') = Some k'
  /\ t_redesign st' = t_redesign st || existsb offdesign (rs ++ [last])
  /\ k_set k' = expected (n_des c) (n_off c) (t_redesign st || existsb offdesign (rs ++ [last])) last v (k_set k)
  /\ (offdesign last = true -> smem v (n_off c) = true -> k_SI k' = k_design k').
Proof.
  intros u files rs. induction rs as [| r rs IH] using rev_ind; intros last st st' l c v k E D LD LO NV DK.
  - cbn [app runs] in E. destruct (solve u files (r_mode last) (r_path last) (r_sol last) st) as [st1 [e |]] eqn:S; [discriminate |]. injection E as <-.
    cbn [app existsb]. rewrite orb_false_r. unfold expected, offdesign. destruct (solve_mode _ _ _ _ _ _ _ S) as [M | M]; rewrite M in S |- *; cbn [String.eqb Ascii.eqb Bool.eqb].
    + apply solve_off in S as (P & _ & _ & RE & G & _). destruct (G l c D) as (c' & D' & F & LF & _). destruct (LF LD) as (_ & _ & V).
      destruct (V v k DK NV) as (k' & DK' & S' & _ & I). exists c', k'. repeat split; try assumption; try apply F; [rewrite RE; now rewrite orb_true_r | intros _; exact I].
    + apply solve_des in S as (_ & RE & G & _). destruct (G l c D) as (c' & D' & F & _ & LF). destruct (LF LO) as (_ & V).
      destruct (V v k DK NV) as (k' & DK' & S'). exists c', k'. rewrite orb_false_r. repeat split; try assumption; try apply F; [| discriminate].
      rewrite S'. destruct (t_redesign st); reflexivity.
  - apply runs_app in E as (st1 & E1 & E2). destruct (IH r st st1 l c v k E1 D LD LO NV DK) as (c1 & k1 & D1 & F1 & DK1 & RE1 & S1 & _).
    set (seen := t_redesign st || existsb offdesign (rs ++ [r])) in *.
    assert (SE : t_redesign st || existsb offdesign ((rs ++ [r]) ++ [last]) = seen || offdesign last).
    { unfold seen. rewrite (existsb_app _ (rs ++ [r])). cbn [existsb]. rewrite orb_false_r, orb_assoc. reflexivity. }
    assert (OR : String.eqb (r_mode r) "offdesign" = true -> seen = true).
    { intro X. unfold seen. rewrite existsb_app. cbn [existsb]. unfold offdesign at 2. rewrite X, orb_true_r. apply orb_true_r. }
    rewrite SE. clearbody seen.
    cbn [runs] in E2. destruct (solve u files (r_mode last) (r_path last) (r_sol last) st1) as [st2 [e |]] eqn:S; [discriminate |]. injection E2 as <-.
    pose proof (named_frame _ _ _ F1 NV) as NV1. assert (LDE : n_ldes c1 = false) by (rewrite <- LD; apply F1). assert (LOE : n_loff c1 = false) by (rewrite <- LO; apply F1).
    assert (OFE : n_off c1 = n_off c) by apply F1. assert (DEE : n_des c1 = n_des c) by apply F1.
    destruct (solve_mode _ _ _ _ _ _ _ S) as [M | M]; unfold offdesign in *; rewrite M in S |- *; cbn [String.eqb Ascii.eqb Bool.eqb].
    + apply solve_off in S as (P & _ & _ & RE & G & _). destruct (G l c1 D1) as (c' & D' & F & LF & _). destruct (LF LDE) as (_ & _ & V).
      destruct (V v k1 DK1 NV1) as (k' & DK' & S' & _ & I). exists c', k'. rewrite OFE, DEE in *. split; [exact D' |]. split; [exact (frame_trans _ _ _ F1 F) |]. split; [exact DK' |].
      split; [rewrite RE; now rewrite orb_true_r |]. split; [| intros _; exact I]. rewrite S', S1. unfold expected, offdesign. rewrite M. cbn [String.eqb Ascii.eqb Bool.eqb].
      destruct (smem v (n_off c)), (smem v (n_des c)), (String.eqb (r_mode r) "offdesign"), seen; reflexivity.
    + apply solve_des in S as (_ & RE & G & _). destruct (G l c1 D1) as (c' & D' & F & _ & LF). destruct (LF LOE) as (_ & V).
      destruct (V v k1 DK1 NV1) as (k' & DK' & S'). exists c', k'. rewrite OFE, DEE in *. split; [exact D' |]. split; [exact (frame_trans _ _ _ F1 F) |]. split; [exact DK' |].
      rewrite orb_false_r. split; [congruence |]. split; [| discriminate]. rewrite S', S1, RE1. unfold expected, offdesign. rewrite M. cbn [String.eqb Ascii.eqb Bool.eqb].
      destruct (smem v (n_off c)) eqn:X, (smem v (n_des c)) eqn:Y, (String.eqb (r_mode r) "offdesign") eqn:Z, seen eqn:W; cbn [andb]; try reflexivity; specialize (OR eq_refl); discriminate.
Qed.
