(** Proofs about design and offdesign mode, one calculation. *)
From Coq Require Import QArith.
From Verif Require Import Base ModeModel ModeSpec.
Open Scope string_scope.
Open Scope list_scope.

Lemma dget_put : forall V v w (g : V -> V) d, dget v (put w g d) = if String.eqb v w then option_map g (dget v d) else dget v d.
Proof.
  intros. unfold put. destruct (String.eqb_spec v w) as [-> | N].
  - destruct (dget w d) as [k |] eqn:E; cbn [option_map]; [apply dget_dset_eq | exact E].
  - destruct (dget w d); [now apply dget_dset_neq | reflexivity].
Qed.
Lemma dset_keys : forall V k (v w : V) d, dget k d = Some w -> keys (dset k v d) = keys d.
Proof.
  induction d as [| [k' w'] d IH]; cbn; [discriminate |]. destruct (String.eqb_spec k k') as [-> | N]; intro D; [reflexivity |].
  cbn. f_equal. now apply IH.
Qed.
Lemma keys_put : forall V w (g : V -> V) d, keys (put w g d) = keys d.
Proof. intros. unfold put. destruct (dget w d) as [k |] eqn:E; [now apply (dset_keys _ _ _ k) | reflexivity]. Qed.
Lemma dget_mapk : forall V W (F : string -> V -> W) d v, dget v (map (fun e => (fst e, F (fst e) (snd e))) d) = option_map (F v) (dget v d).
Proof.
  intros. induction d as [| [k x] d IH]; cbn; [reflexivity |]. destruct (String.eqb_spec v k) as [-> | N]; [reflexivity | exact IH].
Qed.
Lemma keys_mapk : forall V W (F : string -> V -> W) d, keys (map (fun e => (fst e, F (fst e) (snd e))) d) = keys d.
Proof. intros. unfold keys. rewrite map_map. reflexivity. Qed.
Lemma dmem_keys : forall V W (a : dict V) (b : dict W) k, keys a = keys b -> dmem k a = dmem k b.
Proof.
  intros V W a b k E. destruct (dmem k a) eqn:X, (dmem k b) eqn:Y; try reflexivity.
  - apply dmem_In in X. rewrite E in X. apply dmem_In in X. congruence.
  - apply dmem_In in Y. rewrite <- E in Y. apply dmem_In in Y. congruence.
Qed.

(** Everything of a connection but its containers, flags and mass flow *)
Definition frame (c c' : conn) : Prop :=
  n_des c' = n_des c /\ n_off c' = n_off c /\ n_path c' = n_path c /\ n_ldes c' = n_ldes c /\ n_loff c' = n_loff c
  /\ keys (n_props c') = keys (n_props c) /\ keys (n_flags c') = keys (n_flags c).
Lemma frame_refl : forall c, frame c c.
Proof. intro. repeat split. Qed.
Lemma frame_trans : forall a b c, frame a b -> frame b c -> frame a c.
Proof. intros a b c (A1 & A2 & A3 & A4 & A5 & A6 & A7) (B1 & B2 & B3 & B4 & B5 & B6 & B7). repeat split; congruence. Qed.

(** A container or flag is changed *)
Lemma touch_frame : forall g b hc v, frame (snd hc) (snd (touch g b hc v)) /\ n_new (snd (touch g b hc v)) = n_new (snd hc)
  /\ n_m (snd (touch g b hc v)) = n_m (snd hc).
Proof.
  intros g b [h c] v. unfold touch. destruct (String.eqb v "m"); cbn [snd]; [repeat split |].
  destruct (dmem v (n_flags c)); cbn [snd]; (split; [| split; reflexivity]).
  - repeat split. cbn. apply keys_put.
  - repeat split. cbn. apply keys_put.
Qed.
Lemma touch_view : forall g b hc w v, v <> "m" -> dmem v (n_flags (snd hc)) = false ->
  dget v (n_props (snd (touch g b hc w))) = if String.eqb v w then option_map g (dget v (n_props (snd hc))) else dget v (n_props (snd hc)).
Proof.
  intros g b [h c] w v NM NF. unfold touch. cbn [snd] in NF |- *. destruct (String.eqb_spec w "m") as [-> | N].
  - cbn [snd]. destruct (String.eqb_spec v "m"); [contradiction | reflexivity].
  - destruct (dmem w (n_flags c)) eqn:F; cbn [snd flag with_props n_props].
    + destruct (String.eqb_spec v w) as [-> |]; [congruence | reflexivity].
    + apply dget_put.
Qed.
Lemma touch_flag : forall g b hc w v, v <> "m" ->
  dget v (n_flags (snd (touch g b hc w))) = if String.eqb v w then option_map (fun _ => b) (dget v (n_flags (snd hc))) else dget v (n_flags (snd hc)).
Proof.
  intros g b [h c] w v NM. unfold touch. cbn [snd]. destruct (String.eqb_spec w "m") as [-> | N].
  - cbn [snd]. destruct (String.eqb_spec v "m"); [contradiction | reflexivity].
  - destruct (dmem w (n_flags c)) eqn:F; cbn [snd flag with_props n_flags].
    + apply dget_put.
    + destruct (String.eqb_spec v w) as [-> |]; [| reflexivity]. unfold dmem in F. destruct (dget w (n_flags c)); [discriminate | reflexivity].
Qed.

Lemma smem_cons : forall v w l, smem v (w :: l) = String.eqb v w || smem v l.
Proof. reflexivity. Qed.

(** A list of containers is changed *)
Lemma fold_touch : forall g b vs hc, (forall k, g (g k) = g k) ->
  let hc' := fold_left (touch g b) vs hc in
  frame (snd hc) (snd hc') /\ n_new (snd hc') = n_new (snd hc) /\ n_m (snd hc') = n_m (snd hc)
  /\ (forall v, v <> "m" -> dmem v (n_flags (snd hc)) = false ->
        dget v (n_props (snd hc')) = if smem v vs then option_map g (dget v (n_props (snd hc))) else dget v (n_props (snd hc)))
  /\ (forall v, v <> "m" ->
        dget v (n_flags (snd hc')) = if smem v vs then option_map (fun _ => b) (dget v (n_flags (snd hc))) else dget v (n_flags (snd hc))).
Proof.
  intros g b vs hc I. cbv zeta. revert hc. induction vs as [| w vs IH]; intro hc.
  - cbn. repeat split.
  - cbn [fold_left]. destruct (IH (touch g b hc w)) as (F & N & M & V & L). destruct (touch_frame g b hc w) as (F1 & N1 & M1).
    split; [exact (frame_trans _ _ _ F1 F) |]. split; [congruence |]. split; [congruence |]. split.
    + intros v NM NF. rewrite V; [| exact NM |].
      2:{ rewrite <- NF. apply dmem_keys. apply F1. }
      rewrite touch_view by assumption. rewrite smem_cons. destruct (String.eqb v w); cbn [orb]; [| reflexivity].
      destruct (smem v vs); [| reflexivity]. destruct (dget v (n_props (snd hc))); cbn [option_map]; [| reflexivity]. now rewrite I.
    + intros v NM. rewrite L by exact NM. rewrite touch_flag by exact NM. rewrite smem_cons. destruct (String.eqb v w); cbn [orb]; [| reflexivity].
      destruct (smem v vs); [| reflexivity]. destruct (dget v (n_flags (snd hc))); reflexivity.
Qed.

(** The design parameters are unset, with their references *)
Lemma flag_frame : forall v b c, frame c (flag v b c) /\ n_props (flag v b c) = n_props c /\ n_new (flag v b c) = n_new c /\ n_m (flag v b c) = n_m c.
Proof. intros. repeat split. cbn. apply keys_put. Qed.
Definition unset_step (hc : dict cont * conn) (v : string) : dict cont * conn :=
  let '(h, c) := touch unset false hc v in (h, flag (v ++ "_ref")%string false c).
Lemma unset_step_snd : forall hc v, snd (unset_step hc v) = flag (v ++ "_ref")%string false (snd (touch unset false hc v)).
Proof. intros. unfold unset_step. destruct (touch unset false hc v). reflexivity. Qed.
Lemma fold_unset : forall vs hc,
  let hc' := fold_left unset_step vs hc in
  frame (snd hc) (snd hc') /\ n_new (snd hc') = n_new (snd hc) /\ n_m (snd hc') = n_m (snd hc)
  /\ (forall v, v <> "m" -> dmem v (n_flags (snd hc)) = false ->
        dget v (n_props (snd hc')) = if smem v vs then option_map unset (dget v (n_props (snd hc))) else dget v (n_props (snd hc)))
  /\ (forall v, v <> "m" ->
        dget v (n_flags (snd hc')) = if smem v vs || existsb (fun w => String.eqb v (w ++ "_ref")%string) vs
                                     then option_map (fun _ => false) (dget v (n_flags (snd hc))) else dget v (n_flags (snd hc))).
Proof.
  intros vs hc. cbv zeta. revert hc. induction vs as [| w vs IH]; intro hc.
  - cbn. repeat split.
  - cbn [fold_left existsb]. destruct (IH (unset_step hc w)) as (F & N & M & V & L). destruct (touch_frame unset false hc w) as (F1 & N1 & M1).
    destruct (flag_frame (w ++ "_ref")%string false (snd (touch unset false hc w))) as (F2 & P2 & N2 & M2). rewrite <- unset_step_snd in F2, P2, N2, M2.
    split; [exact (frame_trans _ _ _ F1 (frame_trans _ _ _ F2 F)) |]. split; [congruence |]. split; [congruence |]. split.
    + intros v NM NF. rewrite V; [| exact NM |].
      2:{ rewrite <- NF. apply dmem_keys. apply (frame_trans _ _ _ F1 F2). }
      rewrite P2, touch_view by assumption. rewrite smem_cons. destruct (String.eqb v w); cbn [orb]; [| reflexivity].
      destruct (smem v vs); [| reflexivity]. destruct (dget v (n_props (snd hc))); reflexivity.
    + intros v NM. rewrite L by exact NM. rewrite unset_step_snd. cbn [flag n_flags]. rewrite dget_put, touch_flag by exact NM. rewrite smem_cons.
      destruct (String.eqb v w), (smem v vs), (String.eqb v (w ++ "_ref")%string), (existsb (fun w => String.eqb v (w ++ "_ref")%string) vs),
        (dget v (n_flags (snd hc))); reflexivity.
Qed.

(** The offdesign parameters are set; without an exception none of them is a flag *)
Definition set_step (r : dict cont * conn * option pyerr) (v : string) : dict cont * conn * option pyerr :=
  match r with
  | (h, c, Some e) => (h, c, Some e)
  | (h, c, None) =>
      let '(h', c') := touch set_to_design true (h, c) v in
      (h', c', if dmem v (n_flags c) then Some AttributeError else None)
  end.
Lemma set_step_stuck : forall vs h c e, fold_left set_step vs (h, c, Some e) = (h, c, Some e).
Proof. induction vs; intros; cbn; auto. Qed.
Lemma fold_set : forall vs h c h' c', fold_left set_step vs (h, c, None) = (h', c', None) ->
  (h', c') = fold_left (touch set_to_design true) vs (h, c) /\ forall v, smem v vs = true -> dmem v (n_flags c) = false.
Proof.
  induction vs as [| w vs IH]; intros h c h' c' E.
  - cbn in E. injection E as <- <-. split; [reflexivity | discriminate].
  - cbn [fold_left] in E |- *. unfold set_step in E at 2. destruct (touch set_to_design true (h, c) w) as [h1 c1] eqn:T.
    destruct (dmem w (n_flags c)) eqn:D; [rewrite set_step_stuck in E; discriminate |].
    apply IH in E as (E & L). split; [exact E |]. intros v S. rewrite smem_cons in S. apply orb_prop in S as [S | S].
    + apply String.eqb_eq in S. now subst.
    + apply L in S. rewrite <- S. apply dmem_keys. pose proof (touch_frame set_to_design true (h, c) w) as (F & _). rewrite T in F. cbn in F.
      symmetry. apply F.
Qed.

(** One connection switched to offdesign *)
Lemma offdesign_conn_spec : forall l h c h' c', offdesign_conn l h c = (h', c', None) ->
  frame c c'
  /\ (n_ldes c = true -> h' = h /\ c' = c)
  /\ (n_ldes c = false -> n_new c' = false
      /\ (forall v, v <> "m" -> dmem v (n_flags c) = false ->
           dget v (n_props c') = if smem v (n_off c) then option_map set_to_design (dget v (n_props c))
                                 else if smem v (n_des c) then option_map unset (dget v (n_props c)) else dget v (n_props c))
      /\ (forall v, v <> "m" ->
           dget v (n_flags c') = if smem v (n_des c) || existsb (fun w => String.eqb v (w ++ "_ref")%string) (n_des c)
                                 then option_map (fun _ => false) (dget v (n_flags c)) else dget v (n_flags c))).
Proof.
  intros l h c h' c' E. unfold offdesign_conn in E. destruct (n_ldes c) eqn:LD.
  - injection E as <- <-. split; [apply frame_refl |]. split; [auto | discriminate].
  - fold unset_step in E. fold set_step in E.
    destruct (fold_left unset_step (n_des c) (h, c)) as [h1 c1] eqn:U.
    destruct (fold_unset (n_des c) (h, c)) as (F & N & M & V & L). rewrite U in F, N, M, V, L. cbn [snd] in *.
    destruct (fold_left set_step (n_off c) (h1, c1, None)) as [[h2 c2] [e |]] eqn:T; [discriminate |].
    apply fold_set in T as (T & NF). injection E as <- <-.
    destruct (fold_touch set_to_design true (n_off c) (h1, c1) (fun _ => eq_refl)) as (F2 & N2 & M2 & V2 & L2).
    rewrite <- T in F2, N2, M2, V2, L2. cbn [snd] in *.
    split. { destruct (frame_trans _ _ _ F F2) as (A1 & A2 & A3 & A4 & A5 & A6 & A7). repeat split; assumption. }
    split; [discriminate |]. intros _. split; [reflexivity |]. cbn [with_new n_props n_flags]. split.
    + intros v NM D. rewrite V2; [| exact NM |].
      2:{ rewrite <- D. apply dmem_keys. apply F. }
      rewrite V by assumption. destruct (smem v (n_off c)); [| reflexivity]. destruct (smem v (n_des c)); [| reflexivity].
      destruct (dget v (n_props c)); reflexivity.
    + intros v NM. rewrite L2 by exact NM. rewrite L by exact NM.
      destruct (smem v (n_off c)) eqn:S; [| reflexivity]. apply NF in S.
      assert (D : dget v (n_flags c) = None).
      { unfold dmem in S. destruct (dget v (n_flags c1)) eqn:X; [discriminate |].
        apply dget_None_notin in X. apply dget_None_notin. intro Y. apply X.
        destruct F as (_ & _ & _ & _ & _ & _ & K). rewrite K. exact Y. }
      rewrite D. destruct (smem v (n_des c) || existsb (fun w => String.eqb v (w ++ "_ref")%string) (n_des c)); reflexivity.
Qed.

(** One connection in design mode *)
Lemma load_conn_spec : forall fi l h c h' c', load_conn fi l h c = (h', c', None) ->
  frame c c' /\ n_new c' = n_new c /\ n_flags c' = n_flags c
  /\ (forall v, dget v (n_props c') = option_map (with_design (table_conn fi l v)) (dget v (n_props c))).
Proof.
  intros fi l h c h' c' E. unfold load_conn in E. unfold table_conn. destruct (dget l (f_conns fi)) as [row |]; [| discriminate].
  injection E as <- <-. repeat split.
  - cbn. apply (keys_mapk _ _ (fun v => with_design (match dget v row with Some x => x | None => None end))).
  - intro v. cbn. apply (dget_mapk _ _ (fun v => with_design (match dget v row with Some x => x | None => None end))).
Qed.
Lemma design_conn_spec : forall files re l h c h' c', design_conn files re l h c = (h', c', None) ->
  frame c c'
  /\ (n_loff c = true -> exists p, n_path c = Some p /\ n_new c' = n_new c
      /\ forall v, v <> "m" -> dmem v (n_flags c) = false ->
         option_map k_design (dget v (n_props c')) = option_map (fun _ => table_conn (files p) l v) (dget v (n_props c))
         /\ option_map k_set (dget v (n_props c')) = if smem v (n_off c) then option_map (fun _ => true) (dget v (n_props c))
              else if smem v (n_des c) then option_map (fun _ => false) (dget v (n_props c)) else option_map k_set (dget v (n_props c)))
  /\ (n_loff c = false -> n_new c' = true
      /\ (forall v, v <> "m" -> dmem v (n_flags c) = false ->
           option_map k_set (dget v (n_props c')) = if re && smem v (n_off c) then option_map (fun _ => false) (dget v (n_props c))
              else if re && smem v (n_des c) then option_map (fun _ => true) (dget v (n_props c)) else option_map k_set (dget v (n_props c)))
      /\ (forall v, v <> "m" -> option_map k_val (dget v (n_props c')) = option_map k_val (dget v (n_props c)) \/ dmem v (n_flags c) = true)).
Proof.
  intros files re l h c h' c' E. unfold design_conn in E. destruct (n_loff c) eqn:LO.
  - destruct (n_path c) as [p |]; [| discriminate].
    destruct (fold_touch (set_flag false) false (n_des c) (h, c) (fun _ => eq_refl)) as (F & N & M & V & L).
    set (hc1 := fold_left (touch (set_flag false) false) (n_des c) (h, c)) in *. clearbody hc1.
    destruct (fold_touch (set_flag true) true (n_off c) hc1 (fun _ => eq_refl)) as (F2 & N2 & M2 & V2 & L2).
    destruct (fold_left (touch (set_flag true) true) (n_off c) hc1) as [h1 c1]. cbn [snd] in *.
    apply load_conn_spec in E as (F3 & N3 & L3 & V3).
    split; [exact (frame_trans _ _ _ (frame_trans _ _ _ F F2) F3) |]. split; [| discriminate]. intros _. exists p.
    split; [reflexivity |]. split; [congruence |]. intros v NM D. rewrite V3, V2; [| exact NM |].
    2:{ rewrite <- D. apply dmem_keys. apply F. }
    rewrite V by assumption. destruct (dget v (n_props c)), (smem v (n_off c)), (smem v (n_des c)); auto.
  - set (h0 := put (n_m c) (with_design None) h) in *. clearbody h0.
    set (c0 := with_new (with_props c (put "h" (with_design None) (put "p" (with_design None) (n_props c)))) true) in *.
    assert (F0 : frame c c0). { repeat split. unfold c0. cbn [with_new with_props n_props]. rewrite !keys_put. reflexivity. }
    assert (G0 : forall v, option_map k_set (dget v (n_props c0)) = option_map k_set (dget v (n_props c))
                        /\ option_map k_val (dget v (n_props c0)) = option_map k_val (dget v (n_props c))).
    { intro v. unfold c0. cbn [with_new with_props n_props]. rewrite !dget_put. destruct (String.eqb v "h"), (String.eqb v "p"), (dget v (n_props c)); auto. }
    destruct re; cbn [andb].
    + destruct (fold_touch (set_flag true) true (n_des c) (h0, c0) (fun _ => eq_refl)) as (F & N & M & V & L).
      set (hc1 := fold_left (touch (set_flag true) true) (n_des c) (h0, c0)) in *. clearbody hc1.
      destruct (fold_touch (set_flag false) false (n_off c) hc1 (fun _ => eq_refl)) as (F2 & N2 & M2 & V2 & L2).
      destruct (fold_left (touch (set_flag false) false) (n_off c) hc1) as [h1 c1]. cbn [snd] in *. injection E as <- <-.
      split; [exact (frame_trans _ _ _ F0 (frame_trans _ _ _ F F2)) |]. split; [discriminate |]. intros _.
      split; [rewrite N2, N; reflexivity |].
      assert (W : forall v, v <> "m" -> dmem v (n_flags c) = false -> dget v (n_props c1) =
         if smem v (n_off c) then option_map (set_flag false) (if smem v (n_des c) then option_map (set_flag true) (dget v (n_props c0)) else dget v (n_props c0))
         else if smem v (n_des c) then option_map (set_flag true) (dget v (n_props c0)) else dget v (n_props c0)).
      { intros v NM D. rewrite V2; [| exact NM |].
        2:{ rewrite <- D. apply dmem_keys. destruct (frame_trans _ _ _ F0 F) as (_ & _ & _ & _ & _ & _ & K). exact K. }
        rewrite V; [reflexivity | exact NM |]. rewrite <- D. apply dmem_keys. apply F0. }
      split.
      * intros v NM D. rewrite W by assumption. destruct (G0 v) as (G & _).
        destruct (dget v (n_props c0)), (dget v (n_props c)), (smem v (n_off c)), (smem v (n_des c)); cbn in *; congruence.
      * intros v NM. destruct (dmem v (n_flags c)) eqn:D; [now right | left]. rewrite W by assumption. destruct (G0 v) as (_ & G).
        destruct (dget v (n_props c0)), (dget v (n_props c)), (smem v (n_off c)), (smem v (n_des c)); cbn in *; congruence.
    + injection E as <- <-. split; [exact F0 |]. split; [discriminate |]. intros _. split; [reflexivity |]. split.
      * intros v _ _. apply G0.
      * intros v _. left. apply G0.
Qed.

(** Loops *)
Lemma sweep_get : forall f cs h h' cs' , sweep f h cs = (h', cs', None) -> keys cs' = keys cs
  /\ forall l c, dget l cs = Some c -> exists h1 h2 c', f l h1 c = (h2, c', None) /\ dget l cs' = Some c'.
Proof.
  induction cs as [| [l0 c0] cs IH]; intros h h' cs' E; cbn [sweep] in E.
  - injection E as <- <-. split; [reflexivity | discriminate].
  - destruct (f l0 h c0) as [[h1 c1] [e |]] eqn:F; [discriminate |]. destruct (sweep f h1 cs) as [[h2 cs2] e2] eqn:S.
    injection E as <- <- ->. apply IH in S as (K & G). split; [cbn; now f_equal |]. intros l c D. cbn [dget] in D |- *.
    destruct (String.eqb_spec l l0) as [-> | N]; [| now apply G]. injection D as <-. exists h, h1, c1. auto.
Qed.
Lemma sweep_comps_get : forall f cs cs', sweep_comps f cs = (cs', None) -> keys cs' = keys cs
  /\ forall l c, dget l cs = Some c -> exists c', f l c = (c', None) /\ dget l cs' = Some c'.
Proof.
  induction cs as [| [l0 c0] cs IH]; intros cs' E; cbn [sweep_comps] in E.
  - injection E as <-. split; [reflexivity | discriminate].
  - destruct (f l0 c0) as [c1 [e |]] eqn:F; [discriminate |]. destruct (sweep_comps f cs) as [cs2 e2] eqn:S.
    injection E as <- ->. destruct (IH _ eq_refl) as (K & G). split; [cbn; now f_equal |]. intros l c D. cbn [dget] in D |- *.
    destruct (String.eqb_spec l l0) as [-> | N]; [| now apply G]. injection D as <-. exists c1. auto.
Qed.
Lemma over_conns_get : forall f st st', over_conns f st = (st', None) ->
  t_comps st' = t_comps st /\ t_branches st' = t_branches st /\ t_redesign st' = t_redesign st /\ t_path st' = t_path st /\ t_new st' = t_new st
  /\ keys (t_conns st') = keys (t_conns st)
  /\ forall l c, dget l (t_conns st) = Some c -> exists h1 h2 c', f l h1 c = (h2, c', None) /\ dget l (t_conns st') = Some c'.
Proof.
  intros f st st' E. unfold over_conns in E. destruct (sweep f (t_m st) (t_conns st)) as [[h cs] e] eqn:S. injection E as <- ->.
  apply sweep_get in S as (K & G). repeat split; assumption.
Qed.
Lemma over_comps_get : forall f st st', over_comps f st = (st', None) ->
  t_conns st' = t_conns st /\ t_m st' = t_m st /\ t_branches st' = t_branches st /\ t_redesign st' = t_redesign st /\ t_path st' = t_path st /\ t_new st' = t_new st
  /\ keys (t_comps st') = keys (t_comps st)
  /\ forall l c, dget l (t_comps st) = Some c -> exists c', f l c = (c', None) /\ dget l (t_comps st') = Some c'.
Proof.
  intros f st st' E. unfold over_comps in E. destruct (sweep_comps f (t_comps st)) as [cs e] eqn:S. injection E as <- ->.
  apply sweep_comps_get in S as (K & G). repeat split; assumption.
Qed.
Lemma andthen_ok : forall r f st', andthen r f = (st', None) -> exists st, r = (st, None) /\ f st = (st', None).
Proof. intros [st [e |]] f st' E; cbn in E; [discriminate | eauto]. Qed.
