(** Connections, busses, units and the whole network for export and import. *)
From Coq Require Import QArith.
From Verif Require Import Base UnitsModel NetUnitsModel UnitsProofs IoModel IoSpec IoProofs IoProofs2 IoProofs3 IoProofs4.
Open Scope string_scope.
Open Scope list_scope.

Lemma dset_new {V} k (v : V) d : ~ In k (keys d) -> dset k v d = d ++ [(k, v)].
Proof.
  induction d as [|[k' v'] d IH]; cbn; intros H; [reflexivity|].
  destruct (String.eqb k k') eqn:E; [apply String.eqb_eq in E; subst; exfalso; apply H; now left|].
  rewrite IH; [reflexivity|]. intros X. apply H. now right.
Qed.

Lemma updates_same {V} (l : dict V) : forall acc, NoDup (keys (acc ++ l)) -> updates l acc = acc ++ l.
Proof.
  induction l as [|[k v] l IH]; intros acc N; cbn; [now rewrite app_nil_r|].
  assert (Nk : ~ In k (keys acc)).
  { rewrite keys_app in N. cbn in N. apply NoDup_remove_2 in N. intros X. apply N, in_app_iff. now left. }
  rewrite (dset_new k v acc Nk). change (updates l (acc ++ [(k, v)]) = acc ++ (k, v) :: l).
  rewrite IH; rewrite <- app_assoc; [reflexivity|exact N].
Qed.

Lemma build_same (l : dict value) : NoDup (keys l) -> build l = l.
Proof. intros N. rewrite build_updates. now rewrite updates_same. Qed.

(* -------------------------------------------------------------- connections *)
Section C.
Variable usable : string -> string -> value -> option pyerr.
Variables engines : list string.
Variable reg : dict class.
Variables comps comps' : dict (string * obj).
Hypothesis Hcomps : forall l, match dget l comps, dget l comps' with
  | Some (cls, o), Some (cls', o') => cls' = cls /\ exists k, dget cls reg = Some k /\ good_comp k l o /\ kept_comp k l o o'
  | None, None => True
  | _, _ => False
  end.
Variable cs : dict conn.
Hypothesis Ncs : NoDup (keys cs).
Hypothesis Ne : cs <> [].
Hypothesis Gcs : forall l c, In (l, c) cs -> good_conn usable engines (keys cs) reg comps c.

Lemma conns_back : exists data cs', conns_data cs = Ok data /\ construct_connections usable reg engines comps' data = Ok cs' /\
  keys cs' = keys cs /\ forall l c c', dget l cs = Some c -> dget l cs' = Some c' -> kept_conn c c'.
Proof.
  set (f := fun e : string * conn => rmap (fun d => (fst e, VDict d)) (conn_data (snd e))).
  assert (CB := fun l c (H : In (l, c) cs) => conn_back usable engines (keys cs) reg comps comps' Hcomps c (Gcs l c H)).
  destruct (rmapM_total f cs) as [data E].
  { intros [l c] Hi. destruct (CB l c Hi) as (d & c1 & c2 & X & _). unfold f. cbn. rewrite X. cbn. eauto. }
  assert (Kd : keys data = keys cs).
  { apply (rmapM_keys f _ _ E). intros [l c] e'. unfold f. cbn. destruct (conn_data c); cbn; intros X; inversion X; reflexivity. }
  assert (Fd : forall l v, In (l, v) data -> exists c d c1 c2, In (l, c) cs /\ v = VDict d /\ jsonable v = true /\ keys d = all_keys /\
     construct_conn usable reg engines comps' args v = Ok c1 /\
     fold_left (fun r k => rbind r (fun c => match dget k d with Some v => read_ref (keys cs) k v c | None => Err KeyError end)) refs (Ok c1) = Ok c2 /\
     kept_conn c c2).
  { intros l v Hi. destruct (rmapM_In _ _ _ _ E Hi) as ([l2 c] & Hc & X). unfold f in X. cbn in X.
    destruct (CB l2 c Hc) as (d & c1 & c2 & Cd & J & K & C1 & C2 & Kc). rewrite Cd in X. cbn in X. inversion X; subst.
    exists c, d, c1, c2. auto 10. }
  assert (Nd : NoDup (keys data)) by now rewrite Kd.
  assert (Jd : jsonable (VDict data) = true).
  { apply jsonable_dict. intros l v Hi. destruct (Fd l v Hi) as (c & d & c1 & c2 & _ & _ & J & _). exact J. }
  exists data. unfold conns_data. fold f. rewrite E. cbn [rbind]. rewrite (build_same _ Nd). unfold dump. rewrite Jd.
  destruct data as [|[l0 v0] data0] eqn:Ed.
  { exfalso. apply Ne. destruct cs; [reflexivity|discriminate Kd]. }
  rewrite <- Ed in *.
  destruct (Fd l0 v0) as (c0 & d0 & c10 & c20 & _ & E0 & _ & K0 & _); [rewrite Ed; now left|].
  set (g := fun e : string * value => rmap (fun c => (fst e, c)) (construct_conn usable reg engines comps' args (snd e))).
  destruct (rmapM_total g data) as [cs1 E1].
  { intros [l v] Hi. destruct (Fd l v Hi) as (c & d & c1 & c2 & _ & _ & _ & _ & X & _). unfold g. cbn [fst snd]. rewrite X. cbn. eauto. }
  assert (K1 : keys cs1 = keys data).
  { apply (rmapM_keys g _ _ E1). intros [l v] e'. unfold g. cbn [fst snd]. destruct (construct_conn usable reg engines comps' args v); cbn; intros X; inversion X; reflexivity. }
  set (h := fun e : string * conn => rbind (match dget (fst e) data with Some v => mapping v | None => Err KeyError end) (fun d =>
        rmap (fun c => (fst e, c)) (fold_left (fun r k => rbind r (fun c => match dget k d with Some v => read_ref (keys data) k v c | None => Err KeyError end)) refs (Ok (snd e))))).
  assert (Fh : forall l c1, In (l, c1) cs1 -> exists c c2, In (l, c) cs /\ kept_conn c c2 /\ h (l, c1) = Ok (l, c2)).
  { intros l c1 Hi. destruct (rmapM_In _ _ _ _ E1 Hi) as ([l2 v] & Hv & X). unfold g in X. cbn [fst snd] in X.
    destruct (Fd l2 v Hv) as (c & d & c1' & c2 & Hc & Ev & _ & _ & Y & Z & Kc). rewrite Y in X. cbn in X. inversion X; subst l2 c1'.
    exists c, c2. split; [exact Hc|]. split; [exact Kc|]. unfold h. cbn [fst snd]. rewrite (In_dget _ _ _ Nd Hv), Ev. cbn [mapping rbind].
    rewrite Kd. rewrite Z. reflexivity. }
  destruct (rmapM_total h cs1) as [cs2 E2].
  { intros [l c1] Hi. destruct (Fh l c1 Hi) as (c & c2 & _ & _ & X). eauto. }
  exists cs2. split; [reflexivity|]. split.
  { unfold construct_connections. rewrite Ed. rewrite E0. cbn [mapping rbind]. rewrite (args_eq d0 K0), (refs_eq d0 K0).
    rewrite <- E0, <- Ed. fold g. rewrite E1. cbn [rbind]. fold h. exact E2. }
  assert (K2 : keys cs2 = keys cs1).
  { clear - E2 Fh. apply rmapM_Forall2 in E2. revert Fh. induction E2 as [|[l c1] [l2 c2] xs ys X Y IH]; intros Fh; [reflexivity|].
    cbn. f_equal; [|apply IH; intros; apply Fh; now right].
    destruct (Fh l c1 (or_introl eq_refl)) as (c & c3 & _ & _ & Z). rewrite X in Z. inversion Z. reflexivity. }
  split; [congruence|]. intros l c c' Hc Hc'.
  apply dget_In in Hc'. destruct (rmapM_In _ _ _ _ E2 Hc') as ([l1 c1] & H1 & X).
  destruct (Fh l1 c1 H1) as (c3 & c2 & H3 & Kc & Y). rewrite X in Y. inversion Y; subst.
  apply In_dget in H3; [|exact Ncs]. rewrite Hc in H3. inversion H3; subst. exact Kc.
Qed.

(* ------------------------------------------------------------------- busses *)
Lemma dmem_back l : dmem l comps' = dmem l comps.
Proof.
  specialize (Hcomps l). unfold dmem. destruct (dget l comps) as [[? ?]|], (dget l comps') as [[? ?]|]; auto; contradiction.
Qed.

Lemma bus_back b : good_bus comps b -> exists d b', bus_data b = Ok d /\ jsonable (VDict d) = true /\
  construct_bus comps' (VDict d) = Ok b' /\ kept_bus b b'.
Proof.
  intros (KP & W1 & W2 & Nr & Gr).
  destruct (pick_spec ["val"; "is_set"] (b_P b)) as (p & Ep & Kp & Jp & Dp).
  { intros k [<-|[<-|[]]]; assumption. }
  assert (Sp : serialize (b_P b) = Ok p) by (unfold serialize; rewrite KP; exact Ep).
  set (f := fun e : string * row => rmap (fun ch => (fst e, VDict [("param", w_param (snd e)); ("base", w_base (snd e)); ("char", ch)])) (char_dict (w_char (snd e)))).
  assert (Fr : forall l w, In (l, w) (b_rows b) -> exists ch, char_dict (w_char w) = Ok ch /\
     jsonable (VDict [("param", w_param w); ("base", w_base w); ("char", ch)]) = true /\
     exists w', read_row comps' l (VDict [("param", w_param w); ("base", w_base w); ("char", ch)]) = Ok w' /\
       w_param w' = w_param w /\ w_base w' = w_base w /\ w_char w' = w_char w).
  { intros l w Hi. destruct (Gr l w Hi) as (_ & M & Hp & Hb & x & y & e & Ec & L). rewrite Ec.
    destruct (char_dict (VLine x y e)) as [ch|] eqn:C; [|discriminate C]. destruct (make_line_back _ _ _ _ L C) as [Ml Jc].
    exists ch. split; [reflexivity|]. split.
    - cbn. rewrite Jc. destruct Hp as [->|[s ->]]; destruct Hb as [->| ->]; reflexivity.
    - exists {| w_param := w_param w; w_Pref := VNum None; w_char := VLine x y e; w_base := w_base w |}. split; [|auto].
      unfold read_row. cbn [mapping rbind dget String.eqb Ascii.eqb Bool.eqb]. rewrite Ml. cbn [rbind]. rewrite dmem_back, M.
      destruct Hp as [->|[s ->]]; destruct Hb as [->| ->]; reflexivity. }
  destruct (rmapM_total f (b_rows b)) as [q Eq].
  { intros [l w] Hi. destruct (Fr l w Hi) as (ch & C & _). unfold f. cbn. rewrite C. cbn. eauto. }
  assert (Kq : keys q = keys (b_rows b)).
  { apply (rmapM_keys f _ _ Eq). intros [l w] e'. unfold f. cbn. destruct (char_dict (w_char w)); cbn; intros X; inversion X; reflexivity. }
  assert (Nq : NoDup (keys (("P", VDict p) :: q))).
  { cbn. constructor; [|fold (keys q); now rewrite Kq]. fold (keys q). rewrite Kq. intros X. apply in_map_iff in X. destruct X as ([l w] & Y & Hi).
    cbn in Y. subst l. destruct (Gr "P" w Hi) as [Z _]. now apply Z. }
  unfold bus_data. rewrite Sp. cbn [rbind]. fold f. rewrite Eq. cbn [rmap]. rewrite (build_same _ Nq).
  set (g := fun e : string * value => rmap (fun r => (fst e, r)) (read_row comps' (fst e) (snd e))).
  assert (Fq : forall l v, In (l, v) q -> exists w w', In (l, w) (b_rows b) /\ jsonable v = true /\ g (l, v) = Ok (l, w') /\
      w_param w' = w_param w /\ w_base w' = w_base w /\ w_char w' = w_char w).
  { intros l v Hi. destruct (rmapM_In _ _ _ _ Eq Hi) as ([l2 w] & Hw & X). unfold f in X. cbn in X.
    destruct (Fr l2 w Hw) as (ch & C & J & w' & R & Rest). rewrite C in X. cbn in X. inversion X; subst.
    exists w, w'. split; [exact Hw|]. split; [exact J|]. split; [|exact Rest]. unfold g. cbn [fst snd]. now rewrite R. }
  destruct (rmapM_total g q) as [rows Er].
  { intros [l v] Hi. destruct (Fq l v Hi) as (w & w' & _ & _ & X & _). eauto. }
  destruct (set_attrs_spec p (b_P new_bus)) as (P' & EP & _ & DP).
  { rewrite Kp. nodup. } { rewrite Kp. intros k [<-|[<-|[]]]; reflexivity. }
  exists (("P", VDict p) :: q), {| b_P := P'; b_rows := rows; b_print := b_print new_bus |}.
  split; [reflexivity|]. split.
  { apply jsonable_dict. intros l v [Hi|Hi]; [inversion Hi; subst; exact Jp|]. destruct (Fq l v Hi) as (w & w' & _ & J & _). exact J. }
  split.
  - unfold construct_bus. cbn [mapping rbind dget String.eqb Ascii.eqb Bool.eqb]. unfold read_data. cbn [mapping rbind]. rewrite EP. cbn [rbind].
    replace (filter (fun e : string * value => negb (String.eqb (fst e) "P")) (("P", VDict p) :: q)) with q.
    + fold g. rewrite Er. reflexivity.
    + cbn [filter fst String.eqb Ascii.eqb Bool.eqb negb]. symmetry.
      cbn in Nq. inversion Nq as [|? ? NP _]; subst. clear - NP. induction q as [|[l v] q IH]; [reflexivity|]. cbn [filter fst].
      destruct (String.eqb l "P") eqn:X; [apply String.eqb_eq in X; subst; exfalso; apply NP; now left|]. cbn [negb]. f_equal. apply IH.
      intros Y. apply NP. now right.
  - unfold kept_bus, same_attr. cbn [b_P b_rows]. split; [|split].
    + rewrite DP, Dp. cbn [smem existsb String.eqb Ascii.eqb Bool.eqb orb]. destruct W1 as (v & -> & _). reflexivity.
    + rewrite DP, Dp. cbn [smem existsb String.eqb Ascii.eqb Bool.eqb orb]. destruct W2 as (v & -> & _). reflexivity.
    + intros l.
      assert (Kr : keys rows = keys q).
      { clear - Er Fq. apply rmapM_Forall2 in Er. revert Fq. induction Er as [|[l c1] [l2 c2] xs ys X Y IH]; intros Fh; [reflexivity|].
        cbn. f_equal; [|apply IH; intros; apply Fh; now right].
        destruct (Fh l c1 (or_introl eq_refl)) as (w & w' & _ & _ & Z & _). rewrite X in Z. inversion Z. reflexivity. }
      destruct (dget l (b_rows b)) as [w|] eqn:Ew, (dget l rows) as [w'|] eqn:Ew'.
      * apply dget_In in Ew'. destruct (rmapM_In _ _ _ _ Er Ew') as ([l2 v] & Hv & X).
        destruct (Fq l2 v Hv) as (w2 & w3 & H2 & _ & Y & Rest). rewrite X in Y. inversion Y; subst.
        apply In_dget in H2; [|exact Nr]. rewrite Ew in H2. inversion H2; subst. exact Rest.
      * apply dget_None_notin in Ew'. apply Ew'. rewrite Kr, Kq. apply dmem_In. unfold dmem. now rewrite Ew.
      * apply dget_None_notin in Ew. apply Ew. rewrite <- Kq, <- Kr. apply dmem_In. unfold dmem. now rewrite Ew'.
      * exact Logic.I.
Qed.

Lemma busses_back bs old : NoDup (keys bs) -> (bs <> [] \/ old = None) -> (forall l b, In (l, b) bs -> good_bus comps b) ->
  exists file bs', busses_data bs old = Ok file /\ load_busses comps' file = Ok bs' /\
    keys bs' = keys bs /\ forall l b b', dget l bs = Some b -> dget l bs' = Some b' -> kept_bus b b'.
Proof.
  intros Nb Ho Gb. destruct bs as [|e0 bs0] eqn:Eb.
  { destruct Ho as [X| ->]; [now destruct X|]. exists None, []. split; [reflexivity|]. split; [reflexivity|]. split; [reflexivity|].
    intros l b b' X. discriminate X. }
  rewrite <- Eb in *.
  set (f := fun e : string * bus => rmap (fun d => (fst e, VDict d)) (bus_data (snd e))).
  destruct (rmapM_total f bs) as [data E].
  { intros [l b] Hi. destruct (bus_back b (Gb l b Hi)) as (d & b' & X & _). unfold f. cbn. rewrite X. cbn. eauto. }
  assert (Kd : keys data = keys bs).
  { apply (rmapM_keys f _ _ E). intros [l b] e'. unfold f. cbn. destruct (bus_data b); cbn; intros X; inversion X; reflexivity. }
  set (g := fun e : string * value => rmap (fun b => (fst e, b)) (construct_bus comps' (snd e))).
  assert (Fd : forall l v, In (l, v) data -> exists b b', In (l, b) bs /\ jsonable v = true /\ g (l, v) = Ok (l, b') /\ kept_bus b b').
  { intros l v Hi. destruct (rmapM_In _ _ _ _ E Hi) as ([l2 b] & Hb & X). unfold f in X. cbn in X.
    destruct (bus_back b (Gb l2 b Hb)) as (d & b' & Bd & J & C & K). rewrite Bd in X. cbn in X. inversion X; subst.
    exists b, b'. split; [exact Hb|]. split; [exact J|]. split; [|exact K]. unfold g. cbn [fst snd]. now rewrite C. }
  assert (Nd : NoDup (keys data)) by now rewrite Kd.
  assert (Jd : jsonable (VDict data) = true).
  { apply jsonable_dict. intros l v Hi. destruct (Fd l v Hi) as (b & b' & _ & J & _). exact J. }
  destruct (rmapM_total g data) as [bs' E'].
  { intros [l v] Hi. destruct (Fd l v Hi) as (b & b' & _ & _ & X & _). eauto. }
  exists (Some data), bs'. split.
  { unfold busses_data. rewrite Eb. rewrite <- Eb. fold f. rewrite E. cbn [rbind]. rewrite (build_same _ Nd). unfold dump. now rewrite Jd. }
  split; [exact E'|]. split.
  - rewrite <- Kd. clear - E' Fd. apply rmapM_Forall2 in E'. revert Fd. induction E' as [|[l c1] [l2 c2] xs ys X Y IH]; intros Fh; [reflexivity|].
    cbn. f_equal; [|apply IH; intros; apply Fh; now right].
    destruct (Fh l c1 (or_introl eq_refl)) as (w & w' & _ & _ & Z & _). rewrite X in Z. inversion Z. reflexivity.
  - intros l b b' Hb Hb'. apply dget_In in Hb'. destruct (rmapM_In _ _ _ _ E' Hb') as ([l2 v] & Hv & X).
    destruct (Fd l2 v Hv) as (b2 & b3 & H2 & _ & Y & K). rewrite X in Y. inversion Y; subst.
    apply In_dget in H2; [|exact Nb]. rewrite Hb in H2. inversion H2; subst. exact K.
Qed.

Lemma add_comps_back cs' : keys cs' = keys cs -> (forall l c c', dget l cs = Some c -> dget l cs' = Some c' -> kept_conn c c') ->
  (forall l x, dget l comps = Some x -> exists y, In y cs /\ (n_source (snd y) = l \/ n_target (snd y) = l)) ->
  forall l, dget l (add_comps comps' cs') = dget l comps'.
Proof.
  intros Kc Hk Used l. unfold add_comps.
  assert (G : forall ls t, (forall z x, dget z t = Some x -> dget z comps' = Some x) ->
     forall z, dget z (fold_left (fun t l => match dget l comps' with Some c => if dmem l t then t else dset l c t | None => t end) ls t) =
       if smem z ls then dget z comps' else dget z t).
  { induction ls as [|a ls IH]; intros t Ht z; [reflexivity|]. cbn [fold_left].
    set (t1 := match dget a comps' with Some c => if dmem a t then t else dset a c t | None => t end).
    assert (T1 : forall y, dget y t1 = if String.eqb y a then dget a comps' else dget y t).
    { intros y. unfold t1. destruct (String.eqb y a) eqn:X; [apply String.eqb_eq in X; subst y|apply String.eqb_neq in X].
      - destruct (dget a comps') as [c|] eqn:Y.
        + unfold dmem. destruct (dget a t) as [w|] eqn:Z; [rewrite Z; rewrite (Ht a w Z) in Y; exact Y|apply dget_dset_eq].
        + destruct (dget a t) as [w|] eqn:Z; [rewrite (Ht a w Z) in Y; discriminate|reflexivity].
      - destruct (dget a comps'); [|reflexivity]. destruct (dmem a t); [reflexivity|]. now rewrite dget_dset_neq by congruence. }
    rewrite IH.
    - cbn [smem existsb]. fold (smem z ls). rewrite T1. destruct (String.eqb z a) eqn:X; cbn [orb]; [|reflexivity].
      apply String.eqb_eq in X; subst. now destruct (smem a ls).
    - intros y x. rewrite T1. destruct (String.eqb y a) eqn:X; [apply String.eqb_eq in X; subst; auto|apply Ht]. }
  rewrite G by discriminate.
  destruct (smem l _) eqn:M; [reflexivity|]. cbn [dget]. symmetry.
  pose proof (Hcomps l) as HH. destruct (dget l comps) as [[cls o]|] eqn:El.
  - exfalso. destruct (Used l _ El) as ([lc c] & Hc & Hl). cbn [snd] in Hl.
    pose proof (In_dget _ _ _ Ncs Hc) as Dc.
    assert (Hk' : In lc (keys cs')) by (rewrite Kc; apply in_map_iff; now exists (lc, c)).
    destruct (dget_keys _ _ Hk') as [c' Dc']. destruct (Hk lc c c' Dc Dc') as (S1 & _ & S2 & _).
    assert (X : smem l (flat_map (fun e : string * conn => [n_source (snd e); n_target (snd e)]) cs') = true).
    { apply smem_In, in_flat_map. exists (lc, c'). split; [now apply dget_In|]. cbn. rewrite S1, S2. tauto. }
    congruence.
  - destruct (dget l comps'); [contradiction|reflexivity].
Qed.
End C.
