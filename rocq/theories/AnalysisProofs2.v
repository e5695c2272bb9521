(** Groups, aggregation and rejections of ExergyAnalysis. *)
From Coq Require Import QArith Qabs Lqa.
From Verif Require Import Base ExergyModel AnalysisModel AnalysisSpec AnalysisProofs.
Open Scope Q_scope.

(* ------------------------------------------------------------ partition *)

Lemma unique_in : forall l x, In x (unique l) <-> In x l.
Proof.
  induction l as [| y l IH]; intro x; cbn [unique In]; [tauto |].
  rewrite filter_In, IH. destruct (String.eqb_spec y x) as [-> | N]; cbn [negb]; intuition congruence.
Qed.
Lemma unique_nodup : forall l, NoDup (unique l).
Proof.
  induction l as [| y l IH]; cbn [unique]; constructor.
  - rewrite filter_In. rewrite String.eqb_refl. cbn. intuition discriminate.
  - apply NoDup_filter. exact IH.
Qed.
Lemma sumq_one : forall (l : list string) g (v : Q), NoDup l -> In g l ->
  sumq l (fun x => if String.eqb g x then v else 0) == v.
Proof.
  induction l as [| y l IH]; intros g v ND I; [destruct I |]. inversion ND; subst. rewrite sumq_cons.
  destruct (String.eqb_spec g y) as [-> | N].
  - rewrite (sumq_zero _ l); [lra |]. intros x X. destruct (String.eqb_spec y x) as [-> | _]; [contradiction | reflexivity].
  - destruct I as [I | I]; [congruence |]. rewrite (IH g v H2 I). lra.
Qed.
Lemma filter_sum : forall (l : list comp_row) g,
  sumq (map c_D (filter (fun c => String.eqb (c_group c) g) l)) zero_if_nan
  == sumq l (fun c => if String.eqb (c_group c) g then zero_if_nan (c_D c) else 0).
Proof.
  induction l as [| c l IH]; intro g; cbn [filter]; [reflexivity |]. rewrite sumq_cons, <- IH.
  destruct (String.eqb (c_group c) g); cbn [map]; [rewrite sumq_cons |]; lra.
Qed.
Lemma groups_partition : forall l, sumq (unique (map c_group l)) (group_D l) == nansum (map c_D l).
Proof.
  intro l. rewrite nansum_sumq, sumq_map.
  rewrite (sumq_ext _ _ (group_D l) (fun g => sumq l (fun c => if String.eqb (c_group c) g then zero_if_nan (c_D c) else 0))).
  2:{ intros g _. unfold group_D. rewrite nansum_sumq. apply filter_sum. }
  rewrite sumq_swap. apply sumq_ext. intros c C. apply sumq_one; [apply unique_nodup |].
  apply unique_in. now apply in_map.
Qed.

(* ---------------------------------------------------------- aggregation *)

Lemma aggregate_group : forall rows l, map c_group (map (aggregate rows) l) = map c_group l.
Proof.
  intros. rewrite map_map. apply map_ext. intro c. unfold aggregate. now destruct (dget (c_label c) rows).
Qed.
Lemma aggregate_label : forall rows l, map c_label (map (aggregate rows) l) = map c_label l.
Proof.
  intros. rewrite map_map. apply map_ext. intro c. unfold aggregate. now destruct (dget (c_label c) rows).
Qed.

(** Per component: fuel minus product stays the destruction. *)
Lemma aggregate_balance : forall rows c F P D,
  c_F c = Some F -> c_P c = Some P -> c_D c = Some D -> D == F - P ->
  (forall r, dget (c_label c) rows = Some r -> row_D r <> None) ->
  exists F' P' D', c_F (aggregate rows c) = Some F' /\ c_P (aggregate rows c) = Some P'
    /\ c_D (aggregate rows c) = Some D' /\ D' == F' - P'
    /\ D' == D + match dget (c_label c) rows with Some r => zero_if_nan (row_D r) | None => 0 end.
Proof.
  intros rows c F P D EF EP ED B N. unfold aggregate. destruct (dget (c_label c) rows) as [r |].
  - specialize (N r eq_refl). destruct (row_D r) as [q |]; [| congruence]. cbn [c_F c_P c_D].
    rewrite EF, EP, ED. destruct (r_base r); cbn [nadd nsub nlift zero_if_nan];
      (do 3 eexists; split; [reflexivity |]; split; [reflexivity |]; split; [reflexivity |]; split; lra).
  - rewrite EF, EP, ED. do 3 eexists. split; [reflexivity |]. split; [reflexivity |]. split; [reflexivity |]. split; lra.
Qed.

(** Bus rows belong to components, one each. *)
Lemma dset_keys_fresh : forall V k (v : V) d, ~ In k (keys d) -> keys (dset k v d) = (keys d ++ [k])%list.
Proof. intros. rewrite dset_fresh by assumption. unfold keys. now rewrite map_app. Qed.

Lemma member_rows : forall an k bal b mb st st', eval_member an k bal b mb st = Ok st' ->
  exists r, st_rows st' = dset (k_label k) r (st_rows st).
Proof.
  intros an k bal b mb st st' H. unfold eval_member in H.
  destruct (bus_total (E_bus bal)); cbn [rbind] in H; [| discriminate H].
  destruct (b_base mb); match type of H with rbind ?t _ = _ => destruct t; cbn [rbind] in H; [| discriminate H] end;
    injection H as <-; eexists; reflexivity.
Qed.
Lemma step_bus_rows : forall an k rows st rows' st', component_step an k (rows, st) = Ok (rows', st') ->
  st_rows st' = st_rows st \/ exists r, st_rows st' = dset (k_label k) r (st_rows st).
Proof.
  intros an k rows st rows' st' H. unfold component_step in H.
  destruct (k_balance k) as [bal |]; cbn [rbind] in H; [| discriminate H].
  destruct (smem (k_group k) (reserved an)); [discriminate H |].
  match type of H with rbind (eval_busses _ _ _ _ _ ?s) _ = _ => set (s0 := s) in H end.
  destruct (eval_busses an k bal (all_busses an) 0 s0) as [s1 |] eqn:EV; cbn [rbind] in H; [| discriminate H].
  injection H as _ <-. apply eval_some in EV.
  assert (R0 : st_rows s0 = st_rows st) by reflexivity. clearbody s0.
  destruct (first_bus (k_label k) (all_busses an)) as [[b mb] |].
  - right. apply member_rows in EV. rewrite R0 in EV. exact EV.
  - left. now subst s1.
Qed.
Lemma run_bus_rows : forall an ks rows st rows' st', run_components an ks (rows, st) = Ok (rows', st') ->
  NoDup (map k_label ks) -> (forall k, In k ks -> ~ In (k_label k) (keys (st_rows st))) ->
  NoDup (keys (st_rows st)) -> NoDup (map c_label rows) ->
  (forall k, In k ks -> ~ In (k_label k) (map c_label rows)) ->
  incl (keys (st_rows st)) (map c_label rows) ->
  NoDup (keys (st_rows st')) /\ incl (keys (st_rows st')) (map c_label rows')
  /\ NoDup (map c_label rows').
Proof.
  intros an. induction ks as [| k ks IH]; intros rows st rows' st' H ND FR N1 N2 FR2 INC.
  - cbn [run_components] in H. injection H as <- <-. auto.
  - cbn [run_components] in H. destruct (component_step an k (rows, st)) as [[r1 s1] |] eqn:S; cbn [rbind] in H; [| discriminate H].
    inversion ND as [| ? ? K1 K2]; subst.
    destruct (step_rows _ _ _ _ _ _ S) as (bal & _ & ->).
    assert (FRk := FR k (or_introl eq_refl)). assert (FRk2 := FR2 k (or_introl eq_refl)).
    assert (KS : keys (st_rows s1) = keys (st_rows st) \/ keys (st_rows s1) = (keys (st_rows st) ++ [k_label k])%list).
    { destruct (step_bus_rows _ _ _ _ _ _ S) as [-> | (r & ->)]; [now left | right].
      now apply dset_keys_fresh. }
    assert (MA : map c_label (rows ++ [row_of k bal])%list = (map c_label rows ++ [k_label k])%list)
      by (rewrite map_app; reflexivity).
    assert (SN : forall (l : list string) x, NoDup l -> ~ In x l -> NoDup (l ++ [x])%list).
    { intros l x A B.
      induction l as [| y l IHl]; cbn [app]; [constructor; [tauto | constructor] |].
      inversion A; subst. constructor.
      - rewrite in_app_iff. cbn [In] in *. intuition congruence.
      - apply IHl; [assumption | cbn in B; tauto]. }
    apply (IH _ _ _ _ H K2).
    + intros k' I X. apply (FR k' (or_intror I)). destruct KS as [KS | KS]; rewrite KS in X; [exact X |].
      apply in_app_or in X. destruct X as [X | [X | []]]; [exact X |]. exfalso. apply K1. rewrite X. now apply in_map.
    + destruct KS as [-> | ->]; [exact N1 | now apply SN].
    + rewrite MA. now apply SN.
    + intros k' I X. rewrite MA in X. apply in_app_or in X. destruct X as [X | [X | []]].
      * exact (FR2 k' (or_intror I) X).
      * apply K1. rewrite X. now apply in_map.
    + rewrite MA. destruct KS as [-> | ->].
      * intros x X. apply in_or_app. left. now apply INC.
      * intros x X. apply in_app_or in X. apply in_or_app. destruct X as [X | X]; [left; now apply INC | now right].
Qed.

Lemma rows_over : forall (d : dict bus_row) (l : list comp_row) (g : bus_row -> Q), NoDup (keys d) ->
  NoDup (map c_label l) -> incl (keys d) (map c_label l) ->
  sumq d (fun r => g (snd r)) == sumq l (fun c => match dget (c_label c) d with Some r => g r | None => 0 end).
Proof.
  induction d as [| [k r] d IH]; intros l g N1 N2 INC.
  - symmetry. apply sumq_zero. intros c _. reflexivity.
  - unfold keys in N1, INC. cbn [map fst] in N1, INC. inversion N1; subst. rewrite sumq_cons. cbn [snd].
    rewrite (IH l g H2 N2) by (intros x X; apply INC; now right).
    assert (IK : In k (map c_label l)) by (apply INC; now left).
    assert (DN : dget k d = None).
    { apply dget_None_notin. exact H1. }
    assert (ONE : sumq l (fun c => if String.eqb k (c_label c) then g r else 0) == g r).
    { clear - N2 IK. induction l as [| c l IHl]; [destruct IK |]. cbn [map] in *. inversion N2; subst. rewrite sumq_cons.
      destruct (String.eqb_spec k (c_label c)) as [-> | N].
      - rewrite (sumq_zero _ l); [lra |]. intros x X. destruct (String.eqb_spec (c_label c) (c_label x)) as [E | _]; [| reflexivity].
        exfalso. apply H1. rewrite E. now apply in_map.
      - destruct IK as [IK | IK]; [congruence |]. rewrite (IHl H2 IK). lra. }
    rewrite <- ONE at 1. rewrite <- sumq_plus. apply sumq_ext. intros c _. cbn [dget].
    destruct (String.eqb_spec k (c_label c)) as [-> | N].
    + rewrite String.eqb_refl, DN. lra.
    + destruct (String.eqb_spec (c_label c) k) as [E | _]; [congruence |]. lra.
Qed.

(** Destruction is not lost in the aggregation if both parts are numbers. *)
Lemma aggregate_total : forall an ks acc, run_components an ks (start an) = Ok acc ->
  NoDup (map k_label ks) ->
  (forall c, In c (o_rows (totals acc)) -> kept (o_bus (totals acc)) c) ->
  nansum (map c_D (o_agg (totals acc))) == o_D (totals acc).
Proof.
  intros an ks [rows st] H ND K. unfold totals in *. cbn [o_rows o_bus o_agg o_D] in *. unfold start in H.
  destruct (run_bus_rows an ks _ _ rows st H ND) as (N1 & INC & N2); try (cbn; constructor).
  - intros k _ X. destruct X.
  - intros k _ X. destruct X.
  - intros x X. destruct X.
  - rewrite !nansum_sumq, !sumq_map. 
    rewrite (rows_over (st_rows st) rows (fun r => zero_if_nan (row_D r)) N1 N2 INC).
    rewrite <- sumq_plus. apply sumq_ext. intros c C. specialize (K c C). unfold kept in K. unfold aggregate.
    destruct (dget (c_label c) (st_rows st)) as [r |]; [| lra]. cbn [c_D].
    destruct (K r eq_refl) as [(A & B) | Z].
    + destruct (c_D c), (row_D r); try congruence. cbn [nadd nlift zero_if_nan]. lra.
    + destruct (c_D c), (row_D r); cbn [nadd nlift zero_if_nan] in *; lra.
Qed.

(* ----------------------------------------------------------- group rows *)

Definition ed (t : table) : table := filter (fun x => String.eqb (fst (fst x)) "E_D") t.
Lemma ed_tset_other : forall k v t, fst k <> "E_D"%string -> ed (tset k v t) = ed t.
Proof.
  intros k v t N. assert (Z : String.eqb (fst k) "E_D" = false) by now apply String.eqb_neq.
  induction t as [| [k' v'] t IH]; cbn [tset ed filter fst].
  - now rewrite Z.
  - destruct (key_eqb k k') eqn:E; cbn [ed filter fst].
    + unfold key_eqb in E. apply andb_prop in E. destruct E as [E _]. apply String.eqb_eq in E. rewrite <- E.
      now rewrite Z.
    + unfold ed in IH. now rewrite IH.
Qed.
Lemma ed_tset_new : forall v t, ed t = [] ->
  ed (tset ("E_D", "E_D")%string v t) = [(("E_D", "E_D")%string, v)].
Proof.
  induction t as [| [k' v'] t IH]; intro H; cbn [tset ed filter fst]; [reflexivity |].
  unfold ed in H. cbn [filter fst] in H. destruct (String.eqb (fst k') "E_D") eqn:Z; [discriminate H |].
  assert (KE : key_eqb ("E_D", "E_D")%string k' = false).
  { unfold key_eqb. cbn [fst snd]. rewrite String.eqb_sym, Z. reflexivity. }
  rewrite KE. cbn [ed filter fst]. rewrite Z. apply IH. exact H.
Qed.
Lemma ed_tadd : forall k v t, fst k <> "E_D"%string -> ed (tadd k v t) = ed t.
Proof. intros. unfold tadd. now apply ed_tset_other. Qed.
Lemma ed_shares : forall target cat ports scale l t t', target <> "E_D"%string ->
  add_shares target cat ports scale l t = Ok t' -> ed t' = ed t.
Proof.
  intros target cat ports scale. induction l as [| [pos v] l IH]; intros t t' N H; cbn [add_shares] in H; [congruence |].
  destruct v as [q |].
  - destruct (Qeq_bool q 0); [now apply (IH _ _ N H) |].
    destruct (Nat.ltb pos 2); [destruct ports; [discriminate H |] |];
      rewrite (IH _ _ N H); unfold add_share; now apply ed_tadd.
  - destruct (Nat.ltb pos 2); [destruct ports; [discriminate H |] |];
      rewrite (IH _ _ N H); unfold add_share; now apply ed_tadd.
Qed.

Definition ed_all (sk : dict table) (P : string -> table -> Prop) : Prop :=
  forall g t, dget g sk = Some t -> P g (ed t).
Lemma ed_dset : forall sk P g t, ed_all sk P -> P g (ed t) -> ed_all (dset g t sk) P.
Proof.
  intros sk P g t A B g' t' H. destruct (String.eqb_spec g' g) as [-> | N].
  - rewrite dget_dset_eq in H. now injection H as <-.
  - rewrite dget_dset_neq in H by assumption. now apply A.
Qed.

Lemma run_ed : forall an ks rows st rows' st',
  (forall b, In b (all_busses an) -> u_label b <> "E_D"%string) ->
  run_components an ks (rows, st) = Ok (rows', st') ->
  ed_all (st_sankey st) (fun _ e => e = []) ->
  (forall r, In r rows -> dget (c_group r) (st_sankey st) <> None /\ c_group r <> "E_D"%string) ->
  ed_all (st_sankey st') (fun _ e => e = [])
  /\ (forall r, In r rows' -> dget (c_group r) (st_sankey st') <> None /\ c_group r <> "E_D"%string).
Proof.
  intros an. induction ks as [| k ks IH]; intros rows st rows' st' BL H E G.
  - cbn [run_components] in H. injection H as <- <-. auto.
  - cbn [run_components] in H. destruct (component_step an k (rows, st)) as [[r1 s1] |] eqn:S; cbn [rbind] in H; [| discriminate H].
    apply (IH _ _ _ _ BL H); clear H IH.
    + unfold component_step in S. destruct (k_balance k) as [bal |]; cbn [rbind] in S; [| discriminate S].
      destruct (smem (k_group k) (reserved an)) eqn:SM; [discriminate S |].
      match type of S with rbind (eval_busses _ _ _ _ _ ?s) _ = _ => set (s0 := s) in S end.
      assert (E0 : ed_all (st_sankey s0) (fun _ e => e = [])).
      { subst s0. cbn [st_sankey]. destruct (dmem (k_group k) (st_sankey st)); [exact E |]. apply ed_dset; [exact E | reflexivity]. }
      clearbody s0. destruct (eval_busses an k bal (all_busses an) 0 s0) as [s2 |] eqn:EV; cbn [rbind] in S; [| discriminate S].
      injection S as _ <-. apply eval_some in EV.
      assert (KG : k_group k <> "E_D"%string).
      { intro X. rewrite X in SM. unfold reserved in SM. cbn in SM. discriminate SM. }
      destruct (first_bus (k_label k) (all_busses an)) as [[b mb] |] eqn:FB; [| now subst s2].
      assert (IB : In b (all_busses an)).
      { clear - FB. induction (all_busses an) as [| b' bs IH]; cbn [first_bus] in FB; [discriminate FB |].
        destruct (dget (k_label k) (u_comps b')); [injection FB as <- _; now left | right; now apply IH]. }
      unfold eval_member in EV. destruct (bus_total (E_bus bal)); cbn [rbind] in EV; [| discriminate EV].
      assert (TE : forall g, ed (table_of g (st_sankey s0)) = []).
      { intro g. unfold table_of. destruct (dget g (st_sankey s0)) eqn:X; [now apply E0 in X | reflexivity]. }
      destruct (b_base mb);
        match type of EV with rbind ?t _ = _ => destruct t eqn:AS; cbn [rbind] in EV; [| discriminate EV] end;
        injection EV as <-; cbn [st_sankey]; (apply ed_dset; [exact E0 |]).
      * rewrite (ed_shares _ _ _ _ _ _ _ KG AS). apply TE.
      * rewrite (ed_shares _ _ _ _ _ _ _ (BL b IB) AS). apply TE.
    + destruct (step_rows _ _ _ _ _ _ S) as (bal & KB & ->).
      unfold component_step in S. rewrite KB in S. cbn [rbind] in S.
      destruct (smem (k_group k) (reserved an)) eqn:SM; [discriminate S |].
      match type of S with rbind (eval_busses _ _ _ _ _ ?s) _ = _ => set (s0 := s) in S end.
      assert (KG : k_group k <> "E_D"%string).
      { intro X. rewrite X in SM. unfold reserved in SM. cbn in SM. discriminate SM. }
      assert (MON : forall g d (t : table), dget g d <> None -> dget g (dset (k_group k) t d) <> None
                /\ forall b, dget g (dset (u_label b) t d) <> None).
      { intros g d t X. split; [| intro b].
        - destruct (String.eqb_spec g (k_group k)) as [-> |]; [rewrite dget_dset_eq; discriminate | now rewrite dget_dset_neq].
        - destruct (String.eqb_spec g (u_label b)) as [-> |]; [rewrite dget_dset_eq; discriminate | now rewrite dget_dset_neq]. }
      assert (G0 : forall r, In r (rows ++ [row_of k bal])%list -> dget (c_group r) (st_sankey s0) <> None /\ c_group r <> "E_D"%string).
      { intros r R. apply in_app_or in R. subst s0. cbn [st_sankey]. destruct R as [R | [<- | []]].
        - destruct (G r R) as (A & B). split; [| exact B].
          destruct (dmem (k_group k) (st_sankey st)); [exact A | now apply MON].
        - cbn [row_of c_group]. split; [| exact KG]. destruct (dmem (k_group k) (st_sankey st)) eqn:DM.
          + unfold dmem in DM. now destruct (dget (k_group k) (st_sankey st)).
          + rewrite dget_dset_eq. discriminate. }
      clearbody s0. destruct (eval_busses an k bal (all_busses an) 0 s0) as [s2 |] eqn:EV; cbn [rbind] in S; [| discriminate S].
      injection S as <-. apply eval_some in EV.
      destruct (first_bus (k_label k) (all_busses an)) as [[b mb] |]; [| now subst s2].
      unfold eval_member in EV. destruct (bus_total (E_bus bal)); cbn [rbind] in EV; [| discriminate EV].
      destruct (b_base mb);
        match type of EV with rbind ?t _ = _ => destruct t eqn:AS; cbn [rbind] in EV; [| discriminate EV] end;
        injection EV as <-; cbn [st_sankey]; intros r R; destruct (G0 r R) as (A & B);
        (split; [apply (MON _ _ _ A) | exact B]).
Qed.

Lemma dget_mapped : forall (f : string -> table -> table) sk g,
  dget g (map (fun gt => (fst gt, f (fst gt) (snd gt))) sk) = option_map (f g) (dget g sk).
Proof.
  induction sk as [| [g' t] sk IH]; intro g; cbn [map dget fst snd]; [reflexivity |].
  destruct (String.eqb_spec g g') as [-> |]; [reflexivity | apply IH].
Qed.

(** A property of the E_D rows kept by all later steps *)
Definition ed_inv (agg : list comp_row) (sk : dict table) : Prop :=
  ed_all sk (fun g e => e = [(("E_D", "E_D")%string, (Some 0, Some 0, Some (group_D agg g)))]).
Definition defined_in (rows : list comp_row) (sk : dict table) : Prop :=
  forall r, In r rows -> dget (c_group r) sk <> None.
Lemma defined_dset : forall rows sk g t, defined_in rows sk -> defined_in rows (dset g t sk).
Proof.
  intros rows sk g t D r R. destruct (String.eqb_spec (c_group r) g) as [-> |]; [rewrite dget_dset_eq; discriminate |].
  rewrite dget_dset_neq by assumption. now apply D.
Qed.
Lemma add_D_inv : forall agg sk, ed_all sk (fun _ e => e = []) -> ed_inv agg (add_D agg sk).
Proof.
  intros agg sk E g t H. unfold add_D in H.
  rewrite (dget_mapped (fun g t => tset ("E_D", "E_D")%string (Some 0, Some 0, Some (group_D agg g)) t)) in H.
  destruct (dget g sk) as [t0 |] eqn:X; [| discriminate H]. cbn in H. injection H as <-. apply ed_tset_new. exact (E g t0 X).
Qed.
Lemma add_D_defined : forall agg rows sk, defined_in rows sk -> defined_in rows (add_D agg sk).
Proof.
  intros agg rows sk D r R. unfold add_D.
  rewrite (dget_mapped (fun g t => tset ("E_D", "E_D")%string (Some 0, Some 0, Some (group_D agg g)) t)).
  specialize (D r R). now destruct (dget (c_group r) sk).
Qed.
Lemma table_ed : forall agg sk g, ed_inv agg sk -> dget g sk <> None ->
  ed (table_of g sk) = [(("E_D", "E_D")%string, (Some 0, Some 0, Some (group_D agg g)))].
Proof. intros agg sk g I D. unfold table_of. destruct (dget g sk) eqn:X; [now apply I in X | congruence]. Qed.

Lemma fuel_inv : forall agg rows bs sk sk', (forall b, In b bs -> u_label b <> "E_D"%string) ->
  fuel_rows bs sk = Ok sk' -> ed_inv agg sk -> dget "E_F" sk <> None -> defined_in rows sk ->
  ed_inv agg sk' /\ defined_in rows sk' /\ (forall g, dget g sk <> None -> dget g sk' <> None).
Proof.
  intros agg rows. induction bs as [| b bs IH]; intros sk sk' BL H E F D; cbn [fuel_rows] in H.
  - injection H as <-. auto.
  - destruct (group_input (u_label b) sk vzero); cbn [rbind] in H; [| discriminate H].
    destruct (IH _ _ (fun b' I => BL b' (or_intror I)) H) as (A & B & C).
    + apply ed_dset; [exact E |]. rewrite ed_tset_other by (apply BL; now left). now apply table_ed.
    + rewrite dget_dset_eq. discriminate.
    + now apply defined_dset.
    + split; [exact A |]. split; [exact B |]. intros g X. apply C.
      destruct (String.eqb_spec g "E_F") as [-> |]; [rewrite dget_dset_eq; discriminate | now rewrite dget_dset_neq].
Qed.
Lemma out_inv : forall agg rows tag bs sk sk', tag <> "E_D"%string ->
  out_rows tag bs sk = Ok sk' -> ed_inv agg sk -> (forall b, In b bs -> dget (u_label b) sk <> None) -> defined_in rows sk ->
  ed_inv agg sk' /\ defined_in rows sk' /\ (forall g, dget g sk <> None -> dget g sk' <> None).
Proof.
  intros agg rows tag. induction bs as [| b bs IH]; intros sk sk' T H E F D; cbn [out_rows] in H.
  - injection H as <-. auto.
  - destruct (group_input (u_label b) sk vzero); cbn [rbind] in H; [| discriminate H].
    assert (MON : forall g t, dget g sk <> None -> dget g (dset (u_label b) t sk) <> None).
    { intros g t X. destruct (String.eqb_spec g (u_label b)) as [-> |]; [rewrite dget_dset_eq; discriminate | now rewrite dget_dset_neq]. }
    destruct (IH _ _ T H) as (A & B & C).
    + apply ed_dset; [exact E |]. rewrite ed_tset_other by exact T. apply table_ed; [exact E |]. apply F. now left.
    + intros b' I. apply MON. apply F. now right.
    + now apply defined_dset.
    + split; [exact A |]. split; [exact B |]. intros g X. apply C. now apply MON.
Qed.
Lemma link_ed : forall rows ls g t, (forall r, In r rows -> c_group r <> "E_D"%string) ->
  ed (link_rows rows ls g t) = ed t.
Proof.
  intros rows ls g t N. unfold link_rows.
  assert (GO : forall x, group_of rows x <> "E_D"%string).
  { intro x. unfold group_of. destruct (find (fun c => String.eqb (c_label c) x) rows) eqn:F; [| discriminate].
    apply find_some in F. apply N, F. }
  generalize (map c_label (filter (fun c => String.eqb (c_group c) g) rows)) at 2 as cs.
  set (comps := map c_label (filter (fun c => String.eqb (c_group c) g) rows)). clearbody comps.
  intro cs. revert t. induction cs as [| k cs IH]; intro t; cbn [fold_left]; [reflexivity |]. rewrite IH. clear IH cs.
  revert t. induction ls as [| l ls IH]; intro t; cbn [fold_left]; [reflexivity |]. rewrite IH.
  destruct (String.eqb (n_src l) k && negb (smem (n_tgt l) comps)); [| reflexivity]. apply ed_tadd. apply GO.
Qed.
Lemma links_inv : forall agg rows ls sk, (forall r, In r rows -> c_group r <> "E_D"%string) ->
  ed_inv agg sk -> defined_in rows sk -> ed_inv agg (add_links rows ls sk) /\ defined_in rows (add_links rows ls sk).
Proof.
  intros agg rows ls sk N E D. split.
  - intros g t H. unfold add_links in H. rewrite (dget_mapped (link_rows rows ls)) in H.
    destruct (dget g sk) as [t0 |] eqn:X; [| discriminate H]. cbn in H. injection H as <-. rewrite (link_ed rows ls g t0 N).
    exact (E g t0 X).
  - intros r R. unfold add_links. rewrite (dget_mapped (link_rows rows ls)). specialize (D r R).
    now destruct (dget (c_group r) sk).
Qed.
Lemma group_data_D : forall groups agg sk out, group_data groups agg sk = Ok out -> ed_inv agg sk ->
  (forall g, In g groups -> dget g sk <> None) ->
  map fst out = groups /\ sumq out (fun x => snd (snd x)) == sumq groups (group_D agg)
  /\ forall g ein d, In (g, (ein, d)) out -> d == group_D agg g.
Proof.
  induction groups as [| g gs IH]; intros agg sk out H E D; cbn [group_data] in H.
  - injection H as <-. split; [reflexivity |]. split; [reflexivity | intros ? ? ? []].
  - destruct (group_input g sk vzero) as [v |]; cbn [rbind] in H; [| discriminate H].
    destruct (group_data gs agg sk) as [out' |] eqn:GD; cbn [rbind] in H; [| discriminate H].
    injection H as <-. destruct (IH _ _ _ GD E (fun g' I => D g' (or_intror I))) as (A & B & C).
    assert (V : vtotal (vsum (filter (fun x => String.eqb (fst (fst x)) "E_D") (table_of g sk))) == group_D agg g).
    { fold (ed (table_of g sk)). rewrite (table_ed agg sk g E (D g (or_introl eq_refl))).
      unfold vtotal, vsum. cbn [map fst snd]. unfold nansum. cbn [fold_left]. lra. }
    split; [cbn [map fst]; now rewrite A |]. split.
    + rewrite !sumq_cons, B. unfold snd at 1 2. rewrite V. reflexivity.
    + intros g' ein d [X | X]; [injection X as <- <- <-; exact V | exact (C _ _ _ X)].
Qed.

Lemma start_tables : forall an, ed_all (st_sankey (snd (start an))) (fun _ e => e = [])
  /\ (forall l, In l (reserved an) -> dget l (st_sankey (snd (start an))) <> None).
Proof.
  intro an. cbn [start snd st_sankey].
  assert (X : forall ls (d : dict table), ed_all d (fun _ e => e = []) ->
    ed_all (fold_left (fun d l => dset l [] d) ls d) (fun _ e => e = [])
    /\ (forall l, In l ls \/ dget l d <> None -> dget l (fold_left (fun d l => dset l [] d) ls d) <> None)).
  { induction ls as [| l ls IH]; intros d E; cbn [fold_left].
    - split; [exact E | intros l [[] | H]; exact H].
    - destruct (IH (dset l [] d)) as (A & B); [apply ed_dset; [exact E | reflexivity] |]. split; [exact A |].
      intros l' [[<- | I] | H]; apply B.
      + right. rewrite dget_dset_eq. discriminate.
      + now left.
      + right. destruct (String.eqb_spec l' l) as [-> |]; [rewrite dget_dset_eq; discriminate | now rewrite dget_dset_neq]. }
  destruct (X (reserved an) []) as (A & B); [intros g t H; discriminate H |].
  split; [exact A | intros l L; apply B; now left].
Qed.
Lemma run_tables : forall an ks rows st rows' st', run_components an ks (rows, st) = Ok (rows', st') ->
  forall g, dget g (st_sankey st) <> None -> dget g (st_sankey st') <> None.
Proof.
  intros an. induction ks as [| k ks IH]; intros rows st rows' st' H g G.
  - cbn [run_components] in H. injection H as _ <-. exact G.
  - cbn [run_components] in H. destruct (component_step an k (rows, st)) as [[r1 s1] |] eqn:S; cbn [rbind] in H; [| discriminate H].
    apply (IH _ _ _ _ H). clear H IH. unfold component_step in S.
    destruct (k_balance k) as [bal |]; cbn [rbind] in S; [| discriminate S].
    destruct (smem (k_group k) (reserved an)); [discriminate S |].
    match type of S with rbind (eval_busses _ _ _ _ _ ?s) _ = _ => set (s0 := s) in S end.
    assert (MON : forall l d (t : table), dget g d <> None -> dget g (dset l t d) <> None).
    { intros l d t X. destruct (String.eqb_spec g l) as [-> |]; [rewrite dget_dset_eq; discriminate | now rewrite dget_dset_neq]. }
    assert (G0 : dget g (st_sankey s0) <> None).
    { subst s0. cbn [st_sankey]. destruct (dmem (k_group k) (st_sankey st)); [exact G | now apply MON]. }
    clearbody s0. destruct (eval_busses an k bal (all_busses an) 0 s0) as [s2 |] eqn:EV; cbn [rbind] in S; [| discriminate S].
    injection S as _ <-. apply eval_some in EV.
    destruct (first_bus (k_label k) (all_busses an)) as [[b mb] |]; [| now subst s2].
    unfold eval_member in EV. destruct (bus_total (E_bus bal)); cbn [rbind] in EV; [| discriminate EV].
    destruct (b_base mb);
      match type of EV with rbind ?t _ = _ => destruct t; cbn [rbind] in EV; [| discriminate EV] end;
      injection EV as <-; cbn [st_sankey]; now apply MON.
Qed.

Lemma create_labels : forall an, create an = Ok tt ->
  forall b, In b (all_busses an) -> u_label b <> "E_D"%string.
Proof.
  intros an H b B X. unfold create in H. destruct (an_F an); [discriminate H |]. destruct (an_P an); [discriminate H |].
  destruct (existsb (fun l => smem l ["E_P"; "E_F"; "E_D"; "E_L"]%string) (map u_label (all_busses an))) eqn:E; [discriminate H |].
  assert (T : existsb (fun l => smem l ["E_P"; "E_F"; "E_D"; "E_L"]%string) (map u_label (all_busses an)) = true).
  { apply existsb_exists. exists "E_D"%string. split; [rewrite <- X; now apply in_map | reflexivity]. }
  congruence.
Qed.

(** The reported destruction of the groups adds up to that of the network. *)
Lemma groups_total : forall an ks ls r g, analyse an ks ls = Ok (r, g) ->
  NoDup (map k_label ks) ->
  (forall c, In c (o_rows r) -> kept (o_bus r) c) ->
  sumq g (fun x => snd (snd x)) == o_D r /\ NoDup (map fst g)
  /\ forall k, In k ks -> In (k_group k) (map fst g).
Proof.
  intros an ks ls r g H ND K. unfold analyse in H.
  destruct (create an) as [[] |] eqn:CR; cbn [rbind] in H; [| discriminate H].
  pose proof (create_labels an CR) as BL.
  destruct (run_components an ks (start an)) as [acc |] eqn:RC; cbn [rbind] in H; [| discriminate H].
  match type of H with rbind ?t _ = _ => destruct t as [sk1 |] eqn:FU; cbn [rbind] in H; [| discriminate H] end.
  match type of H with rbind ?t _ = _ => destruct t as [sk2 |] eqn:OP; cbn [rbind] in H; [| discriminate H] end.
  match type of H with rbind ?t _ = _ => destruct t as [sk3 |] eqn:OL; cbn [rbind] in H; [| discriminate H] end.
  match type of H with rbind ?t _ = _ => destruct t as [g' |] eqn:GD; cbn [rbind] in H; [| discriminate H] end.
  injection H as <- <-. set (R := totals acc) in *.
  destruct (start_tables an) as (ST & RS). pose proof RC as RC'.
  destruct acc as [rows st]. unfold start in RC. cbn [start snd] in ST, RS.
  destruct (run_ed an ks _ _ rows st BL RC ST) as (E & G); [intros x [] |].
  pose proof (run_tables an ks _ _ rows st RC) as MON.
  assert (EQ : o_sankey R = st_sankey st /\ o_rows R = rows) by (subst R; cbn; auto). destruct EQ as (ES & ER).
  rewrite ES in FU. rewrite ER in GD.
  assert (DEF : defined_in rows (st_sankey st)) by (intros x X; apply (G x X)).
  assert (LAB : forall l, In l (reserved an) -> dget l (add_D (o_agg R) (st_sankey st)) <> None).
  { intros l L. unfold add_D.
    rewrite (dget_mapped (fun g t => tset ("E_D", "E_D")%string (Some 0, Some 0, Some (group_D (o_agg R) g)) t)).
    pose proof (MON l (RS l L)). now destruct (dget l (st_sankey st)). }
  assert (INF : forall b, In b (an_F an) -> In b (all_busses an)) by (intros; unfold all_busses; apply in_or_app; auto).
  destruct (fuel_inv (o_agg R) rows (an_F an) _ sk1 (fun b I => BL b (INF b I)) FU
             (add_D_inv (o_agg R) _ E)) as (E1 & D1 & M1).
  { apply LAB. unfold reserved. apply in_or_app. left. cbn. tauto. }
  { now apply add_D_defined. }
  destruct (out_inv (o_agg R) rows "E_P" (an_P an) sk1 sk2 ltac:(discriminate) OP E1) as (E2 & D2 & M2).
  { intros b B. apply M1, LAB. unfold reserved. apply in_or_app. right. rewrite !map_app, !in_app_iff. right. right. left. now apply in_map. }
  { exact D1. }
  destruct (out_inv (o_agg R) rows "E_L" (an_L an) sk2 sk3 ltac:(discriminate) OL E2) as (E3 & D3 & _).
  { intros b B. apply M2, M1, LAB. unfold reserved. apply in_or_app. right. rewrite !map_app, !in_app_iff. right. right. right. now apply in_map. }
  { exact D2. }
  destruct (links_inv (o_agg R) rows ls sk3 (fun x X => proj2 (G x X)) E3 D3) as (E4 & D4).
  rewrite <- ER in E4, D4. rewrite <- ER in GD.
  destruct (group_data_D _ _ _ _ GD) as (A & B & _); [exact E4 | |].
  { intros x X. apply (proj1 (unique_in _ _)) in X. apply in_map_iff in X. destruct X as (c & <- & C). now apply D4. }
  split; [| split].
  - rewrite B. pose proof (aggregate_total an ks (rows, st) RC' ND K) as AT. fold R in AT.
    rewrite <- AT, <- groups_partition.
    assert (MG : map c_group (o_agg R) = map c_group (o_rows R)) by (subst R; cbn [totals o_agg o_rows]; apply aggregate_group).
    rewrite MG. reflexivity.
  - rewrite A. apply unique_nodup.
  - intros k KI. rewrite A. apply unique_in. rewrite ER.
    assert (RR : forall ks rows0 st0 rows1 st1, run_components an ks (rows0, st0) = Ok (rows1, st1) ->
      (forall x, In x rows0 -> In x rows1) /\ (forall k, In k ks -> In (k_group k) (map c_group rows1))).
    { clear. induction ks as [| k ks IH]; intros rows0 st0 rows1 st1 H; cbn [run_components] in H.
      - injection H as <- <-. split; [auto | intros k []].
      - destruct (component_step an k (rows0, st0)) as [[r1 s1] |] eqn:S; cbn [rbind] in H; [| discriminate H].
        destruct (step_rows _ _ _ _ _ _ S) as (bal & _ & ->). destruct (IH _ _ _ _ H) as (P & Q).
        split; [intros x X; apply P; apply in_or_app; now left |].
        intros k' [<- | I]; [| now apply Q]. change (k_group k) with (c_group (row_of k bal)). apply in_map.
        apply P. apply in_or_app. right. now left. }
    exact (proj2 (RR _ _ _ _ _ RC) k KI).
Qed.

(* ----------------------------------------------------------- rejections *)

Lemma eval_once : forall an k bal bs n st st', eval_busses an k bal bs n st = Ok st' ->
  (n + length (filter (fun b => dmem (k_label k) (u_comps b)) bs) <= 1 \/ length (filter (fun b => dmem (k_label k) (u_comps b)) bs) = 0)%nat.
Proof.
  intros an k bal. induction bs as [| b bs IH]; intros n st st' H; cbn [eval_busses filter] in *; [right; reflexivity |].
  unfold dmem in *. destruct (dget (k_label k) (u_comps b)) as [mb |]; [| exact (IH _ _ _ H)].
  destruct n as [| n]; [| discriminate H]. cbn [Nat.ltb Nat.leb] in H.
  destruct (eval_member an k bal b mb st) as [s1 |]; cbn [rbind] in H; [| discriminate H].
  destruct (IH _ _ _ H) as [L | L]; left; cbn [length]; lia.
Qed.
Lemma accepted : forall an ks ls r g, analyse an ks ls = Ok (r, g) ->
  (an_F an <> [] /\ an_P an <> [])
  /\ forall k, In k ks ->
     (length (filter (fun b => dmem (k_label k) (u_comps b)) (all_busses an)) <= 1)%nat
     /\ ~ In (k_group k) (reserved an) /\ exists bal, k_balance k = Ok bal.
Proof.
  intros an ks ls r g H. unfold analyse in H.
  destruct (create an) as [[] |] eqn:CR; cbn [rbind] in H; [| discriminate H].
  split.
  { unfold create in CR. destruct (an_F an); [discriminate CR |]. destruct (an_P an); [discriminate CR |]. split; discriminate. }
  destruct (run_components an ks (start an)) as [acc |] eqn:RC; cbn [rbind] in H; [| discriminate H]. clear H CR.
  revert RC. generalize (start an). induction ks as [| k ks IH]; intros a0 RC k' I0; [destruct I0 |]; destruct I0 as [<- | I]; cbn [run_components] in RC;
    (destruct (component_step an k a0) as [a1 |] eqn:S; cbn [rbind] in RC; [| discriminate RC]).
  - clear IH RC. destruct a0 as [rows st]. unfold component_step in S.
    destruct (k_balance k) as [bal |]; cbn [rbind] in S; [| discriminate S].
    destruct (smem (k_group k) (reserved an)) eqn:SM; [discriminate S |].
    match type of S with rbind (eval_busses _ _ _ _ _ ?s) _ = _ => set (s0 := s) in S end.
    destruct (eval_busses an k bal (all_busses an) 0 s0) as [s1 |] eqn:EV; cbn [rbind] in S; [| discriminate S].
    split; [destruct (eval_once _ _ _ _ _ _ _ EV) as [X | X]; lia |].
    split; [| eexists; reflexivity]. intro X. assert (smem (k_group k) (reserved an) = true); [| congruence].
    unfold smem. apply existsb_exists. exists (k_group k). split; [exact X | apply String.eqb_refl].
  - exact (IH a1 RC k' I).
Qed.

Lemma analyse_run : forall an ks ls r g, analyse an ks ls = Ok (r, g) ->
  exists acc, run_components an ks (start an) = Ok acc /\ r = totals acc.
Proof.
  intros an ks ls r g H. unfold analyse in H.
  destruct (create an) as [[] |]; cbn [rbind] in H; [| discriminate H].
  destruct (run_components an ks (start an)) as [acc |]; cbn [rbind] in H; [| discriminate H].
  exists acc. split; [reflexivity |].
  repeat match type of H with rbind ?t _ = _ => destruct t; cbn [rbind] in H; [| discriminate H] end.
  injection H as <- _. reflexivity.
Qed.

Lemma network_closed : forall an ks ls e r g, analyse an ks ls = Ok (r, g) ->
  NoDup (map k_label ks) ->
  (forall l, In l ls -> In (n_src l) (map k_label ks) /\ In (n_tgt l) (map k_label ks)) ->
  (forall k, In k ks -> balanced an ls e k) ->
  drawn_from an e ks Internal == 0 ->
  0 <= drawn_from an e ks Fuel -> drawn_from an e ks Product <= 0 ->
  exists F P L, o_F r = Some F /\ o_P r = Some P /\ o_L r = Some L
    /\ F == drawn_from an e ks Fuel /\ P == - drawn_from an e ks Product /\ L == - drawn_from an e ks Loss
    /\ F - P - L == o_D r /\ o_open r = false.
Proof.
  intros an ks ls e r g H. destruct (analyse_run _ _ _ _ _ H) as (acc & RC & ->).
  now apply closure.
Qed.

Lemma open_reported : forall an ks ls r g F P L, analyse an ks ls = Ok (r, g) ->
  o_F r = Some F -> o_P r = Some P -> o_L r = Some L ->
  (o_open r = true <-> (1 # 1000) <= Qabs (F - P - o_D r - L)).
Proof.
  intros an ks ls r g F P L H. destruct (analyse_run _ _ _ _ _ H) as ([rows st] & _ & ->).
  unfold totals. cbn [o_F o_P o_L o_D o_open].
  destruct (st_F st) as [f |]; [| discriminate]. destruct (st_P st) as [p |]; [| discriminate].
  cbn [nabs option_map]. intros EF EP ->. injection EF as <-. injection EP as <-.
  cbn [nsub nlift nabs option_map]. apply Qle_bool_iff.
Qed.
