(** Proofs about ExergyAnalysis. *)
From Coq Require Import QArith Qabs Lqa.
From Verif Require Import Base ExergyModel AnalysisModel AnalysisSpec.
Open Scope Q_scope.

(* ------------------------------------------------------------------ sums *)

Lemma sumq_nil : forall A (g : A -> Q), sumq [] g = 0.
Proof. reflexivity. Qed.
Lemma sumq_cons : forall A (x : A) l g, sumq (x :: l) g = g x + sumq l g.
Proof. reflexivity. Qed.
Lemma sumq_app : forall A (l l' : list A) g, sumq (l ++ l')%list g == sumq l g + sumq l' g.
Proof. induction l as [| x l IH]; intros l' g; cbn [app]; [rewrite sumq_nil; lra |]. rewrite !sumq_cons, IH. lra. Qed.
Lemma sumq_ext : forall A (l : list A) g g', (forall x, In x l -> g x == g' x) -> sumq l g == sumq l g'.
Proof.
  induction l as [| x l IH]; intros g g' H; [rewrite !sumq_nil; lra | rewrite !sumq_cons].
  rewrite (H x) by now left. rewrite (IH g g') by (intros; apply H; now right). lra.
Qed.
Lemma sumq_plus : forall A (l : list A) g g', sumq l (fun x => g x + g' x) == sumq l g + sumq l g'.
Proof.
  induction l as [| x l IH]; intros g g'; [rewrite !sumq_nil; lra | rewrite !sumq_cons, IH; lra].
Qed.
Lemma sumq_opp : forall A (l : list A) g, sumq l (fun x => - g x) == - sumq l g.
Proof.
  induction l as [| x l IH]; intros g; [rewrite !sumq_nil; lra | rewrite !sumq_cons, IH; lra].
Qed.
Lemma sumq_zero : forall A (l : list A) g, (forall x, In x l -> g x == 0) -> sumq l g == 0.
Proof.
  intros A l g H. rewrite (sumq_ext A l g (fun _ => 0) H). clear H.
  induction l as [| x l IH]; [rewrite sumq_nil; lra | rewrite sumq_cons, IH; lra].
Qed.
Lemma sumq_swap : forall A B (l : list A) (l' : list B) g,
  sumq l (fun x => sumq l' (fun y => g x y)) == sumq l' (fun y => sumq l (fun x => g x y)).
Proof.
  induction l as [| x l IH]; intros l' g.
  - rewrite sumq_nil. symmetry. apply sumq_zero. reflexivity.
  - rewrite sumq_cons, IH.
    rewrite <- sumq_plus. apply sumq_ext. intros y _. rewrite sumq_cons. reflexivity.
Qed.
Lemma sumq_map : forall A B (f : A -> B) l g, sumq (map f l) g = sumq l (fun x => g (f x)).
Proof. induction l as [| x l IH]; intro g; cbn [map]; [reflexivity |]. now rewrite !sumq_cons, IH. Qed.

Lemma nansum_fold : forall l acc,
  fold_left (fun acc (e : num) => match e with Some q => acc + q | None => acc end) l acc
  == acc + sumq l zero_if_nan.
Proof.
  induction l as [| e l IH]; intro acc; cbn [fold_left]; [rewrite sumq_nil; lra |].
  rewrite IH, sumq_cons. destruct e as [q |]; cbn [zero_if_nan]; lra.
Qed.
Lemma nansum_sumq : forall l, nansum l == sumq l zero_if_nan.
Proof. intro l. unfold nansum. rewrite nansum_fold. lra. Qed.

Lemma dset_fresh : forall V (k : string) (v : V) d, ~ In k (keys d) -> dset k v d = (d ++ [(k, v)])%list.
Proof.
  induction d as [| [k' v'] d IH]; intro H; cbn [dset app]; [reflexivity |].
  destruct (String.eqb_spec k k') as [-> | N]; [exfalso; apply H; cbn; now left |].
  rewrite IH; [reflexivity |]. intro X. apply H. cbn. now right.
Qed.

(* ------------------------------------------------------ one component *)

Lemma eval_none : forall an k bal bs n st, first_bus (k_label k) bs = None -> eval_busses an k bal bs n st = Ok st.
Proof.
  induction bs as [| b bs IH]; intros n st H; cbn [eval_busses first_bus] in *; [reflexivity |].
  destruct (dget (k_label k) (u_comps b)); [discriminate H | now apply IH].
Qed.
Lemma eval_second : forall an k bal bs n st st', eval_busses an k bal bs (S n) st = Ok st' -> st' = st.
Proof.
  induction bs as [| b bs IH]; intros n st st' H; cbn [eval_busses] in H; [congruence |].
  destruct (dget (k_label k) (u_comps b)); [discriminate H | now apply (IH n)].
Qed.
Lemma eval_some : forall an k bal bs st st', eval_busses an k bal bs 0 st = Ok st' ->
  match first_bus (k_label k) bs with
  | None => st' = st
  | Some (b, mb) => eval_member an k bal b mb st = Ok st'
  end.
Proof.
  induction bs as [| b bs IH]; intros st st' H; cbn [eval_busses first_bus] in *; [congruence |].
  destruct (dget (k_label k) (u_comps b)) as [mb |]; [| now apply IH].
  cbn in H. destruct (eval_member an k bal b mb st) as [s1 |]; [| discriminate H].
  cbn [rbind] in H. apply eval_second in H. now subst.
Qed.

Definition row_of (k : comp) (bal : balance) : comp_row :=
  {| c_label := k_label k; c_group := k_group k; c_F := E_F bal; c_P := E_P bal; c_D := E_D bal |}.
Definition is_row (k : comp) (r : comp_row) : Prop := exists bal, k_balance k = Ok bal /\ r = row_of k bal.

(** Values of the state: present and equal to given numbers *)
Definition has (a : num) (v : Q) : Prop := exists q, a = Some q /\ q == v.
Definition bus_D (st : state) : Q := nansum (map (fun r => row_D (snd r)) (st_rows st)).

Definition drawn_role an e r k : Q :=
  match place an k with
  | Some (b, _) => if role_eqb (role_of an b) r then drawn an e k else 0
  | None => 0
  end.

Lemma sumq_snoc_rows : forall rows lbl r,
  nansum (map (fun r : string * bus_row => row_D (snd r)) (rows ++ [(lbl, r)])%list)
  == nansum (map (fun r : string * bus_row => row_D (snd r)) rows) + zero_if_nan (row_D r).
Proof.
  intros. rewrite !nansum_sumq, map_app, sumq_app. cbn [map snd]. rewrite sumq_cons, sumq_nil. lra.
Qed.

Lemma step_values : forall an ls e k rows st rows' st' F P L,
  component_step an k (rows, st) = Ok (rows', st') -> balanced an ls e k ->
  ~ In (k_label k) (keys (st_rows st)) ->
  has (st_F st) F -> has (st_P st) P -> has (st_L st) L ->
  has (st_F st') (F + drawn_role an e Fuel k)
  /\ has (st_P st') (P - drawn_role an e Product k)
  /\ has (st_L st') (L - drawn_role an e Loss k)
  /\ bus_D st' == bus_D st + drawn an e k - received an e k
  /\ incl (keys (st_rows st')) (k_label k :: keys (st_rows st)).
Proof.
  intros an ls e k rows st rows' st' F P L H (bal & KB & _ & PL) FR (qF & EF0 & VF) HP HL.
  unfold component_step in H. rewrite KB in H. cbn [rbind] in H.
  destruct (smem (k_group k) (reserved an)); [discriminate H |].
  match type of H with rbind (eval_busses _ _ _ _ _ ?s) _ = _ => set (s0 := s) in H end.
  destruct (eval_busses an k bal (all_busses an) 0 s0) as [s1 |] eqn:EV; cbn [rbind] in H; [| discriminate H].
  injection H as _ <-. apply eval_some in EV. unfold drawn_role, drawn, received, place in *.
  assert (RE : st_rows s0 = st_rows st /\ st_F s0 = st_F st /\ st_P s0 = st_P st /\ st_L s0 = st_L st)
    by (subst s0; cbn; auto).
  clearbody s0. destruct RE as (R0 & F0 & P0 & L0).
  destruct (first_bus (k_label k) (all_busses an)) as [[b mb] |].
  2:{ subst s1. rewrite F0, P0, L0, EF0. unfold bus_D. rewrite R0.
      destruct HP as (qP & -> & VP). destruct HL as (qL & -> & VL).
      split; [eexists; split; [reflexivity | lra] |]. split; [eexists; split; [reflexivity | lra] |].
      split; [eexists; split; [reflexivity | lra] |]. split; [lra |]. intros x X. now right. }
  destruct (PL b mb eq_refl) as (BT & EFF). clear PL.
  destruct HP as (qP & EP & VP). destruct HL as (qL & EL & VL).
  unfold eval_member in EV. rewrite BT in EV. cbn [rbind] in EV.
  assert (ROLE : forall A (x y z : A),
    (if is_in b (an_F an) then x else if is_in b (an_P an) then y else z) =
    (if is_in b (an_F an) then x else if is_in b (an_P an) then y else z)) by reflexivity. clear ROLE.
  unfold role_of. destruct (b_base mb) eqn:BB.
  - specialize (EFF eq_refl).
    assert (ND : ndiv (Some (e k)) (b_eff mb) = Some (e k / b_eff mb)).
    { unfold ndiv. destruct (Qeq_bool (b_eff mb) 0) eqn:Z; [apply Qeq_bool_eq in Z; contradiction | reflexivity]. }
    rewrite ND in EV.
    match type of EV with rbind ?t _ = _ => destruct t; cbn [rbind] in EV; [| discriminate EV] end.
    injection EV as <-. cbn [st_rows st_F st_P st_L]. unfold bus_D. cbn [st_rows].
    rewrite R0, F0, P0, L0, EF0, EP, EL. rewrite (dset_fresh _ _ _ _ FR). rewrite sumq_snoc_rows.
    unfold row_D. cbn [r_F r_P nsub nadd nlift zero_if_nan].
    split; [| split; [| split; [| split]]].
    + destruct (is_in b (an_F an)), (is_in b (an_P an)), (is_in b (an_L an)); cbn [role_eqb orb];
        (eexists; split; [reflexivity | lra]).
    + destruct (is_in b (an_F an)), (is_in b (an_P an)), (is_in b (an_L an)); cbn [role_eqb orb];
        (eexists; split; [reflexivity | lra]).
    + destruct (is_in b (an_F an)), (is_in b (an_P an)), (is_in b (an_L an)); cbn [role_eqb orb];
        (eexists; split; [reflexivity | lra]).
    + lra.
    + intros x X. unfold keys in X. rewrite map_app in X. apply in_app_or in X. cbn in X. cbn [In].
      unfold keys. tauto.
  - match type of EV with rbind ?t _ = _ => destruct t; cbn [rbind] in EV; [| discriminate EV] end.
    injection EV as <-. cbn [st_rows st_F st_P st_L]. unfold bus_D. cbn [st_rows].
    rewrite R0, F0, P0, L0, EF0, EP, EL. rewrite (dset_fresh _ _ _ _ FR). rewrite sumq_snoc_rows.
    unfold row_D, nmul. cbn [r_F r_P nsub nadd nlift zero_if_nan].
    split; [| split; [| split; [| split]]].
    + destruct (is_in b (an_F an)), (is_in b (an_P an)), (is_in b (an_L an)); cbn [role_eqb orb];
        (eexists; split; [reflexivity | lra]).
    + destruct (is_in b (an_F an)), (is_in b (an_P an)), (is_in b (an_L an)); cbn [role_eqb orb];
        (eexists; split; [reflexivity | lra]).
    + destruct (is_in b (an_F an)), (is_in b (an_P an)), (is_in b (an_L an)); cbn [role_eqb orb];
        (eexists; split; [reflexivity | lra]).
    + lra.
    + intros x X. unfold keys in X. rewrite map_app in X. apply in_app_or in X. cbn in X. cbn [In].
      unfold keys. tauto.
Qed.

Lemma step_rows : forall an k rows st rows' st', component_step an k (rows, st) = Ok (rows', st') ->
  exists bal, k_balance k = Ok bal /\ rows' = (rows ++ [row_of k bal])%list.
Proof.
  intros an k rows st rows' st' H. unfold component_step in H.
  destruct (k_balance k) as [bal |]; cbn [rbind] in H; [| discriminate H].
  destruct (smem (k_group k) (reserved an)); [discriminate H |].
  match type of H with rbind ?t _ = _ => destruct t; cbn [rbind] in H; [| discriminate H] end.
  injection H as <- _. eexists. split; reflexivity.
Qed.

Lemma run_values : forall an ls e ks rows st rows' st' F P L,
  run_components an ks (rows, st) = Ok (rows', st') ->
  (forall k, In k ks -> balanced an ls e k) ->
  NoDup (map k_label ks) -> (forall k, In k ks -> ~ In (k_label k) (keys (st_rows st))) ->
  has (st_F st) F -> has (st_P st) P -> has (st_L st) L ->
  has (st_F st') (F + drawn_from an e ks Fuel)
  /\ has (st_P st') (P - drawn_from an e ks Product)
  /\ has (st_L st') (L - drawn_from an e ks Loss)
  /\ bus_D st' == bus_D st + sumq ks (drawn an e) - sumq ks (received an e)
  /\ nansum (map c_D rows') == nansum (map c_D rows)
       + sumq ks (fun k => entering ls k - leaving ls k + received an e k).
Proof.
  intros an ls e. induction ks as [| k ks IH]; intros rows st rows' st' F P L H B ND FR HF HP HL.
  - cbn [run_components] in H. injection H as <- <-. unfold drawn_from. rewrite !sumq_nil.
    destruct HF as (q & -> & ?). destruct HP as (q' & -> & ?). destruct HL as (q'' & -> & ?).
    split; [eexists; split; [reflexivity | lra] |]. split; [eexists; split; [reflexivity | lra] |].
    split; [eexists; split; [reflexivity | lra] |]. split; lra.
  - cbn [run_components] in H. destruct (component_step an k (rows, st)) as [[r1 s1] |] eqn:S; cbn [rbind] in H; [| discriminate H].
    inversion ND as [| ? ? N1 N2]; subst.
    assert (FRk : ~ In (k_label k) (keys (st_rows st))) by (apply FR; now left).
    destruct (step_values an ls e k rows st r1 s1 F P L S (B k (or_introl eq_refl)) FRk HF HP HL)
      as (F1 & P1 & L1 & D1 & INC).
    assert (FR1 : forall k', In k' ks -> ~ In (k_label k') (keys (st_rows s1))).
    { intros k' I X. apply INC in X. destruct X as [X | X]; [| exact (FR k' (or_intror I) X)].
      apply N1. rewrite X. now apply in_map. }
    destruct (IH r1 s1 rows' st' _ _ _ H (fun k' I => B k' (or_intror I)) N2 FR1 F1 P1 L1)
      as (F2 & P2 & L2 & D2 & R2).
    unfold drawn_from in *. rewrite !sumq_cons. unfold drawn_role in *.
    destruct F2 as (q1 & -> & ?). destruct P2 as (q2 & -> & ?). destruct L2 as (q3 & -> & ?).
    split; [eexists; split; [reflexivity | lra] |]. split; [eexists; split; [reflexivity | lra] |].
    split; [eexists; split; [reflexivity | lra] |]. split; [lra |].
    destruct (step_rows _ _ _ _ _ _ S) as (bal & KB & ->).
    destruct (B k (or_introl eq_refl)) as (bal' & KB' & BAL & _). rewrite KB in KB'. injection KB' as <-.
    rewrite R2. rewrite !nansum_sumq, map_app, sumq_app. cbn [map row_of c_D]. rewrite !sumq_cons, sumq_nil, BAL. lra.
Qed.

(** Connections leave one component and enter another. *)
Lemma one_hit : forall (ks : list comp) lbl v, NoDup (map k_label ks) -> In lbl (map k_label ks) ->
  sumq ks (fun k => if String.eqb lbl (k_label k) then v else 0) == v.
Proof.
  induction ks as [| k ks IH]; intros lbl v ND I; [destruct I |]. cbn [map] in *. inversion ND; subst.
  rewrite sumq_cons.
  destruct (String.eqb_spec lbl (k_label k)) as [-> | N].
  - rewrite (sumq_zero _ ks); [lra |]. intros x X. destruct (String.eqb_spec (k_label k) (k_label x)) as [E | _]; [| reflexivity].
    exfalso. apply H1. rewrite E. now apply in_map.
  - destruct I as [I | I]; [congruence |]. rewrite (IH lbl v H2 I). lra.
Qed.
Lemma flows_cancel : forall ks ls, NoDup (map k_label ks) ->
  (forall l, In l ls -> In (n_src l) (map k_label ks) /\ In (n_tgt l) (map k_label ks)) ->
  sumq ks (entering ls) == sumq ks (leaving ls).
Proof.
  intros ks ls ND H. unfold entering, leaving.
  rewrite (sumq_swap _ _ ks ls (fun k l => if String.eqb (n_tgt l) (k_label k) then n_chem l + n_phys l else 0)).
  rewrite (sumq_swap _ _ ks ls (fun k l => if String.eqb (n_src l) (k_label k) then n_chem l + n_phys l else 0)).
  apply sumq_ext. intros l L. destruct (H l L) as (S & T). rewrite !one_hit by assumption. reflexivity.
Qed.
Lemma drawn_roles : forall an e ks, sumq ks (drawn an e)
  == drawn_from an e ks Fuel + drawn_from an e ks Product + drawn_from an e ks Loss + drawn_from an e ks Internal.
Proof.
  intros. unfold drawn_from. rewrite <- !sumq_plus. apply sumq_ext. intros k _. unfold drawn.
  destruct (place an k) as [[b m] |]; [| lra]. destruct (role_of an b); cbn [role_eqb]; lra.
Qed.

Lemma closure : forall an ks ls e acc,
  run_components an ks (start an) = Ok acc ->
  NoDup (map k_label ks) ->
  (forall l, In l ls -> In (n_src l) (map k_label ks) /\ In (n_tgt l) (map k_label ks)) ->
  (forall k, In k ks -> balanced an ls e k) ->
  drawn_from an e ks Internal == 0 ->
  0 <= drawn_from an e ks Fuel -> drawn_from an e ks Product <= 0 ->
  exists F P L, o_F (totals acc) = Some F /\ o_P (totals acc) = Some P /\ o_L (totals acc) = Some L
    /\ F == drawn_from an e ks Fuel /\ P == - drawn_from an e ks Product /\ L == - drawn_from an e ks Loss
    /\ F - P - L == o_D (totals acc) /\ o_open (totals acc) = false.
Proof.
  intros an ks ls e [rows st] H ND C B I0 F0 P0. unfold start in H.
  destruct (run_values an ls e ks _ _ rows st 0 0 0 H B ND) as (F & P & L & D & R).
  - intros k _ X. destruct X.
  - eexists; split; [reflexivity | lra].
  - eexists; split; [reflexivity | lra].
  - eexists; split; [reflexivity | lra].
  - unfold bus_D in D at 2. cbn [st_rows map] in D. change (nansum []) with 0 in D.
    cbn [map] in R. change (nansum []) with 0 in R.
    destruct F as (qF & EF & VF). destruct P as (qP & EP & VP). destruct L as (qL & EL & VL).
    assert (S : nansum (map c_D rows) + bus_D st == sumq ks (drawn an e)).
    { rewrite D, R.
      rewrite (sumq_ext _ ks (fun k => entering ls k - leaving ls k + received an e k)
                 (fun k => entering ls k + (- leaving ls k + received an e k))) by (intros; lra).
      rewrite sumq_plus. rewrite (sumq_plus _ ks (fun k => - leaving ls k)). rewrite sumq_opp.
      rewrite (flows_cancel ks ls ND C). lra. }
    pose proof (drawn_roles an e ks) as DR. unfold bus_D in S.
    assert (AF : Qabs qF == qF) by (apply Qabs_pos; lra).
    assert (AP : Qabs qP == qP) by (apply Qabs_pos; lra).
    exists (Qabs qF), (Qabs qP), qL. unfold totals. cbn [o_F o_P o_L o_D o_open]. rewrite EF, EP, EL.
    cbn [nabs option_map nsub nlift].
    split; [reflexivity |]. split; [reflexivity |]. split; [reflexivity |].
    split; [lra |]. split; [lra |]. split; [lra |]. split; [lra |].
    match goal with |- Qle_bool _ (Qabs ?x) = false => assert (Z : Qabs x == 0) end.
    { match goal with |- Qabs ?x == 0 => assert (Y : x == 0) by lra; rewrite Y; reflexivity end. }
    match goal with |- Qle_bool ?a ?b = false => destruct (Qle_bool a b) eqn:QL; [| reflexivity] end.
    apply Qle_bool_iff in QL. rewrite Z in QL. exfalso. lra.
Qed.
