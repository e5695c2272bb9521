(** Balances of the busses in the Sankey tables: the run over the components. *)
From Coq Require Import QArith Qabs Lqa.
From Verif Require Import Base ExergyModel AnalysisModel AnalysisSpec AnalysisProofs SankeyModel SankeySpec SankeyProofs SankeyProofs2 SankeyProofs3.
Open Scope Q_scope.
Open Scope list_scope.

Lemma bus_total_sum v e : bus_total v = Ok (Some e) ->
  (forall x, In x (shares v) -> snd x <> None)
  /\ part Chemical (shares v) + part Physical (shares v) + part Massless (shares v) == e.
Proof.
  destruct v as [c p m|]; [|discriminate]. cbn [bus_total fold_left]. intros H.
  destruct m as [m|]; [|discriminate H].
  destruct p as [p|]; [|exfalso; destruct (Qeq_bool m 0); discriminate H].
  destruct c as [c|]; [|exfalso; destruct (Qeq_bool p 0), (Qeq_bool m 0); discriminate H].
  split; [intros x [<-|[<-|[<-|[]]]]; discriminate|].
  unfold part, sumq. cbn [shares fold_right fst snd pos_col col_eqb amount].
  destruct (Qeq_bool c 0) eqn:C, (Qeq_bool p 0) eqn:P, (Qeq_bool m 0) eqn:M; cbn in H; injection H as <-;
    try apply Qeq_bool_iff in C; try apply Qeq_bool_iff in P; try apply Qeq_bool_iff in M; lra.
Qed.

Definition contrib (bal : balance) (mb : member) : num :=
  match bus_total (E_bus bal) with
  | Ok e => if b_base mb then ndiv e (b_eff mb) else nneg (nmul e (Some (b_eff mb)))
  | Err _ => None
  end.

Lemma to_other u g x : g <> u -> to u (g, x) = false.
Proof. intros N. unfold to. cbn. now apply String.eqb_neq. Qed.
Lemma to_same u x : to u (u, x) = true.
Proof. unfold to. cbn. apply String.eqb_refl. Qed.

Lemma member_other an k bal b mb st st' u : eval_member an k bal b mb st = Ok st' -> k_group k <> u -> u_label b <> u ->
  numbers u (st_sankey st) -> numbers u (st_sankey st') /\ SD u (st_sankey st') == SD u (st_sankey st).
Proof.
  intros H NG NU F. unfold eval_member in H. destruct (bus_total (E_bus bal)) as [e|]; cbn [rbind] in H; [|discriminate].
  assert (R : numbers u (st_sankey st') /\ forall c, surplus c u (st_sankey st') == surplus c u (st_sankey st)).
  { destruct (b_base mb); match type of H with rbind ?t _ = _ => destruct t as [t'|] eqn:AS; cbn [rbind] in H; [|discriminate] end;
      injection H as <-; cbn [st_sankey].
    - apply replaced_off; [exact NU|exact F|]. intros c FC. eapply shares_off; [|exact AS|exact FC]. intros x. now apply to_other.
    - apply replaced_off; [exact NG|exact F|]. intros c FC. eapply shares_off; [|exact AS|exact FC]. intros x. now apply to_other. }
  destruct R as (A & B). split; [exact A|]. unfold SD. rewrite !B. reflexivity.
Qed.
Lemma member_same an k bal b mb st st' d : eval_member an k bal b mb st = Ok st' -> k_group k <> u_label b -> contrib bal mb = Some d ->
  numbers (u_label b) (st_sankey st) ->
  numbers (u_label b) (st_sankey st') /\ SD (u_label b) (st_sankey st') == SD (u_label b) (st_sankey st) + d.
Proof.
  intros H NG D F. unfold eval_member in H. unfold contrib in D. destruct (bus_total (E_bus bal)) as [e|] eqn:T; cbn [rbind] in H; [|discriminate].
  assert (E : exists q, e = Some q). { destruct e as [q|]; [now exists q|]. exfalso. destruct (b_base mb); [unfold ndiv in D; destruct (Qeq_bool (b_eff mb) 0)|]; discriminate D. }
  destruct E as (q & ->). apply bus_total_sum in T. destruct T as (NN & T).
  destruct (b_base mb).
  - unfold ndiv in D. destruct (Qeq_bool (b_eff mb) 0) eqn:Z; [discriminate|]. cbn [option_map] in D. injection D as <-.
    match type of H with rbind ?t _ = _ => destruct t as [t'|] eqn:AS; cbn [rbind] in H; [|discriminate] end. injection H as <-. cbn [st_sankey].
    assert (SC : forall q, exists y, (fun v => ndiv v (b_eff mb)) (Some q) = Some y /\ y == q * / b_eff mb).
    { intros q0. exists (q0 / b_eff mb). unfold ndiv. rewrite Z. split; reflexivity. }
    destruct (replaced_out (u_label b) t' (st_sankey st) (fun c => part c (shares (E_bus bal)) * / b_eff mb) F) as (A & B).
    + intros c FC. eapply shares_on; [reflexivity|exact SC|exact NN|exact AS|exact FC].
    + intros c FC. eapply shares_off; [|exact AS|exact FC]. intros x. now apply to_other.
    + split; [exact A|]. unfold SD. rewrite !B, <- T. unfold Qdiv. lra.
  - cbn in D. injection D as <-.
    match type of H with rbind ?t _ = _ => destruct t as [t'|] eqn:AS; cbn [rbind] in H; [|discriminate] end. injection H as <-. cbn [st_sankey].
    assert (SC : forall q, exists y, (fun v => nmul v (Some (b_eff mb))) (Some q) = Some y /\ y == q * b_eff mb).
    { intros q0. exists (q0 * b_eff mb). split; reflexivity. }
    destruct (replaced_in (u_label b) (k_group k) t' (st_sankey st) (fun c => part c (shares (E_bus bal)) * b_eff mb) NG F) as (A & B).
    + intros c FC. eapply shares_on; [intros x; apply to_same|exact SC|exact NN|exact AS|exact FC].
    + split; [exact A|]. unfold SD. rewrite !B, <- T. lra.
Qed.

(** The totals of the network, by the role of the bus. *)
Definition moved (a : num) (on : bool) (d : num) (sign : Q) (a' : num) : Prop :=
  forall f', a' = Some f' -> exists f, a = Some f /\ (if on then exists x, d = Some x /\ f' == f + sign * x else f' = f).
Lemma member_totals an k bal b mb st st' : eval_member an k bal b mb st = Ok st' ->
  moved (st_F st) (is_in b (an_F an)) (contrib bal mb) 1 (st_F st')
  /\ moved (st_P st) (negb (is_in b (an_F an)) && is_in b (an_P an)) (contrib bal mb) (-(1)) (st_P st')
  /\ moved (st_L st) (negb (is_in b (an_F an)) && negb (is_in b (an_P an)) && is_in b (an_L an)) (contrib bal mb) (-(1)) (st_L st').
Proof.
  intros H. unfold eval_member in H. unfold contrib. destruct (bus_total (E_bus bal)) as [e|] eqn:T; cbn [rbind] in H; [|discriminate].
  destruct (b_base mb); match type of H with rbind ?t _ = _ => destruct t as [t'|] eqn:AS; cbn [rbind] in H; [|discriminate] end;
    injection H as <-; cbn [st_F st_P st_L].
  - set (d := ndiv e (b_eff mb)). clearbody d. unfold moved.
    destruct (is_in b (an_F an)), (is_in b (an_P an)), (is_in b (an_L an)); cbn [negb andb orb]; repeat split; intros f' E;
      try (exists f'; split; [exact E|reflexivity]);
      match type of E with _ ?a ?d = _ => destruct a as [f|]; [|discriminate E]; destruct d as [x|]; [|discriminate E] end;
      cbn in E; injection E as <-; exists f; split; try reflexivity; exists x; split; try reflexivity; lra.
  - set (d := nmul e (Some (b_eff mb))). clearbody d. unfold moved.
    destruct (is_in b (an_F an)), (is_in b (an_P an)), (is_in b (an_L an)); cbn [negb andb orb]; repeat split; intros f' E;
      try (exists f'; split; [exact E|reflexivity]);
      match type of E with _ ?a ?d = _ => destruct a as [f|]; [|discriminate E]; destruct d as [x|]; [|discriminate E] end;
      cbn in E; injection E as <-; exists f; split; try reflexivity; exists (- x); split; try reflexivity; lra.
Qed.

Lemma sum_one (l : list bus) (f f' : bus -> Q) u d : NoDup (map u_label l) ->
  (forall b, In b l -> u_label b <> u -> f' b == f b) -> (forall b, In b l -> u_label b = u -> f' b == f b + d) ->
  sumq l f' == sumq l f + (if smem u (map u_label l) then d else 0).
Proof.
  induction l as [|b l IH]; intros N A B; [cbn; lra|]. cbn [map] in N. inversion N as [|? ? N1 N2]; subst.
  change (sumq (b :: l) f') with (f' b + sumq l f'). change (sumq (b :: l) f) with (f b + sumq l f).
  rewrite (IH N2) by (intros; first [now apply A; [right|] | now apply B; [right|]]).
  cbn [map smem existsb]. destruct (string_dec (u_label b) u) as [E|E].
  - rewrite (B b) by (auto; now left). assert (S : smem u (map u_label l) = false).
    { destruct (smem u (map u_label l)) eqn:M; [|reflexivity]. apply smem_In in M. congruence. }
    rewrite S. subst u. unfold smem. cbn [existsb]. rewrite String.eqb_refl. cbn. lra.
  - rewrite (A b) by (auto; now left). unfold smem. cbn [existsb]. assert (Q : String.eqb u (u_label b) = false) by (apply String.eqb_neq; congruence). rewrite Q. cbn [orb]. lra.
Qed.

(** Invariant of the run. *)
Definition side (bs : list bus) (a : num) (sign : Q) (sk : dict table) : Prop :=
  forall f, a = Some f -> (forall b, In b bs -> numbers (u_label b) sk) /\ f == sign * sumq bs (fun b => SD (u_label b) sk).
Definition four : list string := ["E_P"; "E_F"; "E_D"; "E_L"]%string.
Definition plain (an : analysis) (rows : list comp_row) (sk : dict table) : Prop :=
  (forall g t r, In (g, t) sk -> In r t -> ~ In (fst (fst r)) four) /\ (forall x, In x four -> table_of x sk = [])
  /\ (forall c, In c rows -> ~ In (c_group c) (reserved an)).
Definition run_sides (an : analysis) (st : state) : Prop :=
  side (an_F an) (st_F st) 1 (st_sankey st) /\ side (an_P an) (st_P st) (-(1)) (st_sankey st) /\ side (an_L an) (st_L st) (-(1)) (st_sankey st).

Lemma side_moved (bs : list bus) an k bal b mb st st' a a' sign on : NoDup (map u_label bs) ->
  eval_member an k bal b mb st = Ok st' -> (forall b', In b' bs -> k_group k <> u_label b') ->
  on = smem (u_label b) (map u_label bs) -> moved a on (contrib bal mb) sign a' -> (sign == 1 \/ sign == -(1)) ->
  side bs a sign (st_sankey st) -> side bs a' sign (st_sankey st').
Proof.
  intros N E G -> M SG S f' A'. destruct (M f' A') as (f & A & X). destruct (S f A) as (F & V).
  destruct (smem (u_label b) (map u_label bs)) eqn:I.
  - destruct X as (x & D & X). split.
    + intros b' I'. destruct (string_dec (u_label b) (u_label b')) as [Q|Q].
      * rewrite <- Q. eapply member_same; [exact E| |exact D|]; [rewrite Q; now apply G|rewrite Q; now apply F].
      * eapply member_other; [exact E|now apply G|exact Q|now apply F].
    + rewrite X, V. rewrite (sum_one bs (fun b => SD (u_label b) (st_sankey st)) (fun b => SD (u_label b) (st_sankey st')) (u_label b) x N).
      * rewrite I. destruct SG as [-> | ->]; lra.
      * intros b' I' Q. eapply member_other; [exact E|now apply G|congruence|now apply F].
      * intros b' I' Q. rewrite Q. eapply member_same; [exact E| |exact D|]; [rewrite <- Q; now apply G|rewrite <- Q; now apply F].
  - subst f'. assert (NI : forall b', In b' bs -> u_label b <> u_label b').
    { intros b' I' Q. apply Bool.not_true_iff_false in I. apply I. apply smem_In. rewrite Q. now apply in_map. }
    split.
    + intros b' I'. eapply member_other; [exact E|now apply G|now apply NI|now apply F].
    + rewrite V. rewrite (sum_one bs (fun b => SD (u_label b) (st_sankey st)) (fun b => SD (u_label b) (st_sankey st')) (u_label b) 0 N).
      * rewrite I. destruct SG as [-> | ->]; lra.
      * intros b' I' Q. eapply member_other; [exact E|now apply G|congruence|now apply F].
      * intros b' I' Q. exfalso. now apply (NI b' I').
Qed.

(* ----------------------------------------------------------- components *)

Definition distinct (an : analysis) : Prop := NoDup (map u_label (all_busses an)).
Lemma NoDup_app_l {A} (a b : list A) : NoDup (a ++ b) -> NoDup a.
Proof.
  induction a as [|x a IH]; cbn; intros N; [constructor|]. inversion N as [|? ? N1 N2]; subst. constructor; [|now apply IH].
  intros I. apply N1. apply in_app_iff. now left.
Qed.
Lemma NoDup_app_r {A} (a b : list A) : NoDup (a ++ b) -> NoDup b.
Proof. induction a as [|x a IH]; cbn; intros N; [exact N|]. inversion N; subst. now apply IH. Qed.
Lemma NoDup_app_not {A} (a b : list A) x : NoDup (a ++ b) -> In x a -> ~ In x b.
Proof.
  induction a as [|y a IH]; cbn; [intros _ []|]. intros N [E|I] J; inversion N as [|? ? N1 N2]; subst.
  - apply N1. apply in_app_iff. now right.
  - now apply IH.
Qed.
Lemma distinct_parts an : distinct an ->
  NoDup (map u_label (an_F an)) /\ NoDup (map u_label (an_P an)) /\ NoDup (map u_label (an_L an))
  /\ (forall x, In x (map u_label (an_F an)) -> ~ In x (map u_label (an_P an)) /\ ~ In x (map u_label (an_L an)))
  /\ (forall x, In x (map u_label (an_P an)) -> ~ In x (map u_label (an_L an))).
Proof.
  unfold distinct, all_busses. rewrite !map_app. intros N.
  assert (N2 := NoDup_app_r _ _ N). assert (N3 := NoDup_app_r _ _ N2). assert (N4 := NoDup_app_r _ _ N3).
  repeat apply conj.
  - exact (NoDup_app_l _ _ N).
  - exact (NoDup_app_l _ _ N2).
  - exact N4.
  - intros x I. pose proof (NoDup_app_not _ _ _ N I) as J. split; intros K; apply J; rewrite !in_app_iff; auto.
  - intros x I. pose proof (NoDup_app_not _ _ _ N2 I) as J. intros K; apply J; rewrite !in_app_iff; auto.
Qed.
Lemma role_P an b : distinct an -> (negb (is_in b (an_F an)) && is_in b (an_P an))%bool = smem (u_label b) (map u_label (an_P an)).
Proof.
  intros D. apply distinct_parts in D. destruct D as (_ & _ & _ & A & _). unfold is_in. destruct (smem (u_label b) (map u_label (an_F an))) eqn:F; [|reflexivity]. cbn.
  symmetry. apply Bool.not_true_iff_false. intros I. apply smem_In in I, F. destruct (A _ F); contradiction.
Qed.
Lemma role_L an b : distinct an -> (negb (is_in b (an_F an)) && negb (is_in b (an_P an)) && is_in b (an_L an))%bool = smem (u_label b) (map u_label (an_L an)).
Proof.
  intros D. apply distinct_parts in D. destruct D as (_ & _ & _ & A & B). unfold is_in.
  destruct (smem (u_label b) (map u_label (an_F an))) eqn:F; cbn.
  { symmetry. apply Bool.not_true_iff_false. intros I. apply smem_In in I, F. destruct (A _ F); contradiction. }
  destruct (smem (u_label b) (map u_label (an_P an))) eqn:P; cbn; [|reflexivity].
  symmetry. apply Bool.not_true_iff_false. intros I. apply smem_In in I, P. exact (B _ P I).
Qed.

Lemma in_reserved an b : In b (an_F an) \/ In b (an_P an) \/ In b (an_L an) \/ In b (an_int an) -> In (u_label b) (reserved an).
Proof. intros I. apply all_reserved. unfold all_busses. rewrite !in_app_iff. tauto. Qed.
Lemma four_reserved an x : In x four -> In x (reserved an).
Proof. intros I. unfold reserved. apply in_app_iff. now left. Qed.

Lemma fresh_table u g (sk : dict table) : dmem g sk = false -> numbers u sk -> numbers u (dset g [] sk) /\ forall c, surplus c u (dset g [] sk) == surplus c u sk.
Proof.
  intros D F. assert (T : table_of g sk = []). { unfold table_of. unfold dmem in D. destruct (dget g sk); [discriminate|reflexivity]. }
  split.
  - intros c. destruct (F c) as (A & B). split.
    + destruct (string_dec u g) as [->|N]; [rewrite table_dset_eq; intros r []|rewrite table_dset_neq by auto; exact A].
    + intros g' t I. apply In_dset in I. destruct I as [(-> & ->)|I]; [intros r []|now apply (B g')].
  - intros c. unfold surplus. rewrite !outflow_wsum, !inflow_tsum, tsum_dset, T.
    assert (E : table_of u (dset g [] sk) = table_of u sk) by (destruct (string_dec u g) as [->|N]; [now rewrite table_dset_eq, T|now apply table_dset_neq; auto]).
    rewrite E. lra.
Qed.

Lemma add_shares_rows target cat ports scale l t t' r : add_shares target cat ports scale l t = Ok t' -> In r t' -> fst (fst r) = target \/ In (fst r) (map fst t).
Proof.
  revert t. induction l as [|(pos, v) l IH]; cbn [add_shares]; intros t H I; [injection H as <-; right; now apply in_map|].
  assert (R : forall cat0 v0, add_shares target cat ports scale l (add_share target cat0 pos v0 t) = Ok t' -> fst (fst r) = target \/ In (fst r) (map fst t)).
  { intros cat0 v0 E. destruct (IH _ E I) as [A|A]; [now left|]. unfold add_share, tadd in A.
    match type of A with In _ (map fst (tset ?k ?v ?t)) => destruct (tset_keys k v t) as [(X & _)|(X & _)]; rewrite X in A end; [now right|].
    apply in_app_iff in A. destruct A as [A|[A|[]]]; [now right|left; now rewrite <- A]. }
  destruct v as [q|].
  - destruct (Qeq_bool q 0); [now apply (IH t)|]. destruct (Nat.ltb pos 2); [destruct ports; [discriminate|]|]; eapply R; eassumption.
  - destruct (Nat.ltb pos 2); [destruct ports; [discriminate|]|]; eapply R; eassumption.
Qed.

Lemma component_sides an k rows st rows' st' : distinct an -> (forall b, In b (all_busses an) -> ~ In (u_label b) four) ->
  component_step an k (rows, st) = Ok (rows', st') -> run_sides an st /\ plain an rows (st_sankey st) ->
  run_sides an st' /\ plain an rows' (st_sankey st').
Proof.
  intros D NF H (RS & PL). unfold component_step in H. destruct (k_balance k) as [bal|]; cbn [rbind] in H; [|discriminate].
  destruct (smem (k_group k) (reserved an)) eqn:R; [discriminate|].
  assert (NR : ~ In (k_group k) (reserved an)) by (intros I; apply smem_In in I; congruence).
  match type of H with rbind (eval_busses _ _ _ _ _ ?s) _ = _ => set (s0 := s) in H end.
  assert (S0 : run_sides an s0 /\ plain an rows (st_sankey s0)).
  { subst s0. cbn [st_sankey]. destruct (dmem (k_group k) (st_sankey st)) eqn:M.
    - destruct st. cbn in *. split; assumption.
    - split.
      + assert (X : forall bs a sign, side bs a sign (st_sankey st) -> side bs a sign (dset (k_group k) [] (st_sankey st))).
        { intros bs a sign S f A. destruct (S f A) as (F & V). split; [intros b I; apply fresh_table; auto|]. rewrite V.
          assert (E : sumq bs (fun b => SD (u_label b) (dset (k_group k) [] (st_sankey st))) == sumq bs (fun b => SD (u_label b) (st_sankey st))).
          { clear - F M. induction bs as [|b bs IH]; [reflexivity|].
            change (SD (u_label b) (dset (k_group k) [] (st_sankey st)) + sumq bs (fun b => SD (u_label b) (dset (k_group k) [] (st_sankey st))) == SD (u_label b) (st_sankey st) + sumq bs (fun b => SD (u_label b) (st_sankey st))).
            rewrite IH by (intros; apply F; now right). destruct (fresh_table (u_label b) (k_group k) (st_sankey st) M) as (_ & B); [apply F; now left|].
            unfold SD. rewrite !B. reflexivity. }
          rewrite E. reflexivity. }
        destruct RS as (A & B & C). unfold run_sides. cbn [st_F st_P st_L st_sankey]. split; [|split]; now apply X.
      + destruct PL as (A & B & C). split; [|split; [|exact C]].
        * intros g t r I J. apply In_dset in I. destruct I as [(-> & ->)|I]; [destruct J|now apply (A g t r)].
        * intros x I. rewrite table_dset_neq; [now apply B|]. intros ->. apply NR. now apply four_reserved. }
  clearbody s0. clear RS PL. destruct S0 as (RS & PL).
  destruct (eval_busses an k bal (all_busses an) 0 s0) as [s2|] eqn:EV; cbn [rbind] in H; [|discriminate]. injection H as <- <-.
  apply eval_some in EV. destruct (first_bus (k_label k) (all_busses an)) as [[b mb]|] eqn:FB.
  - assert (IB : In b (all_busses an)) by (eapply first_bus_in; exact FB). split.
    + destruct (member_totals _ _ _ _ _ _ _ EV) as (MF & MP & ML). rewrite role_P in MP by exact D. rewrite role_L in ML by exact D.
      destruct (distinct_parts an D) as (DF & DP & DL & _). destruct RS as (A & B & C).
      assert (G : forall bs, (forall b', In b' bs -> In (u_label b') (reserved an)) -> forall b', In b' bs -> k_group k <> u_label b') by (intros bs X b' I' E; apply NR; rewrite E; now apply X).
      split; [|split].
      * eapply side_moved; [exact DF|exact EV|apply G; intros; apply in_reserved; auto|reflexivity|exact MF|left; reflexivity|exact A].
      * eapply side_moved; [exact DP|exact EV|apply G; intros; apply in_reserved; auto|reflexivity|exact MP|right; reflexivity|exact B].
      * eapply side_moved; [exact DL|exact EV|apply G; intros; apply in_reserved; auto|reflexivity|exact ML|right; reflexivity|exact C].
    + destruct PL as (A & B & C). unfold eval_member in EV. destruct (bus_total (E_bus bal)) as [e|]; cbn [rbind] in EV; [|discriminate].
      assert (Q : forall g t' target cat ports scale l, add_shares target cat ports scale l (table_of g (st_sankey s0)) = Ok t' -> ~ In target four -> ~ In g four ->
        forall rows0, (forall c, In c rows0 -> ~ In (c_group c) (reserved an)) -> plain an rows0 (dset g t' (st_sankey s0))).
      { intros g t' target cat ports scale l AS NT NG rows0 RR. split; [|split; [|exact RR]].
        - intros g' t r I J. apply In_dset in I. destruct I as [(-> & ->)|I]; [|now apply (A g' t r)].
          destruct (add_shares_rows _ _ _ _ _ _ _ _ AS J) as [->|X]; [exact NT|]. apply in_map_iff in X. destruct X as (r' & X & Y). apply table_In in Y. destruct Y as (t0 & Y & Z). rewrite <- X. now apply (A _ _ _ Y).
        - intros x I. rewrite table_dset_neq; [now apply B|]. intros ->. contradiction. }
      assert (RR : forall c, In c (rows ++ [{| c_label := k_label k; c_group := k_group k; c_F := E_F bal; c_P := E_P bal; c_D := E_D bal |}]) -> ~ In (c_group c) (reserved an)).
      { intros c I. apply in_app_iff in I. destruct I as [I|[<-|[]]]; [now apply C|exact NR]. }
      assert (N4 : ~ In (k_group k) four) by (intros I; apply NR; now apply four_reserved).
      destruct (b_base mb); match type of EV with rbind ?t _ = _ => destruct t as [t'|] eqn:AS; cbn [rbind] in EV; [|discriminate] end;
        injection EV as <-; cbn [st_sankey]; eapply Q; try exact AS; auto.
  - subst s2. split; [exact RS|]. destruct PL as (A & B & C). split; [exact A|split; [exact B|]].
    intros c I. apply in_app_iff in I. destruct I as [I|[<-|[]]]; [now apply C|exact NR].
Qed.
Lemma run_all_sides an ks rows st rows' st' : distinct an -> (forall b, In b (all_busses an) -> ~ In (u_label b) four) ->
  run_components an ks (rows, st) = Ok (rows', st') -> run_sides an st /\ plain an rows (st_sankey st) ->
  run_sides an st' /\ plain an rows' (st_sankey st').
Proof.
  intros D NF. revert rows st. induction ks as [|k ks IH]; cbn [run_components]; intros rows st H I; [injection H as <- <-; exact I|].
  destruct (component_step an k (rows, st)) as [[rows1 st1]|] eqn:S; cbn [rbind] in H; [|discriminate].
  eapply IH; [exact H|]. eapply component_sides; eassumption.
Qed.
Lemma empty_start an : forall g t, In (g, t) (st_sankey (snd (start an))) -> t = [].
Proof.
  unfold start. cbn [snd st_sankey]. assert (X : forall l (d : dict table), (forall g t, In (g, t) d -> t = []) -> forall g t, In (g, t) (fold_left (fun d l => dset l [] d) l d) -> t = []).
  { induction l as [|x l IH]; cbn [fold_left]; intros d H g t I; [now apply (H g)|]. eapply IH; [|exact I]. intros g' t' J. apply In_dset in J. destruct J as [(-> & _)|J]; [reflexivity|now apply (H g')]. }
  intros g t I. eapply X; [|exact I]. intros ? ? [].
Qed.
Lemma start_sides an : run_sides an (snd (start an)) /\ plain an [] (st_sankey (snd (start an))).
Proof.
  pose proof (empty_start an) as E. set (sk := st_sankey (snd (start an))) in *.
  assert (T : forall g, table_of g sk = []). { intros g. unfold table_of. destruct (dget g sk) as [t|] eqn:Q; [|reflexivity]. apply dget_In in Q. now apply (E g). }
  assert (S : forall bs sign, side bs (Some 0) sign sk).
  { intros bs sign f Q. injection Q as <-. split.
    - intros b I c. split; [rewrite T; intros r []|]. intros g t J. rewrite (E g t J). intros r [].
    - assert (Z : forall c u, surplus c u sk == 0).
      { intros c u. unfold surplus. rewrite outflow_wsum, inflow_tsum, T. assert (TS : tsum c (to u) sk == 0).
        { clear - E. clearbody sk. induction sk as [|(g, t) sk IH]; [reflexivity|]. rewrite tsum_cons. cbn [snd]. rewrite (E g t) by (now left). rewrite IH by (intros; eapply E; right; eassumption). cbn. reflexivity. }
        rewrite TS. cbn. reflexivity. }
      assert (Y : sumq bs (fun b => SD (u_label b) sk) == 0).
      { induction bs as [|b bs IH]; [reflexivity|]. change (SD (u_label b) sk + sumq bs (fun b => SD (u_label b) sk) == 0). rewrite IH. unfold SD. rewrite !Z. reflexivity. }
      rewrite Y. lra. }
  split.
  - unfold run_sides. split; [|split]; apply S.
  - split; [intros g t r I J; rewrite (E g t I) in J; destruct J|]. split; [intros; apply T|intros c []].
Qed.
