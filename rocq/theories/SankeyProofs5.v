(** Balances of the busses in the Sankey tables: the rows of fuel, product and loss. *)
From Coq Require Import QArith Qabs Lqa.
From Verif Require Import Base ExergyModel AnalysisModel AnalysisSpec AnalysisProofs SankeyModel SankeySpec SankeyProofs SankeyProofs2 SankeyProofs3 SankeyProofs4.
Open Scope Q_scope.
Open Scope list_scope.

Lemma table_map (f : string -> table -> table) (sk : dict table) g :
  table_of g (map (fun gt => (fst gt, f (fst gt) (snd gt))) sk) = match dget g sk with Some t => f g t | None => [] end.
Proof.
  unfold table_of. induction sk as [|(g', t') sk IH]; [reflexivity|]. cbn [map fst snd dget]. destruct (String.eqb g g') eqn:E; [|exact IH].
  apply String.eqb_eq in E. now subst.
Qed.
Lemma tsum_map c w (f : string -> table -> table) (sk : dict table) : (forall g t, In (g, t) sk -> wsum c w (f g t) == wsum c w t) ->
  tsum c w (map (fun gt => (fst gt, f (fst gt) (snd gt))) sk) == tsum c w sk.
Proof.
  induction sk as [|(g, t) sk IH]; intros H; [reflexivity|]. cbn [map fst snd]. rewrite !tsum_cons. cbn [snd]. rewrite (H g t) by (now left). rewrite IH; [reflexivity|]. intros; apply H; now right.
Qed.
Lemma In_map_tables (f : string -> table -> table) (sk : dict table) g t : In (g, t) (map (fun gt => (fst gt, f (fst gt) (snd gt))) sk) -> exists t0, In (g, t0) sk /\ t = f g t0.
Proof. intros I. apply in_map_iff in I. destruct I as ((g', t') & E & I). cbn in E. injection E as <- <-. eauto. Qed.

(** Nothing changes for a node. *)
Definition same_node (u : string) (sk sk' : dict table) : Prop :=
  (numbers u sk -> numbers u sk') /\ forall c, outflow c u sk' == outflow c u sk /\ inflow c u sk' == inflow c u sk.
Lemma same_refl u sk : same_node u sk sk.
Proof. split; [auto|]. intros c. split; reflexivity. Qed.
Lemma same_trans u a b c : same_node u a b -> same_node u b c -> same_node u a c.
Proof.
  intros (A & B) (A' & B'). split; [auto|]. intros x. destruct (B x) as (X & Y). destruct (B' x) as (X' & Y'). rewrite X', Y', X, Y. split; reflexivity.
Qed.

Lemma filter_none (rows : list comp_row) g : (forall c, In c rows -> c_group c <> g) -> filter (fun c => String.eqb (c_group c) g) rows = [].
Proof.
  induction rows as [|c rows IH]; intros H; [reflexivity|]. cbn [filter]. assert (E : String.eqb (c_group c) g = false) by (apply String.eqb_neq; apply H; now left). rewrite E. apply IH. intros; apply H; now right.
Qed.
Lemma add_D_same agg (sk : dict table) u : (forall c, In c agg -> c_group c <> u) -> ~ In u four -> (forall g (t : table) r, In (g, t) sk -> In r t -> ~ In (fst (fst r)) four) ->
  same_node u sk (add_D agg sk).
Proof.
  intros NG N4 T. unfold add_D.
  set (f := fun g t => tset ("E_D", "E_D")%string (Some 0, Some 0, Some (group_D agg g)) t).
  change (map _ sk) with (map (fun gt => (fst gt, f (fst gt) (snd gt))) sk).
  assert (ED : forall x, to u ("E_D", x)%string = false) by (intros x; apply to_other; intros <-; apply N4; cbn; auto).
  assert (Z : group_D agg u = 0) by (unfold group_D; rewrite filter_none by exact NG; reflexivity).
  assert (NI : forall g t, In (g, t) sk -> ~ In ("E_D", "E_D")%string (map fst t)).
  { intros g t I J. apply in_map_iff in J. destruct J as (r & E & J). apply (T g t r I J). rewrite E. cbn. auto. }
  split.
  - intros F c. destruct (F c) as (A & B). split.
    + rewrite table_map. unfold table_of in A. destruct (dget u sk) as [t|]; [|intros r []]. apply tset_fin; [exact A|]. intros _. destruct c; cbn; congruence.
    + intros g t I. apply In_map_tables in I. destruct I as (t0 & I & ->). apply tset_fin; [now apply (B g)|]. rewrite ED. discriminate.
  - intros c. split.
    + rewrite !outflow_wsum, table_map. unfold table_of. destruct (dget u sk) as [t|] eqn:E; [|reflexivity]. unfold f. rewrite tset_new by (apply dget_In in E; now apply (NI u)).
      unfold every. rewrite Z. destruct c; cbn [cell fst snd amount]; lra.
    + rewrite !inflow_tsum. apply tsum_map. intros g t I. apply tset_off. apply ED.
Qed.
Lemma add_D_table agg (sk : dict table) x : table_of x sk = [] -> forall r, In r (table_of x (add_D agg sk)) -> fst r = ("E_D", "E_D")%string.
Proof.
  intros T r I. unfold add_D in I.
  set (f := fun g t => tset ("E_D", "E_D")%string (Some 0, Some 0, Some (group_D agg g)) t) in I.
  change (map _ sk) with (map (fun gt => (fst gt, f (fst gt) (snd gt))) sk) in I. rewrite table_map in I.
  unfold table_of in T. destruct (dget x sk) as [t|]; [|destruct I]. subst t. destruct I as [<-|[]]. reflexivity.
Qed.
Lemma add_D_targets agg (sk : dict table) g r : (forall g (t : table) r, In (g, t) sk -> In r t -> ~ In (fst (fst r)) four) -> In r (table_of g (add_D agg sk)) -> fst r = ("E_D", "E_D")%string \/ ~ In (fst (fst r)) four.
Proof.
  intros T I. apply table_In in I. destruct I as (t & I & J). unfold add_D in I. apply in_map_iff in I. destruct I as ((g', t') & E & I). cbn in E. injection E as <- <-.
  apply tset_In in J. destruct J as [->|J]; [now left|right]. now apply (T _ _ _ I).
Qed.

(* ------------------------------------------------------------ node inputs *)

Lemma wsum_select c u t : wsum c (to u) t == wsum c every (filter (fun r => String.eqb (fst (fst r)) u) t).
Proof.
  induction t as [|r t IH]; [reflexivity|]. rewrite wsum_cons. cbn [filter]. unfold wrow, to at 1. destruct (String.eqb (fst (fst r)) u); [rewrite wsum_cons; unfold wrow, every at 1|]; rewrite IH; lra.
Qed.
Lemma input_sum u (sk : dict table) acc v : (forall c g t, In (g, t) sk -> fin c (to u) t) -> group_input u sk acc = Ok v -> (forall c, cell c acc <> None) ->
  forall c, exists x, cell c v = Some x /\ x == amount (cell c acc) + tsum c (to u) sk.
Proof.
  revert acc. induction sk as [|(g, t) sk IH]; cbn [group_input]; intros acc F H A c.
  { injection H as <-. pose proof (A c) as N. destruct (cell c acc) as [x|]; [|contradiction]. exists x. split; [reflexivity|]. cbn. lra. }
  assert (F' : forall c g t, In (g, t) sk -> fin c (to u) t) by (intros; eapply F; right; eassumption).
  assert (W : wsum c (to u) t == wsum c every (filter (fun r => String.eqb (fst (fst r)) u) t)) by apply wsum_select.
  destruct (filter (fun r => String.eqb (fst (fst r)) u) t) as [|r [|]] eqn:E; [| |discriminate].
  - destruct (IH acc F' H A c) as (x & X & Y). exists x. split; [exact X|]. rewrite Y, tsum_cons. cbn [snd]. rewrite W. cbn. lra.
  - assert (R : In r t /\ String.eqb (fst (fst r)) u = true) by (apply (filter_In (fun r => String.eqb (fst (fst r)) u)); rewrite E; now left). destruct R as (R1 & R2).
    assert (N : forall c, cell c (snd r) <> None) by (intros c0; apply (F c0 g t (or_introl eq_refl) r R1); exact R2).
    assert (A' : forall c, cell c (vadd acc (snd r)) <> None).
    { intros c0. rewrite cell_vadd. pose proof (A c0). pose proof (N c0). destruct (cell c0 acc); [|contradiction]. destruct (cell c0 (snd r)); [|contradiction]. discriminate. }
    destruct (IH _ F' H A' c) as (x & X & Y). exists x. split; [exact X|]. rewrite Y, tsum_cons. cbn [snd]. rewrite W.
    rewrite cell_vadd. pose proof (A c). pose proof (N c). unfold wsum, wrow, every. cbn [fold_right]. destruct (cell c acc); [|contradiction]. destruct (cell c (snd r)); [|contradiction]. cbn. lra.
Qed.
Lemma nansum_acc l a : fold_left (fun acc e => match e with Some q => acc + q | None => acc end) l a == a + nansum l.
Proof.
  unfold nansum. revert a. induction l as [|x l IH]; intros a; cbn [fold_left]; [lra|]. destruct x as [q|]; [rewrite IH, (IH (0 + q))|rewrite IH, (IH 0)]; lra.
Qed.
Lemma nansum_cons x l : nansum (x :: l) == amount x + nansum l.
Proof. unfold nansum at 1. cbn [fold_left]. destruct x as [q|]; cbn [amount]; rewrite nansum_acc; lra. Qed.
Lemma vsum_cell c t : exists x, cell c (vsum t) = Some x /\ x == wsum c every t.
Proof.
  unfold vsum. destruct c; cbn [cell fst snd]; eexists; (split; [reflexivity|]);
  (induction t as [|r t IH]; [reflexivity|]); cbn [map]; rewrite nansum_cons, IH, wsum_cons; unfold wrow, every; cbn [cell]; reflexivity.
Qed.
Lemma vskip_cell c v x : cell c v = Some x -> exists y, cell c (vskip v) = Some y /\ y == x.
Proof.
  intros X. unfold vskip. destruct (vsum_cell c [(("", "")%string, v)]) as (y & Y & Z). exists y. split; [exact Y|]. rewrite Z. unfold wsum, wrow, every. cbn [fold_right snd]. rewrite X. cbn [amount]. lra.
Qed.
Lemma vneg_cell c v x : cell c v = Some x -> cell c (vneg v) = Some (- x).
Proof. destruct v as [[a b] d], c; cbn; intros ->; reflexivity. Qed.

Lemma numbers_in u (sk : dict table) : numbers u sk -> forall c g t, In (g, t) sk -> fin c (to u) t.
Proof. intros F c g t I. now apply (proj2 (F c) g). Qed.

Lemma fuel_step sk u v : numbers u sk -> group_input u sk vzero = Ok v ->
  forall c, exists x, cell c (vadd (vsum (table_of u sk)) (vneg (vskip v))) = Some x /\ x == outflow c u sk - inflow c u sk.
Proof.
  intros F H c. destruct (input_sum u sk vzero v (numbers_in _ _ F) H (fun c => ltac:(rewrite cell_vzero; discriminate)) c) as (x & X & XE).
  destruct (vskip_cell c v x X) as (y & Y & YE). destruct (vsum_cell c (table_of u sk)) as (s & S & SE).
  exists (s + - y). split; [rewrite cell_vadd, S, (vneg_cell _ _ _ Y); reflexivity|].
  rewrite YE, XE, SE, cell_vzero, outflow_wsum, inflow_tsum. cbn [amount]. lra.
Qed.
Lemma out_step sk u v : numbers u sk -> group_input u sk vzero = Ok v ->
  forall c, exists x, cell c (vadd (vskip v) (vneg (vsum (table_of u sk)))) = Some x /\ x == inflow c u sk - outflow c u sk.
Proof.
  intros F H c. destruct (input_sum u sk vzero v (numbers_in _ _ F) H (fun c => ltac:(rewrite cell_vzero; discriminate)) c) as (x & X & XE).
  destruct (vskip_cell c v x X) as (y & Y & YE). destruct (vsum_cell c (table_of u sk)) as (s & S & SE).
  exists (y + - s). split; [rewrite cell_vadd, Y, (vneg_cell _ _ _ S); reflexivity|].
  rewrite YE, XE, SE, cell_vzero, outflow_wsum, inflow_tsum. cbn [amount]. lra.
Qed.

(* ------------------------------------------------------------------ loops *)

(** The new row of the fuels of bus [b] in table E_F. *)
Lemma fuel_row_in sk u row : numbers u sk -> ~ In u four -> (forall r, In r (table_of "E_F" sk) -> fst (fst r) <> u) -> (forall c, cell c row <> None) ->
  let sk1 := dset "E_F"%string (tset (u, "E_F"%string) row (table_of "E_F" sk)) sk in
  numbers u sk1 /\ (forall c, outflow c u sk1 == outflow c u sk /\ inflow c u sk1 == inflow c u sk + amount (cell c row)).
Proof.
  intros F N4 FR RN sk1. assert (NE : "E_F"%string <> u) by (intros <-; apply N4; cbn; auto).
  assert (NI : ~ In (u, "E_F"%string) (map fst (table_of "E_F" sk))) by (intros I; apply in_map_iff in I; destruct I as (r & E & I); apply (FR r I); now rewrite E).
  split.
  - intros c. destruct (F c) as (A & B). unfold sk1. split; [rewrite table_dset_neq by auto; exact A|].
    intros g t I. apply In_dset in I. destruct I as [(-> & _)|I]; [|now apply (B g)]. apply tset_fin; [|intros _; apply RN].
    intros r J. apply table_In in J. destruct J as (t0 & J & K). now apply (B _ _ J r K).
  - intros c. unfold sk1. split; [rewrite !outflow_wsum, table_dset_neq by auto; reflexivity|].
    rewrite !inflow_tsum, tsum_dset, tset_new by exact NI. rewrite to_same. lra.
Qed.
Lemma fuel_row_other sk u u' row : u <> u' -> ~ In u' four ->
  same_node u' sk (dset "E_F"%string (tset (u, "E_F"%string) row (table_of "E_F" sk)) sk).
Proof.
  intros NU N4. assert (NE : "E_F"%string <> u') by (intros <-; apply N4; cbn; auto).
  assert (OFF : to u' (u, "E_F"%string) = false) by (now apply to_other). split.
  - intros F c. destruct (F c) as (A & B). split; [rewrite table_dset_neq by auto; exact A|].
    intros g t I. apply In_dset in I. destruct I as [(-> & _)|I]; [|now apply (B g)]. apply tset_fin; [|rewrite OFF; discriminate].
    intros r J. apply table_In in J. destruct J as (t0 & J & K). now apply (B _ _ J r K).
  - intros c. split; [rewrite !outflow_wsum, table_dset_neq by auto; reflexivity|].
    rewrite !inflow_tsum, tsum_dset, tset_off by exact OFF. lra.
Qed.

Lemma fuel_loop bs : forall sk sk', fuel_rows bs sk = Ok sk' -> NoDup (map u_label bs) -> (forall b, In b bs -> ~ In (u_label b) four) ->
  (forall u, ~ In u four -> ~ In u (map u_label bs) -> same_node u sk sk')
  /\ (forall g, g <> "E_F"%string -> table_of g sk' = table_of g sk)
  /\ (forall k, ~ In (fst k) (map u_label bs) -> tget k (table_of "E_F" sk') = tget k (table_of "E_F" sk))
  /\ ((forall b, In b bs -> numbers (u_label b) sk) -> (forall b r, In b bs -> In r (table_of "E_F" sk) -> fst (fst r) <> u_label b) ->
      forall b, In b bs -> numbers (u_label b) sk' /\ node_balance (u_label b) sk' /\ exists row, tget (u_label b, "E_F"%string) (table_of "E_F" sk') = Some row
        /\ forall c, exists x, cell c row = Some x /\ x == surplus c (u_label b) sk).
Proof.
  induction bs as [|b bs IH]; cbn [fuel_rows]; intros sk sk' H ND N4.
  { injection H as <-. split; [intros; apply same_refl|]. split; [auto|]. split; [auto|]. intros _ _ b []. }
  destruct (group_input (u_label b) sk vzero) as [v|] eqn:GI; cbn [rbind] in H; [|discriminate].
  cbn [map] in ND. inversion ND as [|? ? N1 N2]; subst.
  set (row := vadd (vsum (table_of (u_label b) sk)) (vneg (vskip v))) in H.
  set (sk1 := dset "E_F"%string (tset (u_label b, "E_F"%string) row (table_of "E_F" sk)) sk) in H.
  destruct (IH sk1 sk' H N2) as (A & B & C & D); [intros; apply N4; now right|].
  assert (O : forall u, ~ In u four -> u_label b <> u -> same_node u sk sk1) by (intros u U1 U2; now apply fuel_row_other).
  split; [|split; [|split]].
  - intros u U1 U2. cbn in U2. eapply same_trans; [apply O; [exact U1|tauto]|]. apply A; [exact U1|tauto].
  - intros g G. rewrite B by exact G. unfold sk1. now rewrite table_dset_neq.
  - intros k K. cbn in K. rewrite C by tauto. unfold sk1. rewrite table_dset_eq. apply tget_tset_neq. intros ->. apply K. now left.
  - intros F FR b' I'. assert (NB : ~ In (u_label b) four) by (apply N4; now left).
    assert (RC : forall c, exists x, cell c row = Some x /\ x == surplus c (u_label b) sk).
    { intros c. apply (fuel_step sk (u_label b) v); [apply F; now left|exact GI]. }
    assert (RN : forall c, cell c row <> None) by (intros c; destruct (RC c) as (x & -> & _); discriminate).
    destruct (fuel_row_in sk (u_label b) row) as (S1 & S2); [apply F; now left|exact NB|intros r I; apply FR; [now left|exact I]|exact RN|]. fold sk1 in S1, S2.
    destruct I' as [<-|I'].
    + destruct (A (u_label b) NB N1) as (P1 & P2). split; [now apply P1|]. split.
      * intros c. destruct (P2 c) as (-> & ->). destruct (S2 c) as (-> & ->). destruct (RC c) as (x & -> & X). cbn [amount]. rewrite X. unfold surplus. lra.
      * exists row. split; [|exact RC]. rewrite C by exact N1. unfold sk1. rewrite table_dset_eq. apply tget_tset_eq.
    + assert (NU : u_label b <> u_label b') by (intros E; apply N1; rewrite E; now apply in_map).
      assert (OK : forall b2, In b2 bs -> same_node (u_label b2) sk sk1).
      { intros b2 I2. apply O; [apply N4; now right|]. intros E. apply N1. rewrite E. now apply in_map. }
      destruct (D (fun b2 I2 => proj1 (OK b2 I2) (F b2 (or_intror I2)))) with (b := b') as (P1 & P2 & row' & P3 & P4).
      * intros b2 r I2 J. unfold sk1 in J. rewrite table_dset_eq in J. apply tset_In in J. destruct J as [->|J]; [cbn; intros E; apply N1; rewrite E; now apply in_map|apply FR; [now right|exact J]].
      * exact I'.
      * split; [exact P1|]. split; [exact P2|]. exists row'. split; [exact P3|]. intros c. destruct (P4 c) as (x & X & Y). exists x. split; [exact X|]. rewrite Y. unfold surplus. destruct (proj2 (OK b' I') c) as (-> & ->). reflexivity.
Qed.

(** The row of product or loss of bus [b]. *)
Lemma out_row_in sk u tag row : numbers u sk -> tag <> u -> (forall r, In r (table_of u sk) -> fst (fst r) <> tag) -> (forall c, cell c row <> None) ->
  let sk1 := dset u (tset (tag, tag) row (table_of u sk)) sk in
  numbers u sk1 /\ (forall c, outflow c u sk1 == outflow c u sk + amount (cell c row) /\ inflow c u sk1 == inflow c u sk).
Proof.
  intros F NT FR RN sk1. assert (NI : ~ In (tag, tag) (map fst (table_of u sk))) by (intros I; apply in_map_iff in I; destruct I as (r & E & I); apply (FR r I); now rewrite E).
  assert (OFF : to u (tag, tag) = false) by (now apply to_other). split.
  - intros c. destruct (F c) as (A & B). unfold sk1. split; [rewrite table_dset_eq; apply tset_fin; [exact A|intros _; apply RN]|].
    intros g t I. apply In_dset in I. destruct I as [(-> & _)|I]; [|now apply (B g)]. apply tset_fin; [|rewrite OFF; discriminate].
    intros r J. apply table_In in J. destruct J as (t0 & J & K). now apply (B _ _ J r K).
  - intros c. unfold sk1. split; [rewrite !outflow_wsum, table_dset_eq, tset_new by exact NI; unfold every; lra|].
    rewrite !inflow_tsum, tsum_dset, tset_off by exact OFF. lra.
Qed.
Lemma out_row_other sk u u' tag row : u <> u' -> tag <> u' -> same_node u' sk (dset u (tset (tag, tag) row (table_of u sk)) sk).
Proof.
  intros NU NT. assert (OFF : to u' (tag, tag) = false) by (now apply to_other). split.
  - intros F c. destruct (F c) as (A & B). split; [rewrite table_dset_neq by auto; exact A|].
    intros g t I. apply In_dset in I. destruct I as [(-> & _)|I]; [|now apply (B g)]. apply tset_fin; [|rewrite OFF; discriminate].
    intros r J. apply table_In in J. destruct J as (t0 & J & K). now apply (B _ _ J r K).
  - intros c. split; [rewrite !outflow_wsum, table_dset_neq by auto; reflexivity|].
    rewrite !inflow_tsum, tsum_dset, tset_off by exact OFF. lra.
Qed.
Lemma out_loop tag bs : In tag four -> forall sk sk', out_rows tag bs sk = Ok sk' -> NoDup (map u_label bs) -> (forall b, In b bs -> ~ In (u_label b) four) ->
  (forall u, ~ In u four -> ~ In u (map u_label bs) -> same_node u sk sk')
  /\ (forall g, ~ In g (map u_label bs) -> table_of g sk' = table_of g sk)
  /\ ((forall b, In b bs -> numbers (u_label b) sk) -> (forall b r, In b bs -> In r (table_of (u_label b) sk) -> fst (fst r) <> tag) ->
      forall b, In b bs -> numbers (u_label b) sk' /\ node_balance (u_label b) sk' /\ exists row, tget (tag, tag) (table_of (u_label b) sk') = Some row
        /\ forall c, exists x, cell c row = Some x /\ x == - surplus c (u_label b) sk).
Proof.
  intros TF. induction bs as [|b bs IH]; cbn [out_rows]; intros sk sk' H ND N4.
  { injection H as <-. split; [intros; apply same_refl|]. split; [auto|]. intros _ _ b []. }
  destruct (group_input (u_label b) sk vzero) as [v|] eqn:GI; cbn [rbind] in H; [|discriminate].
  cbn [map] in ND. inversion ND as [|? ? N1 N2]; subst.
  set (row := vadd (vskip v) (vneg (vsum (table_of (u_label b) sk)))) in H.
  set (sk1 := dset (u_label b) (tset (tag, tag) row (table_of (u_label b) sk)) sk) in H.
  destruct (IH sk1 sk' H N2) as (A & B & D); [intros; apply N4; now right|].
  assert (O : forall u, ~ In u four -> u_label b <> u -> same_node u sk sk1) by (intros u U1 U2; apply out_row_other; [exact U2|congruence]).
  split; [|split].
  - intros u U1 U2. cbn in U2. eapply same_trans; [apply O; [exact U1|tauto]|]. apply A; [exact U1|tauto].
  - intros g G. cbn in G. rewrite B by tauto. unfold sk1. rewrite table_dset_neq; [reflexivity|]. intros ->. tauto.
  - intros F FR b' I'. assert (NB : ~ In (u_label b) four) by (apply N4; now left).
    assert (RC : forall c, exists x, cell c row = Some x /\ x == - surplus c (u_label b) sk).
    { intros c. destruct (out_step sk (u_label b) v) with (c := c) as (x & X & Y); [apply F; now left|exact GI|]. exists x. split; [exact X|]. rewrite Y. unfold surplus. lra. }
    assert (RN : forall c, cell c row <> None) by (intros c; destruct (RC c) as (x & -> & _); discriminate).
    destruct (out_row_in sk (u_label b) tag row) as (S1 & S2); [apply F; now left|congruence|intros r I; apply (FR b); [now left|exact I]|exact RN|]. fold sk1 in S1, S2.
    destruct I' as [<-|I'].
    + destruct (A (u_label b) NB N1) as (P1 & P2). split; [now apply P1|]. split.
      * intros c. destruct (P2 c) as (-> & ->). destruct (S2 c) as (-> & ->). destruct (RC c) as (x & -> & X). cbn [amount]. rewrite X. unfold surplus. lra.
      * exists row. split; [|exact RC]. rewrite B by exact N1. unfold sk1. rewrite table_dset_eq. apply tget_tset_eq.
    + assert (OK : forall b2, In b2 bs -> same_node (u_label b2) sk sk1).
      { intros b2 I2. apply O; [apply N4; now right|]. intros E. apply N1. rewrite E. now apply in_map. }
      destruct (D (fun b2 I2 => proj1 (OK b2 I2) (F b2 (or_intror I2)))) with (b := b') as (P1 & P2 & row' & P3 & P4).
      * intros b2 r I2 J. unfold sk1 in J. rewrite table_dset_neq in J; [apply (FR b2); [now right|exact J]|]. intros E. apply N1. rewrite <- E. now apply in_map.
      * exact I'.
      * split; [exact P1|]. split; [exact P2|]. exists row'. split; [exact P3|]. intros c. destruct (P4 c) as (x & X & Y). exists x. split; [exact X|]. rewrite Y. unfold surplus. destruct (proj2 (OK b' I') c) as (-> & ->). reflexivity.
Qed.

(** Connections do not concern busses. *)
Lemma links_table rows ls g t : (forall c, In c rows -> c_group c <> g) -> link_rows rows ls g t = t.
Proof. intros N. unfold link_rows. rewrite filter_none by exact N. reflexivity. Qed.
Lemma links_sum rows ls g t u c : (forall l, In l ls -> In (n_tgt l) (map c_label rows)) -> (forall x, In x rows -> c_group x <> u) -> fin c (to u) t ->
  fin c (to u) (link_rows rows ls g t) /\ wsum c (to u) (link_rows rows ls g t) == wsum c (to u) t.
Proof.
  intros L N. unfold link_rows. set (comps := map c_label (filter (fun c => String.eqb (c_group c) g) rows)). generalize comps at 2 4 as cs. intros cs. revert t.
  induction cs as [|k cs IH]; cbn [fold_left]; intros t F; [split; [exact F|reflexivity]|].
  assert (X : forall ls0, (forall l, In l ls0 -> In l ls) -> forall t0, fin c (to u) t0 ->
    fin c (to u) (fold_left (fun t l => if (String.eqb (n_src l) k && negb (smem (n_tgt l) comps))%bool then tadd (group_of rows (n_tgt l), n_cat l) (Some (n_chem l), Some (n_phys l), Some 0) t else t) ls0 t0)
    /\ wsum c (to u) (fold_left (fun t l => if (String.eqb (n_src l) k && negb (smem (n_tgt l) comps))%bool then tadd (group_of rows (n_tgt l), n_cat l) (Some (n_chem l), Some (n_phys l), Some 0) t else t) ls0 t0) == wsum c (to u) t0).
  { induction ls0 as [|l ls0 IHl]; cbn [fold_left]; intros SUB t0 F0; [split; [exact F0|reflexivity]|].
    destruct (String.eqb (n_src l) k && negb (smem (n_tgt l) comps))%bool; [|apply IHl; [intros; apply SUB; now right|exact F0]].
    assert (OFF : to u (group_of rows (n_tgt l), n_cat l) = false).
    { apply to_other. assert (G : In (group_of rows (n_tgt l)) (map c_group rows)) by (apply group_of_in, L, SUB; now left).
      apply in_map_iff in G. destruct G as (x & E & I). rewrite <- E. now apply N. }
    destruct (tadd_off c (to u) _ (Some (n_chem l), Some (n_phys l), Some 0) t0 F0 OFF) as (A & B).
    destruct (IHl (fun l I => SUB l (or_intror I)) _ A) as (A' & B'). split; [exact A'|]. now rewrite B'. }
  destruct (X ls (fun l I => I) t F) as (A & B). destruct (IH _ A) as (A' & B'). split; [exact A'|]. now rewrite B'.
Qed.
Lemma links_same rows ls (sk : dict table) u : (forall l, In l ls -> In (n_tgt l) (map c_label rows)) -> (forall x, In x rows -> c_group x <> u) -> numbers u sk ->
  same_node u sk (add_links rows ls sk) /\ table_of u (add_links rows ls sk) = table_of u sk.
Proof.
  intros L N F. unfold add_links. change (map _ sk) with (map (fun gt => (fst gt, link_rows rows ls (fst gt) (snd gt))) sk).
  assert (T : table_of u (map (fun gt => (fst gt, link_rows rows ls (fst gt) (snd gt))) sk) = table_of u sk).
  { rewrite (table_map (link_rows rows ls)). unfold table_of. destruct (dget u sk) as [t|]; [now apply links_table|reflexivity]. }
  split; [|exact T]. split.
  - intros _ c. destruct (F c) as (A & B). split; [rewrite T; exact A|]. intros g t I. apply (In_map_tables (link_rows rows ls)) in I. destruct I as (t0 & I & ->). apply links_sum; auto. now apply (B g).
  - intros c. rewrite !outflow_wsum, !inflow_tsum, T. split; [reflexivity|]. apply (tsum_map c (to u) (link_rows rows ls)). intros g t I. apply links_sum; auto. now apply (proj2 (F c) g).
Qed.

Lemma run_labels an ks rows st rows' st' : run_components an ks (rows, st) = Ok (rows', st') -> map c_label rows' = map c_label rows ++ map k_label ks.
Proof.
  revert rows st. induction ks as [|k ks IH]; cbn [run_components]; intros rows st H; [injection H as <- <-; cbn; now rewrite app_nil_r|].
  destruct (component_step an k (rows, st)) as [[rows1 st1]|] eqn:S; cbn [rbind] in H; [|discriminate]. rewrite (IH _ _ H).
  unfold component_step in S. destruct (k_balance k) as [bal|]; cbn [rbind] in S; [|discriminate]. destruct (smem (k_group k) (reserved an)); [discriminate|].
  destruct (eval_busses _ _ _ _ _ _) as [s2|]; cbn [rbind] in S; [|discriminate]. injection S as <- _. rewrite map_app. cbn. now rewrite <- app_assoc.
Qed.
Lemma create_labels an : create an = Ok tt -> forall b, In b (all_busses an) -> ~ In (u_label b) four.
Proof.
  unfold create. intros H b I J. destruct (an_F an); [discriminate|]. destruct (an_P an); [discriminate|].
  match type of H with (if ?x then _ else _) = _ => destruct x eqn:E; [discriminate|] end.
  apply Bool.not_true_iff_false in E. apply E. apply existsb_exists. exists (u_label b). split; [now apply in_map|]. apply smem_In. exact J.
Qed.
Lemma sum_ext (l : list bus) (f g : bus -> Q) : (forall b, In b l -> f b == g b) -> sumq l f == sumq l g.
Proof.
  induction l as [|b l IH]; intros H; [reflexivity|]. change (f b + sumq l f == g b + sumq l g). rewrite (H b) by (now left). rewrite IH; [reflexivity|]. intros; apply H; now right.
Qed.
Lemma sum_opp (l : list bus) (f : bus -> Q) : sumq l (fun b => - f b) == - sumq l f.
Proof. induction l as [|b l IH]; [reflexivity|]. change (- f b + sumq l (fun b => - f b) == - (f b + sumq l f)). rewrite IH. lra. Qed.
Lemma row_sum_cells v f : (forall c, exists x, cell c v = Some x /\ x == f c) -> all_numbers v /\ row_sum v == f Chemical + f Physical + f Massless.
Proof.
  intros H. split; [intros c; destruct (H c) as (x & -> & _); discriminate|]. unfold row_sum.
  destruct (H Chemical) as (x & -> & X), (H Physical) as (y & -> & Y), (H Massless) as (z & -> & Z). cbn [amount]. rewrite X, Y, Z. reflexivity.
Qed.
Lemma same_balance u sk sk' : same_node u sk sk' -> node_balance u sk -> node_balance u sk'.
Proof. intros (_ & S) B c. destruct (S c) as (-> & ->). apply B. Qed.
Lemma same_SD u sk sk' : same_node u sk sk' -> SD u sk' == SD u sk.
Proof.
  intros (_ & S). unfold SD, surplus. destruct (S Chemical) as (-> & ->), (S Physical) as (-> & ->), (S Massless) as (-> & ->). reflexivity.
Qed.
Lemma tget_targets g (sk : dict table) k : (forall r, In r (table_of g sk) -> fst r <> k) -> tget k (table_of g sk) = None.
Proof. intros H. apply tget_None. intros I. apply in_map_iff in I. destruct I as (r & E & I). now apply (H r I). Qed.

Lemma bus_nodes an ks ls r gd gs sk : analyse an ks ls = Ok (r, gd) -> final_tables an ks ls = Ok (gs, sk) ->
  NoDup (map u_label (all_busses an)) -> (forall l, In l ls -> In (n_tgt l) (map k_label ks)) ->
  (forall f, o_F r = Some f ->
     (forall b, In b (an_F an) -> node_balance (u_label b) sk /\ has_numbers "E_F" (u_label b, "E_F"%string) sk)
     /\ f == Qabs (sumq (an_F an) (fun b => entry "E_F" (u_label b, "E_F"%string) sk)))
  /\ (forall p, o_P r = Some p ->
     (forall b, In b (an_P an) -> node_balance (u_label b) sk /\ has_numbers (u_label b) ("E_P", "E_P")%string sk)
     /\ p == Qabs (sumq (an_P an) (fun b => entry (u_label b) ("E_P", "E_P")%string sk)))
  /\ (forall l, o_L r = Some l ->
     (forall b, In b (an_L an) -> node_balance (u_label b) sk /\ has_numbers (u_label b) ("E_L", "E_L")%string sk)
     /\ l == sumq (an_L an) (fun b => entry (u_label b) ("E_L", "E_L")%string sk)).
Proof.
  intros HA HT D LK. unfold analyse in HA. unfold final_tables in HT.
  destruct (create an) as [[]|] eqn:CR; cbn [rbind] in HA, HT; [|discriminate]. pose proof (create_labels an CR) as N4.
  destruct (run_components an ks (start an)) as [[rows st]|] eqn:RUN; cbn [rbind] in HA, HT; [|discriminate].
  destruct (start_sides an) as (S0 & P0). change (start an) with ([] : list comp_row, snd (start an)) in RUN.
  destruct (run_all_sides _ _ _ _ _ _ D N4 RUN (conj S0 P0)) as (SIDES & PL). clear S0 P0.
  pose proof (run_labels _ _ _ _ _ _ RUN) as LAB. cbn in LAB. clear RUN.
  cbn [totals o_agg o_sankey o_rows] in HA, HT. set (agg := map (aggregate (st_rows st)) rows) in *. set (sk0 := st_sankey st) in *.
  destruct (fuel_rows (an_F an) (add_D agg sk0)) as [sk2|] eqn:E2; cbn [rbind] in HA, HT; [|discriminate].
  destruct (out_rows "E_P" (an_P an) sk2) as [sk3|] eqn:E3; cbn [rbind] in HA, HT; [|discriminate].
  destruct (out_rows "E_L" (an_L an) sk3) as [sk4|] eqn:E4; cbn [rbind] in HA, HT; [|discriminate].
  destruct (group_data _ agg (add_links rows ls sk4)) as [g0|] eqn:E5; cbn [rbind] in HA, HT; [|discriminate].
  injection HA as <- _. injection HT as _ <-. cbn [o_F o_P o_L].
  destruct PL as (TG & EM & RG).
  assert (AGG : forall c, In c agg -> ~ In (c_group c) (reserved an)).
  { intros c I. unfold agg in I. apply in_map_iff in I. destruct I as (c0 & <- & I). assert (X : c_group (aggregate (st_rows st) c0) = c_group c0) by (unfold aggregate; destruct (dget (c_label c0) (st_rows st)); reflexivity). rewrite X. now apply RG. }
  destruct (distinct_parts an D) as (DF & DP & DL & FX & PX).
  assert (BUS : forall b, In b (an_F an) \/ In b (an_P an) \/ In b (an_L an) -> ~ In (u_label b) four /\ same_node (u_label b) sk0 (add_D agg sk0) /\ (forall c, In c rows -> c_group c <> u_label b)).
  { intros b I. assert (IA : In b (all_busses an)) by (unfold all_busses; rewrite !in_app_iff; tauto).
    assert (IR : In (u_label b) (reserved an)) by (apply in_reserved; tauto). split; [now apply N4|]. split.
    - apply add_D_same; [intros c J E; apply (AGG c J); now rewrite E|now apply N4|exact TG].
    - intros c J E. apply (RG c J). now rewrite E. }
  set (sk1 := add_D agg sk0) in *.
  destruct (fuel_loop (an_F an) sk1 sk2 E2 DF) as (A2 & B2 & C2 & R2); [intros b I; apply N4; unfold all_busses; rewrite !in_app_iff; tauto|].
  destruct (out_loop "E_P" (an_P an) ltac:(cbn; auto) sk2 sk3 E3 DP) as (A3 & B3 & R3); [intros b I; apply N4; unfold all_busses; rewrite !in_app_iff; tauto|].
  destruct (out_loop "E_L" (an_L an) ltac:(cbn; auto) sk3 sk4 E4 DL) as (A4 & B4 & R4); [intros b I; apply N4; unfold all_busses; rewrite !in_app_iff; tauto|].
  assert (LB : forall l, In l ls -> In (n_tgt l) (map c_label rows)) by (intros l I; rewrite LAB; now apply LK).
  assert (NEF : forall c, In c rows -> c_group c <> "E_F"%string) by (intros c I E; apply (RG c I); rewrite E; apply four_reserved; cbn; auto).
  assert (EFT : table_of "E_F" (add_links rows ls sk4) = table_of "E_F" sk4).
  { unfold add_links. change (map _ sk4) with (map (fun gt => (fst gt, link_rows rows ls (fst gt) (snd gt))) sk4). rewrite (table_map (link_rows rows ls)). unfold table_of. destruct (dget "E_F"%string sk4) as [t|]; [|reflexivity]. now apply links_table. }
  assert (NFB : forall bs, (forall b, In b bs -> ~ In (u_label b) four) -> ~ In "E_F"%string (map u_label bs)).
  { intros bs X I. apply in_map_iff in I. destruct I as (b & E & I). apply (X b I). rewrite E. cbn. auto. }
  assert (EF24 : table_of "E_F" sk4 = table_of "E_F" sk2).
  { rewrite B4, B3; [reflexivity| |]; apply NFB; intros b I; apply BUS; auto. }
  destruct SIDES as (SF & SP & SL). fold sk0 in SF, SP, SL. split; [|split].
  - intros f OF. destruct (st_F st) as [f0|] eqn:FE; [|discriminate OF]. cbn in OF. injection OF as <-. destruct (SF f0 eq_refl) as (NU & V).
    assert (R : forall b, In b (an_F an) -> node_balance (u_label b) (add_links rows ls sk4) /\ has_numbers "E_F" (u_label b, "E_F"%string) (add_links rows ls sk4) /\ entry "E_F" (u_label b, "E_F"%string) (add_links rows ls sk4) == SD (u_label b) sk0).
    { intros b I. destruct (R2 (fun b I => proj1 (proj1 (proj2 (BUS b (or_introl I)))) (NU b I))) with (b := b) as (K1 & K2 & row & K3 & K4).
      - intros b' r' I' J. unfold sk1 in J. assert (X := add_D_table agg sk0 "E_F" (EM "E_F"%string ltac:(cbn; auto)) r' J). rewrite X. cbn. intros E. apply (proj1 (BUS b' (or_introl I'))). rewrite <- E. cbn. auto.
      - exact I.
      - destruct (BUS b (or_introl I)) as (Q1 & Q2 & Q3). assert (U : In (u_label b) (map u_label (an_F an))) by (now apply in_map). destruct (FX _ U) as (U1 & U2).
        assert (S24 : same_node (u_label b) sk2 sk4) by (eapply same_trans; [apply A3|apply A4]; assumption).
        assert (N4' : numbers (u_label b) sk4) by (now apply S24).
        destruct (links_same rows ls sk4 (u_label b) LB Q3 N4') as (S5 & _).
        destruct (row_sum_cells row (fun c => surplus c (u_label b) sk1) K4) as (AN & RSUM).
        split; [apply (same_balance _ sk4 _ S5), (same_balance _ sk2 _ S24); exact K2|]. unfold has_numbers, entry. rewrite EFT, EF24, K3. split; [exists row; auto|].
        rewrite RSUM. fold (SD (u_label b) sk1). now apply same_SD. }
    split; [intros b I; destruct (R b I) as (X & Y & _); auto|]. rewrite V, Qmult_1_l. apply Qabs_wd. apply sum_ext. intros b I. symmetry. now apply R.
  - intros p OP. destruct (st_P st) as [p0|] eqn:PE; [|discriminate OP]. cbn in OP. injection OP as <-. destruct (SP p0 eq_refl) as (NU & V).
    assert (R : forall b, In b (an_P an) -> node_balance (u_label b) (add_links rows ls sk4) /\ has_numbers (u_label b) ("E_P", "E_P")%string (add_links rows ls sk4) /\ entry (u_label b) ("E_P", "E_P")%string (add_links rows ls sk4) == - SD (u_label b) sk0).
    { assert (S12 : forall b, In b (an_P an) -> same_node (u_label b) sk1 sk2).
      { intros b I. apply A2; [apply BUS; auto|]. intros J. destruct (FX _ J) as (X & _). apply X. now apply in_map. }
      intros b I. destruct (R3 (fun b I => proj1 (S12 b I) (proj1 (proj1 (proj2 (BUS b (or_intror (or_introl I))))) (NU b I)))) with (b := b) as (K1 & K2 & row & K3 & K4).
      - intros b' r' I' J. rewrite B2 in J by (intros E; apply (proj1 (BUS b' (or_intror (or_introl I')))); rewrite E; cbn; auto).
        destruct (add_D_targets agg sk0 _ r' TG J) as [X|X]; [rewrite X; discriminate|]. intros E. apply X. rewrite E. cbn. auto.
      - exact I.
      - destruct (BUS b (or_intror (or_introl I))) as (Q1 & Q2 & Q3). assert (U : In (u_label b) (map u_label (an_P an))) by (now apply in_map). pose proof (PX _ U) as U1.
        assert (S34 : same_node (u_label b) sk3 sk4) by (apply A4; assumption).
        assert (N4' : numbers (u_label b) sk4) by (now apply S34).
        destruct (links_same rows ls sk4 (u_label b) LB Q3 N4') as (S5 & T5).
        destruct (row_sum_cells row (fun c => - surplus c (u_label b) sk2) K4) as (AN & RSUM).
        split; [apply (same_balance _ sk4 _ S5), (same_balance _ sk3 _ S34); exact K2|]. unfold has_numbers, entry. rewrite T5, (B4 _ U1), K3. split; [exists row; auto|].
        rewrite RSUM. transitivity (- SD (u_label b) sk2); [unfold SD; lra|]. rewrite (same_SD _ _ _ (S12 b I)), (same_SD _ _ _ Q2). reflexivity. }
    split; [intros b I; destruct (R b I) as (X & Y & _); auto|]. apply Qabs_wd. rewrite V. rewrite (sum_ext _ (fun b => entry (u_label b) ("E_P", "E_P")%string (add_links rows ls sk4)) (fun b => - SD (u_label b) sk0)); [rewrite sum_opp; lra|]. intros b I. now apply R.
  - intros l OL. destruct (SL l OL) as (NU & V).
    assert (R : forall b, In b (an_L an) -> node_balance (u_label b) (add_links rows ls sk4) /\ has_numbers (u_label b) ("E_L", "E_L")%string (add_links rows ls sk4) /\ entry (u_label b) ("E_L", "E_L")%string (add_links rows ls sk4) == - SD (u_label b) sk0).
    { assert (S13 : forall b, In b (an_L an) -> same_node (u_label b) sk1 sk3).
      { intros b I. eapply same_trans; [apply A2|apply A3]; try (apply BUS; auto); intros J; [destruct (FX _ J) as (_ & X)|pose proof (PX _ J) as X]; apply X; now apply in_map. }
      intros b I. destruct (R4 (fun b I => proj1 (S13 b I) (proj1 (proj1 (proj2 (BUS b (or_intror (or_intror I))))) (NU b I)))) with (b := b) as (K1 & K2 & row & K3 & K4).
      - intros b' r' I' J. rewrite B3 in J by (intros U; apply (PX _ U); now apply in_map). rewrite B2 in J by (intros E; apply (proj1 (BUS b' (or_intror (or_intror I')))); rewrite E; cbn; auto).
        destruct (add_D_targets agg sk0 _ r' TG J) as [X|X]; [rewrite X; discriminate|]. intros E. apply X. rewrite E. cbn. auto.
      - exact I.
      - destruct (BUS b (or_intror (or_intror I))) as (Q1 & Q2 & Q3).
        destruct (links_same rows ls sk4 (u_label b) LB Q3 K1) as (S5 & T5).
        destruct (row_sum_cells row (fun c => - surplus c (u_label b) sk3) K4) as (AN & RSUM).
        split; [apply (same_balance _ sk4 _ S5); exact K2|]. unfold has_numbers, entry. rewrite T5, K3. split; [exists row; auto|].
        rewrite RSUM. transitivity (- SD (u_label b) sk3); [unfold SD; lra|]. rewrite (same_SD _ _ _ (S13 b I)), (same_SD _ _ _ Q2). reflexivity. }
    split; [intros b I; destruct (R b I) as (X & Y & _); auto|]. rewrite V. rewrite (sum_ext _ (fun b => entry (u_label b) ("E_L", "E_L")%string (add_links rows ls sk4)) (fun b => - SD (u_label b) sk0)); [rewrite sum_opp; lra|]. intros b I. now apply R.
Qed.
