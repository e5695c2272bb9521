(** Flows between groups of components in the Sankey tables. *)
From Coq Require Import QArith Qabs Lqa.
From Verif Require Import Base ExergyModel AnalysisModel AnalysisSpec AnalysisProofs SankeyModel SankeySpec SankeyProofs SankeyProofs2 SankeyProofs3 SankeyProofs4 SankeyProofs5.
Open Scope Q_scope.
Open Scope list_scope.

Definition adding := ((string * string) * vec)%type.
Definition add_all (l : list adding) (t : table) : table := fold_left (fun t a => tadd (fst a) (snd a) t) l t.
Definition added (c : column) (k : string * string) (l : list adding) : Q := sumq l (fun a => if key_eqb k (fst a) then amount (cell c (snd a)) else 0).

Lemma added_cons c k a l : added c k (a :: l) == (if key_eqb k (fst a) then amount (cell c (snd a)) else 0) + added c k l.
Proof. reflexivity. Qed.
Lemma add_all_some c k l : (forall a, In a l -> all_numbers (snd a)) -> forall t v x, tget k t = Some v -> cell c v = Some x ->
  exists v' y, tget k (add_all l t) = Some v' /\ cell c v' = Some y /\ y == x + added c k l.
Proof.
  induction l as [|a l IH]; intros N t v x T X; cbn [add_all fold_left]; [exists v, x; split; [exact T|]; split; [exact X|]; unfold added, sumq; cbn; lra|].
  assert (NL : forall a, In a l -> all_numbers (snd a)) by (intros; apply N; now right). pose proof (N a (or_introl eq_refl) c) as NA.
  destruct (cell c (snd a)) as [z|] eqn:Z; [|contradiction].
  destruct (key_eqb k (fst a)) eqn:E.
  - apply key_eqb_eq in E. subst k. destruct (IH NL (tadd (fst a) (snd a) t) (vadd v (snd a)) (x + z)) as (v' & y & A & B & C).
    + unfold tadd. rewrite T. apply tget_tset_eq.
    + rewrite cell_vadd, X, Z. reflexivity.
    + exists v', y. split; [exact A|]. split; [exact B|]. rewrite C, added_cons, key_eqb_refl, Z. cbn [amount]. lra.
  - destruct (IH NL (tadd (fst a) (snd a) t) v x) as (v' & y & A & B & C).
    + unfold tadd. rewrite tget_tset_neq; [exact T|]. intros ->. now rewrite key_eqb_refl in E.
    + exact X.
    + exists v', y. split; [exact A|]. split; [exact B|]. rewrite C, added_cons, E. lra.
Qed.
Lemma add_all_none k l : (forall a, In a l -> all_numbers (snd a)) -> forall t, tget k t = None ->
  (tget k (add_all l t) = None <-> forall a, In a l -> fst a <> k)
  /\ forall v c, tget k (add_all l t) = Some v -> exists y, cell c v = Some y /\ y == added c k l.
Proof.
  induction l as [|a l IH]; intros N t T.
  - cbn [add_all fold_left]. split; [split; [intros _ a []|auto]|]. intros v c H. congruence.
  - assert (NL : forall a, In a l -> all_numbers (snd a)) by (intros; apply N; now right).
    change (add_all (a :: l) t) with (add_all l (tadd (fst a) (snd a) t)).
    destruct (key_eqb k (fst a)) eqn:E.
    + apply key_eqb_eq in E. subst k.
      assert (TA : tget (fst a) (tadd (fst a) (snd a) t) = Some (vadd vzero (snd a))) by (unfold tadd; rewrite T; apply tget_tset_eq).
      assert (X : forall c, exists z, cell c (snd a) = Some z /\ cell c (vadd vzero (snd a)) = Some (0 + z)).
      { intros c. pose proof (N a (or_introl eq_refl) c) as NA. destruct (cell c (snd a)) as [z|] eqn:Z; [|contradiction]. exists z. split; [reflexivity|]. rewrite cell_vadd, cell_vzero, Z. reflexivity. }
      split.
      * split; [|intros H; exfalso; now apply (H a); [left|]]. intros H. destruct (X Chemical) as (z & _ & Z). destruct (add_all_some Chemical (fst a) l NL _ _ _ TA Z) as (v' & y & A & _). congruence.
      * intros v c H. destruct (X c) as (z & Z0 & Z). destruct (add_all_some c (fst a) l NL _ _ _ TA Z) as (v' & y & A & B & C). rewrite A in H. injection H as <-. exists y. split; [exact B|].
        rewrite C, added_cons, key_eqb_refl, Z0. cbn [amount]. lra.
    + assert (NK : k <> fst a) by (intros ->; now rewrite key_eqb_refl in E).
      destruct (IH NL (tadd (fst a) (snd a) t)) as (A & B); [unfold tadd; rewrite tget_tset_neq; assumption|]. split.
      * rewrite A. split; intros H a' I; [|apply H; now right]. destruct I as [<-|I]; [congruence|now apply H].
      * intros v c H. destruct (B v c H) as (y & Y & Z). exists y. split; [exact Y|]. rewrite Z, added_cons, E. lra.
Qed.

(** The rows added for the connections. *)
Definition row_of (rows : list comp_row) (l : link) : adding := ((group_of rows (n_tgt l), n_cat l), (Some (n_chem l), Some (n_phys l), Some 0)).
Definition leaves_from (comps : list string) (k : string) (l : link) : bool := (String.eqb (n_src l) k && negb (smem (n_tgt l) comps))%bool.
Definition additions (rows : list comp_row) (ls : list link) (comps cs : list string) : list adding :=
  flat_map (fun k => map (row_of rows) (filter (leaves_from comps k) ls)) cs.
Lemma add_all_app a b t : add_all (a ++ b) t = add_all b (add_all a t).
Proof. unfold add_all. apply fold_left_app. Qed.
Lemma inner_rows rows comps k ls t :
  fold_left (fun t l => if (String.eqb (n_src l) k && negb (smem (n_tgt l) comps))%bool then tadd (group_of rows (n_tgt l), n_cat l) (Some (n_chem l), Some (n_phys l), Some 0) t else t) ls t
  = add_all (map (row_of rows) (filter (leaves_from comps k) ls)) t.
Proof.
  revert t. induction ls as [|l ls IH]; intros t; [reflexivity|]. cbn [fold_left filter]. unfold leaves_from at 1. destruct (String.eqb (n_src l) k && negb (smem (n_tgt l) comps))%bool; rewrite IH; reflexivity.
Qed.
Lemma link_rows_add rows ls g t : link_rows rows ls g t =
  let comps := map c_label (filter (fun c => String.eqb (c_group c) g) rows) in add_all (additions rows ls comps comps) t.
Proof.
  unfold link_rows. cbv zeta. set (comps := map c_label (filter (fun c => String.eqb (c_group c) g) rows)). generalize comps at 2 4 as cs. intros cs. revert t.
  induction cs as [|k cs IH]; intros t; [reflexivity|]. cbn [fold_left]. rewrite IH, inner_rows. unfold additions at 2. cbn [flat_map]. now rewrite add_all_app.
Qed.

Lemma added_app c k a b : added c k (a ++ b) == added c k a + added c k b.
Proof. induction a as [|x a IH]; [cbn [app]; change (added c k []) with 0; lra|]. cbn [app]. rewrite !added_cons, IH. lra. Qed.
Lemma one_member (cs : list string) s (v : Q) : NoDup cs -> sumq cs (fun k => if String.eqb s k then v else 0) == if smem s cs then v else 0.
Proof.
  induction cs as [|k cs IH]; intros N; [reflexivity|]. inversion N as [|? ? N1 N2]; subst.
  change ((if String.eqb s k then v else 0) + sumq cs (fun k => if String.eqb s k then v else 0) == if (String.eqb s k || smem s cs)%bool then v else 0). rewrite IH by exact N2.
  destruct (String.eqb s k) eqn:E; cbn [orb]; [|lra]. apply String.eqb_eq in E. subst. destruct (smem k cs) eqn:M; [apply smem_In in M; contradiction|lra].
Qed.
Lemma sumq_plus {A} (l : list A) f g : sumq l (fun a => f a + g a) == sumq l f + sumq l g.
Proof. induction l as [|a l IH]; [reflexivity|]. change (f a + g a + sumq l (fun a => f a + g a) == f a + sumq l f + (g a + sumq l g)). rewrite IH. lra. Qed.
Lemma sumq_ext {A} (l : list A) f g : (forall a, In a l -> f a == g a) -> sumq l f == sumq l g.
Proof. induction l as [|a l IH]; intros H; [reflexivity|]. change (f a + sumq l f == g a + sumq l g). rewrite (H a) by (now left). rewrite IH; [reflexivity|]. intros; apply H; now right. Qed.
Lemma sumq_zero {A} (l : list A) : sumq l (fun _ => 0) == 0.
Proof. induction l as [|a l IH]; [reflexivity|]. change (0 + sumq l (fun _ => 0) == 0). rewrite IH. lra. Qed.
Lemma exchange (cs : list string) (ls : list link) (q : link -> bool) (v : link -> Q) : NoDup cs ->
  sumq cs (fun k => sumq ls (fun l => if (String.eqb (n_src l) k && q l)%bool then v l else 0)) == sumq ls (fun l => if (smem (n_src l) cs && q l)%bool then v l else 0).
Proof.
  intros N. induction ls as [|l ls IH]; [apply sumq_zero|].
  change (sumq cs (fun k => (if (String.eqb (n_src l) k && q l)%bool then v l else 0) + sumq ls (fun l => if (String.eqb (n_src l) k && q l)%bool then v l else 0))
          == (if (smem (n_src l) cs && q l)%bool then v l else 0) + sumq ls (fun l => if (smem (n_src l) cs && q l)%bool then v l else 0)).
  rewrite sumq_plus, IH. destruct (q l).
  - rewrite (sumq_ext cs _ (fun k => if String.eqb (n_src l) k then v l else 0)) by (intros; rewrite Bool.andb_true_r; reflexivity). rewrite one_member by exact N. rewrite Bool.andb_true_r. reflexivity.
  - rewrite (sumq_ext cs _ (fun _ => 0)) by (intros; rewrite Bool.andb_false_r; reflexivity). rewrite sumq_zero, Bool.andb_false_r. reflexivity.
Qed.
Lemma row_of_cell rows l c : amount (cell c (snd (row_of rows l))) = carried c l.
Proof. destruct c; reflexivity. Qed.
Lemma added_inner rows comps ks k c ls : added c ks (map (row_of rows) (filter (leaves_from comps k) ls)) ==
  sumq ls (fun l => if (String.eqb (n_src l) k && (negb (smem (n_tgt l) comps) && key_eqb ks (group_of rows (n_tgt l), n_cat l)))%bool then carried c l else 0).
Proof.
  induction ls as [|l ls IH]; [reflexivity|].
  change (added c ks (map (row_of rows) (filter (leaves_from comps k) (l :: ls))) ==
    (if (String.eqb (n_src l) k && (negb (smem (n_tgt l) comps) && key_eqb ks (group_of rows (n_tgt l), n_cat l)))%bool then carried c l else 0)
    + sumq ls (fun l => if (String.eqb (n_src l) k && (negb (smem (n_tgt l) comps) && key_eqb ks (group_of rows (n_tgt l), n_cat l)))%bool then carried c l else 0)).
  rewrite <- IH. cbn [filter]. unfold leaves_from at 1. destruct (String.eqb (n_src l) k); cbn [andb]; [|lra]. destruct (negb (smem (n_tgt l) comps)); cbn [andb]; [|lra].
  cbn [map]. rewrite added_cons. cbn [row_of fst]. fold (row_of rows l). rewrite row_of_cell. reflexivity.
Qed.
Lemma added_links rows ls comps cs c ks : NoDup cs -> added c ks (additions rows ls comps cs) ==
  sumq ls (fun l => if (smem (n_src l) cs && (negb (smem (n_tgt l) comps) && key_eqb ks (group_of rows (n_tgt l), n_cat l)))%bool then carried c l else 0).
Proof.
  intros N. rewrite <- exchange by exact N. clear N. unfold additions. induction cs as [|k cs IH]; [reflexivity|]. cbn [flat_map]. rewrite added_app, IH, added_inner. reflexivity.
Qed.

Definition pair_r (c : comp_row) : string * string := (c_label c, c_group c).
Definition pair_k (k : comp) : string * string := (k_label k, k_group k).
Definition outer (an : analysis) (sk : dict table) : Prop := forall g t r, In (g, t) sk -> ~ In g (reserved an) -> In r t -> In (fst (fst r)) (reserved an).

Lemma component_outer an k rows st rows' st' : component_step an k (rows, st) = Ok (rows', st') -> outer an (st_sankey st) ->
  outer an (st_sankey st') /\ map pair_r rows' = map pair_r rows ++ [pair_k k] /\ ~ In (k_group k) (reserved an).
Proof.
  intros H O. unfold component_step in H. destruct (k_balance k) as [bal|]; cbn [rbind] in H; [|discriminate]. destruct (smem (k_group k) (reserved an)) eqn:R; [discriminate|].
  assert (NR : ~ In (k_group k) (reserved an)) by (intros I; apply smem_In in I; congruence).
  match type of H with rbind (eval_busses _ _ _ _ _ ?s) _ = _ => set (s0 := s) in H end.
  assert (O0 : outer an (st_sankey s0)).
  { subst s0. cbn [st_sankey]. destruct (dmem (k_group k) (st_sankey st)); [exact O|]. intros g t r I N J. apply In_dset in I. destruct I as [(-> & ->)|I]; [destruct J|now apply (O g t r)]. }
  clearbody s0. destruct (eval_busses an k bal (all_busses an) 0 s0) as [s2|] eqn:EV; cbn [rbind] in H; [|discriminate]. injection H as <- <-.
  split; [|split; [rewrite map_app; reflexivity|exact NR]].
  apply eval_some in EV. destruct (first_bus (k_label k) (all_busses an)) as [[b mb]|] eqn:FB; [|subst s2; exact O0]. apply first_bus_in, all_reserved in FB.
  unfold eval_member in EV. destruct (bus_total (E_bus bal)); cbn [rbind] in EV; [|discriminate].
  destruct (b_base mb); match type of EV with rbind ?t _ = _ => destruct t as [t'|] eqn:AS; cbn [rbind] in EV; [|discriminate] end; injection EV as <-; cbn [st_sankey];
    intros g t r I N J; apply In_dset in I; (destruct I as [(-> & ->)|I]; [|now apply (O0 g t r)]).
  - contradiction.
  - destruct (add_shares_rows _ _ _ _ _ _ _ _ AS J) as [-> |X]; [exact FB|]. apply in_map_iff in X. destruct X as (r' & X & Y). apply table_In in Y. destruct Y as (t0 & Y & Z). rewrite <- X. now apply (O0 _ _ _ Y).
Qed.
Lemma run_outer an ks rows st rows' st' : run_components an ks (rows, st) = Ok (rows', st') -> outer an (st_sankey st) ->
  outer an (st_sankey st') /\ map pair_r rows' = map pair_r rows ++ map pair_k ks /\ forall k, In k ks -> ~ In (k_group k) (reserved an).
Proof.
  revert rows st. induction ks as [|k ks IH]; cbn [run_components]; intros rows st H O; [injection H as <- <-; cbn; rewrite app_nil_r; auto|].
  destruct (component_step an k (rows, st)) as [[rows1 st1]|] eqn:S; cbn [rbind] in H; [|discriminate]. destruct (component_outer _ _ _ _ _ _ S O) as (A & B & C).
  destruct (IH _ _ H A) as (A' & B' & C'). split; [exact A'|]. split; [rewrite B', B, <- app_assoc; reflexivity|]. intros k' [<-|I]; auto.
Qed.

Lemma in_group_rows ks rows g x : map pair_r rows = map pair_k ks ->
  smem x (map c_label (filter (fun c => String.eqb (c_group c) g) rows)) = in_group ks g x.
Proof.
  revert ks. induction rows as [|c rows IH]; intros [|k ks] E; try discriminate E; [reflexivity|]. cbn [map] in E. injection E as E1 E2 E3. unfold in_group. cbn [existsb]. fold (in_group ks g x). rewrite <- (IH ks E3).
  cbn [filter]. rewrite <- E1, <- E2. destruct (String.eqb (c_group c) g); [|rewrite Bool.andb_false_r; reflexivity]. rewrite Bool.andb_true_r. unfold smem at 1. cbn [map existsb]. fold (smem x (map c_label (filter (fun c => String.eqb (c_group c) g) rows))). now rewrite String.eqb_sym.
Qed.
Lemma group_of_rows ks rows h x : map pair_r rows = map pair_k ks -> NoDup (map k_label ks) -> In x (map k_label ks) -> String.eqb h (group_of rows x) = in_group ks h x.
Proof.
  unfold group_of. revert ks. induction rows as [|c rows IH]; intros [|k ks] E N I; try discriminate E; [destruct I|]. cbn [map] in E. injection E as E1 E2 E3.
  unfold in_group. cbn [existsb find]. fold (in_group ks h x). rewrite E1. cbn [map] in N, I. inversion N as [|? ? N1 N2]; subst.
  destruct (String.eqb (k_label k) x) eqn:Q; cbn [andb].
  - apply String.eqb_eq in Q. subst x. assert (Z : in_group ks h (k_label k) = false).
    { apply Bool.not_true_iff_false. intros T. unfold in_group in T. apply existsb_exists in T. destruct T as (k' & A & B). apply Bool.andb_true_iff in B. destruct B as (B & _). apply String.eqb_eq in B. apply N1. rewrite <- B. now apply in_map. }
    rewrite Z, Bool.orb_false_r, E2. apply String.eqb_sym.
  - cbn [orb]. apply IH; [exact E3|exact N2|]. destruct I as [I|I]; [apply String.eqb_neq in Q; congruence|exact I].
Qed.
Lemma in_two ks g h x : NoDup (map k_label ks) -> in_group ks g x = true -> in_group ks h x = true -> g = h.
Proof.
  unfold in_group. rewrite !existsb_exists. intros N (k & A & B) (k' & A' & B'). apply Bool.andb_true_iff in B, B'. destruct B as (B1 & B2), B' as (B1' & B2'). apply String.eqb_eq in B1, B2, B1', B2'. subst x g h.
  assert (E : k = k'); [|now subst]. clear - N A A' B1'. induction ks as [|a ks IH]; [destruct A|]. cbn [map] in N. inversion N as [|? ? N1 N2]; subst.
  destruct A as [->|A], A' as [->|A']; [reflexivity| | |now apply IH]; exfalso; apply N1; [rewrite <- B1'|rewrite B1']; now apply in_map.
Qed.

Lemma group_flows an ks ls gs sk : final_tables an ks ls = Ok (gs, sk) -> NoDup (map k_label ks) -> (forall l, In l ls -> In (n_tgt l) (map k_label ks)) ->
  forall g h cat, In g (map k_group ks) -> In h (map k_group ks) -> g <> h ->
  (tget (h, cat) (table_of g sk) = None <-> forall l, In l ls -> between ks g h cat l = false)
  /\ forall v c, tget (h, cat) (table_of g sk) = Some v -> exists x, cell c v = Some x /\ x == sumq ls (fun l => if between ks g h cat l then carried c l else 0).
Proof.
  intros HT ND LK g h cat IG IH NE. unfold final_tables in HT.
  destruct (create an) as [[]|] eqn:CR; cbn [rbind] in HT; [|discriminate].
  destruct (run_components an ks (start an)) as [[rows st]|] eqn:RUN; cbn [rbind] in HT; [|discriminate].
  change (start an) with ([] : list comp_row, snd (start an)) in RUN.
  assert (O0 : outer an (st_sankey (snd (start an)))) by (intros g0 t r I _ J; rewrite (empty_start an g0 t I) in J; destruct J).
  destruct (run_outer _ _ _ _ _ _ RUN O0) as (O & PR & NR). cbn [map app] in PR.
  cbn [totals o_agg o_sankey o_rows] in HT. set (agg := map (aggregate (st_rows st)) rows) in *. set (sk0 := st_sankey st) in *.
  destruct (fuel_rows (an_F an) (add_D agg sk0)) as [sk2|] eqn:E2; cbn [rbind] in HT; [|discriminate].
  destruct (out_rows "E_P" (an_P an) sk2) as [sk3|] eqn:E3; cbn [rbind] in HT; [|discriminate].
  destruct (out_rows "E_L" (an_L an) sk3) as [sk4|] eqn:E4; cbn [rbind] in HT; [|discriminate].
  destruct (group_data _ agg (add_links rows ls sk4)) as [g0|] eqn:E5; cbn [rbind] in HT; [|discriminate]. injection HT as _ <-.
  assert (NG : ~ In g (reserved an)) by (apply in_map_iff in IG; destruct IG as (k & <- & I); now apply NR).
  assert (NH : ~ In h (reserved an)) by (apply in_map_iff in IH; destruct IH as (k & <- & I); now apply NR).
  assert (KF : forall bs a b, fuel_rows bs a = Ok b -> table_of g b = table_of g a).
  { induction bs as [|b bs IHb]; cbn [fuel_rows]; intros a b0 H; [congruence|]. destruct (group_input (u_label b) a vzero); cbn [rbind] in H; [|discriminate]. rewrite (IHb _ _ H). apply table_dset_neq. intros ->. apply NG. apply four_reserved. cbn. auto. }
  assert (KO : forall tag bs a b, (forall x, In x bs -> In (u_label x) (reserved an)) -> out_rows tag bs a = Ok b -> table_of g b = table_of g a).
  { intros tag. induction bs as [|b bs IHb]; cbn [out_rows]; intros a b0 RB H; [congruence|]. destruct (group_input (u_label b) a vzero); cbn [rbind] in H; [|discriminate]. rewrite (IHb _ _ (fun x I => RB x (or_intror I)) H). apply table_dset_neq. intros ->. apply NG. apply RB. now left. }
  assert (T4 : table_of g sk4 = table_of g (add_D agg sk0)).
  { rewrite (KO _ _ _ _ (fun x I => in_reserved an x (or_intror (or_intror (or_introl I)))) E4), (KO _ _ _ _ (fun x I => in_reserved an x (or_intror (or_introl I))) E3). now apply KF in E2. }
  assert (FRESH : tget (h, cat) (table_of g sk4) = None).
  { rewrite T4. apply tget_targets. intros r I E. apply table_In in I. destruct I as (t & I & J). unfold add_D in I. apply in_map_iff in I. destruct I as ((g', t') & Q & I). cbn in Q. injection Q as -> <-.
    apply tset_In in J. destruct J as [->|J]; [cbn in E; injection E as Eh _; apply NH; rewrite <- Eh; apply four_reserved; cbn; auto|]. pose proof (O g t' r I NG J) as X. rewrite E in X. contradiction. }
  assert (KEYS : In g (keys sk4)).
  { assert (KD : forall bs a b, fuel_rows bs a = Ok b -> In g (keys a) -> In g (keys b)).
    { induction bs as [|b bs IHb]; cbn [fuel_rows]; intros a b0 H I; [congruence|]. destruct (group_input (u_label b) a vzero); cbn [rbind] in H; [|discriminate]. apply (IHb _ _ H). apply keys_dset. now right. }
    assert (KD' : forall tag bs a b, out_rows tag bs a = Ok b -> In g (keys a) -> In g (keys b)).
    { intros tag. induction bs as [|b bs IHb]; cbn [out_rows]; intros a b0 H I; [congruence|]. destruct (group_input (u_label b) a vzero); cbn [rbind] in H; [|discriminate]. apply (IHb _ _ H). apply keys_dset. now right. }
    apply (KD' _ _ _ _ E4), (KD' _ _ _ _ E3), (KD _ _ _ E2). unfold add_D. unfold keys. rewrite map_map. cbn [fst]. fold (keys sk0).
    clear - RUN IG. assert (RK : forall ks rows st rows' st', run_components an ks (rows, st) = Ok (rows', st') -> (In g (keys (st_sankey st)) \/ In g (map k_group ks)) -> In g (keys (st_sankey st'))).
    { clear. induction ks as [|k ks IHk]; cbn [run_components map]; intros rows st rows' st' H I; [injection H as <- <-; destruct I as [I|[]]; exact I|].
      destruct (component_step an k (rows, st)) as [[rows1 st1]|] eqn:S; cbn [rbind] in H; [|discriminate]. apply (IHk _ _ _ _ H).
      assert (X : In g (keys (st_sankey st)) \/ k_group k = g -> In g (keys (st_sankey st1))).
      { intros J. unfold component_step in S. destruct (k_balance k) as [bal|]; cbn [rbind] in S; [|discriminate]. destruct (smem (k_group k) (reserved an)); [discriminate|].
        match type of S with rbind (eval_busses _ _ _ _ _ ?s) _ = _ => set (s0 := s) in S end.
        assert (K0 : In g (keys (st_sankey s0))). { subst s0. cbn [st_sankey]. destruct (dmem (k_group k) (st_sankey st)) eqn:M; [destruct J as [J| <-]; [exact J|now apply dmem_In]|apply keys_dset; destruct J; auto]. }
        clearbody s0. destruct (eval_busses an k bal (all_busses an) 0 s0) as [s2|] eqn:EV; cbn [rbind] in S; [|discriminate]. injection S as _ <-.
        apply eval_some in EV. destruct (first_bus (k_label k) (all_busses an)) as [[b mb]|]; [|subst s2; exact K0].
        unfold eval_member in EV. destruct (bus_total (E_bus bal)); cbn [rbind] in EV; [|discriminate].
        destruct (b_base mb); match type of EV with rbind ?t _ = _ => destruct t as [t'|] eqn:AS; cbn [rbind] in EV; [|discriminate] end; injection EV as <-; cbn [st_sankey]; apply keys_dset; now right. }
      destruct I as [I|[I|I]]; auto. }
    eapply RK; [exact RUN|]. now right. }
  assert (TL : table_of g (add_links rows ls sk4) = link_rows rows ls g (table_of g sk4)).
  { unfold add_links. change (map _ sk4) with (map (fun gt => (fst gt, link_rows rows ls (fst gt) (snd gt))) sk4). rewrite (table_map (link_rows rows ls)). unfold table_of.
    destruct (dget g sk4) as [t|] eqn:Q; [reflexivity|]. apply dget_None_notin in Q. contradiction. }
  rewrite TL, link_rows_add. cbv zeta. set (comps := map c_label (filter (fun c => String.eqb (c_group c) g) rows)).
  assert (NC : NoDup comps).
  { assert (LE : map c_label rows = map k_label ks). { assert (X : map fst (map pair_r rows) = map fst (map pair_k ks)) by (now rewrite PR). rewrite !map_map in X. exact X. }
    rewrite <- LE in ND. clear - ND. unfold comps. induction rows as [|c rows IHr]; [constructor|]. cbn [map] in ND. inversion ND as [|? ? N1 N2]; subst. cbn [filter]. destruct (String.eqb (c_group c) g); [|now apply IHr]. cbn [map]. constructor; [|now apply IHr].
    intros I. apply N1. apply in_map_iff in I. destruct I as (c' & E & I). apply filter_In in I. rewrite <- E. now apply in_map. }
  assert (BT : forall l, In l ls -> (smem (n_src l) comps && (negb (smem (n_tgt l) comps) && key_eqb (h, cat) (group_of rows (n_tgt l), n_cat l)))%bool = between ks g h cat l).
  { intros l I. unfold comps. rewrite !(in_group_rows ks rows g) by exact PR. unfold key_eqb. cbn [fst snd]. rewrite (group_of_rows ks rows h (n_tgt l) PR ND (LK l I)). unfold between. rewrite (String.eqb_sym cat).
    destruct (in_group ks g (n_src l)); cbn [andb]; [|reflexivity]. destruct (in_group ks h (n_tgt l)) eqn:B; cbn [andb]; [|now rewrite Bool.andb_false_r].
    destruct (in_group ks g (n_tgt l)) eqn:A; [exfalso; apply NE; eapply in_two; eassumption|]. reflexivity. }
  assert (AN : forall a, In a (additions rows ls comps comps) -> all_numbers (snd a)).
  { intros a I. unfold additions in I. apply in_flat_map in I. destruct I as (k & _ & I). apply in_map_iff in I. destruct I as (l & <- & _). intros []; discriminate. }
  destruct (add_all_none (h, cat) (additions rows ls comps comps) AN (table_of g sk4) FRESH) as (A & B). split.
  - rewrite A. split.
    + intros H l I. rewrite <- (BT l I). destruct (smem (n_src l) comps) eqn:S1; cbn [andb]; [|reflexivity]. destruct (negb (smem (n_tgt l) comps)) eqn:S2; cbn [andb]; [|reflexivity].
      apply key_eqb_neq. intros E. apply (H (row_of rows l)); [|cbn; congruence]. unfold additions. apply in_flat_map. exists (n_src l). split; [now apply smem_In|]. apply in_map. apply filter_In. split; [exact I|]. unfold leaves_from. now rewrite String.eqb_refl, S2.
    + intros H a I E. unfold additions in I. apply in_flat_map in I. destruct I as (k & Ik & I). apply in_map_iff in I. destruct I as (l & <- & I). apply filter_In in I. destruct I as (I & LV). unfold leaves_from in LV. apply Bool.andb_true_iff in LV. destruct LV as (L1 & L2). apply String.eqb_eq in L1.
      pose proof (H l I) as Z. rewrite <- (BT l I) in Z. rewrite L2 in Z. cbn [row_of fst] in E. rewrite E, key_eqb_refl in Z. subst k. apply smem_In in Ik. rewrite Ik in Z. discriminate Z.
  - intros v c H. destruct (B v c H) as (y & Y & Z). exists y. split; [exact Y|]. rewrite Z, added_links by exact NC. apply sumq_ext. intros l I. rewrite (BT l I). reflexivity.
Qed.
