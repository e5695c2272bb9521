From Coq Require Import QArith Lqa.
From Verif Require Import Base PrintModel PrintSpec.
Open Scope nat_scope.

Lemma rmapM_in {A B} (f : A -> res B) : forall l r, rmapM f l = Ok r ->
  forall b, In b r <-> exists a, In a l /\ f a = Ok b.
Proof.
  induction l as [|a l IH]; intros r H b; simpl in H.
  - injection H as <-. split; [intros []|intros (a & [] & _)].
  - destruct (f a) as [x|] eqn:E; [|discriminate]. simpl in H.
    destruct (rmapM f l) as [r'|]; [|discriminate]. injection H as <-.
    simpl. rewrite (IH r' eq_refl b). split.
    + intros [->|(a' & I & F)]; [exists a; auto|exists a'; auto].
    + intros (a' & [->|I] & F); [left; congruence|right; exists a'; auto].
Qed.
Lemma rmapM_each {A B} (f : A -> res B) : forall l r a, rmapM f l = Ok r -> In a l ->
  exists b, f a = Ok b /\ In b r.
Proof.
  induction l as [|a' l IH]; intros r a H I; [destruct I|]. simpl in H.
  destruct (f a') as [x|] eqn:E; [|discriminate]. simpl in H.
  destruct (rmapM f l) as [r'|] eqn:R; [|discriminate]. injection H as <-.
  destruct I as [->|I]; [exists x; simpl; auto|].
  destruct (IH r' a eq_refl I) as (b & F & J). exists b. simpl. auto.
Qed.
Lemma rmapM_ok {A B} (f : A -> res B) : forall l, (forall a, In a l -> exists b, f a = Ok b) ->
  exists r, rmapM f l = Ok r.
Proof.
  induction l as [|a l IH]; intros H; [exists []; reflexivity|].
  destruct (H a) as (b & E); [left; reflexivity|]. destruct IH as (r & R); [intros; apply H; right; auto|].
  exists (b :: r). simpl. rewrite E. simpl. rewrite R. reflexivity.
Qed.
Lemma keep_in {A} : forall (l : list (option A)) a, In a (keep l) <-> In (Some a) l.
Proof.
  induction l as [|[x|] l IH]; intros a; simpl.
  - tauto.
  - rewrite IH. split; intros [H|H]; auto; [subst; auto|injection H as ->; auto].
  - rewrite IH. split; [auto|intros [H|H]; [discriminate|auto]].
Qed.

Lemma unique_in l : forall x, In x (unique l) <-> In x l.
Proof.
  induction l as [|a l IH]; intros x; simpl; [tauto|]. rewrite filter_In, IH. split.
  - intros [H|[H _]]; auto.
  - intros [H|H]; auto. destruct (String.eqb a x) eqn:E.
    + left. now apply String.eqb_eq.
    + right. split; [assumption|reflexivity].
Qed.

Lemma find_comp_some n c : NoDup (map pc_label (n_comps n)) -> In c (n_comps n) ->
  find_comp n (pc_label c) = Some c.
Proof.
  unfold find_comp. induction (n_comps n) as [|a l IH]; intros D I; [destruct I|].
  simpl. inversion D as [|x y N D' E]; subst. destruct I as [->|I].
  - now rewrite String.eqb_refl.
  - destruct (String.eqb (pc_label a) (pc_label c)) eqn:E.
    + apply String.eqb_eq in E. exfalso. apply N. rewrite E. now apply in_map.
    + now apply IH.
Qed.
Lemma find_conn_some n c : NoDup (map cn_label (n_conns n)) -> In c (n_conns n) ->
  find_conn n (cn_label c) = Some c.
Proof.
  unfold find_conn. induction (n_conns n) as [|a l IH]; intros D I; [destruct I|].
  simpl. inversion D as [|x y N D' E]; subst. destruct I as [->|I].
  - now rewrite String.eqb_refl.
  - destruct (String.eqb (cn_label a) (cn_label c)) eqn:E.
    + apply String.eqb_eq in E. exfalso. apply N. rewrite E. now apply in_map.
    + now apply IH.
Qed.

Lemma drop_nan_in : forall l a cs, In (a, cs) (drop_nan l) <->
  exists os, In (a, os) l /\ (exists s, In (Some s) os) /\
    cs = map (fun c => match c with None => Value (Num None) | Some s => Text s end) os.
Proof.
  induction l as [|[b os] l IH]; intros a cs; simpl.
  - split; [intros []|intros (os & [] & _)].
  - destruct (forallb _ os) eqn:E.
    + rewrite IH. split; [intros (o & I & R); exists o; auto|].
      intros (o & [H|I] & (s & S) & R).
      * injection H as -> ->. rewrite forallb_forall in E. specialize (E _ S). discriminate.
      * exists o. eauto.
    + simpl. rewrite IH. split.
      * intros [H|(o & I & R)]; [|exists o; auto]. injection H as -> <-. exists os.
        split; [auto|]. split; [|reflexivity].
        clear IH. induction os as [|[s|] os IHo]; simpl in E; [discriminate|exists s; simpl; auto|].
        destruct (IHo E) as (s & S). exists s. simpl. auto.
      * intros (o & [H|I] & S & R); [left|right; exists o; auto].
        injection H as -> ->. subst cs. reflexivity.
Qed.

(** Membership of sections by origin. *)
Lemma print_parts show colored k n l : print_results show colored k n = Ok l ->
  exists cs c bs,
    rmapM (comp_section show colored k n) (unique (map pc_type (n_comps n))) = Ok cs /\
    conn_section show colored k n = Ok c /\
    rmapM (bus_section show colored k n) (n_busses n) = Ok bs /\
    l = (keep cs ++ keep [c] ++ keep bs)%list.
Proof.
  unfold print_results. intros H.
  destruct (rmapM _ (unique _)) as [cs|]; [|discriminate]. cbn [rbind] in H.
  destruct (conn_section _ _ _ _) as [c|]; [|discriminate]. cbn [rbind] in H.
  destruct (rmapM _ (n_busses n)) as [bs|]; [|discriminate]. cbn [rbind] in H.
  injection H as <-. exists cs, c, bs. auto.
Qed.

Lemma comp_section_spec show colored k n ty s : comp_section show colored k n ty = Ok (Some s) ->
  exists t rows, dget ty (n_results n) = Some t /\ s_title s = ty /\ s_cols s = t_cols t /\ t_cols t <> [] /\
    rmapM (fun '(l, vs) => match find_comp n l with None => Err AttributeError
             | Some c => Ok (l, row_cells show colored k c (t_cols t) vs) end) (t_rows t) = Ok rows /\
    s_rows s = drop_nan rows.
Proof.
  unfold comp_section. intros H. destruct (dget ty (n_results n)) as [t|] eqn:D; [|discriminate].
  destruct (t_cols t) as [|c0 cols] eqn:C; [discriminate|].
  destruct (t_rows t) as [|r0 rs] eqn:R; [discriminate|]. rewrite <- C, <- R in H.
  destruct (rmapM _ (t_rows t)) as [rows|] eqn:M; [|discriminate]. cbn [rbind] in H.
  destruct (drop_nan rows) as [|d ds] eqn:Dn; [discriminate|]. injection H as <-.
  exists t, rows. rewrite C. repeat split; simpl; auto; [discriminate|rewrite <- C; exact M].
Qed.

Lemma conn_title show colored k n s : conn_section show colored k n = Ok (Some s) -> s_title s = "Connection"%string.
Proof.
  unfold conn_section. intros H. destruct (dget _ _) as [t|]; [|discriminate].
  destruct (negb _); [discriminate|]. destruct (rmapM _ _); [|discriminate]. cbn [rbind] in H.
  destruct (keep a); [discriminate|]. now injection H as <-.
Qed.
Lemma bus_title show colored k n b s : bus_section show colored k n b = Ok (Some s) ->
  s_title s = ("Bus: " ++ b_label b)%string.
Proof.
  unfold bus_section. intros H. destruct (negb _); [discriminate|].
  destruct (dget _ _) as [t|]; [|discriminate]. destruct (negb _); [discriminate|]. now injection H as <-.
Qed.

Definition cells_of (show : value -> string) colored k c cols vs : list cell :=
  map (fun c => match c with None => Value (Num None) | Some s => Text s end)
    (row_cells show colored k c cols vs).

(** Rows of components. *)
Lemma comp_shows show colored k n l ty a cells : 
  print_results show colored k n = Ok l -> ty <> "Connection"%string -> not_bus_title ty ->
  shows l ty a cells ->
  In ty (map pc_type (n_comps n)) /\
  exists t vs c, dget ty (n_results n) = Some t /\ In (a, vs) (t_rows t) /\ find_comp n a = Some c /\
    (exists s, In (Some s) (row_cells show colored k c (t_cols t) vs)) /\
    cells = cells_of show colored k c (t_cols t) vs.
Proof.
  intros H NC NB (s & I & T & R). destruct (print_parts _ _ _ _ _ H) as (cs & c & bs & Hc & Hn & Hb & ->).
  rewrite !in_app_iff, !keep_in in I. destruct I as [I|[I|I]].
  - apply (rmapM_in _ _ _ Hc) in I. destruct I as (ty' & U & E).
    destruct (comp_section_spec _ _ _ _ _ _ E) as (t & rows & D & T' & _ & _ & M & S).
    rewrite T in T'. subst ty'. split; [exact (proj1 (unique_in _ _) U)|].
    rewrite S in R. apply drop_nan_in in R. destruct R as (os & J & X & ->).
    apply (rmapM_in _ _ _ M) in J. destruct J as ((a' & vs) & J & F).
    destruct (find_comp n a') as [c0|] eqn:FC; [|discriminate]. injection F as -> <-.
    exists t, vs, c0. auto.
  - destruct I as [I|[]]. subst c. apply conn_title in Hn. congruence.
  - apply (rmapM_in _ _ _ Hb) in I. destruct I as (b & _ & E). apply bus_title in E.
    exfalso. apply (NB (b_label b)). congruence.
Qed.

Lemma row_cells_print show colored k c : forall cols vs,
  pc_print c = true -> length vs = length cols -> cols <> [] -> 
  exists s, In (Some s) (row_cells show colored k c cols vs).
Proof.
  intros [|p cols] [|v vs] P L N; try discriminate; [now destruct N|].
  unfold row_cells. cbn [combine map]. destruct v as [q|s]; [|exists s; left; reflexivity].
  unfold print_components. rewrite P. destruct (negb colored); [eexists; left; reflexivity|].
  destruct (lt_val _ _ || gt_val _ _); [eexists; left; reflexivity|].
  destruct (q_var _); [eexists; left; reflexivity|]. destruct (q_set _); eexists; left; reflexivity.
Qed.
Lemma row_cells_hidden show colored k c : forall cols vs,
  pc_print c = false -> Forall (fun v => exists q, v = Num q) vs ->
  forall o, In o (row_cells show colored k c cols vs) -> o = None.
Proof.
  intros cols vs P F o I. unfold row_cells in I. apply in_map_iff in I. destruct I as ((p & v) & E & J).
  apply in_combine_r in J. rewrite Forall_forall in F. destruct (F _ J) as (q & ->).
  unfold print_components in E. rewrite P in E. auto.
Qed.

Lemma plain_cells show k c : forall cols vs,
  pc_print c = true -> length vs = length cols -> Forall (fun v => exists q, v = Num q) vs ->
  cells_of show false k c cols vs = map (fun v => Text (show v)) vs.
Proof.
  unfold cells_of, row_cells. intros cols vs P. revert cols.
  induction vs as [|v vs IH]; intros [|p cols] L F; try discriminate; [reflexivity|].
  inversion F as [|x y (q & ->) F']; subst. cbn [combine map]. unfold print_components at 1. rewrite P.
  cbn. f_equal. apply IH; [now injection L|assumption].
Qed.

(** A component is in the table of its type exactly if it is not hidden, with all its values. *)
Lemma component_listed : forall show colored k n l c t vs,
  well_formed n -> print_results show colored k n = Ok l -> In c (n_comps n) ->
  dget (pc_type c) (n_results n) = Some t -> t_cols t <> [] -> NoDup (map fst (t_rows t)) ->
  In (pc_label c, vs) (t_rows t) -> pc_type c <> "Connection"%string -> not_bus_title (pc_type c) ->
  (mentions l (pc_type c) (pc_label c) <-> pc_print c = true) /\
  (colored = false -> forall cells, shows l (pc_type c) (pc_label c) cells ->
     cells = map (fun v => Text (show v)) vs).
Proof.
  intros show colored k n l c t vs W H I D N U R NC NB.
  assert (V : length vs = length (t_cols t) /\ Forall (fun v => exists q, v = Num q) vs)
    by (eapply wf_numbers; eauto).
  destruct V as [V1 V2].
  assert (Uniq : forall vs', In (pc_label c, vs') (t_rows t) -> vs' = vs).
  { intros vs' J. clear -U R J. induction (t_rows t) as [|[a b] r IH]; [destruct R|].
    simpl in U. inversion U as [|x y Na U']; subst.
    destruct R as [E|R], J as [E'|J].
    - congruence.
    - injection E as -> ->. exfalso. apply Na. apply (in_map fst) in J. exact J.
    - injection E' as -> ->. exfalso. apply Na. apply (in_map fst) in R. exact R.
    - auto. }
  pose proof (find_comp_some n c (wf_comps n W) I) as Fc.
  assert (Only : forall cells, shows l (pc_type c) (pc_label c) cells ->
     pc_print c = true /\ cells = cells_of show colored k c (t_cols t) vs).
  { intros cells S. destruct (comp_shows _ _ _ _ _ _ _ _ H NC NB S) as (_ & t' & vs' & c' & D' & R' & F' & (s & X) & E).
    assert (t' = t) by congruence. subst t'. assert (c' = c) by congruence. subst c'.
    pose proof (Uniq _ R'). subst vs'. split; [|assumption].
    destruct (pc_print c) eqn:P; [reflexivity|].
    pose proof (row_cells_hidden show colored k c _ _ P V2 _ X). discriminate. }
  split.
  - split; [intros (cells & S); now apply Only in S|]. intros P.
    destruct (print_parts _ _ _ _ _ H) as (cs & cc & bs & Hc & Hn & Hb & ->).
    assert (Ty : In (pc_type c) (unique (map pc_type (n_comps n)))) by (apply (proj2 (unique_in _ _)); now apply in_map).
    destruct (rmapM_each _ _ _ _ Hc Ty) as (o & E & J).
    destruct (row_cells_print show colored k c (t_cols t) vs P V1 N) as (s0 & S0).
    assert (Row : forall rows, rmapM (fun '(l, vs) => match find_comp n l with None => Err AttributeError
             | Some c => Ok (l, row_cells show colored k c (t_cols t) vs) end) (t_rows t) = Ok rows ->
             In (pc_label c, cells_of show colored k c (t_cols t) vs) (drop_nan rows)).
    { intros rows M. apply drop_nan_in. exists (row_cells show colored k c (t_cols t) vs).
      split; [|split; [eauto|reflexivity]]. apply (rmapM_in _ _ _ M). exists (pc_label c, vs).
      split; [assumption|]. now rewrite Fc. }
    destruct o as [s|].
    + destruct (comp_section_spec _ _ _ _ _ _ E) as (t' & rows & D' & T' & _ & _ & M & S).
      assert (t' = t) by congruence. subst t'.
      exists (cells_of show colored k c (t_cols t) vs). exists s. split; [|split; [assumption|]].
      * rewrite !in_app_iff, keep_in. auto.
      * rewrite S. now apply Row.
    + exfalso. unfold comp_section in E. rewrite D in E.
      destruct (t_cols t) as [|c0 cols] eqn:C; [now destruct N|].
      destruct (t_rows t) as [|r0 rs] eqn:Rr; [destruct R|]. rewrite <- C, <- Rr in *.
      destruct (rmapM _ (t_rows t)) as [rows|] eqn:M; [|discriminate]. cbn [rbind] in E.
      specialize (Row _ eq_refl). destruct (drop_nan rows); [destruct Row|discriminate].
  - intros -> cells S. destruct (Only _ S) as [P ->]. now apply plain_cells.
Qed.

(** Colours. *)
Lemma lt_val_iff v x : lt_val v x = true <-> exists q, v = Some q /\ (q < x)%Q.
Proof.
  unfold lt_val. destruct v as [q|].
  - destruct (Qlt_le_dec q x) as [H|H]; split; intros K; eauto; try discriminate.
    destruct K as (q' & E & L). injection E as ->. lra.
  - split; [discriminate|intros (q & E & _); discriminate].
Qed.
Lemma gt_val_iff v x : gt_val v x = true <-> exists q, v = Some q /\ (x < q)%Q.
Proof.
  unfold gt_val. destruct v as [q|].
  - destruct (Qlt_le_dec x q) as [H|H]; split; intros K; eauto; try discriminate.
    destruct K as (q' & E & L). injection E as ->. lra.
  - split; [discriminate|intros (q & E & _); discriminate].
Qed.
Lemma off_iff p v : lt_val v (q_min p - ERR) || gt_val v (q_max p + ERR) = true <-> off_limits p v.
Proof.
  rewrite orb_true_iff, lt_val_iff, gt_val_iff. unfold off_limits, ERR. split.
  - intros [(q & E & H)|(q & E & H)]; exists q; auto.
  - intros (q & E & [H|H]); [left|right]; eauto.
Qed.

Lemma colours_mean : forall show k c p v,
  pc_print c = true ->
  let wrap (m : string) := Some (m ++ " " ++ show (Num v) ++ " " ++ c_end k)%string in
  let cell := print_components show true k c p v in
  (off_limits (pc_param c p) v -> cell = wrap (c_err k)) /\
  (~ off_limits (pc_param c p) v ->
     (q_var (pc_param c p) = true -> cell = wrap (c_var k)) /\
     (q_var (pc_param c p) = false -> q_set (pc_param c p) = true -> cell = wrap (c_set k)) /\
     (q_var (pc_param c p) = false -> q_set (pc_param c p) = false -> cell = Some (show (Num v)))).
Proof.
  intros show k c p v P wrap cell. subst cell. unfold print_components. rewrite P. cbn [negb]. cbv zeta.
  destruct (lt_val v _ || gt_val v _) eqn:E.
  - apply off_iff in E. split; [reflexivity|contradiction].
  - assert (N : ~ off_limits (pc_param c p) v) by (rewrite <- off_iff, E; discriminate).
    split; [contradiction|]. intros _.
    split; [intros ->; reflexivity|]. split; [intros -> ->; reflexivity|intros -> ->; reflexivity].
Qed.
