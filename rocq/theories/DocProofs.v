(** Proofs about the report. Source: see DocModel.v. *)
From Coq Require Import QArith Lia.
From Verif Require Import Base DocModel DocSpec.
Open Scope nat_scope.

Lemma place_rows : forall figs n,
  length figs <= 2 * n ->
  flat_map (fun row => slice figs row) (seq 0 n) = figs.
Proof.
  intros figs n. revert figs. induction n as [|n IH]; intros figs H.
  - destruct figs; cbn in *; [reflexivity|lia].
  - cbn [seq flat_map]. rewrite <- seq_shift. rewrite flat_map_concat_map, map_map, <- flat_map_concat_map.
    unfold slice at 1. cbn [Nat.mul skipn].
    rewrite (flat_map_ext _ (fun row => slice (skipn 2 figs) row)).
    2:{ intros r. unfold slice. f_equal.
        replace (2 * S r) with (S (S (2 * r))) by lia. destruct figs as [|x [|y figs]]; cbn [skipn]; [| |reflexivity];
          now rewrite !skipn_nil. }
    rewrite IH.
    + apply firstn_skipn.
    + rewrite skipn_length. lia.
Qed.
Lemma figures_placed : forall figs, figures_in (place_figures figs) = figs.
Proof.
  intros figs. unfold place_figures.
  transitivity (flat_map (fun row => slice figs row) (seq 0 (length figs / 2 + 1))).
  - generalize (seq 0 (length figs / 2 + 1)) as rs. induction rs as [|r rs IH]; [reflexivity|].
    cbn [flat_map]. unfold figures_in in *. rewrite flat_map_app, IH. f_equal.
    rewrite flat_map_app. cbn [flat_map app]. rewrite app_nil_r. generalize (slice figs r) as sl.
    induction sl as [|f l IHl]; [reflexivity|]. cbn in *. now rewrite IHl.
  - apply place_rows. pose proof (Nat.div_mod (length figs) 2 ltac:(lia)).
    pose proof (Nat.mod_upper_bound (length figs) 2 ltac:(lia)). lia.
Qed.
Lemma figures_rows : forall figs,
  exists rows : list (list string),
    concat rows = figs
    /\ length rows = length figs / 2 + 1
    /\ Forall (fun r => length r <= 2) rows
    /\ (forall i, S i < length rows -> length (nth i rows []) = 2)
    /\ place_figures figs = flat_map row_text rows.
Proof.
  intros figs. exists (map (slice figs) (seq 0 (length figs / 2 + 1))).
  pose proof (Nat.div_mod (length figs) 2 ltac:(lia)) as D.
  pose proof (Nat.mod_upper_bound (length figs) 2 ltac:(lia)) as M.
  split; [|split; [|split; [|split]]].
  - rewrite <- flat_map_concat_map. apply place_rows. lia.
  - now rewrite map_length, seq_length.
  - apply Forall_forall. intros r Hr. apply in_map_iff in Hr as (i & <- & _).
    unfold slice. rewrite firstn_length. lia.
  - intros i. rewrite map_length, seq_length. intros Hi.
    rewrite (nth_indep _ [] (slice figs 0)) by (rewrite map_length, seq_length; lia).
    rewrite map_nth, seq_nth by lia. unfold slice. rewrite firstn_length, skipn_length. lia.
  - unfold place_figures. rewrite !flat_map_concat_map, map_map. f_equal.
Qed.

(* ---------------------------------------------------------------- tables *)

Lemma smem_In : forall x l, smem x l = true <-> In x l.
Proof.
  intros x l. unfold smem. rewrite existsb_exists. split.
  - intros (y & Hy & E). apply String.eqb_eq in E. now subst.
  - intros H. exists x. split; [exact H|apply String.eqb_refl].
Qed.
Local Arguments smem : simpl never.
Lemma polished_in : forall t l c v,
  In l (t_rows t) -> In c (t_cols t) -> t_val t l c = Some v ->
  In l (t_rows (polished t)) /\ In c (t_cols (polished t)).
Proof.
  intros t l c v Hl Hc Hv. unfold polished; cbn.
  assert (R : In l (filter (fun l0 => existsb (fun c0 => match t_val t l0 c0 with Some _ => true | None => false end) (t_cols t)) (t_rows t))).
  { apply filter_In. split; [exact Hl|]. apply existsb_exists. exists c. now rewrite Hv. }
  split; [exact R|]. apply filter_In. split; [exact Hc|].
  apply existsb_exists. exists l. split; [exact R|]. now rewrite Hv.
Qed.
Lemma conn_specified : forall s spec t l c v,
  In l (t_rows t) -> In c (t_cols t) -> spec l c = true -> t_val t l c = Some v ->
  let '(rows, cols, cells, eqs) := conn_table s spec t in
  In l rows /\ In c cols /\ In c eqs /\ cell_value (cells l c) = Some v
  /\ (c <> "phase"%string -> cells l c = if f_results s then Bold (Some v) else Plain (Some v)).
Proof.
  intros s spec t l c v Hl Hc Hs Hv. unfold conn_table.
  assert (V : t_val (conn_values s spec t) l c = Some v).
  { unfold conn_values; cbn. rewrite Hs, orb_true_r; cbn.
    destruct (f_params s) as [|p ps] eqn:Ep; [exact Hv|].
    replace (existsb (fun r => spec r c) (t_rows t)) with true.
    - rewrite orb_true_r. exact Hv.
    - symmetry. apply existsb_exists. now exists l. }
  destruct (polished_in (conn_values s spec t) l c v Hl Hc V) as [A B].
  split; [exact A|]. split; [exact B|]. split.
  - apply filter_In. split; [exact B|]. apply existsb_exists. exists l. split; [exact A|].
    rewrite Hs. change (t_val (polished (conn_values s spec t)) l c) with (t_val (conn_values s spec t) l c). now rewrite V.
  - unfold conn_cell. change (t_val (polished (conn_values s spec t)) l c) with (t_val (conn_values s spec t) l c).
    rewrite V, Hs. cbn [andb]. split.
    + destruct (String.eqb c "phase"); [reflexivity|]. now destruct (f_results s).
    + intros N. apply String.eqb_neq in N. now rewrite N.
Qed.
Lemma conn_bold : forall s spec t l c v,
  let '(_, _, cells, _) := conn_table s spec t in
  cells l c = Bold v -> spec l c = true /\ f_results s = true.
Proof.
  intros s spec t l c v. unfold conn_table, conn_cell.
  destruct (String.eqb c "phase"); [discriminate|].
  destruct (spec l c), (f_results s); cbn; try discriminate. now split.
Qed.
Lemma conn_inputs_only : forall s spec t l c v,
  f_results s = false ->
  let '(_, _, cells, _) := conn_table s spec t in
  cell_value (cells l c) = Some v -> spec l c = true /\ t_val t l c = Some v.
Proof.
  intros s spec t l c v E. unfold conn_table, conn_cell. rewrite E, andb_false_r.
  assert (Q : cell_value (if String.eqb c "phase" then Plain (t_val (polished (conn_values s spec t)) l c)
                          else Plain (t_val (polished (conn_values s spec t)) l c)) = t_val (conn_values s spec t) l c)
    by (destruct (String.eqb c "phase"); reflexivity).
  intros H. rewrite Q in H. unfold conn_values in H; cbn in H. rewrite E in H; cbn in H.
  destruct (spec l c); cbn in H; [|discriminate].
  split; [reflexivity|]. destruct (f_params s); [exact H|].
  destruct (_ || _); [exact H|discriminate].
Qed.
Lemma conn_equations : forall s spec t c,
  let '(rows, cols, cells, eqs) := conn_table s spec t in
  In c eqs -> In c cols /\ exists l v, In l rows /\ spec l c = true /\ t_val t l c = Some v.
Proof.
  intros s spec t c. unfold conn_table. intros H. apply filter_In in H as [A H].
  split; [exact A|]. apply existsb_exists in H as (l & Hl & H).
  apply andb_true_iff in H as [S H].
  change (t_val (polished (conn_values s spec t)) l c) with (t_val (conn_values s spec t) l c) in H.
  destruct (t_val (conn_values s spec t) l c) as [v|] eqn:V; [|discriminate].
  exists l, v. split; [exact Hl|]. split; [exact S|].
  unfold conn_values in V; cbn in V. now destruct (_ && _) in V.
Qed.
Lemma conn_selected : forall s spec t l c v,
  f_results s = true ->
  let '(rows, cols, cells, eqs) := conn_table s spec t in
  (In l (t_rows t) -> In c (t_cols t) -> t_val t l c = Some v -> In c (f_params s) \/ f_params s = [] ->
   In l rows /\ In c cols /\ cell_value (cells l c) = Some v)
  /\ (In c cols -> f_params s <> [] -> In c (f_params s) \/ exists r, In r (t_rows t) /\ spec r c = true).
Proof.
  intros s spec t l c v E. unfold conn_table. split.
  - intros Hl Hc Hv Hp.
    assert (V : t_val (conn_values s spec t) l c = Some v).
    { unfold conn_values; cbn. rewrite E; cbn. destruct Hp as [Hp|Hp].
      - destruct (f_params s) as [|p ps] eqn:Ep; [exact Hv|].
        apply smem_In in Hp. rewrite Hp. exact Hv.
      - now rewrite Hp. }
    destruct (polished_in (conn_values s spec t) l c v Hl Hc V) as [A B].
    split; [exact A|]. split; [exact B|]. unfold conn_cell.
    change (t_val (polished (conn_values s spec t)) l c) with (t_val (conn_values s spec t) l c). rewrite V.
    destruct (String.eqb c "phase"); [reflexivity|]. now destruct (_ && _).
  - intros Hc Hp. unfold polished in Hc; cbn in Hc. apply filter_In in Hc as [_ Hc].
    apply existsb_exists in Hc as (r & _ & Hr).
    destruct (t_val (conn_values s spec t) r c) as [w|] eqn:V.
    2:{ unfold conn_values in V, Hr; cbn in V, Hr. now rewrite V in Hr. }
    unfold conn_values in V; cbn in V. rewrite E in V; cbn in V.
    destruct (f_params s) as [|p ps] eqn:Ep; [now elim Hp|].
    destruct (smem c (p :: ps)) eqn:M.
    + left. apply smem_In. exact M.
    + right. cbn in V. destruct (existsb (fun r0 => spec r0 c) (t_rows t)) eqn:X; [|discriminate].
      apply existsb_exists in X as (r0 & Hr0 & X). now exists r0.
Qed.

Lemma comp_specified : forall s q t l c,
  In l (t_rows t) -> In c (t_cols t) -> p_spec q l c || p_var q l c = true -> p_latex q c = true ->
  let '(rows, cols, cells) := comp_table s q t in
  In l rows /\ In c cols
  /\ cells l c = if p_var q l c then Italic (t_val t l c)
                 else if f_results s then Bold (t_val t l c) else Plain (t_val t l c).
Proof.
  intros s q t l c Hl Hc Hs Hx. unfold comp_table, comp_cell. split; [exact Hl|]. split.
  - unfold comp_columns; cbn. apply filter_In. split; [exact Hc|]. rewrite Hx. now rewrite orb_true_r.
  - assert (V : t_val (comp_values s q t) l c = t_val t l c).
    { unfold comp_values; cbn. destruct (f_results s).
      - destruct (f_params s) as [|p ps]; [reflexivity|].
        replace (existsb (fun l0 => p_spec q l0 c || p_var q l0 c) (t_rows t)) with true.
        + now rewrite andb_false_r.
        + symmetry. apply existsb_exists. now exists l.
      - now rewrite Hs. }
    rewrite V. destruct (p_var q l c); [reflexivity|]. rewrite orb_false_r in Hs. now rewrite Hs.
Qed.
Lemma comp_inputs_only : forall s q t l c v,
  f_results s = false ->
  let '(_, _, cells) := comp_table s q t in
  cell_value (cells l c) = Some v -> p_spec q l c || p_var q l c = true /\ t_val t l c = Some v.
Proof.
  intros s q t l c v E. unfold comp_table, comp_cell. rewrite E, andb_false_r.
  assert (V : t_val (comp_values s q t) l c = if p_spec q l c || p_var q l c then t_val t l c else None)
    by (unfold comp_values; cbn; now rewrite E).
  intros H. assert (H' : t_val (comp_values s q t) l c = Some v) by (destruct (p_var q l c); exact H).
  rewrite V in H'. destruct (_ || _); [now split|discriminate].
Qed.
Lemma comp_results : forall s q t l c v,
  f_results s = true ->
  let '(_, _, cells) := comp_table s q t in
  cell_value (cells l c) = Some v <->
  t_val t l c = Some v /\ (f_params s = [] \/ In c (f_params s) \/ exists r, In r (t_rows t) /\ p_spec q r c || p_var q r c = true).
Proof.
  intros s q t l c v E. unfold comp_table, comp_cell.
  assert (V : forall x : option Q, cell_value (if p_var q l c then Italic x else if p_spec q l c && f_results s then Bold x else Plain x) = x)
    by (intros; destruct (p_var q l c), (p_spec q l c && f_results s); reflexivity).
  rewrite V. unfold comp_values; cbn. rewrite E. destruct (f_params s) as [|p ps]; [tauto|].
  destruct (smem c (p :: ps)) eqn:M.
  - cbn [negb andb]. apply smem_In in M. tauto.
  - assert (N : ~ In c (p :: ps)) by (rewrite <- smem_In, M; discriminate). cbn [negb andb].
    destruct (existsb (fun l0 => p_spec q l0 c || p_var q l0 c) (t_rows t)) eqn:X; cbn [negb].
    + apply existsb_exists in X. destruct X as (r & R1 & R2). split; [intros H; split; [exact H|]; right; right; eauto|tauto].
    + split; [discriminate|]. intros [_ [H|[H|(r & R1 & R2)]]]; [discriminate|contradiction|].
      assert (T : existsb (fun l0 => p_spec q l0 c || p_var q l0 c) (t_rows t) = true) by (apply existsb_exists; eauto). congruence.
Qed.
Lemma comp_marks : forall s q t l c v,
  let '(_, _, cells) := comp_table s q t in
  (cells l c = Bold v -> p_spec q l c = true /\ p_var q l c = false /\ f_results s = true)
  /\ (cells l c = Italic v <-> p_var q l c = true /\ v = t_val (comp_values s q t) l c).
Proof.
  intros s q t l c v. unfold comp_table, comp_cell.
  destruct (p_var q l c), (p_spec q l c), (f_results s); cbn; (split; [try discriminate; now (split; [|split])|]);
    (split; [intros H; inversion H; now split|intros [A B]; try discriminate; now rewrite B]).
Qed.
Lemma comp_unrestricted : forall s q t,
  let '(rows, cols, _) := comp_table s q t in
  let '(rows', cols', _) := comp_table {| f_results := f_results s; f_params := [] |} q t in
  rows = rows' /\ cols = cols'.
Proof. intros s q t. now split. Qed.
Lemma comp_untold : forall s q t l c,
  In l (t_rows t) -> p_spec q l c || p_var q l c = true -> p_latex q c = false ->
  let '(_, cols, _) := comp_table s q t in ~ In c cols.
Proof.
  intros s q t l c Hl Hs Hx. unfold comp_table, comp_columns. intros H. apply filter_In in H as [_ H].
  rewrite Hx, orb_false_r in H. apply negb_true_iff in H.
  assert (existsb (fun l0 => p_spec q l0 c || p_var q l0 c) (t_rows t) = true) by (apply existsb_exists; now exists l).
  cbn in H. congruence.
Qed.

(* ------------------------------------------------------------ references *)

Lemma refs_err : forall refs e,
  fold_left (fun r (cr : string * list string) => fold_left (fun r (p : string) => rbind r (fun _ => ref_attr "val")) (snd cr) r) refs (Err e) = Err e.
Proof.
  assert (I : forall ps e, fold_left (fun r (p : string) => rbind r (fun _ => ref_attr "val")) ps (Err e) = Err e)
    by (induction ps as [|p ps IH]; intros e; cbn; [reflexivity|apply IH]).
  induction refs as [|cr refs IH]; intros e; cbn; [reflexivity|]. now rewrite I, IH.
Qed.
Lemma refs_fail : forall refs,
  document_refs refs = if existsb (fun cr => negb (Nat.eqb (length (snd cr)) 0)) refs then Err AttributeError else Ok tt.
Proof.
  unfold document_refs. induction refs as [|[l ps] refs IH]; [reflexivity|]. cbn [fold_left existsb snd].
  destruct ps as [|p ps]; [exact IH|]. cbn [length Nat.eqb negb orb fold_left].
  change (rbind (Ok tt) (fun _ => ref_attr "val")) with (@Err unit AttributeError).
  assert (I : fold_left (fun r (p : string) => rbind r (fun _ => ref_attr "val")) ps (Err AttributeError) = Err AttributeError)
    by (induction ps as [|p' ps' IH']; cbn; [reflexivity|apply IH']).
  rewrite I. apply refs_err.
Qed.

(* ----------------------------------------------------------------- paths *)

Lemma app_assoc_s : forall a b c : string, ((a ++ b) ++ c = a ++ (b ++ c))%string.
Proof. induction a as [|x a IH]; intros b c; cbn; [reflexivity|now rewrite IH]. Qed.
Lemma component_figures : forall path name,
  inside (figure_folder path) (figure_file OfComponent path ("figures/" ++ name)).
Proof.
  intros path name. exists name. unfold figure_file, figure_folder, join.
  now rewrite !app_assoc_s.
Qed.
Lemma app_inv_s : forall a b c : string, (a ++ b = a ++ c)%string -> b = c.
Proof. induction a as [|x a IH]; intros b c H; cbn in H; [exact H|]. inversion H. now apply IH. Qed.
Lemma ends_slash_iff : forall s, ends_slash s = true <-> exists q, s = (q ++ "/")%string.
Proof.
  induction s as [|a s IH]; [split; [discriminate|intros (q & H); destruct q; discriminate]|].
  cbn [ends_slash]. destruct s as [|b s].
  - split; [intros H; apply Ascii.eqb_eq in H; subst; now exists ""%string|].
    intros (q & H). destruct q as [|c q]; [injection H as ->; reflexivity|]. injection H as _ H. destruct q; discriminate.
  - rewrite IH. split; intros (q & H).
    + exists (String a q). now rewrite H.
    + destruct q as [|c q]; [discriminate|]. injection H as _ H. now exists q.
Qed.
Lemma other_figures : forall k path name,
  k <> OfComponent ->
  (inside (figure_folder path) (figure_file k path ("figures/" ++ name))
   <-> path = ""%string \/ exists q, path = (q ++ "/")%string).
Proof.
  intros k path name Hk. rewrite <- ends_slash_iff.
  assert (F : figure_file k path ("figures/" ++ name) = (path ++ "figures/" ++ name)%string)
    by (destruct k; [now elim Hk| | |]; reflexivity).
  rewrite F. unfold figure_folder, join, inside.
  destruct (String.eqb path "" || ends_slash path) eqn:E.
  - split.
    + intros _. apply orb_true_iff in E as [E|E]; [left; now apply String.eqb_eq|now right].
    + intros _. exists name. now rewrite !app_assoc_s.
  - apply orb_false_iff in E as [E1 E2]. apply String.eqb_neq in E1. split.
    + intros (n & H). rewrite !app_assoc_s in H. apply app_inv_s in H. discriminate H.
    + intros [H|H]; congruence.
Qed.
