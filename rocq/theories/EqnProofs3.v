From Coq Require Import Reals List String Bool Arith Lra Lia.
From Verif Require Import Base EqnModel EqnSpec EqnProofs EqnProofs2.
Import ListNotations.
Open Scope R_scope.

(* ------------------------------------------------------------- conservation *)
Lemma rsum_minus {A} (f g : A -> R) l :
  rsum (map (fun a => f a - g a) l) = rsum (map f l) - rsum (map g l).
Proof. induction l as [|a l IH]; simpl; [lra|]. rewrite IH. lra. Qed.

Lemma rsum_scal {A} (f : A -> R) k l :
  rsum (map (fun a => f a * k) l) = rsum (map f l) * k.
Proof. induction l as [|a l IH]; simpl; [lra|]. rewrite IH. lra. Qed.

Lemma rsum_zero l : all_zero l -> rsum l = 0.
Proof. induction 1 as [|r l H _ IH]; simpl; [lra|]. rewrite H, IH. lra. Qed.

Lemma rsum_swap {A B} (g : A -> B -> R) (l : list A) (k : list B) :
  rsum (map (fun b => rsum (map (fun a => g a b) l)) k)
  = rsum (map (fun a => rsum (map (g a) k)) l).
Proof.
  induction l as [|a l IH]; simpl.
  - induction k; simpl; [reflexivity|]. rewrite IHk. lra.
  - rewrite <- IH. clear IH. induction k as [|b k IH]; simpl; [lra|]. rewrite IH. lra.
Qed.

Lemma node_mass_conserved inl outl e :
  node_mass_func inl outl e = 0 <-> mass_total e inl = mass_total e outl.
Proof.
  unfold node_mass_func, mass_total. rewrite acc_sub_sum, acc_add_sum. lra.
Qed.

Lemma merge_fluid_val inl o f e :
  merge_fluid_eq inl o f e = species_total e f inl - vx e o f * vm e o.
Proof. unfold merge_fluid_eq, species_total. rewrite acc_add_sum. lra. Qed.

Lemma merge_species inl o e f : all_zero (merge_fluid_func inl o e) -> In f (ckeys o) ->
  species_total e f inl = species_total e f [o].
Proof.
  intros H I. unfold merge_fluid_func, all_zero in H. rewrite Forall_map, Forall_forall in H.
  specialize (H f I). cbv beta in H. rewrite merge_fluid_val in H.
  unfold species_total at 2. simpl. lra.
Qed.

Lemma merge_mass_by_fluids inl o e :
  all_zero (merge_fluid_func inl o e) ->
  (forall c, In c (inl ++ [o]) -> normalised e (ckeys o) c) ->
  mass_total e inl = mass_total e [o].
Proof.
  intros H N. apply rsum_zero in H. unfold merge_fluid_func in H.
  rewrite (rsum_ext _ (fun f => rsum (map (fun i => vx e i f * vm e i) inl)
                                 - vx e o f * vm e o)) in H.
  2:{ intros f _. rewrite merge_fluid_val. reflexivity. }
  rewrite rsum_minus, rsum_scal, (rsum_swap (fun i f => vx e i f * vm e i)) in H.
  assert (No : rsum (map (vx e o) (ckeys o)) = 1)
    by (apply (N o); rewrite in_app_iff; simpl; auto).
  change (rsum (map (fun a => vx e o a) (ckeys o))) with (rsum (map (vx e o) (ckeys o))) in H.
  rewrite No in H.
  rewrite (rsum_ext _ (vm e)) in H.
  2:{ intros i I. rewrite (rsum_scal (vx e i) (vm e i)).
      assert (Ni : normalised e (ckeys o) i) by (apply N; rewrite in_app_iff; auto).
      unfold normalised in Ni. rewrite Ni. lra. }
  unfold mass_total. simpl. lra.
Qed.

Lemma merge_mass_conserved isv inl o e :
  (merge_num_mass_eq isv inl o = 1%nat -> node_mass_func inl [o] e = 0) ->
  all_zero (merge_fluid_func inl o e) ->
  (forall c, In c (inl ++ [o]) -> normalised e (ckeys o) c) ->
  mass_total e inl = mass_total e [o].
Proof. intros _. apply merge_mass_by_fluids. Qed.

Lemma separator_species i0 outl fl e f : all_zero (separator_fluid_func i0 outl fl e) ->
  In f fl -> species_total e f [i0] = species_total e f outl.
Proof.
  intros H I. unfold separator_fluid_func, all_zero in H. rewrite Forall_map, Forall_forall in H.
  specialize (H f I). cbv beta in H. unfold separator_fluid_eq in H. rewrite acc_sub_sum in H.
  unfold species_total. simpl. lra.
Qed.

(** Whatever fluids get no balance share what is left: with normalised
    compositions the remaining fluids are balanced in sum. *)
Lemma separator_rest i0 outl fl rest e :
  node_mass_func [i0] outl e = 0 ->
  all_zero (separator_fluid_func i0 outl fl e) ->
  (forall c, In c (i0 :: outl) -> normalised e (fl ++ rest) c) ->
  rsum (map (fun f => species_total e f [i0]) rest)
  = rsum (map (fun f => species_total e f outl) rest).
Proof.
  intros M H N.
  assert (F : rsum (map (fun f => species_total e f [i0]) fl)
              = rsum (map (fun f => species_total e f outl) fl)).
  { apply rsum_ext. intros f I. now apply (separator_species _ _ fl). }
  apply node_mass_conserved in M.
  assert (T : forall l, (forall c, In c l -> normalised e (fl ++ rest) c) ->
     rsum (map (fun f => species_total e f l) fl)
     + rsum (map (fun f => species_total e f l) rest) = mass_total e l).
  { intros l Nl. rewrite <- rsum_app, <- map_app. unfold species_total.
    rewrite (rsum_swap (fun c f => vx e c f * vm e c)).
    unfold mass_total. apply rsum_ext. intros c Ic. rewrite (rsum_scal (vx e c)).
    specialize (Nl c Ic). unfold normalised in Nl.
    change (rsum (map (fun a => vx e c a) (fl ++ rest))) with (rsum (map (vx e c) (fl ++ rest))).
    rewrite Nl. lra. }
  pose proof (T [i0]) as T1. pose proof (T outl) as T2.
  rewrite <- M in T2.
  assert (A1 := T1 ltac:(intros c [<-|[]]; apply N; simpl; auto)).
  assert (A2 := T2 ltac:(intros c I; apply N; simpl; auto)). lra.
Qed.

(** If one fluid is left over it is balanced as well. *)
Lemma separator_last i0 outl fl g e :
  node_mass_func [i0] outl e = 0 ->
  all_zero (separator_fluid_func i0 outl fl e) ->
  (forall c, In c (i0 :: outl) -> normalised e (fl ++ [g]) c) ->
  species_total e g [i0] = species_total e g outl.
Proof.
  intros M H N. pose proof (separator_rest i0 outl fl [g] e M H N) as R. simpl in R. lra.
Qed.

Lemma drum_mass_conserved i0 i1 o0 o1 e :
  (drum_num_mass_eq i1 o0 = 1%nat -> drum_mass_func i0 i1 o0 o1 e = 0) ->
  (drum_num_mass_eq i1 o0 = 0%nat -> cm i0 = cm o1) ->
  mass_total e [i0; i1] = mass_total e [o0; o1].
Proof.
  unfold drum_num_mass_eq, drum_mass_func, drum_loop.
  destruct (Nat.eqb (cm i1) (cm o0)) eqn:E.
  - intros _ H. specialize (H eq_refl). apply Nat.eqb_eq in E.
    unfold mass_total, vm. simpl. rewrite E, H. lra.
  - intros H _. specialize (H eq_refl). now apply node_mass_conserved in H.
Qed.

(** both reactor equations are present unless a pair of mass flows is fixed *)
Lemma fuel_cell_mass_conserved isv Mo2 Mh2 i1 i2 o1 e :
  Mo2 + 2 * Mh2 <> 0 ->
  isv (QM (cm o1)) = true \/ (isv (QM (cm i1)) = true /\ isv (QM (cm i2)) = true) ->
  all_zero (fuel_cell_mass_func isv Mo2 Mh2 i1 i2 o1 e) ->
  mass_total e [i1; i2] = mass_total e [o1] /\
  vm e i1 * (2 * Mh2) = vm e i2 * Mo2.
Proof.
  intros Z V H. unfold fuel_cell_mass_func in H.
  assert (A : isv (QM (cm i1)) || isv (QM (cm o1)) = true)
    by (destruct V as [->|[-> _]]; auto using orb_true_r).
  assert (B : isv (QM (cm i2)) || isv (QM (cm o1)) = true)
    by (destruct V as [->|[_ ->]]; auto using orb_true_r).
  rewrite A, B in H. simpl in H. inversion H as [|? ? H1 H']; subst.
  inversion H' as [|? ? H2 _]; subst. unfold mass_total. simpl. split; [lra|].
  replace (vm e i1) with (o2_share Mo2 Mh2 * vm e o1) by lra.
  replace (vm e i2) with ((1 - o2_share Mo2 Mh2) * vm e o1) by lra.
  unfold o2_share. field. exact Z.
Qed.

Lemma electrolyzer_mass_conserved isv Mo2 Mh2 i1 o1 o2 e :
  Mo2 + 2 * Mh2 <> 0 ->
  isv (QM (cm i1)) = true \/ (isv (QM (cm o1)) = true /\ isv (QM (cm o2)) = true) ->
  all_zero (electrolyzer_mass_func isv Mo2 Mh2 i1 o1 o2 e) ->
  mass_total e [i1] = mass_total e [o1; o2] /\
  vm e o1 * (2 * Mh2) = vm e o2 * Mo2.
Proof.
  intros Z V H. unfold electrolyzer_mass_func in H.
  assert (A : isv (QM (cm i1)) || isv (QM (cm o1)) = true)
    by (destruct V as [->|[-> _]]; auto using orb_true_r).
  assert (B : isv (QM (cm i1)) || isv (QM (cm o2)) = true)
    by (destruct V as [->|[_ ->]]; auto using orb_true_r).
  rewrite A, B in H. simpl in H. inversion H as [|? ? H1 H']; subst.
  inversion H' as [|? ? H2 _]; subst. unfold mass_total. simpl. split; [lra|].
  replace (vm e o1) with (o2_share Mo2 Mh2 * vm e i1) by lra.
  replace (vm e o2) with ((1 - o2_share Mo2 Mh2) * vm e i1) by lra.
  unfold o2_share. field. exact Z.
Qed.

(* ------------------------------------------------------------------- energy *)
Lemma hx_energy_conserved i1 i2 o1 o2 e : cm i1 = cm o1 -> cm i2 = cm o2 ->
  (hx_energy_func i1 i2 o1 o2 e = 0 <->
   enthalpy_total e [i1; i2] = enthalpy_total e [o1; o2]).
Proof.
  intros A B. unfold hx_energy_func, enthalpy_total, vm. simpl. rewrite A, B. lra.
Qed.

Lemma merge_energy_conserved inl o e :
  merge_energy_func inl o e = 0 <-> enthalpy_total e inl = enthalpy_total e [o].
Proof.
  unfold merge_energy_func, enthalpy_total. rewrite acc_add_sum. simpl. lra.
Qed.

Lemma droplet_energy_conserved inl outl e :
  droplet_energy_func inl outl e = 0 <-> enthalpy_total e inl = enthalpy_total e outl.
Proof.
  unfold droplet_energy_func, enthalpy_total. rewrite acc_sub_sum, acc_add_sum. lra.
Qed.

Lemma splitter_energy_conserved i0 outl e :
  node_mass_func [i0] outl e = 0 -> all_zero (splitter_energy_func i0 outl e) ->
  enthalpy_total e [i0] = enthalpy_total e outl.
Proof.
  intros M H. apply node_mass_conserved in M. unfold mass_total in M. simpl in M.
  unfold splitter_energy_func, all_zero in H. rewrite Forall_map, Forall_forall in H.
  unfold enthalpy_total.
  rewrite (rsum_ext (fun c => vm e c * vh e c) (fun c => vm e c * vh e i0) outl).
  - rewrite (rsum_scal (vm e)). simpl.
    change (rsum (map (fun a => vm e a) outl)) with (rsum (map (vm e) outl)).
    rewrite <- M. lra.
  - intros c I. specialize (H c I). cbv beta in H. f_equal. lra.
Qed.

Lemma drum_energy_conserved i0 i1 o0 o1 e :
  (drum_num_mass_eq i1 o0 = 0%nat -> cm i0 = cm o1) ->
  (drum_energy_func i0 i1 o0 o1 e = 0 <->
   enthalpy_total e [i0; i1] = enthalpy_total e [o0; o1]).
Proof.
  unfold drum_energy_func, drum_num_mass_eq, drum_loop.
  destruct (Nat.eqb (cm i1) (cm o0)) eqn:E; intros H.
  - specialize (H eq_refl). apply Nat.eqb_eq in E.
    unfold enthalpy_total, vm. simpl. rewrite E, H. lra.
  - apply droplet_energy_conserved.
Qed.

Lemma equality_energy_conserved ports e :
  Forall (fun io => cm (fst io) = cm (snd io)) ports ->
  all_zero (enthalpy_equality_func ports e) ->
  enthalpy_total e (map fst ports) = enthalpy_total e (map snd ports).
Proof.
  intros M H. unfold enthalpy_equality_func, all_zero in H. rewrite Forall_map in H.
  unfold enthalpy_total. rewrite !map_map. apply rsum_ext. intros io I.
  rewrite Forall_forall in M, H. specialize (M io I). specialize (H io I).
  cbv beta in H. unfold vm. rewrite M. f_equal. lra.
Qed.

Lemma flow_energy_conserved i o P e : cm i = cm o ->
  (flow_energy_func i o P e = 0 <->
   enthalpy_total e [o] - enthalpy_total e [i] = pval e P).
Proof.
  intros A. unfold flow_energy_func, enthalpy_total, vm. simpl. rewrite A. lra.
Qed.

Lemma fuel_cell_energy_conserved hw ho hh e0 i0 i1 i2 o0 o1 P e :
  cm i0 = cm o0 ->
  (fuel_cell_energy_func hw ho hh e0 i0 i1 i2 o0 o1 P e = 0 <->
   enthalpy_total e [i0; i1; i2] - enthalpy_total e [o0; o1]
   = pval e P + vm e i2 * e0 + (vm e i2 * hh + vm e i1 * ho - vm e o1 * hw)).
Proof.
  intros A. unfold fuel_cell_energy_func, enthalpy_total. simpl.
  replace (vm e o0) with (vm e i0) by (unfold vm; now rewrite A). lra.
Qed.

Lemma electrolyzer_energy_conserved hw ho hh e0 i0 i1 o0 o1 o2 P e :
  cm i0 = cm o0 ->
  (electrolyzer_energy_func hw ho hh e0 i0 i1 o0 o1 o2 P e = 0 <->
   enthalpy_total e [o0; o1; o2] - enthalpy_total e [i0; i1]
   = pval e P - vm e o2 * e0 + (vm e o1 * ho + vm e o2 * hh - vm e i1 * hw)).
Proof.
  intros A. unfold electrolyzer_energy_func, enthalpy_total. simpl.
  replace (vm e o0) with (vm e i0) by (unfold vm; now rewrite A). lra.
Qed.

(* ------------------------------------------------------------ only unknowns *)
Section Only.
Variable isv : qty -> bool.
Notation ou := (only_unknowns isv).

Lemma ou_nil : ou []. Proof. intros q v []. Qed.
Lemma ou_app a b : ou a -> ou b -> ou (a ++ b).
Proof. intros A B q v H. apply in_app_iff in H as [H|H]; eauto. Qed.
Lemma ou_wr q v : ou (wr (isv q) q v).
Proof.
  unfold wr. destruct (isv q) eqn:E; [|apply ou_nil].
  intros k w [H|[]]. injection H as <- <-. exact E.
Qed.
Lemma ou_wr_and b q v : ou (wr (isv q && b) q v).
Proof.
  unfold wr. destruct (isv q) eqn:E; [|apply ou_nil]. destruct b; [|apply ou_nil].
  intros k w [H|[]]. injection H as <- <-. exact E.
Qed.
Lemma ou_wr_var filt q v : ou (wr (is_variable isv filt q) q v).
Proof. unfold is_variable. apply ou_wr_and. Qed.
Lemma ou_flat {A} (g : A -> list write) l : (forall a, ou (g a)) -> ou (flat_map g l).
Proof. intros H q v I. apply in_flat_map in I as (a & _ & I). now apply (H a) in I. Qed.
Lemma ou_param p v : (forall c, p = PVar c -> isv (QC c) = true) -> ou (wr_param p v).
Proof.
  intros H. destruct p; simpl; [|apply ou_nil].
  intros q w [X|[]]. injection X as <- <-. now apply H.
Qed.

Ltac ous := repeat first
  [ apply ou_nil | apply ou_app | apply ou_wr | apply ou_wr_and | apply ou_wr_var
  | apply ou_flat; intro | apply ou_param; assumption ].

Lemma ou_nodes inl outl i0 o f e :
  ou (node_mass_writes isv inl outl) /\ ou (node_pressure_row isv i0 o) /\
  ou (merge_fluid_writes isv inl o f e) /\ ou (merge_energy_writes isv inl o e) /\
  ou (splitter_energy_row isv i0 o) /\ ou (separator_fluid_writes isv i0 outl f e) /\
  ou (droplet_energy_writes isv inl outl e).
Proof.
  unfold node_mass_writes, node_pressure_row, merge_fluid_writes, merge_energy_writes,
    splitter_energy_row, separator_fluid_writes, droplet_energy_writes.
  repeat apply conj; ous.
Qed.

Lemma ou_drum i0 i1 o0 o1 e dhs q it :
  ou (drum_mass_writes isv i0 i1 o0 o1) /\ ou (drum_energy_writes isv i0 i1 o0 o1 e) /\
  ou (droplet_outlet_row isv dhs q o0 it e).
Proof.
  unfold drum_mass_writes, drum_energy_writes, droplet_outlet_row,
   node_mass_writes, droplet_energy_writes.
  destruct (drum_loop i1 o0); repeat apply conj; ous.
Qed.

Lemma ou_components filt i o i1 i2 o1 o2 eff it eta e :
  ou (pressure_equality_row isv i o) /\ ou (enthalpy_equality_row isv i o) /\
  ou (dp_writes isv i o) /\ ou (hx_hot_writes isv i o e) /\
  ou (hx_energy_writes isv filt i1 i2 o1 o2 e) /\ ou (hx_kA_entry isv i1 o1 e) /\
  ou (hx_eff_cold_entry isv i2 eff) /\ ou (hx_eff_hot_entry isv i1 eff) /\
  ou (sat_entry isv o) /\ ou (pump_eta_entry isv filt o eta e) /\
  ou (turbine_eta_entry isv o it) /\ ou (cone_entry isv i) /\
  ou (char_map_pr_entry isv filt i o e) /\ ou (dp_char_entries isv filt i o).
Proof.
  unfold pressure_equality_row, enthalpy_equality_row, dp_writes, hx_hot_writes,
    hx_energy_writes, hx_side_writes, hx_kA_entry, hx_eff_cold_entry, hx_eff_hot_entry,
    sat_entry, pump_eta_entry, turbine_eta_entry, cone_entry, char_map_pr_entry,
    dp_char_entries.
  repeat apply conj; ous.
Qed.

Lemma ou_connections q r factor vol c e :
  ou (ref_writes isv q r factor) /\ ou (v_entry isv vol c e) /\ ou (x_entry isv c).
Proof. unfold ref_writes, v_entry, x_entry. repeat apply conj; ous. Qed.

Lemma ou_params i o hw ho hh e0 i0 i1 i2 o0 o1 o2 hc P en e :
  (forall c, P = PVar c -> isv (QC c) = true) ->
  (forall c, en = PVar c -> isv (QC c) = true) ->
  ou (flow_energy_writes isv i o P e) /\
  ou (fuel_cell_energy_writes isv hw ho hh e0 i0 i1 i2 o0 o1 P e) /\
  ou (electrolyzer_energy_writes isv hw ho hh e0 i0 i1 o0 o1 o2 P e) /\
  ou (fuel_cell_eta_writes isv e0 hc P en e) /\
  ou (electrolyzer_eta_writes isv e0 hc P en e) /\
  ou (spec_energy_writes isv hc P en e).
Proof.
  intros H1 H2. unfold flow_energy_writes, fuel_cell_energy_writes,
    electrolyzer_energy_writes, fuel_cell_eta_writes, electrolyzer_eta_writes,
    spec_energy_writes.
  repeat apply conj; ous.
Qed.

Lemma ou_reactor_mass Mo2 Mh2 i1 i2 o1 o2 :
  Forall ou (fuel_cell_mass_rows isv Mo2 Mh2 i1 i2 o1) /\
  Forall ou (electrolyzer_mass_rows isv Mo2 Mh2 i1 o1 o2).
Proof.
  unfold fuel_cell_mass_rows, electrolyzer_mass_rows.
  split; apply Forall_app; split.
  - destruct (_ || _); constructor; [ous|constructor].
  - constructor; [ous|constructor].
  - destruct (_ || _); constructor; [ous|constructor].
  - constructor; [ous|constructor].
Qed.

(* ------------------------------------------------------------------- counts *)
Lemma node_pressure_count i0 rest outl e : (1 <= List.length (i0 :: rest))%nat ->
  List.length (node_pressure_func i0 (node_others (i0 :: rest) outl) e)
  = (List.length (i0 :: rest) + List.length outl - 1)%nat.
Proof.
  intros _. unfold node_pressure_func, node_others. simpl.
  rewrite map_length, app_length. lia.
Qed.

Lemma nodup_flat_le inl o n : (forall c, In c (inl ++ [o]) -> ckeys c = ckeys o) ->
  List.length (ckeys o) = n -> NoDup (ckeys o) ->
  (List.length (merge_variable_fluids isv inl o) <= n)%nat.
Proof.
  intros K L N. rewrite <- L. apply NoDup_incl_length; [apply NoDup_nodup|].
  intros f H. unfold merge_variable_fluids in H. apply nodup_In in H.
  apply in_flat_map in H as (c & Ic & H). apply filter_In in H as [H _].
  now rewrite <- (K c Ic).
Qed.

Lemma merge_fluid_count inl o i0 e :
  List.length (ckeys i0) = List.length (ckeys o) ->
  (merge_num_fluid_eq isv inl o i0 = List.length (merge_fluid_func inl o e) <->
   merge_variable_fluids isv inl o = [] \/
   List.length (merge_variable_fluids isv inl o) = List.length (ckeys o)).
Proof.
  intros K. unfold merge_num_fluid_eq, merge_fluid_func. rewrite map_length.
  destruct (merge_variable_fluids isv inl o) as [|x l]; simpl.
  - split; auto.
  - split; intros H; [right; exact H|]. now destruct H.
Qed.

Lemma separator_fluid_count i0 outl fset fl e :
  separator_fluids isv i0 outl fset = Ok fl ->
  List.length (separator_fluid_func i0 outl fl e) = List.length fl /\ fl <> [] /\ NoDup fl.
Proof.
  intros H. unfold separator_fluid_func. rewrite map_length. split; [reflexivity|].
  unfold separator_fluids in H.
  pose proof (NoDup_nodup string_dec (flat_map (var_fluids isv) (i0 :: outl))) as N.
  destruct (nodup string_dec (flat_map (var_fluids isv) (i0 :: outl))) as [|x l].
  - destruct fset as [|f r]; [discriminate|]. injection H as <-.
    split; [discriminate|]. repeat constructor. intros [].
  - injection H as <-. split; [discriminate|exact N].
Qed.

Lemma electrolyzer_count Mo2 Mh2 i1 o1 o2 e :
  List.length (electrolyzer_mass_func isv Mo2 Mh2 i1 o1 o2 e)
  = electrolyzer_num_mass_eq isv i1 o1 o2.
Proof.
  unfold electrolyzer_mass_func, electrolyzer_num_mass_eq.
  destruct (_ || _); destruct (_ || _); reflexivity.
Qed.

(** The fuel cell announces its equations if the oxygen inlet mass flow is an
    unknown; then the numbers agree unless hydrogen inlet and water outlet are
    both fixed. *)
Lemma fuel_cell_count Mo2 Mh2 i1 i2 o0 o1 e : isv (QM (cm i1)) = true ->
  fuel_cell_num_mass_eq isv i1 [o0; o1] = Ok 2%nat /\
  (List.length (fuel_cell_mass_func isv Mo2 Mh2 i1 i2 o1 e) = 2%nat <->
   isv (QM (cm i2)) = true \/ isv (QM (cm o1)) = true).
Proof.
  intros V. unfold fuel_cell_num_mass_eq, fuel_cell_mass_func. simpl. rewrite V. simpl.
  split; [reflexivity|].
  destruct (isv (QM (cm i2))), (isv (QM (cm o1))); simpl; split;
    intros H; auto; try discriminate; destruct H; discriminate.
Qed.

Lemma fuel_cell_raises i1 o0 o1 : isv (QM (cm i1)) = false ->
  fuel_cell_num_mass_eq isv i1 [o0; o1] = Err IndexError.
Proof. intros V. unfold fuel_cell_num_mass_eq. simpl. now rewrite V. Qed.

(* ----------------------------------------------------------- pressure ratio *)
Lemma pr_gradient inl outl k i o pr e : nth_error inl k = Some i -> nth_error outl k = Some o -> cid i <> cid o ->
  exists f ws, (forall e, pr_func inl outl pr k k e = Ok (f e) /\ (f e = 0 <-> vp e o = pval e pr * vp e i))
  /\ pr_deriv isv inl outl pr k k
      (Some (match pr with PVar v => Some v | PVal _ => None end)) e
    = Ok (map (fun w => (Some (fst w), snd w)) ws)
  /\ row_is_gradient isv f ws e
  /\ ((forall c, pr = PVar c -> isv (QC c) = true) -> ou ws).
Proof.
  intros A0 B0 N. exists (fun e => vp e i * pval e pr - vp e o).
  exists ((wr (isv (QP (cid i))) (QP (cid i)) (pval e pr)
          ++ wr (isv (QP (cid o))) (QP (cid o)) (-1)) ++ wr_param pr (vp e i)).
  split; [|split; [|split]].
  - intros e'. unfold pr_func. rewrite A0, B0. split; [reflexivity|]. split; lra.
  - unfold pr_deriv. rewrite A0, B0. simpl. rewrite (map_app _ (_ ++ _) (wr_param pr (vp e i))).
    destruct pr; simpl; [reflexivity|]. now rewrite app_nil_r.
  - apply gradient_by_sum.
    + intros q Hq. eapply p_eq.
      * apply p_sub; [|apply p_qty].
        apply p_mul; [presp|apply r_pval|apply p_qty|apply p_param].
      * rewrite !wsum_app, !wsum_wr by exact Hq. rewrite wsum_pcol. unfold vp. lra.
    + intros q _. rewrite !wcnt_app. pose proof (wcnt_pcol q pr (vp e i)) as Wp.
      pose proof (wcnt_wr (isv (QP (cid i))) q (QP (cid i)) (pval e pr)) as W1.
      pose proof (wcnt_wr (isv (QP (cid o))) q (QP (cid o)) (-1)) as W2.
      destruct q as [a|a|a|a f|u]; cbn [qty_eqb] in W1, W2; cbn iota in Wp; try lia.
      destruct (Nat.eqb a (cid i)) eqn:A, (Nat.eqb a (cid o)) eqn:B; try lia.
      apply Nat.eqb_eq in A, B. congruence.
  - intros H. ous.
Qed.

End Only.

(* ---------------------------------------------------------- shared unknowns *)
Lemma hx_shared_partial isv filt i1 i2 o1 o2 e : cm i1 = cm i2 ->
  isv (QM (cm i1)) = true -> filt (QM (cm i1)) = false ->
  partial_is (hx_energy_func i1 i2 o1 o2) e (QM (cm i1))
    ((vh e o1 - vh e i1) + (vh e o2 - vh e i2)) /\
  entry (hx_energy_writes isv filt i1 i2 o1 o2 e) (QM (cm i1)) = vh e o2 - vh e i2.
Proof.
  intros E V F. split.
  - eapply p_eq; [now apply (hx_energy_deriv_sum isv filt)|].
    unfold hx_energy_writes, hx_side_writes.
    rewrite !wsum_app, !wsum_wr_filt by assumption.
    unfold delta. simpl. rewrite <- E, Nat.eqb_refl. lra.
  - rewrite E in *. now apply hx_shared_entry.
Qed.

Lemma not_gradient isv f ws e q d : isv q = true -> partial_is f e q d ->
  entry ws q <> d -> ~ row_is_gradient isv f ws e.
Proof. intros V D N H. apply N. exact (uniqueness_limite _ _ _ _ (H q V) D). Qed.

Lemma not_gradient_filt isv filt f ws e q d : isv q = true -> filt q = false ->
  partial_is f e q d -> entry ws q <> d -> ~ row_is_gradient_filtered isv filt f ws e.
Proof. intros V F D N H. apply N. exact (uniqueness_limite _ _ _ _ (H q V F) D). Qed.

Lemma merge_shared_partial isv i1 i2 o f e :
  cf i1 = cf i2 -> cf o <> cf i1 -> isv (QF (cf i1) f) = true ->
  partial_is (merge_fluid_eq [i1; i2] o f) e (QF (cf i1) f) (vm e i1 + vm e i2) /\
  entry (merge_fluid_writes isv [i1; i2] o f e) (QF (cf i1) f) = vm e i2.
Proof.
  intros E N V. split.
  - eapply p_eq.
    + unfold merge_fluid_eq. simpl. unfold acc_add. simpl. pderiv.
    + unfold delta, vm, vx. simpl. rewrite <- E, Nat.eqb_refl, String.eqb_refl. simpl.
      destruct (Nat.eqb (cf i1) (cf o)) eqn:X; [apply Nat.eqb_eq in X; congruence|].
      simpl. lra.
  - unfold entry, merge_fluid_writes. simpl. rewrite !run_writes_app, <- E, V.
    rewrite run_writes0.
    2:{ pose proof (wcnt_wr (isv (QF (cf o) f)) (QF (cf i1) f) (QF (cf o) f) (- vm e o)) as W.
        cbn [qty_eqb] in W.
        destruct (Nat.eqb (cf i1) (cf o)) eqn:X; [apply Nat.eqb_eq in X; congruence|].
        simpl in W. apply Nat.le_0_r. exact W. }
    rewrite run_writes0.
    2:{ pose proof (wcnt_wr (isv (QM (cm o))) (QF (cf i1) f) (QM (cm o)) (- vx e o f)) as W.
        cbn [qty_eqb] in W. apply Nat.le_0_r. exact W. }
    simpl. unfold set_entry. simpl. now rewrite Nat.eqb_refl, String.eqb_refl.
Qed.

(* ------------------------------------------------------- composition columns *)
Lemma fold_plus_sum l x : fold_left Rplus l x = x + rsum l.
Proof. revert x. induction l as [|a l IH]; intros x; simpl; [lra|]. rewrite IH. lra. Qed.

Lemma fluid_balance_partial a fixed vars f e :
  NoDup vars -> In f vars -> ~ In f fixed ->
  partial_is (fluid_balance_func a fixed vars) e (QF a f) (-1).
Proof.
  intros N I NI.
  apply p_ext with (f := fun e => 1 - rsum (map (fun g => e (QF a g)) fixed)
                                 - rsum (map (fun g => e (QF a g)) vars)).
  { intros e'. unfold fluid_balance_func. rewrite !fold_plus_sum. lra. }
  assert (S : forall l e, partial_is (fun e => rsum (map (fun g => e (QF a g)) l)) e (QF a f)
     (rsum (map (fun g => delta (QF a f) (QF a g)) l))).
  { clear. intros l e. induction l as [|g l IH]; simpl; [apply p_const|].
    apply (p_add (fun e => e (QF a g))); [apply p_qty|exact IH]. }
  assert (D : forall l, NoDup l -> rsum (map (fun g => delta (QF a f) (QF a g)) l)
     = if in_dec string_dec f l then 1 else 0).
  { clear. induction l as [|g l IH]; intros N; simpl; [reflexivity|].
    inversion N as [|? ? N1 N2]; subst. rewrite (IH N2). unfold delta. simpl.
    rewrite Nat.eqb_refl. simpl.
    destruct (string_dec g f) as [->|X].
    - rewrite String.eqb_refl. destruct (in_dec string_dec f l); [contradiction|lra].
    - destruct (String.eqb f g) eqn:Y; [apply String.eqb_eq in Y; congruence|].
      destruct (in_dec string_dec f l); lra. }
  assert (Z : forall l, ~ In f l -> rsum (map (fun g => delta (QF a f) (QF a g)) l) = 0).
  { clear. induction l as [|g l IH]; intros N; simpl; [reflexivity|].
    rewrite IH by (simpl in N; tauto). unfold delta. simpl. rewrite Nat.eqb_refl. simpl.
    destruct (String.eqb f g) eqn:Y; [apply String.eqb_eq in Y; subst; simpl in N; tauto|]. lra. }
  eapply p_eq.
  - apply p_sub; [apply p_sub; [apply p_const|]|]; apply S.
  - rewrite (Z fixed NI), (D vars N). destruct (in_dec string_dec f vars); [lra|contradiction].
Qed.

Lemma fluid_balance_entry a vars f e : NoDup vars -> In f vars ->
  entry (fluid_balance_writes a vars e) (QF a f) = - e (QF a f).
Proof.
  intros N I. rewrite entry_wsum.
  - unfold fluid_balance_writes, wsum. rewrite map_map. simpl.
    rewrite Nat.eqb_refl. simpl.
    induction vars as [|g l IH]; [destruct I|]. inversion N as [|? ? N1 N2]; subst.
    simpl. destruct (String.eqb f g) eqn:Y.
    + apply String.eqb_eq in Y. subst g.
      match goal with |- - _ + ?X = _ => assert (Z : X = 0) end.
      { clear - N1. induction l as [|g l IH]; simpl; [reflexivity|].
        rewrite IH by (simpl in N1; tauto).
        destruct (String.eqb f g) eqn:Y; [apply String.eqb_eq in Y; subst; simpl in N1; tauto|]. simpl. rewrite ?andb_false_r. lra. }
      rewrite Z. lra.
    + destruct I as [->|I]; [rewrite String.eqb_refl in Y; discriminate|].
      rewrite (IH N2 I). lra.
  - unfold fluid_balance_writes, wcnt. clear I.
    induction vars as [|g l IH]; simpl; [lia|]. inversion N as [|? ? N1 N2]; subst.
    rewrite Nat.eqb_refl. simpl. destruct (String.eqb f g) eqn:Y; simpl; [|now apply IH].
    apply String.eqb_eq in Y. subst g.
    assert (Z : List.length (filter (fun w : write => qty_eqb (QF a f) (fst w))
                 (map (fun f => (QF a f, - e (QF a f))) l)) = 0%nat).
    { clear - N1. induction l as [|g l IH]; simpl; [reflexivity|].
      rewrite Nat.eqb_refl. simpl.
      destruct (String.eqb f g) eqn:Y; [apply String.eqb_eq in Y; subst; simpl in N1; tauto|].
      apply IH. simpl in N1. tauto. }
    apply le_n_S, Nat.le_0_r. exact Z.
Qed.
