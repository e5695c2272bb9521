From Coq Require Import Reals List String Bool Arith Permutation Lra Lia.
From Verif Require Import Base EqnModel JacModel PlantModel EqnSpec EqnProofs EqnProofs3 PlantSpec.
Import ListNotations.
Open Scope R_scope.

Lemma rsum_perm l l' : Permutation l l' -> rsum l = rsum l'.
Proof. induction 1; simpl; lra. Qed.

Lemma total_flat (g : conn -> R) (F : part -> list conn) pl :
  rsum (map g (flat_map F pl)) = rsum (map (fun p => rsum (map g (F p))) pl).
Proof.
  induction pl as [|p pl IH]; simpl; [reflexivity|].
  rewrite map_app, rsum_app, IH. reflexivity.
Qed.

(** Composition of local balances: whatever every component keeps up to [d], the plant keeps
    up to the sum. *)
Lemma global_balance (g : conn -> R) (d : part -> R) pl :
  wired pl ->
  (forall p, In p pl -> rsum (map g (inlets p)) - rsum (map g (outlets p)) = d p) ->
  rsum (map d pl) = 0.
Proof.
  intros W H. apply (Permutation_map g) in W. apply rsum_perm in W.
  rewrite !total_flat in W.
  assert (A : forall l, (forall p, In p l -> rsum (map g (inlets p)) - rsum (map g (outlets p)) = d p) ->
    rsum (map d l) = rsum (map (fun p => rsum (map g (inlets p))) l)
                     - rsum (map (fun p => rsum (map g (outlets p))) l)).
  { clear. induction l as [|p l IH]; simpl; intros H; [lra|].
    rewrite IH by auto. rewrite <- (H p) by auto. lra. }
  rewrite A by exact H. lra.
Qed.


(** Mass kept by a component. *)
Definition mdef (e : env) (p : part) : R :=
  match p with
  | PSource o => - vm e o
  | PSink i => vm e i
  | PCloser i o => vm e i - vm e o
  | _ => 0
  end.

Lemma eqb1 n : Nat.eqb n 1 = true <-> n = 1%nat.
Proof. apply Nat.eqb_eq. Qed.

Lemma through_mass ports e : Forall (fun io => cm (fst io) = cm (snd io)) ports ->
  rsum (map (vm e) (map fst ports)) = rsum (map (vm e) (map snd ports)).
Proof.
  induction 1 as [|io ports H _ IH]; simpl; [reflexivity|].
  rewrite IH. unfold vm at 1 3. rewrite H. reflexivity.
Qed.

Lemma part_mass isv e p : regular isv e p -> shares_mass p -> all_zero (residuals isv p e) ->
  mass_total e (inlets p) - mass_total e (outlets p) = mdef e p.
Proof.
  intros Rg S Z. destruct p; simpl in *;
    try (unfold mass_total; simpl; lra).
  - unfold mass_total; simpl. unfold vm. rewrite S. lra.
  - unfold mass_total; simpl. unfold vm. destruct S as [-> ->]. lra.
  - unfold mass_total. rewrite (through_mass ports e S). lra.
  - destruct (Nat.eqb (merge_num_mass_eq isv inl o) 1) eqn:E.
    + apply Forall_inv in Z. apply node_mass_conserved in Z. lra.
    + simpl in Z. apply Forall_app in Z. destruct Z as [Z _].
      rewrite (merge_mass_by_fluids inl o e Z); [lra|].
      apply Rg. intros C. apply eqb1 in C. congruence.
  - apply Forall_inv in Z. apply node_mass_conserved in Z. lra.
  - apply Forall_inv in Z. apply node_mass_conserved in Z. lra.
  - apply Forall_inv in Z. apply node_mass_conserved in Z. lra.
  - assert (M : mass_total e [i0; i1] = mass_total e [o0; o1]).
    { apply drum_mass_conserved.
      - intros E. rewrite E in Z. simpl in Z. now apply Forall_inv in Z.
      - intros E. apply S. unfold drum_num_mass_eq, drum_loop in E.
        destruct (Nat.eqb_spec (cm i1) (cm o0)); [assumption|discriminate]. }
    lra.
  - apply Forall_inv in Z. apply node_mass_conserved in Z. lra.
  - apply Forall_inv in Z. apply node_mass_conserved in Z. unfold mass_total in *. simpl in *.
    destruct S as [S1 S2]. unfold vm at 1 2. rewrite S1, S2. fold (vm e o1) (vm e o2). lra.
  - apply Forall_app in Z. destruct Z as [Z _]. destruct Rg as [Mn V].
    destruct (fuel_cell_mass_conserved isv _ _ i1 i2 o1 e Mn V Z) as [M _].
    unfold mass_total in *. simpl in *. unfold vm at 1. rewrite S. fold (vm e o0). lra.
  - apply Forall_app in Z. destruct Z as [Z _]. destruct Rg as [Mn V].
    destruct (electrolyzer_mass_conserved isv _ _ i1 o1 o2 e Mn V Z) as [M _].
    unfold mass_total in *. simpl in *. unfold vm at 1. rewrite S. fold (vm e o0). lra.
Qed.

Lemma mdef_sum e pl :
  rsum (map (mdef e) pl)
  = mass_total e (sinks pl) - mass_total e (sources pl)
    + rsum (map (fun io => vm e (fst io) - vm e (snd io)) (closers pl)).
Proof.
  unfold mass_total. induction pl as [|p pl IH]; simpl; [lra|].
  rewrite IH. destruct p; simpl; lra.
Qed.

Lemma plant_mass : forall isv pl e,
  wired pl -> solved isv pl e -> Forall (regular isv e) pl ->
  mass_total e (sources pl) - mass_total e (sinks pl)
  = rsum (map (fun io => vm e (fst io) - vm e (snd io)) (closers pl)).
Proof.
  intros isv pl e W S Rg.
  assert (G : rsum (map (mdef e) pl) = 0).
  { apply (global_balance (vm e)); [assumption|]. intros p I.
    unfold solved in S. rewrite Forall_forall in S, Rg. destruct (S p I) as [A B].
    apply (part_mass isv); auto. }
  rewrite mdef_sum in G. lra.
Qed.

Lemma plant_mass_closed : forall isv pl e,
  wired pl -> solved isv pl e -> Forall (regular isv e) pl -> closers pl = [] ->
  mass_total e (sources pl) = mass_total e (sinks pl).
Proof.
  intros isv pl e W S Rg C. pose proof (plant_mass isv pl e W S Rg) as H.
  rewrite C in H. simpl in H. lra.
Qed.

Lemma plant_mass_bound : forall isv pl e lim,
  wired pl -> solved isv pl e -> Forall (regular isv e) pl ->
  Forall (fun d => d <= lim) (reported_deviations pl e) ->
  Rabs (mass_total e (sources pl) - mass_total e (sinks pl))
  <= INR (List.length (closers pl)) * lim.
Proof.
  intros isv pl e lim W S Rg B. rewrite (plant_mass isv pl e W S Rg).
  unfold reported_deviations in B. induction (closers pl) as [|io l IH]; simpl map; simpl rsum.
  - rewrite Rabs_R0. simpl. lra.
  - simpl in B. inversion B as [|? ? B1 B2]; subst. unfold mass_deviation in B1.
    eapply Rle_trans; [apply Rabs_triang|].
    simpl List.length. rewrite S_INR. specialize (IH B2). lra.
Qed.

Lemma plant_single_closer : forall isv pl e i o,
  wired pl -> solved isv pl e -> Forall (regular isv e) pl ->
  closers pl = [(i, o)] ->
  mass_deviation i o e = Rabs (mass_total e (sources pl) - mass_total e (sinks pl)).
Proof.
  intros isv pl e i o W S Rg C. rewrite (plant_mass isv pl e W S Rg), C. simpl.
  unfold mass_deviation. f_equal. lra.
Qed.

(* ------------------------------------------------------------------ energy *)

Definition edef (e : env) (p : part) : R :=
  match p with
  | PSource o => - (vm e o * vh e o)
  | PSink i => vm e i * vh e i
  | PCloser i o => (vm e i - vm e o) * vh e i
  | _ => - supplied p e
  end.

Lemma fold_acc_sub_cons (g : conn -> R) o l r : acc_sub g (o :: l) r = acc_sub g l (r - g o).
Proof. reflexivity. Qed.

Lemma comb_balance P lhv fuels ins o eta e :
  comb_energy P lhv fuels ins [o] eta e
  = enthalpy_total e ins - enthalpy_total e [o]
    - rsum (map (fun c => vm e c * pref P c (xs e c)) ins) + vm e o * pref P o (xs e o)
    + ti lhv fuels ins [o] e * pval e eta.
Proof.
  unfold comb_energy. rewrite acc_sub_sum, acc_add_sum. unfold enthalpy_total. simpl.
  assert (A : rsum (map (fun i => vm e i * (vh e i - pref P i (xs e i))) ins)
    = rsum (map (fun c => vm e c * vh e c) ins)
      - rsum (map (fun c => vm e c * pref P c (xs e c)) ins)).
  { induction ins as [|a l IH]; simpl; [lra|]. rewrite IH. lra. }
  rewrite A. lra.
Qed.

Lemma all_zero_last l x : all_zero (l ++ [x]) -> x = 0.
Proof. intros H. apply Forall_app in H. destruct H as [_ H]. now apply Forall_inv in H. Qed.

Lemma separator_energy i outl fl T e :
  ideal e (PSeparator i outl fl T) ->
  all_zero (residuals (fun _ => true) (PSeparator i outl fl T) e) ->
  enthalpy_total e [i] = enthalpy_total e outl.
Proof.
  intros (fluids & hf & H & B) Z. simpl in Z. inversion Z as [|? ? Z1 Z2]; subst.
  apply Forall_app in Z2. destruct Z2 as [Z2 Z3].
  unfold separator_energy_func, all_zero in Z3. rewrite Forall_map, Forall_forall in Z3.
  set (tau := T i (vp e i) (vh e i)) in *.
  assert (Hc : forall l, (forall c, In c l -> In c (i :: outl)) ->
    enthalpy_total e l = rsum (map (fun f => hf f tau * species_total e f l) fluids)).
  { intros l Il. unfold enthalpy_total, species_total.
    transitivity (rsum (map (fun c => rsum (map (fun f => hf f tau * (vx e c f * vm e c)) fluids)) l)).
    - apply rsum_ext. intros c Ic. rewrite (H c (Il c Ic)).
      assert (Tc : T c (vp e c) (vh e c) = tau).
      { destruct (Il c Ic) as [<-|Io]; [reflexivity|]. specialize (Z3 c Io). cbv beta in Z3. lra. }
      rewrite Tc. clear. induction fluids as [|f l' IH]; simpl; [lra|]. rewrite <- IH. lra.
    - rewrite <- (rsum_swap (fun c f => hf f tau * (vx e c f * vm e c)) l fluids).
      apply rsum_ext. intros f _. clear. induction l as [|c l IH]; simpl; [lra|]. rewrite IH. lra. }
  rewrite !Hc.
  - apply rsum_ext. intros f If. f_equal. destruct (B f If) as [K|K].
    + now apply (separator_species i outl fl e f).
    + now apply (separator_last i outl fl f e).
  - intros c I. now right.
  - intros c [<-|[]]. now left.
Qed.

Lemma part_energy isv e p :
  ideal e p -> is_fuel_cell p = false ->
  shares_mass p -> all_zero (residuals isv p e) ->
  enthalpy_total e (inlets p) - enthalpy_total e (outlets p) = edef e p.
Proof.
  intros Ns Nf S Z. destruct p; simpl in Nf; try discriminate; simpl in *.
  - unfold enthalpy_total; simpl; lra.
  - unfold enthalpy_total; simpl; lra.
  - unfold enthalpy_total, duty; simpl. unfold vm. rewrite S. lra.
  - destruct S as [S1 S2]. apply Forall_inv in Z.
    apply (hx_energy_conserved i1 i2 o1 o2 e S1 S2) in Z. lra.
  - rewrite (equality_energy_conserved ports e S Z). lra.
  - apply Forall_inv in Z. simpl in Z. unfold enthalpy_total; simpl.
    replace (vh e o) with (vh e i) by lra. lra.
  - rewrite app_assoc in Z. apply all_zero_last in Z.
    apply merge_energy_conserved in Z. lra.
  - inversion Z as [|? ? Z1 Z2]; subst.
    rewrite (splitter_energy_conserved i outl e Z1 Z2). lra.
  - rewrite (separator_energy i outl fl T e Ns Z). lra.
  - apply Forall_inv_tail, Forall_inv in Z. apply droplet_energy_conserved in Z. lra.
  - apply all_zero_last in Z. apply drum_energy_conserved in Z; [lra|].
    intros E. apply S. unfold drum_num_mass_eq, drum_loop in E.
    destruct (Nat.eqb_spec (cm i1) (cm o0)); [assumption|discriminate].
  - apply Forall_inv_tail, Forall_inv in Z. rewrite comb_balance in Z. lra.
  - apply Forall_inv_tail, Forall_inv in Z. unfold JacModel.engine_energy in Z.
    rewrite comb_balance in Z. simpl in Z. destruct S as [S1 S2].
    unfold enthalpy_total in *. simpl in *.
    unfold vm in Z |- *. rewrite <- S1, <- S2. lra.
  - apply all_zero_last in Z. apply (electrolyzer_energy_conserved _ _ _ _ _ _ _ _ _ _ _ S) in Z.
    lra.
Qed.

Lemma edef_sum e pl :
  rsum (map (edef e) pl)
  = enthalpy_total e (sinks pl) - enthalpy_total e (sources pl)
    - rsum (map (fun p => supplied p e) pl)
    + rsum (map (fun io => (vm e (fst io) - vm e (snd io)) * vh e (fst io)) (closers pl)).
Proof.
  unfold enthalpy_total. induction pl as [|p pl IH]; simpl; [lra|].
  rewrite IH. destruct p; simpl; lra.
Qed.

Lemma plant_energy : forall isv pl e,
  wired pl -> solved isv pl e ->
  (forall p, In p pl -> ideal e p /\ is_fuel_cell p = false) ->
  enthalpy_total e (sinks pl) - enthalpy_total e (sources pl)
  = rsum (map (fun p => supplied p e) pl)
    - rsum (map (fun io => (vm e (fst io) - vm e (snd io)) * vh e (fst io)) (closers pl)).
Proof.
  intros isv pl e W S N.
  assert (G : rsum (map (edef e) pl) = 0).
  { apply (global_balance (fun c => vm e c * vh e c)); [assumption|]. intros p I.
    unfold solved in S. rewrite Forall_forall in S. destruct (S p I) as [A B].
    destruct (N p I). apply (part_energy isv); auto. }
  rewrite edef_sum in G. lra.
Qed.

Lemma plant_energy_closed : forall isv pl e,
  wired pl -> solved isv pl e ->
  (forall p, In p pl -> ideal e p /\ is_fuel_cell p = false) ->
  closers pl = [] ->
  enthalpy_total e (sinks pl) - enthalpy_total e (sources pl)
  = rsum (map (fun p => supplied p e) pl).
Proof.
  intros isv pl e W S N C. rewrite (plant_energy isv pl e W S N), C. simpl. lra.
Qed.

(** A cycle without connection to the surroundings: what is supplied is rejected. *)
Lemma cycle_energy : forall isv pl e i o,
  wired pl -> solved isv pl e -> Forall (regular isv e) pl ->
  (forall p, In p pl -> ideal e p /\ is_fuel_cell p = false) ->
  sources pl = [] -> sinks pl = [] -> closers pl = [(i, o)] ->
  mass_deviation i o e = 0 /\ rsum (map (fun p => supplied p e) pl) = 0.
Proof.
  intros isv pl e i o W S Rg N So Si C.
  pose proof (plant_mass isv pl e W S Rg) as M.
  pose proof (plant_energy isv pl e W S N) as E.
  pose proof (plant_single_closer isv pl e i o W S Rg C) as D.
  rewrite So, Si in M, E, D. rewrite C in M, E. unfold mass_total, enthalpy_total in *. simpl in *.
  split.
  - rewrite D. rewrite <- Rabs_R0. f_equal. lra.
  - assert (Q : vm e i - vm e o = 0) by lra. rewrite Q in E. lra.
Qed.

(* ----------------------------------------------------------------- species *)

Definition sdef (f : string) (e : env) (p : part) : R :=
  match p with
  | PSource o => - (vx e o f * vm e o)
  | PSink i => vx e i f * vm e i
  | PCloser i o => vx e i f * vm e i - vx e o f * vm e o
  | _ => 0
  end.

Lemma const_species e f c l : Forall (fun o => cf c = cf o) l ->
  species_total e f l = vx e c f * mass_total e l.
Proof.
  unfold species_total, mass_total. induction 1 as [|o l H _ IH]; simpl; [lra|].
  rewrite IH. unfold vx. rewrite H. lra.
Qed.

Lemma through_species ports e f :
  Forall (fun io => cm (fst io) = cm (snd io)) ports ->
  Forall (fun io => cf (fst io) = cf (snd io)) ports ->
  species_total e f (map fst ports) = species_total e f (map snd ports).
Proof.
  intros A B. unfold species_total. induction ports as [|io l IH]; simpl; [reflexivity|].
  inversion A; inversion B; subst. rewrite IH by assumption. unfold vx, vm.
  rewrite H1, H5. reflexivity.
Qed.

Lemma part_species isv f e p :
  is_reacting p = false -> carries f e p -> shares_mass p -> all_zero (residuals isv p e) ->
  species_total e f (inlets p) - species_total e f (outlets p) = sdef f e p.
Proof.
  intros Nr [Sf K] S Z. destruct p; simpl in Nr; try discriminate; simpl in *;
    try (unfold species_total; simpl; lra).
  - unfold species_total; simpl. unfold vx, vm. rewrite S, Sf. lra.
  - destruct S as [S1 S2], Sf as [F1 F2]. unfold species_total; simpl. unfold vx, vm.
    rewrite S1, S2, F1, F2. lra.
  - rewrite (through_species ports e f S Sf). lra.
  - destruct (Nat.eqb (merge_num_mass_eq isv inl o) 1).
    + apply Forall_inv_tail, Forall_app in Z. destruct Z as [Z _].
      rewrite (merge_species inl o e f Z K). lra.
    + simpl in Z. apply Forall_app in Z. destruct Z as [Z _].
      rewrite (merge_species inl o e f Z K). lra.
  - apply Forall_inv in Z. apply node_mass_conserved in Z.
    rewrite (const_species e f i outl Sf).
    rewrite (const_species e f i [i]) by (constructor; [reflexivity|constructor]).
    rewrite Z. lra.
  - inversion Z as [|? ? Z1 Z2]; subst. apply Forall_app in Z2. destruct Z2 as [Z2 _].
    destruct K as [K|K].
    + rewrite (separator_species i outl fl e f Z2 K). lra.
    + rewrite (separator_last i outl fl f e Z1 Z2 K). lra.
  - apply Forall_inv in Z. apply node_mass_conserved in Z. destruct Sf as [F1 F2].
    rewrite (const_species e f i [o0; o1]) by (constructor; [|constructor; [|constructor]]; assumption).
    rewrite (const_species e f i [i]) by (constructor; [reflexivity|constructor]).
    rewrite Z. lra.
  - assert (M : mass_total e [i0; i1] = mass_total e [o0; o1]).
    { apply drum_mass_conserved.
      - intros E. rewrite E in Z. simpl in Z. now apply Forall_inv in Z.
      - intros E. apply S. unfold drum_num_mass_eq, drum_loop in E.
        destruct (Nat.eqb_spec (cm i1) (cm o0)); [assumption|discriminate]. }
    destruct Sf as [F1 F2].
    rewrite (const_species e f i0 [o0; o1]) by (constructor; [|constructor; [|constructor]]; assumption).
    rewrite <- M. unfold species_total, mass_total. simpl. rewrite K. lra.
Qed.

Lemma sdef_sum f e pl :
  rsum (map (sdef f e) pl)
  = species_total e f (sinks pl) - species_total e f (sources pl)
    + rsum (map (fun io => vx e (fst io) f * vm e (fst io) - vx e (snd io) f * vm e (snd io))
              (closers pl)).
Proof.
  unfold species_total. induction pl as [|p pl IH]; simpl; [lra|].
  rewrite IH. destruct p; simpl; lra.
Qed.

Lemma plant_species : forall isv pl e f,
  wired pl -> solved isv pl e ->
  (forall p, In p pl -> is_reacting p = false) -> Forall (carries f e) pl ->
  species_total e f (sources pl) - species_total e f (sinks pl)
  = rsum (map (fun io => vx e (fst io) f * vm e (fst io) - vx e (snd io) f * vm e (snd io))
            (closers pl)).
Proof.
  intros isv pl e f W S N K.
  assert (G : rsum (map (sdef f e) pl) = 0).
  { apply (global_balance (fun c => vx e c f * vm e c)); [assumption|]. intros p I.
    unfold solved in S. rewrite Forall_forall in S, K. destruct (S p I) as [A B].
    apply (part_species isv); auto. }
  rewrite sdef_sum in G. lra.
Qed.
