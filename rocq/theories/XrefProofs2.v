(** Labels of equations are distinct; figures show their characteristics. *)
From Coq Require Import Ascii Lia.
From Verif Require Import Base XrefModel XrefSpec XrefProofs.
Open Scope string_scope.
Open Scope list_scope.

Lemma nodup_app : forall (A : Type) (a b : list A), NoDup a -> NoDup b -> (forall x, In x a -> ~ In x b) -> NoDup (a ++ b).
Proof.
  intros A a b Na Nb D. induction Na as [|x a N Na IH]; [exact Nb|]. cbn. constructor.
  - rewrite in_app_iff. intros [I|I]; [exact (N I)|exact (D x (or_introl eq_refl) I)].
  - apply IH. intros y I. apply D. right. exact I.
Qed.
Lemma nodup_map_inj : forall (A B : Type) (f : A -> B) l, (forall x y, In x l -> In y l -> f x = f y -> x = y) -> NoDup l -> NoDup (map f l).
Proof.
  intros A B f l I N. induction N as [|x l M N IH]; cbn; constructor.
  - intros H. apply in_map_iff in H. destruct H as (y & E & J).
    rewrite (I x y) in M; [exact (M J)|left; reflexivity|right; exact J|congruence].
  - apply IH. intros a b Ia Ib. apply I; right; assumption.
Qed.
Lemma nodup_part : forall (A : Type) (a b : list A), NoDup (a ++ b) -> NoDup a /\ NoDup b /\ (forall x, In x a -> ~ In x b).
Proof.
  intros A a b. induction a as [|x a IH]; cbn; intros N; [split; [constructor|split; [exact N|intros ? []]]|].
  inversion N as [|? ? M N']. subst. destruct (IH N') as (Na & Nb & D). rewrite in_app_iff in M. split; [|split; [exact Nb|]].
  - constructor; tauto.
  - intros y [<-|I]; [tauto|exact (D y I)].
Qed.
Lemma nodup_filter : forall (A : Type) (f : A -> bool) l, NoDup l -> NoDup (filter f l).
Proof. intros. apply NoDup_filter. assumption. Qed.
(** Names of the kept entries of a list with distinct names are distinct. *)
Lemma nodup_fst_filter : forall (A B : Type) (f : A * B -> bool) l, NoDup (map fst l) -> NoDup (map fst (filter f l)).
Proof.
  intros A B f l. induction l as [|x l IH]; cbn; intros N; [constructor|]. inversion N as [|? ? M N']. subst.
  destruct (f x); cbn; [constructor|]; auto.
  intros H. apply M. apply in_map_iff in H. destruct H as (y & E & I). apply filter_In in I. apply in_map_iff. exists y. tauto.
Qed.

(* --------------------------------------------------- labels of equations *)

Definition own_labels (m : cl) : list string :=
  flat_map constr_labels (c_constr m) ++ match c_comps m with [] => [] | _ => documented m end.
Definition totals (n : net) : list (string * string) :=
  map (fun _ => ("Bus", "energy_flow_sum")) (filter (fun b => b_set b && match b_rows b with [] => false | _ => true end) (n_busses n)).
Definition pairs (n : net) : list (string * string) :=
  map (fun p => ("Connection", text p)) (n_props n) ++ map (fun f => ("Connection", f)) (n_fluids n)
  ++ map (fun u => ("UserDefinedEquation", under (u_label u))) (n_udes n)
  ++ flat_map (fun m => map (fun l => (c_name m, l)) (own_labels m)) (n_classes n) ++ totals n.
Definition lab (p : string * string) : string := eq_label (fst p) (snd p).

Lemma eq_app : forall a b, eq_labels (a ++ b) = eq_labels a ++ eq_labels b.
Proof. intros. unfold eq_labels. apply flat_map_app. Qed.
Lemma eq_none : forall l, (forall x, ~ In (Eq x) l) -> eq_labels l = [].
Proof.
  induction l as [|i l IH]; intros H; [reflexivity|]. cbn. fold (eq_labels l). rewrite IH by (intros x I; exact (H x (or_intror I))).
  destruct i; try reflexivity. destruct (H label (or_introl eq_refl)).
Qed.
Lemma eq_map : forall (A : Type) (g : A -> string) l, eq_labels (map (fun x => Eq (g x)) l) = map g l.
Proof. induction l; cbn; [reflexivity|]. fold (eq_labels (map (fun x => Eq (g x)) l)). rewrite IHl. reflexivity. Qed.
Lemma eq_refs : forall (A : Type) (g : A -> string) l, eq_labels (map (fun x => RefEq (g x)) l) = [].
Proof. intros. apply eq_none. intros x H. apply in_map_iff in H. destruct H as (? & E & _). discriminate E. Qed.
Lemma eq_flat : forall (A : Type) (g : A -> list item) l, eq_labels (flat_map g l) = flat_map (fun x => eq_labels (g x)) l.
Proof. induction l; cbn; [reflexivity|]. rewrite eq_app, IHl. reflexivity. Qed.

Lemma eq_ude_figures : forall k u cs i, eq_labels (ude_figures k u i cs) = [].
Proof. induction cs as [|c cs IH]; intros i; [reflexivity|]. cbn [ude_figures]. rewrite eq_app, IH. reflexivity. Qed.
Lemma eq_ude : forall u, eq_labels (ude_items u) = [ude_ref u].
Proof. intros. unfold ude_items. rewrite !eq_app, !eq_ude_figures. reflexivity. Qed.

Lemma eq_shown : forall m k p g ls, eq_labels (flat_map (shown m k p g) ls) = [].
Proof.
  intros. apply eq_none. intros x H. apply in_flat_map in H. destruct H as (l & _ & H). cbn in H. destruct H as [H|[H|[]]]; discriminate H.
Qed.
Lemma eq_drawn : forall m k p ls, eq_labels (map (drawn m k p) ls) = [].
Proof. intros. apply eq_none. intros x H. apply in_map_iff in H. destruct H as (? & E & _). discriminate E. Qed.

Lemma flat_map_nil : forall (A B : Type) (g : A -> list B) l, (forall x, In x l -> g x = []) -> flat_map g l = [].
Proof. induction l; intros H; cbn; [reflexivity|]. rewrite H by (left; reflexivity). apply IHl. intros. apply H. right. assumption. Qed.
Lemma flat_map_ext_in : forall (A B : Type) (g h : A -> list B) l, (forall x, In x l -> g x = h x) -> flat_map g l = flat_map h l.
Proof. induction l; intros H; cbn; [reflexivity|]. rewrite H by (left; reflexivity). rewrite IHl; [reflexivity|]. intros. apply H. right. assumption. Qed.
Lemma map_flat : forall (A B C : Type) (f : B -> C) (g : A -> list B) l, map f (flat_map g l) = flat_map (fun x => map f (g x)) l.
Proof. induction l; cbn; [reflexivity|]. rewrite map_app, IHl. reflexivity. Qed.

Lemma eq_constr : forall m, eq_labels (constr_items m) = map (fun l => eq_label (c_name m) l) (flat_map constr_labels (c_constr m)).
Proof.
  intros m. unfold constr_items. rewrite eq_app, !eq_flat.
  rewrite (flat_map_nil _ _ (fun x => eq_labels match x with Charted l => _ | _ => [] end)).
  - cbn [app]. rewrite map_flat. apply flat_map_ext_in. intros k _. apply eq_map.
  - intros k _. destruct k; try reflexivity. rewrite eq_app, eq_drawn, eq_shown. reflexivity.
Qed.
Lemma eq_spec : forall m, eq_labels (spec_items m) = map (fun l => eq_label (c_name m) l) (match c_comps m with [] => [] | _ => documented m end).
Proof.
  intros m. unfold spec_items. rewrite eq_app, eq_flat. rewrite flat_map_nil by (intros [[p g] k] _; apply eq_drawn). cbn [app].
  destruct (c_comps m) as [|l0 ls] eqn:Ec; [reflexivity|]. rewrite <- Ec. rewrite !eq_app, eq_refs, eq_map. cbn [app].
  replace (eq_labels match documented m with [] => [] | _ => _ end) with (@nil string); [apply app_nil_r|].
  destruct (documented m); [reflexivity|]. rewrite eq_flat. symmetry. apply flat_map_nil. intros [[p g] k] _. apply eq_shown.
Qed.

Lemma eq_bus_loop : forall mode rows p i q, bus_loop mode rows p = (i, q) -> eq_labels i = [].
Proof.
  intros mode rows p i q H. apply eq_none. intros x I.
  destruct (bus_loop_refs mode rows p (map (fun e => Fig (snd e) "" 0) p) i q) as (_ & _ & _ & N); [|exact H|exact (N x I)].
  intros c b y J. exists "", 0. apply in_map_iff. exists (c, b, y). auto.
Qed.
Lemma eq_busses : forall mode bs p,
  eq_labels (bus_items mode bs p) = map lab (map (fun _ => ("Bus", "energy_flow_sum")) (filter (fun b => b_set b && match b_rows b with [] => false | _ => true end) bs)).
Proof.
  induction bs as [|b bs IH]; intros p; [reflexivity|]. cbn [bus_items filter].
  destruct (bus_loop mode (b_rows b) p) as [i q] eqn:L. rewrite !eq_app, (eq_bus_loop _ _ _ _ _ L), IH.
  destruct (b_set b); cbn [andb]; [|reflexivity]. destruct (b_rows b); reflexivity.
Qed.

Lemma eq_report : forall n, eq_labels (report n) = map lab (pairs n).
Proof.
  intros n. unfold report, pairs, totals. rewrite !map_app, !eq_app. unfold prop_items, fluid_items.
  rewrite !eq_app, !eq_refs, !eq_map, eq_busses, !map_map. cbn [app]. apply f_equal2; [reflexivity|]. apply f_equal2; [reflexivity|].
  rewrite map_flat, !eq_flat. apply f_equal2; [|apply f_equal2].
  - induction (n_udes n) as [|u us IH]; [reflexivity|]. cbn [flat_map map]. rewrite eq_ude, IH. reflexivity.
  - apply flat_map_ext_in. intros m _. unfold own_labels. rewrite eq_app, eq_constr, eq_spec, map_map, map_app. reflexivity.
  - reflexivity.
Qed.

Lemma own_labels_nodup : forall m, NoDup (own_names m) -> NoDup (own_labels m).
Proof.
  intros m N. unfold own_names in N. unfold own_labels.
  assert (Ec : flat_map constraint_names (c_constr m) = flat_map constr_labels (c_constr m)).
  { apply flat_map_ext_in. intros [l|l|l fs] _; reflexivity. }
  rewrite Ec in N. apply nodup_part in N. destruct N as (N1 & N2 & D).
  assert (Es : map fst (c_params m) ++ map (fun g => fst (fst g)) (c_groups m) ++ map (fun c => fst (fst c)) (c_chars m)
             = map fst (c_params m ++ map fst (c_groups m) ++ map (fun c => fst c) (c_chars m))).
  { rewrite !map_app, !map_map. reflexivity. }
  rewrite Es in N2, D. apply nodup_app; [exact N1| |].
  - destruct (c_comps m); [constructor|]. unfold documented, columns. apply nodup_fst_filter, nodup_fst_filter. exact N2.
  - intros x I J. apply (D x I). destruct (c_comps m); [destruct J|]. unfold documented, columns in J.
    apply in_map_iff in J. destruct J as (y & E & J). apply filter_In in J. destruct J as [J _]. apply filter_In in J. destruct J as [J _].
    apply in_map_iff. exists y. auto.
Qed.

Lemma class_pairs : forall ms, NoDup (map c_name ms) -> (forall m, In m ms -> NoDup (own_names m)) ->
  NoDup (flat_map (fun m => map (fun l => (c_name m, l)) (own_labels m)) ms).
Proof.
  induction ms as [|m ms IH]; intros N H; cbn [flat_map]; [constructor|].
  cbn in N. inversion N as [|? ? M N']. subst. apply nodup_app.
  - apply nodup_map_inj; [intros x y _ _ E; injection E; auto|]. apply own_labels_nodup, H. left. reflexivity.
  - apply IH; [exact N'|]. intros. apply H. right. assumption.
  - intros x I J. apply in_map_iff in I. destruct I as (l & E & _). subst x.
    apply in_flat_map in J. destruct J as (m' & I' & J). apply in_map_iff in J. destruct J as (l' & E & _).
    injection E as E _. apply M. rewrite <- E. apply in_map. exact I'.
Qed.

Lemma text_inj : forall p q, text p = text q -> p = q.
Proof. destruct p, q; cbn; intros H; (reflexivity || discriminate H). Qed.

Lemma totals_nodup : forall n, one_total n -> NoDup (totals n).
Proof.
  intros n O. unfold totals, one_total in *.
  assert (L : length (filter (fun b => b_set b && match b_rows b with [] => false | _ => true end) (n_busses n)) <= length (filter b_set (n_busses n))).
  { induction (n_busses n) as [|b bs IH]; [apply le_n|]. cbn [filter] in *. destruct (b_set b); cbn [andb length] in *.
    - destruct (b_rows b); cbn [length] in *; assert (length (filter b_set bs) <= 1) by lia; specialize (IH H); lia.
    - exact (IH O). }
  destruct (filter (fun b => b_set b && match b_rows b with [] => false | _ => true end) (n_busses n)) as [|b [|b' l]]; cbn in *; [constructor| |lia].
  constructor; [intros []|constructor].
Qed.

Lemma equation_labels_distinct : forall n, distinct_names n -> one_total n -> NoDup (eq_labels (report n)).
Proof.
  intros n (Np & Nf & Df & Nu & Nc & Hc) O. rewrite eq_report.
  assert (K : forall p, In p (pairs n) -> plain (fst p)).
  { intros p I. unfold pairs in I. rewrite !in_app_iff in I. destruct I as [I|[I|[I|[I|I]]]].
    - apply in_map_iff in I. destruct I as (? & <- & _). apply no_us_plain. reflexivity.
    - apply in_map_iff in I. destruct I as (? & <- & _). apply no_us_plain. reflexivity.
    - apply in_map_iff in I. destruct I as (? & <- & _). apply no_us_plain. reflexivity.
    - apply in_flat_map in I. destruct I as (m & Im & I). apply in_map_iff in I. destruct I as (? & <- & _).
      apply Hc. exact Im.
    - unfold totals in I. apply in_map_iff in I. destruct I as (? & <- & _). apply no_us_plain. reflexivity. }
  apply nodup_map_inj.
  - intros [a x] [b y] Ia Ib E. destruct (eq_label_inj a b x y (K _ Ia) (K _ Ib) E). subst. reflexivity.
  - unfold pairs. apply nodup_app; [|apply nodup_app; [|apply nodup_app; [|apply nodup_app|]|]|].
    + apply nodup_map_inj; [|exact Np]. intros p q _ _ E. injection E. apply text_inj.
    + apply nodup_map_inj; [|exact Nf]. intros p q _ _ E. injection E. auto.
    + rewrite <- (map_map (fun u => under (u_label u)) (fun x => ("UserDefinedEquation", x))).
      apply nodup_map_inj; [|exact Nu]. intros p q _ _ E. injection E. auto.
    + apply class_pairs; [exact Nc|]. intros m I. apply Hc. exact I.
    + apply totals_nodup. exact O.
    + intros x I J. apply in_flat_map in I. destruct I as (m & Im & I). apply in_map_iff in I. destruct I as (l & <- & _).
      unfold totals in J. apply in_map_iff in J. destruct J as (? & E & _). injection E as E _.
      destruct (Hc m Im) as (_ & X & _). apply X. rewrite <- E. cbn. auto.
    + intros x I J. apply in_map_iff in I. destruct I as (u & <- & _). apply in_app_iff in J. destruct J as [J|J].
      * apply in_flat_map in J. destruct J as (m & Im & J). apply in_map_iff in J. destruct J as (l & E & _). injection E as E _.
        destruct (Hc m Im) as (_ & X & _). apply X. rewrite E. cbn. auto.
      * unfold totals in J. apply in_map_iff in J. destruct J as (? & E & _). discriminate E.
    + intros x I J. apply in_map_iff in I. destruct I as (f & <- & _). rewrite !in_app_iff in J. destruct J as [J|[J|J]].
      * apply in_map_iff in J. destruct J as (? & E & _). discriminate E.
      * apply in_flat_map in J. destruct J as (m & Im & J). apply in_map_iff in J. destruct J as (l & E & _). injection E as E _.
        destruct (Hc m Im) as (_ & X & _). apply X. rewrite E. cbn. auto.
      * unfold totals in J. apply in_map_iff in J. destruct J as (? & E & _). discriminate E.
    + intros x I J. apply in_map_iff in I. destruct I as (p & <- & _). rewrite !in_app_iff in J. destruct J as [J|[J|[J|J]]].
      * apply in_map_iff in J. destruct J as (f & E & If). injection E as E. apply (Df p). rewrite <- E. exact If.
      * apply in_map_iff in J. destruct J as (? & E & _). discriminate E.
      * apply in_flat_map in J. destruct J as (m & Im & J). apply in_map_iff in J. destruct J as (l & E & _). injection E as E _.
        destruct (Hc m Im) as (_ & X & _). apply X. rewrite E. cbn. auto.
      * unfold totals in J. apply in_map_iff in J. destruct J as (? & E & _). discriminate E.
Qed.
