(** Lemmas about fluid wrapper branches. *)
From Coq Require Import Permutation Sorted Relations.
From Verif Require Import TopoModel TopoSpec TopoProofs BranchModel BranchSpec BranchProofs WrapModel WrapSpec WrapDfs.
Open Scope nat_scope.
Open Scope string_scope.
Open Scope list_scope.

Ltac sorted_small := repeat constructor; vm_compute; reflexivity.

Lemma In_dget {V} (l : string) (b : V) d : NoDup (keys d) -> (In (l, b) d <-> dget l d = Some b).
Proof.
  intros ND. split; [|apply dget_In]. induction d as [|(l', b') d IH]; intros H; [destruct H|]. cbn. inversion ND as [|? ? N1 N2]; subst. destruct H as [H|H].
  - assert (l' = l /\ b' = b) as (-> & ->) by (split; congruence). now rewrite String.eqb_refl.
  - destruct (String.eqb_spec l l') as [->|_]; [|now apply IH]. exfalso. apply N1. unfold keys. apply in_map_iff. exists (l', b). auto.
Qed.
Lemma In_dset {V} (l k : string) (b v : V) d : NoDup (keys d) -> (In (l, b) (dset k v d) <-> (l = k /\ b = v) \/ (l <> k /\ In (l, b) d)).
Proof.
  intros ND. rewrite In_dget by now apply NoDup_keys_dset. destruct (string_dec l k) as [->|N].
  - rewrite dget_dset_eq. split; [intros H; left; split; congruence|]. intros [(_ & ->)|(X & _)]; congruence.
  - rewrite dget_dset_neq by exact N. rewrite <- In_dget by exact ND. tauto.
Qed.

Section P.
Variable W : world.
Variable n : net.
Hypothesis ACC : accepted W n.
Hypothesis NE : no_engine W n.

Let cs := map snd (n_conns n).

Definition grd (k : nat) : bool :=
  match kind_of W k with
  | Merge | Combustion | Drum => true
  | Node => String.eqb (w_class W k) "DropletSeparator"
  | _ => false
  end.
Definition each (k : nat) : bool :=
  match kind_of W k with
  | Drum => true
  | Node => String.eqb (w_class W k) "DropletSeparator"
  | _ => false
  end.
Definition nx (c : nat) : list nat :=
  let k := w_target W c in
  match kind_of W k with
  | Sink | CycleCloser | Engine => []
  | Merge | Combustion | Drum => outl W n k
  | Separator => if nmem c cs then outl W n k else []
  | Node => if String.eqb (w_class W k) "DropletSeparator" then outl W n k else if nmem c cs then outl W n k else []
  | Through | Source | FuelCell | Electrolyzer => nexts W n c
  end.

Lemma nmem_cs c : nmem c cs = true <-> has_conn n c.
Proof. rewrite nmem_In. unfold cs. symmetry. apply has_conn_In. Qed.

Lemma through_In c o : In o (through W n c) -> has_conn n c /\ In o (outl W n (w_target W c)) /\
  exists i, nth_error (inl W n (w_target W c)) i = Some c /\ nth_error (outl W n (w_target W c)) i = Some o.
Proof.
  unfold through. destruct (index c (inl W n (w_target W c))) as [i|] eqn:E; [|intros []].
  apply index_nth in E. destruct (nth_error (outl W n (w_target W c)) i) as [o'|] eqn:F; [|intros []]. intros [->|[]].
  split; [apply nth_error_In, In_inl in E; tauto|]. split; [eapply nth_error_In; eauto|]. exists i. auto.
Qed.
Lemma nexts_through c o : In o (nexts W n c) -> kind_of W (w_target W c) <> Node -> kind_of W (w_target W c) <> Drum -> In o (through W n c).
Proof.
  unfold nexts. destruct (kind_of W (w_target W c)); intros H A B; try congruence; try contradiction; try exact H.
  - destruct (nmem c (skipn 2 _)); [destruct H|exact H].
  - destruct (nth_error (inl W n (w_target W c)) 0); [|destruct H]. destruct (Nat.eqb c n0); [exact H|destruct H].
  - destruct (nth_error (inl W n (w_target W c)) 0); [|destruct H]. destruct (Nat.eqb c n0); [exact H|destruct H].
Qed.
Lemma nx_outl c o : In o (nx c) -> In o (outl W n (w_target W c)).
Proof.
  unfold nx. destruct (kind_of W (w_target W c)) eqn:K; intros H; try contradiction; try exact H;
    try (apply through_In; apply nexts_through; [exact H|rewrite K; discriminate|rewrite K; discriminate]).
  - destruct (nmem c cs); [exact H|destruct H].
  - destruct (String.eqb (w_class W (w_target W c)) "DropletSeparator"); [exact H|]. destruct (nmem c cs); [exact H|destruct H].
Qed.
Lemma nx_src a b : In b (nx a) -> w_source W b = w_target W a.
Proof. intros H. apply nx_outl, In_outl in H. tauto. Qed.
Lemma nx_conn a b : In b (nx a) -> has_conn n b.
Proof. intros H. apply nx_outl, In_outl in H. tauto. Qed.
Lemma nx_grd a b : grd (w_target W a) = true -> w_target W a = w_target W b -> nx a = nx b.
Proof.
  unfold grd, nx. intros G E. rewrite <- E. destruct (kind_of W (w_target W a)); try discriminate; try reflexivity. rewrite G. reflexivity.
Qed.

Lemma one_inlet k a b : has_conn n a -> has_conn n b -> w_target W a = k -> w_target W b = k -> (kind_of W k = Separator \/ kind_of W k = Node) -> a = b.
Proof.
  intros A B TA TB K. destruct (acc_wf W n ACC a A) as (_ & _ & IA & _ & HK). destruct (acc_wf W n ACC b B) as (_ & _ & IB & _ & _).
  rewrite TA in IA, HK. rewrite TB in IB. pose proof (acc_ports W n ACC k HK) as PO. unfold ports_ok in PO.
  assert (PI : w_inlets W k = ["in1"%string]) by (destruct K as [K|K]; rewrite K in PO; exact PO). rewrite PI in IA, IB. cbn in IA, IB.
  apply (same_in_port W n ACC); auto; [congruence|]. intuition congruence.
Qed.
Lemma nx_pred a b o : grd (w_target W a) = false -> In o (nx a) -> In o (nx b) -> a = b.
Proof.
  intros G A B. assert (T : w_target W a = w_target W b) by (rewrite <- (nx_src _ _ A); apply (nx_src _ _ B)).
  assert (TH : In o (through W n a) -> In o (through W n b) -> a = b).
  { intros TA TB. destruct (through_In _ _ TA) as (_ & _ & i & I1 & I2). destruct (through_In _ _ TB) as (_ & _ & j & J1 & J2). rewrite <- T in J1, J2.
    assert (i = j). { pose proof (NoDup_outl W n ACC (w_target W a)) as ND. rewrite NoDup_nth_error in ND. apply ND; [apply nth_error_Some; congruence|congruence]. }
    subst j. congruence. }
  unfold nx in A, B. unfold grd in G. rewrite <- T in B. destruct (kind_of W (w_target W a)) eqn:K; try discriminate; try contradiction;
    try (apply TH; apply nexts_through; try assumption; rewrite <- ?T, K; discriminate).
  - destruct (nmem a cs) eqn:CA; [|destruct A]. destruct (nmem b cs) eqn:CB; [|destruct B]. apply nmem_cs in CA, CB.
    apply (one_inlet (w_target W a)); auto.
  - rewrite G in A, B. destruct (nmem a cs) eqn:CA; [|destruct A]. destruct (nmem b cs) eqn:CB; [|destruct B]. apply nmem_cs in CA, CB.
    apply (one_inlet (w_target W a)); auto.
Qed.
Lemma nx_ND a : NoDup (nx a).
Proof.
  unfold nx. destruct (kind_of W (w_target W a)); try constructor; try apply (NoDup_outl W n ACC); try apply (nexts_NoDup W n ACC).
  - destruct (nmem a cs); [apply (NoDup_outl W n ACC)|constructor].
  - destruct (String.eqb (w_class W (w_target W a)) "DropletSeparator"); [apply (NoDup_outl W n ACC)|]. destruct (nmem a cs); [apply (NoDup_outl W n ACC)|constructor].
Qed.

(** Successors of the code and of the specification. *)
Lemma nx_spec a b : has_conn n a -> (In b (nx a) <-> fluid_next W n a b).
Proof.
  intros A. pose proof (nexts_spec W n ACC a A b) as S0. destruct (acc_wf W n ACC a A) as (_ & _ & IA & _ & HK). pose proof (proj2 (nmem_cs a) A) as M.
  assert (O : In b (outl W n (w_target W a)) <-> has_conn n a /\ has_conn n b /\ w_target W a = w_source W b /\ True).
  { rewrite In_outl. intuition. }
  destruct (NE _ HK) as (NE1 & NE2). unfold nx, fluid_next. unfold flow_next in S0. destruct (kind_of W (w_target W a)) eqn:K; try (rewrite S0; tauto); try exact O; try tauto; try contradiction.
  - split; [intros []|tauto].
  - split; [intros []|tauto].
  - rewrite M. exact O.
  - rewrite M. destruct (String.eqb (w_class W (w_target W a)) "DropletSeparator"); exact O.
Qed.

Lemma one_out k : has_comp n k -> (kind_of W k = Merge \/ kind_of W k = Combustion) -> exists o, outl W n k = [o].
Proof.
  intros HK K. pose proof (acc_ports W n ACC k HK) as PO. unfold ports_ok in PO.
  assert (PI : w_outlets W k = ["out1"%string]) by (destruct K as [K|K]; rewrite K in PO; tauto).
  destruct (small_ports W n ACC k HK) as (S1 & _). rewrite PI in S1. specialize (S1 ltac:(repeat constructor)).
  destruct (outl W n k) as [|o [|? ?]]; try discriminate. now exists o.
Qed.

Lemma node_class k : kind_of W k = Node -> w_class W k = "Splitter"%string \/ w_class W k = "DropletSeparator"%string \/ w_class W k = "NodeBase"%string.
Proof.
  unfold kind_of, kind_of_class. set (c := w_class W k). clearbody c. intros H.
  destruct (String.eqb c "Source"); [discriminate|]. destruct (String.eqb c "Sink"); [discriminate|]. destruct (String.eqb c "CycleCloser"); [discriminate|].
  destruct (String.eqb c "Merge"); [discriminate|]. destruct (String.eqb c "Separator"); [discriminate|].
  destruct (smem c ["Splitter"; "DropletSeparator"; "NodeBase"]%string) eqn:E.
  - unfold smem in E. apply existsb_exists in E. destruct E as (x & X & E). apply String.eqb_eq in E. subst x. cbn in X. intuition.
  - destruct (String.eqb c "Drum"); [discriminate|]. destruct (smem c ["CombustionChamber"; "DiabaticCombustionChamber"]%string); [discriminate|].
    destruct (String.eqb c "CombustionEngine"); [discriminate|]. destruct (String.eqb c "FuelCell"); [discriminate|]. destruct (String.eqb c "WaterElectrolyzer"); discriminate.
Qed.

Lemma pass_eq a o : has_conn n a -> through W n a = [o] -> pass W n (w_target W a) a = Ok (Visit false [o]).
Proof.
  intros A. unfold through, pass. destruct (index a (inl W n (w_target W a))) as [i|]; [|discriminate]. unfold item.
  destruct (nth_error (outl W n (w_target W a)) i); [|discriminate]. intros H. cbn. congruence.
Qed.

Lemma through_some k a : has_conn n a -> w_target W a = k -> has_comp n k -> kind_of W k = Through -> exists o, through W n a = [o].
Proof.
  intros A T HK K. destruct (through_paired W n ACC k HK K) as (ss & Ei & Eo). destruct (index_of W n ACC a A) as (j & J1 & J2). rewrite T in J1, J2.
  assert (j < length (outl W n k)).
  { rewrite <- (map_length (w_source_id W)), Eo, map_length, <- (map_length (fun s => "in" ++ s)%string ss), <- Ei, map_length. apply nth_error_Some. congruence. }
  destruct (nth_error (outl W n k) j) as [o|] eqn:Ej; [|apply nth_error_None in Ej; lia]. exists o. unfold through. rewrite T. now rewrite J1, Ej.
Qed.
Lemma first_through k a : has_conn n a -> w_target W a = k -> nth_error (inl W n k) 0 = Some a -> outl W n k <> [] -> exists o, through W n a = [o].
Proof.
  intros A T I0 O. unfold through. rewrite T, (nth_index a _ 0 (NoDup_inl W n ACC k) I0). destruct (outl W n k) as [|o os]; [congruence|]. now exists o.
Qed.

Lemma arrive_eq a comps : has_conn n a ->
  arrive W n (w_target W a) a comps = Ok (if grd (w_target W a) && nmem (w_target W a) comps then Return else Visit (each (w_target W a)) (nx a)).
Proof.
  intros A. destruct (acc_wf W n ACC a A) as (_ & _ & IA & _ & HK). pose proof (proj2 (nmem_cs a) A) as M. destruct (NE _ HK) as (NE1 & NE2).
  remember (w_target W a) as k eqn:T. symmetry in T.
  pose proof (acc_ports W n ACC k HK) as PO. unfold ports_ok in PO. destruct (small_ports W n ACC k HK) as (SO & SI).
  unfold arrive, grd, each, nx, nexts. rewrite T. destruct (kind_of W k) eqn:K; cbn [andb].
  - destruct (through_some k a A T HK K) as (o & O). rewrite O. rewrite <- T. now apply pass_eq.
  - exfalso. destruct PO as (Ei & _). rewrite Ei in IA. destruct IA.
  - reflexivity.
  - reflexivity.
  - unfold first_out. destruct (nmem k comps); [reflexivity|]. destruct (one_out k HK (or_introl K)) as (o & ->). reflexivity.
  - rewrite M. reflexivity.
  - unfold all_out_once. destruct (String.eqb (w_class W k) "DropletSeparator") eqn:D; cbn [andb]; [destruct (nmem k comps); reflexivity|].
    destruct (node_class k K) as [C|[C|C]]; [|rewrite C in D; discriminate|contradiction]. rewrite C, M. reflexivity.
  - unfold all_out_once. destruct (nmem k comps); reflexivity.
  - unfold first_out. destruct (nmem k comps); [reflexivity|]. destruct (one_out k HK (or_intror K)) as (o & ->). reflexivity.
  - congruence.
  - destruct PO as (Ei & Eo). rewrite Ei in SI. rewrite Eo in SO. specialize (SO ltac:(sorted_small)). specialize (SI ltac:(sorted_small)).
    destruct (nth_in W n k 0 _ SI "in1"%string eq_refl) as (i0 & I0 & _). unfold item at 1. rewrite I0. cbn [rbind]. destruct (Nat.eqb_spec a i0) as [<-|N]; [|reflexivity].
    destruct (first_through k a A T I0) as (o & O); [intros E; rewrite E in SO; discriminate|]. rewrite O, <- T. now apply pass_eq.
  - destruct PO as (Ei & Eo). rewrite Ei in SI. rewrite Eo in SO. specialize (SO ltac:(sorted_small)). specialize (SI ltac:(sorted_small)).
    destruct (nth_in W n k 0 _ SI "in1"%string eq_refl) as (i0 & I0 & _). unfold item at 1. rewrite I0. cbn [rbind]. destruct (Nat.eqb_spec a i0) as [<-|N]; [|reflexivity].
    destruct (first_through k a A T I0) as (o & O); [intros E; rewrite E in SO; discriminate|]. rewrite O, <- T. now apply pass_eq.
Qed.

Definition lift (r : option (list nat * list nat)) : res (list nat * list nat) := match r with Some x => Ok x | None => Err RecursionError end.
Lemma spread_eq : forall f conns comps a, has_conn n a -> last conns 0 = a ->
  spread W n f conns comps (w_target W a) = lift (dfs (w_target W) nx grd each f conns comps a).
Proof.
  induction f as [|f IH]; intros conns comps a A L; [reflexivity|]. rewrite dfs_eq. cbn [spread]. rewrite L, arrive_eq by exact A. cbn [rbind].
  destruct (grd (w_target W a) && nmem (w_target W a) comps); [reflexivity|].
  assert (G : forall os cs0 ks0, incl os (nx a) ->
    (fix loop os conns comps :=
       match os with
       | [] => Ok (conns, comps)
       | o :: os' =>
           rbind (spread W n f (conns ++ [o])%list (if each (w_target W a) then comps ++ [w_target W a] else comps)%list (w_target W o))
             (fun r => loop os' (fst r) (snd r))
       end) os cs0 ks0 = lift (dloop (w_target W) nx grd each f (w_target W a) os cs0 ks0)).
  { induction os as [|o os IHo]; intros cs0 ks0 HO; [reflexivity|]. cbn [dloop].
    rewrite (IH _ _ o); [|apply (nx_conn a); apply HO; now left|apply last_app].
    destruct (dfs (w_target W) nx grd each f (cs0 ++ [o]) (if each (w_target W a) then ks0 ++ [w_target W a] else ks0) o) as [r|]; [|reflexivity].
    cbn [lift rbind]. apply IHo. intros x X. apply HO. now right. }
  apply G. apply incl_refl.
Qed.

Lemma start_not_next s a : fluid_starts W n s -> ~ In s (nx a).
Proof.
  intros (HS & S0) N. pose proof (nx_src _ _ N) as E.
  assert (TH : kind_of W (w_target W a) = FuelCell \/ kind_of W (w_target W a) = Electrolyzer -> w_source_id W s = "out1"%string).
  { intros K. assert (A : has_conn n a). { unfold nx in N. destruct K as [K|K]; rewrite K in N; apply nexts_through in N; try (rewrite K; discriminate); apply through_In in N; tauto. }
    apply (nx_spec a s A) in N. destruct N as (_ & _ & _ & N). destruct K as [K|K]; rewrite K in N; tauto. }
  rewrite E in S0. destruct (kind_of W (w_target W a)) eqn:K; try contradiction.
  - assert (A : has_conn n a) by (unfold nx in N; rewrite K in N; apply nexts_through in N; try (rewrite K; discriminate); apply through_In in N; tauto).
    destruct (acc_wf W n ACC a A) as (_ & _ & IA & _ & HK). pose proof (acc_ports W n ACC _ HK) as PO. unfold ports_ok in PO. rewrite K in PO. destruct PO as (Ei & _). rewrite Ei in IA. destruct IA.
  - unfold nx in N. rewrite K in N. destruct N.
  - rewrite TH in S0 by now left. discriminate.
  - rewrite TH in S0 by now right. destruct S0; discriminate.
Qed.

Lemma reach_iff s x : has_conn n s -> (clos_refl_trans nat (fun a b => In b (nx a)) s x <-> fluid_reach W n s x).
Proof.
  intros HS. split; intros R; apply clos_rt_rtn1 in R; induction R as [|y z Y R IH]; try apply rt_refl.
  - eapply rt_trans; [exact IH|]. apply rt_step. apply nx_spec; [|exact Y]. destruct R; [exact HS|]. eapply nx_conn. eassumption.
  - eapply rt_trans; [exact IH|]. apply rt_step. apply nx_spec; [apply Y|exact Y].
Qed.

Lemma spread_from s f : fluid_starts W n s -> length cs < f ->
  exists conns comps, spread W n f [s] [w_source W s] (w_target W s) = Ok (conns, comps) /\ NoDup conns /\ forall x, In x conns <-> fluid_reach W n s x.
Proof.
  intros S0 L. destruct f as [|f]; [lia|]. pose proof S0 as (HS & K).
  destruct (dfs_from_start (w_target W) (w_source W) nx grd each nx_src nx_grd nx_pred nx_ND cs s) with (f := f) (ks := [w_source W s]) as (conns & comps & D & ND & R).
  - intros a. now apply start_not_next.
  - intros a b _ N. apply has_conn_In. eapply nx_conn. exact N.
  - now apply has_conn_In.
  - exact L.
  - intros k [<-|[]]. unfold grd. destruct (kind_of W (w_source W s)); try reflexivity; contradiction.
  - exists conns, comps. split; [rewrite spread_eq; [now rewrite D|exact HS|reflexivity]|]. split; [exact ND|]. intros x. rewrite R. unfold reach. now apply reach_iff.
Qed.

(* ---- all starts ---- *)
Definition ws (k : nat) : list nat := match wrapper_starts W n k with Ok l => l | Err _ => [] end.
Lemma source_kind k : wrapper_source W k = true <-> match kind_of W k with Source | CycleCloser | FuelCell | Electrolyzer => True | _ => False end.
Proof.
  unfold wrapper_source, kind_of, kind_of_class. set (c := w_class W k). clearbody c. unfold smem. cbn [existsb].
  destruct (String.eqb_spec c "Source") as [->|N1]; [cbn; tauto|]. destruct (String.eqb_spec c "Sink") as [->|N2]; [cbn; split; [discriminate|contradiction]|].
  destruct (String.eqb_spec c "CycleCloser") as [->|N3]; [cbn; tauto|]. destruct (String.eqb_spec c "Merge") as [->|N4]; [cbn; split; [discriminate|contradiction]|].
  destruct (String.eqb_spec c "Separator") as [->|N5]; [cbn; split; [discriminate|contradiction]|].
  destruct (existsb (String.eqb c) ["Splitter"; "DropletSeparator"; "NodeBase"]%string) eqn:E6.
  { apply existsb_exists in E6. destruct E6 as (x & X & E). apply String.eqb_eq in E. subst x. cbn in X. destruct X as [<-|[<-|[<-|[]]]]; cbn; (split; [discriminate|contradiction]). }
  cbn [existsb] in E6. rewrite E6.
  destruct (String.eqb_spec c "Drum") as [->|N7]; [cbn; split; [discriminate|contradiction]|].
  destruct (existsb (String.eqb c) ["CombustionChamber"; "DiabaticCombustionChamber"]%string) eqn:E8.
  { apply existsb_exists in E8. destruct E8 as (x & X & E). apply String.eqb_eq in E. subst x. cbn in X. destruct X as [<-|[<-|[]]]; cbn; (split; [discriminate|contradiction]). }
  cbn [existsb] in E8. rewrite E8.
  destruct (String.eqb_spec c "CombustionEngine") as [->|N9]; [cbn; split; [discriminate|contradiction]|]. destruct (String.eqb_spec c "FuelCell") as [->|N10]; [cbn; tauto|].
  destruct (String.eqb_spec c "WaterElectrolyzer") as [->|N11]; cbn; [tauto|]. split; [|contradiction].
  intros H. repeat (apply orb_prop in H; destruct H as [H|H]); try discriminate; apply String.eqb_eq in H; congruence.
Qed.
Lemma starts_of k : has_comp n k -> wrapper_source W k = true -> wrapper_starts W n k = Ok (ws k) /\
  forall s, In s (ws k) <-> fluid_starts W n s /\ w_source W s = k.
Proof.
  intros HK SK. apply source_kind in SK. pose proof (acc_ports W n ACC k HK) as PO. unfold ports_ok in PO. destruct (small_ports W n ACC k HK) as (SO & _).
  assert (OL : forall s, In s (outl W n k) -> has_conn n s /\ w_source W s = k) by (intros s; apply In_outl).
  unfold ws, wrapper_starts, fluid_starts. destruct (kind_of W k) eqn:K; try contradiction.
  - destruct PO as (_ & Eo). rewrite Eo in SO. specialize (SO ltac:(sorted_small)). destruct (outl W n k) as [|o [|? ?]] eqn:O; try discriminate. cbn. split; [reflexivity|].
    intros s. split; [intros [<-|[]]; destruct (OL o (or_introl eq_refl)) as (A & B); rewrite B, K; auto|]. intros ((A & B) & C). assert (In s (outl W n k)) as I0 by (now apply In_outl). rewrite O in I0. exact I0.
  - destruct PO as (_ & Eo). rewrite Eo in SO. specialize (SO ltac:(sorted_small)). destruct (outl W n k) as [|o [|? ?]] eqn:O; try discriminate. cbn. split; [reflexivity|].
    intros s. split; [intros [<-|[]]; destruct (OL o (or_introl eq_refl)) as (A & B); rewrite B, K; auto|]. intros ((A & B) & C). assert (In s (outl W n k)) as I0 by (now apply In_outl). rewrite O in I0. exact I0.
  - destruct PO as (_ & Eo). rewrite Eo in SO. specialize (SO ltac:(sorted_small)). destruct (outl W n k) as [|o1 [|o2 [|? ?]]] eqn:O; try discriminate. cbn in SO |- *. injection SO as P1 P2. split; [reflexivity|].
    intros s. split.
    + intros [<-|[]]. destruct (OL o2 (or_intror (or_introl eq_refl))) as (A & B). rewrite B, K. auto.
    + intros ((A & B) & C). assert (In s (outl W n k)) as I0 by (now apply In_outl). rewrite O in I0. rewrite C, K in B. cbv iota in B. destruct I0 as [<-|[<-|[]]]; [rewrite P1 in B; discriminate|now left].
  - destruct PO as (_ & Eo). rewrite Eo in SO. specialize (SO ltac:(sorted_small)). destruct (outl W n k) as [|o1 [|o2 [|o3 [|? ?]]]] eqn:O; try discriminate. cbn in SO |- *. injection SO as P1 P2 P3. split; [reflexivity|].
    intros s. split.
    + intros [<-|[<-|[]]]; [destruct (OL o2 (or_intror (or_introl eq_refl))) as (A & B)|destruct (OL o3 (or_intror (or_intror (or_introl eq_refl)))) as (A & B)]; rewrite B, K; auto.
    + intros ((A & B) & C). assert (In s (outl W n k)) as I0 by (now apply In_outl). rewrite O in I0. rewrite C, K in B. cbv iota in B.
      destruct I0 as [<-|[<-|[<-|[]]]]; [rewrite P1 in B; destruct B; discriminate|now left|right; now left].
Qed.

(** A branch per start, as specified. *)
Definition good (s : nat) (b : list nat * list nat) : Prop := NoDup (fst b) /\ forall x, In x (fst b) <-> fluid_reach W n s x.
Definition goods (ss : list nat) (bs : dict (list nat * list nat)) : Prop :=
  NoDup (keys bs) /\ (forall l b, In (l, b) bs -> exists s, In s ss /\ w_label W s = l /\ good s b) /\ (forall s, In s ss -> exists b, In (w_label W s, b) bs).

Lemma list_goods f k : length cs < f -> forall os, (forall o, In o os -> fluid_starts W n o /\ w_source W o = k) ->
  forall ss bs, (forall s, In s ss -> has_conn n s) -> goods ss bs -> exists bs', wrapper_list W n f k os bs = Ok bs' /\ goods (ss ++ os) bs'.
Proof.
  intros L. induction os as [|o os IH]; intros HO ss bs HS G; cbn [wrapper_list]. { exists bs. rewrite app_nil_r. auto. }
  destruct (HO o (or_introl eq_refl)) as (S0 & SK). destruct (spread_from o f S0 L) as (c & k0 & D & ND & R). rewrite SK in D. rewrite D. cbn [rbind].
  destruct (IH (fun x X => HO x (or_intror X)) (ss ++ [o]) (dset (w_label W o) (c, k0) bs)) as (bs' & B1 & B2).
  - intros s X. apply In_snoc in X. destruct X as [X | ->]; [now apply HS|apply S0].
  - destruct G as (G1 & G2 & G3). split; [now apply NoDup_keys_dset|]. split.
    + intros l b X. apply In_dset in X; [|exact G1]. destruct X as [(-> & ->)|(X & Y)].
      * exists o. split; [apply In_snoc; now right|]. split; [reflexivity|]. split; [exact ND|exact R].
      * destruct (G2 l b Y) as (s & A & B & C). exists s. split; [apply In_snoc; now left|]. auto.
    + intros s X. destruct (string_dec (w_label W s) (w_label W o)) as [E|E].
      * exists (c, k0). rewrite E. apply dget_In. apply dget_dset_eq.
      * apply In_snoc in X. destruct X as [X | ->]; [|congruence]. destruct (G3 s X) as (b & B). exists b. apply In_dset; [exact G1|]. right. auto.
  - exists bs'. split; [exact B1|]. rewrite <- app_assoc in B2. exact B2.
Qed.

Lemma all_goods f : length cs < f -> forall ks, (forall k, In k ks -> has_comp n k /\ wrapper_source W k = true) ->
  forall ss bs, (forall s, In s ss -> has_conn n s) -> goods ss bs -> exists bs', wrapper_all W n f ks bs = Ok bs' /\ goods (ss ++ flat_map ws ks) bs'.
Proof.
  intros L. induction ks as [|k ks IH]; intros HK ss bs HS G; cbn [wrapper_all flat_map]. { exists bs. rewrite app_nil_r. auto. }
  destruct (HK k (or_introl eq_refl)) as (K1 & K2). destruct (starts_of k K1 K2) as (E & SP). rewrite E. cbn [rbind].
  destruct (list_goods f k L (ws k) (fun o O => proj1 (SP o) O) ss bs HS G) as (bs1 & B1 & B2). rewrite B1. cbn [rbind].
  destruct (IH (fun x X => HK x (or_intror X)) (ss ++ ws k) bs1) as (bs2 & C1 & C2); [|exact B2|].
  - intros s X. apply in_app_iff in X. destruct X as [X|X]; [now apply HS|]. apply SP in X. apply X.
  - exists bs2. split; [exact C1|]. rewrite <- app_assoc in C2. exact C2.
Qed.

Lemma all_starts s : In s (flat_map ws (filter (wrapper_source W) (map snd (n_comps n)))) <-> fluid_starts W n s.
Proof.
  assert (HC : forall k, In k (map snd (n_comps n)) <-> has_comp n k).
  { intros k. rewrite in_map_iff. unfold has_comp. split; [intros ((l, k') & <- & X); exists l; exact X|intros (l & X); exists (l, k); auto]. }
  rewrite in_flat_map. split.
  - intros (k & K & I0). apply filter_In in K. destruct K as (K1 & K2). apply HC in K1. apply (starts_of k K1 K2) in I0. apply I0.
  - intros S0. exists (w_source W s). assert (HK : has_comp n (w_source W s)) by (apply (acc_wf W n ACC s); apply S0).
    assert (SK : wrapper_source W (w_source W s) = true). { apply source_kind. destruct S0 as (_ & K). destruct (kind_of W (w_source W s)); tauto. }
    split; [apply filter_In; split; [now apply HC|exact SK]|]. apply (starts_of _ HK SK). auto.
Qed.

Lemma branches_ok f : length cs < f -> exists bs, wrapper_branches W n f = Ok bs /\ NoDup (keys bs) /\
  (forall s, fluid_starts W n s -> exists b, dget (w_label W s) bs = Some b) /\
  (forall l b, dget l bs = Some b -> exists s, fluid_starts W n s /\ w_label W s = l /\ NoDup (fst b) /\ forall x, In x (fst b) <-> fluid_reach W n s x).
Proof.
  intros L. destruct (all_goods f L (filter (wrapper_source W) (map snd (n_comps n)))) with (ss := @nil nat) (bs := @nil (string * (list nat * list nat))) as (bs & B & G1 & G2 & G3).
  - intros k K. apply filter_In in K. destruct K as (K1 & K2). split; [|exact K2]. apply in_map_iff in K1. destruct K1 as ((l & k') & <- & X). exists l. exact X.
  - intros s [].
  - split; [constructor|]. split; [intros l b []|intros s []].
  - exists bs. cbn [app] in G2, G3. split; [exact B|]. split; [exact G1|]. split.
    + intros s S0. apply all_starts in S0. destruct (G3 s S0) as (b & X). exists b. now apply In_dget.
    + intros l b X. apply dget_In in X. destruct (G2 l b X) as (s & A & E & C & D). exists s. split; [now apply all_starts|]. auto.
Qed.
End P.

(* ---- merging ---- *)
Section M.
Variable order : list nat -> list nat.
Hypothesis OR : set_order order.
Variable bs : dict (list nat * list nat).

Definition alive_held (data : dict (list nat * list nat)) (alive : list string) (c : nat) : Prop :=
  exists l b, In (l, b) data /\ In l alive /\ In c (fst b).
Record minv (data : dict (list nat * list nat)) (alive : list string) : Prop := {
  mi_nd : NoDup (keys data);
  mi_keys : forall l, In l (keys data) <-> In l (keys bs);
  mi_held : forall c, alive_held data alive c <-> held bs c;
  mi_incl : forall l0 b0, In (l0, b0) bs -> exists l b, In (l, b) data /\ In l alive /\ incl (fst b0) (fst b);
  mi_link : forall l b, In (l, b) data -> forall c d, In c (fst b) -> In d (fst b) -> linked bs c d }.

Lemma common_In a b : common a b = true <-> exists x, In x a /\ In x b.
Proof. unfold common. rewrite existsb_exists. split; intros (x & A & B); exists x; split; auto; now apply nmem_In. Qed.
Lemma order_In l x : In x (order l) <-> In x l.
Proof. apply OR. Qed.

Lemma merge_one_inv name : forall obs data alive data' alive', minv data alive -> In name alive -> merge_one order name obs data alive = (data', alive') ->
  minv data' alive' /\ In name alive' /\ incl alive' alive.
Proof.
  induction obs as [|ob obs IH]; intros data alive data' alive' V A H; cbn [merge_one] in H.
  { assert (data' = data /\ alive' = alive) as (-> & ->) by (split; congruence). auto using incl_refl. }
  destruct (String.eqb_spec ob name) as [->|N]; [now apply IH in H|].
  destruct (dget name data) as [b|] eqn:DB; [|assert (data' = data /\ alive' = alive) as (-> & ->) by (split; congruence); auto using incl_refl].
  destruct (dget ob data) as [o|] eqn:DO; [|assert (data' = data /\ alive' = alive) as (-> & ->) by (split; congruence); auto using incl_refl].
  destruct (common (fst b) (fst o) && smem ob alive) eqn:C; [|now apply IH in H].
  apply andb_prop in C. destruct C as (C1 & C2). apply common_In in C1. apply smem_In in C2. destruct C1 as (x & X1 & X2).
  assert (data' = dset name (order (fst b ++ fst o), order (snd b ++ snd o)) data /\ alive' = srem ob alive) as (-> & ->) by (split; congruence). clear H IH.
  destruct V as [V1 V2 V3 V5 V4]. apply dget_In in DB, DO. split; [|split; [apply srem_In; split; [congruence|exact A]|intros y Y; apply srem_In in Y; tauto]]. constructor.
  - now apply NoDup_keys_dset.
  - intros l. rewrite keys_dset, <- V2. split; [intros [->|?]; [|assumption]|auto]. unfold keys. apply in_map_iff. exists (name, b). auto.
  - intros c. rewrite <- V3. unfold alive_held. split.
    + intros (l & b' & I1 & I2 & I3). apply srem_In in I2. destruct I2 as (I4 & I2). apply In_dset in I1; [|exact V1]. destruct I1 as [(-> & ->)|(J1 & J2)].
      * cbn [fst] in I3. apply order_In, in_app_iff in I3. destruct I3 as [I3|I3]; [exists name, b|exists ob, o]; auto.
      * exists l, b'. auto.
    + intros (l & b' & I1 & I2 & I3). destruct (string_dec l name) as [->|L1]; [|destruct (string_dec l ob) as [->|L2]].
      * exists name, (order (fst b ++ fst o), order (snd b ++ snd o)). split; [apply In_dset; auto|]. split; [apply srem_In; split; [congruence|exact A]|].
        cbn [fst]. apply order_In, in_app_iff. left. apply In_dget in I1, DB; try exact V1. congruence.
      * exists name, (order (fst b ++ fst o), order (snd b ++ snd o)). split; [apply In_dset; auto|]. split; [apply srem_In; split; [congruence|exact A]|].
        cbn [fst]. apply order_In, in_app_iff. right. apply In_dget in I1, DO; try exact V1. congruence.
      * exists l, b'. split; [apply In_dset; auto|]. split; [apply srem_In; auto|exact I3].
  - intros l0 b0 I0. destruct (V5 l0 b0 I0) as (l & b' & I1 & I2 & I3).
    destruct (string_dec l name) as [->|L1]; [|destruct (string_dec l ob) as [->|L2]].
    + exists name, (order (fst b ++ fst o), order (snd b ++ snd o)). split; [apply In_dset; auto|]. split; [apply srem_In; split; [congruence|exact A]|].
      cbn [fst]. intros y Y. apply order_In, in_app_iff. left. apply In_dget in I1, DB; try exact V1. replace b with b' by congruence. now apply I3.
    + exists name, (order (fst b ++ fst o), order (snd b ++ snd o)). split; [apply In_dset; auto|]. split; [apply srem_In; split; [congruence|exact A]|].
      cbn [fst]. intros y Y. apply order_In, in_app_iff. right. apply In_dget in I1, DO; try exact V1. replace o with b' by congruence. now apply I3.
    + exists l, b'. split; [apply In_dset; auto|]. split; [apply srem_In; auto|exact I3].
  - intros l b' I1 c d I3 I4. apply In_dset in I1; [|exact V1]. destruct I1 as [(-> & ->)|(J1 & J2)]; [|now apply (V4 l b' J2)].
    cbn [fst] in I3, I4. apply order_In, in_app_iff in I3, I4.
    assert (LX : forall y, In y (fst b) \/ In y (fst o) -> linked bs y x /\ linked bs x y).
    { intros y [Y|Y]; [split; apply (V4 _ _ DB); auto|split; apply (V4 _ _ DO); auto]. }
    eapply rt_trans; [apply (LX c I3)|apply (LX d I4)].
Qed.

Lemma merge_all_inv obs : forall names data alive data' alive', minv data alive -> merge_all order names obs data alive = (data', alive') -> minv data' alive' /\ incl alive' alive.
Proof.
  induction names as [|name names IH]; intros data alive data' alive' V H; cbn [merge_all] in H.
  { assert (data' = data /\ alive' = alive) as (-> & ->) by (split; congruence). auto using incl_refl. }
  destruct (smem name alive) eqn:S0; [|now apply IH in H]. apply smem_In in S0. destruct (merge_one order name obs data alive) as (d1, a1) eqn:M.
  destruct (merge_one_inv name obs data alive d1 a1 V S0 M) as (V1 & _ & I1). destruct (IH _ _ _ _ V1 H) as (V2 & I2). split; [exact V2|]. intros x X. apply I1, I2, X.
Qed.

Lemma merge_spec : NoDup (keys bs) -> let ms := merge_branches order bs in
  (forall c, held ms c <-> held bs c) /\
  (forall l0 b0, In (l0, b0) bs -> exists l b, In (l, b) ms /\ incl (fst b0) (fst b)) /\
  (forall c d, together ms c d -> linked bs c d).
Proof.
  intros ND. cbv zeta. unfold merge_branches. destruct (merge_all order (keys bs) (keys bs) bs (keys bs)) as (data, alive) eqn:M.
  assert (KI : forall l b, In (l, b) bs -> In l (keys bs)). { intros l b H. unfold keys. apply in_map_iff. exists (l, b). auto. }
  assert (V0 : minv bs (keys bs)).
  { constructor; auto; [tauto| | |].
    - intros c. unfold alive_held, held. split; intros (l & b & A); [exists l, b; tauto|]. destruct A as (A & B). exists l, b. eauto.
    - intros l b H. exists l, b. split; [exact H|]. split; [eauto|apply incl_refl].
    - intros l b I0 c d C D. apply rt_step. exists l, b. auto. }
  destruct (merge_all_inv _ _ _ _ _ _ V0 M) as ([V1 V2 V3 V5 V4] & IA).
  assert (FI : forall l b, In (l, b) (filter (fun b => smem (fst b) alive) data) <-> In (l, b) data /\ In l alive).
  { intros l b. rewrite filter_In. cbn [fst]. now rewrite smem_In. }
  split; [|split].
  - intros c. rewrite <- V3. unfold held, alive_held. split; intros (l & b & H).
    + destruct H as (H & C). apply FI in H. exists l, b. tauto.
    + exists l, b. rewrite FI. tauto.
  - intros l0 b0 H. destruct (V5 l0 b0 H) as (l & b & A & B & C). exists l, b. rewrite FI. auto.
  - intros c d (l & b & H & C & D). apply FI in H. apply (V4 l b); tauto.
Qed.
End M.

Lemma wrapper_merged W n order f : accepted W n -> no_engine W n -> set_order order -> length (n_conns n) < f ->
  exists ms, create_fluid_wrapper_branches W n order f = Ok ms /\
    (forall c, held ms c <-> exists s, fluid_starts W n s /\ fluid_reach W n s c) /\
    (forall s, fluid_starts W n s -> exists l b, In (l, b) ms /\ forall c, fluid_reach W n s c -> In c (fst b)) /\
    (forall c d, together ms c d -> clos_refl_trans nat (same_fluid W n) c d).
Proof.
  intros ACC NE OR L. destruct (branches_ok W n ACC NE f) as (bs & B & ND & ST & SP). { now rewrite map_length. }
  exists (merge_branches order bs). unfold create_fluid_wrapper_branches. rewrite B. split; [reflexivity|].
  destruct (merge_spec order OR bs ND) as (M1 & M2 & M3). split; [|split].
  - intros c. rewrite M1. split.
    + intros (l & b & I0 & C). apply In_dget in I0; [|exact ND]. destruct (SP l b I0) as (s & S0 & _ & _ & R). exists s. split; [exact S0|now apply R].
    + intros (s & S0 & R). destruct (ST s S0) as (b & D). destruct (SP _ b D) as (s' & S1 & E & _ & R').
      assert (s' = s). { apply (label_inj W n ACC); [apply S1|apply S0|exact E]. } subst s'. exists (w_label W s), b. split; [now apply dget_In|now apply R'].
  - intros s S0. destruct (ST s S0) as (b & D). destruct (SP _ b D) as (s' & S1 & E & _ & R').
    assert (s' = s). { apply (label_inj W n ACC); [apply S1|apply S0|exact E]. } subst s'.
    destruct (M2 (w_label W s) b (dget_In _ _ _ D)) as (l & b' & I0 & IN). exists l, b'. split; [exact I0|]. intros c R. apply IN, R', R.
  - intros c d T. apply M3 in T. clear M1 M2 M3. induction T as [x y T|x|x y z T1 IH1 T2 IH2]; [|apply rt_refl|eapply rt_trans; eauto].
    destruct T as (l & b & I0 & C & D). apply In_dget in I0; [|exact ND]. destruct (SP l b I0) as (s & S0 & _ & _ & R). apply rt_step. exists s. split; [exact S0|]. split; now apply R.
Qed.

Lemma wrapper_unmerged W n f : accepted W n -> no_engine W n -> length (n_conns n) < f ->
  exists bs, wrapper_branches W n f = Ok bs /\ NoDup (keys bs) /\
    (forall s, fluid_starts W n s -> exists b, dget (w_label W s) bs = Some b) /\
    (forall l b, dget l bs = Some b -> exists s, fluid_starts W n s /\ w_label W s = l /\ NoDup (fst b) /\ forall x, In x (fst b) <-> fluid_reach W n s x).
Proof. intros ACC NE L. apply branches_ok; auto. now rewrite map_length. Qed.
