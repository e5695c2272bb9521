(** Proofs about plotting data. *)
From Coq Require Import String List Bool Arith Lia.
From Verif Require Import Base PlotModel PlotSpec.
Import ListNotations.
Open Scope nat_scope.
Open Scope string_scope.

Lemma line_starts {V} : forall iso pt (a b : sprop -> V), iso <> pt -> starts_at (line iso pt a b) a.
Proof. intros; repeat split; assumption. Qed.
Lemma line_ends {V} : forall iso pt (a b : sprop -> V), iso <> pt -> ends_at (line iso pt a b) b.
Proof. intros; repeat split; assumption. Qed.

Lemma some_inj {A} : forall a b : A, Some a = Some b -> b = a.
Proof. congruence. Qed.

Ltac pl := match goal with
  | |- starts_at _ _ => apply line_starts; discriminate
  | |- ends_at _ _ => apply line_ends; discriminate end.

Lemma drum_class : forall cls, pclass_of cls = PcDrum -> cls = "Drum".
Proof.
  intros cls; unfold pclass_of.
  repeat (match goal with |- context [if ?b then _ else _] => destruct b eqn:?E end; try discriminate).
  intros _. now apply String.eqb_eq.
Qed.

Lemma every_line : forall V cls num_in (li lo : nat -> sprop -> V) d k l,
  plotting_data cls num_in li lo = Some d -> In (k, l) d -> cls <> "Drum" \/ k <> 1 ->
  exists i j, i < n_in (pclass_of cls) num_in /\ j < n_out (pclass_of cls)
    /\ starts_at l (li i) /\ ends_at l (lo j).
Proof.
  intros V cls num_in li lo d k l Hd Hin Hk.
  unfold plotting_data in Hd. destruct (pclass_of cls) eqn:Hc; try discriminate Hd; apply some_inj in Hd; subst d; cbn [n_in n_out].
  - apply in_map_iff in Hin. destruct Hin as (i & E & Hi). inversion E; subst. apply in_seq in Hi.
    exists i, i. repeat split; try lia; pl || discriminate || (cbn; reflexivity).
  - destruct Hin as [E|[]]; inversion E; subst. exists 0, 0. repeat split; try lia; discriminate.
  - assert (k <> 1) by (destruct Hk as [Hk|Hk]; [now elim Hk; apply drum_class|exact Hk]).
    destruct Hin as [E|[E|[E|[E|[E|[]]]]]]; inversion E; subst; [congruence|exists 0, 0|exists 0, 1|exists 1, 0|exists 1, 1];
      repeat split; try lia; discriminate.
  - apply in_map_iff in Hin. destruct Hin as (i & E & Hi). inversion E; subst. apply in_seq in Hi.
    exists 0, i. repeat split; try lia; discriminate.
  - apply in_map_iff in Hin. destruct Hin as (i & E & Hi). inversion E; subst. apply in_seq in Hi.
    exists i, 0. repeat split; try lia; discriminate.
  - destruct Hin as [E|[]]; inversion E; subst. exists 0, 0. repeat split; try lia; discriminate.
  - destruct Hin as [E|[]]; inversion E; subst. exists 0, 0. repeat split; try lia; discriminate.
Qed.

Lemma drum_first : forall V num_in (li lo : nat -> sprop -> V),
  exists d l, plotting_data "Drum" num_in li lo = Some d /\ In (1, l) d /\ starts_at l (lo 0) /\ ends_at l (lo 1).
Proof.
  intros. eexists. eexists. split; [reflexivity|]. split; [left; reflexivity|]. split; pl.
Qed.

Lemma every_inlet : forall V cls num_in (li lo : nat -> sprop -> V) d i,
  plotting_data cls num_in li lo = Some d -> i < n_in (pclass_of cls) num_in ->
  exists j, j < n_out (pclass_of cls) /\ some_line d (fun l => starts_at l (li i) /\ ends_at l (lo j)).
Proof.
  intros V cls num_in li lo d i Hd Hi. unfold plotting_data in Hd.
  destruct (pclass_of cls) eqn:Hc; try discriminate Hd; apply some_inj in Hd; subst d; cbn [n_in n_out] in *.
  - exists i. split; [lia|]. eexists. eexists. split; [apply (in_map (fun i => (i + 1, line Sp Sv (li i) (lo i))) _ i), in_seq; lia|]. split; pl.
  - exists 0. split; [lia|]. replace i with 0 by lia. eexists. eexists. split; [left; reflexivity|]. split; pl.
  - exists 0. split; [lia|]. destruct i as [|[|i]]; [| |lia].
    + exists 2. eexists. split; [right; left; reflexivity|]. split; pl.
    + exists 4. eexists. split; [do 3 right; left; reflexivity|]. split; pl.
  - exists 0. split; [lia|]. replace i with 0 by lia. eexists. eexists. split; [left; reflexivity|]. split; pl.
  - exists 0. split; [lia|]. eexists. eexists. split; [apply (in_map (fun i => (i + 1, line Sp Sv (li i) (lo 0))) _ i), in_seq; lia|]. split; pl.
  - exists 0. split; [lia|]. replace i with 0 by lia. eexists. eexists. split; [left; reflexivity|]. split; pl.
  - exists 0. split; [lia|]. replace i with 0 by lia. eexists. eexists. split; [left; reflexivity|]. split; pl.
Qed.

Lemma every_outlet : forall V cls num_in (li lo : nat -> sprop -> V) d j,
  plotting_data cls num_in li lo = Some d -> j < n_out (pclass_of cls) -> 0 < num_in ->
  exists i, i < n_in (pclass_of cls) num_in /\ some_line d (fun l => starts_at l (li i) /\ ends_at l (lo j)).
Proof.
  intros V cls num_in li lo d j Hd Hj Hn. unfold plotting_data in Hd.
  destruct (pclass_of cls) eqn:Hc; try discriminate Hd; apply some_inj in Hd; subst d; cbn [n_in n_out] in *.
  - exists j. split; [lia|]. eexists. eexists. split; [apply (in_map (fun i => (i + 1, line Sp Sv (li i) (lo i))) _ j), in_seq; lia|]. split; pl.
  - exists 0. split; [lia|]. replace j with 0 by lia. eexists. eexists. split; [left; reflexivity|]. split; pl.
  - exists 0. split; [lia|]. destruct j as [|[|j]]; [| |lia].
    + exists 2. eexists. split; [right; left; reflexivity|]. split; pl.
    + exists 3. eexists. split; [do 2 right; left; reflexivity|]. split; pl.
  - exists 0. split; [lia|]. eexists. eexists. split; [apply (in_map (fun i => (i + 1, line Sp Sv (li 0) (lo i))) _ j), in_seq; lia|]. split; pl.
  - exists 0. split; [lia|]. replace j with 0 by lia. eexists. eexists.
    split; [apply (in_map (fun i => (i + 1, line Sp Sv (li i) (lo 0))) _ 0), in_seq; lia|]. split; pl.
  - exists 0. split; [lia|]. replace j with 0 by lia. eexists. eexists. split; [left; reflexivity|]. split; pl.
  - exists 0. split; [lia|]. replace j with 0 by lia. eexists. eexists. split; [left; reflexivity|]. split; pl.
Qed.

Lemma keys_seq : forall V (f : nat -> pline V) n s,
  map fst (map (fun i => (i + 1, f i)) (seq s n)) = seq (S s) n.
Proof.
  induction n as [|n IH]; intros s; cbn; [reflexivity|]. rewrite IH. now rewrite Nat.add_1_r.
Qed.

Lemma keys_numbered : forall V cls num_in (li lo : nat -> sprop -> V) d,
  plotting_data cls num_in li lo = Some d -> map fst d = seq 1 (List.length d).
Proof.
  intros V cls num_in li lo d Hd. unfold plotting_data in Hd.
  destruct (pclass_of cls); try discriminate Hd; apply some_inj in Hd; subst d; try reflexivity.
  rewrite keys_seq. now rewrite map_length, seq_length.
Qed.

Lemma connection_index : forall V cls num_in (li lo : nat -> sprop -> V) d k l,
  plotting_data cls num_in li lo = Some d -> In (k, l) d -> cls <> "Drum" ->
  starts_at l (li (if Nat.eqb (n_in (pclass_of cls) num_in) 1 then 0 else k - 1))
  /\ ends_at l (lo (if Nat.eqb (n_out (pclass_of cls)) 1 then 0 else k - 1)).
Proof.
  intros V cls num_in li lo d k l Hd Hin Hk.
  unfold plotting_data in Hd. destruct (pclass_of cls) eqn:Hc; try discriminate Hd; apply some_inj in Hd; subst d; cbn [n_in n_out Nat.eqb].
  - apply in_map_iff in Hin. destruct Hin as (i & E & Hi). inversion E; subst. replace (i + 1 - 1) with i by lia. split; pl.
  - destruct Hin as [E|[]]; inversion E; subst. split; pl.
  - now elim Hk; apply drum_class.
  - apply in_map_iff in Hin. destruct Hin as (i & E & Hi). inversion E; subst. replace (i + 1 - 1) with i by lia. split; pl.
  - apply in_map_iff in Hin. destruct Hin as (i & E & Hi). inversion E; subst. apply in_seq in Hi.
    replace (i + 1 - 1) with i by lia. destruct (Nat.eqb_spec num_in 1); [replace i with 0 by lia|]; split; pl.
  - destruct Hin as [E|[]]; inversion E; subst. split; pl.
  - destruct Hin as [E|[]]; inversion E; subst. split; pl.
Qed.

Lemma valve_isoline : forall V num_in (li lo : nat -> sprop -> V) d k l,
  plotting_data "Valve" num_in li lo = Some d -> In (k, l) d -> li 0 Sh = lo 0 Sh -> isoline l.
Proof.
  intros V num_in li lo d k l Hd Hin He. inversion Hd; subst d.
  destruct Hin as [E|[]]; inversion E; subst. exact He.
Qed.

Lemma node_isoline : forall V cls num_in (li lo : nat -> sprop -> V) d k l P,
  In cls ["Drum"; "DropletSeparator"; "Merge"] ->
  plotting_data cls num_in li lo = Some d -> In (k, l) d ->
  (forall i, i < n_in (pclass_of cls) num_in -> li i Sp = P) -> (forall j, j < n_out (pclass_of cls) -> lo j Sp = P) ->
  isoline l.
Proof.
  intros V cls num_in li lo d k l P Hc Hd Hin Hi Ho.
  destruct Hc as [<-|[<-|[<-|[]]]]; cbn in Hi, Ho; cbn [plotting_data pclass_of] in Hd; inversion Hd; subst d.
  - destruct Hin as [E|[E|[E|[E|[E|[]]]]]]; inversion E; subst; unfold isoline; cbn; rewrite ?Hi, ?Ho by lia; reflexivity.
  - destruct Hin as [E|[E|[]]]; inversion E; subst; unfold isoline; cbn; rewrite ?Hi, ?Ho by lia; reflexivity.
  - apply in_map_iff in Hin. destruct Hin as (i & E & Hs). apply in_seq in Hs. inversion E; subst.
    unfold isoline; cbn. now rewrite Hi, Ho by lia.
Qed.

Lemma nothing_for : forall V cls num_in (li lo : nat -> sprop -> V),
  In cls ["Source"; "Sink"; "CycleCloser"; "Splitter"; "Separator"; "SubsystemInterface"; "CombustionChamber";
          "DiabaticCombustionChamber"; "CombustionEngine"; "FuelCell"; "WaterElectrolyzer"] ->
  plotting_data cls num_in li lo = None.
Proof.
  intros V cls num_in li lo H. cbn [In] in H.
  repeat (destruct H as [<-|H]; [reflexivity|]). destruct H.
Qed.
(** Classes with plotting data *)
Definition plotted : list string :=
  ["HeatExchanger"; "Condenser"; "Desuperheater"; "MovingBoundaryHeatExchanger"; "SimpleHeatExchanger"; "HeatExchangerSimple"; "Pipe";
   "SolarCollector"; "ParabolicTrough"; "Drum"; "DropletSeparator"; "Merge"; "Valve"; "Turbomachine"; "Pump"; "Compressor"; "Turbine"; "SteamTurbine"].
Lemma plotted_classes : forall V cls num_in (li lo : nat -> sprop -> V), (exists d, plotting_data cls num_in li lo = Some d) <-> In cls plotted.
Proof.
  intros V cls num_in li lo. split.
  - intros (d & H). unfold plotting_data in H. destruct (pclass_of cls) eqn:E; try discriminate; unfold pclass_of in E; clear H;
    repeat match type of E with
    | (if smem cls ?l then _ else _) = _ => destruct (smem cls l) eqn:S; [apply smem_In in S; cbn in S; unfold plotted; cbn; intuition congruence|clear S]
    | (if String.eqb cls ?l then _ else _) = _ => destruct (String.eqb cls l) eqn:S; [apply String.eqb_eq in S; subst; unfold plotted; cbn; tauto|clear S]
    end; discriminate.
  - unfold plotted. intros H. repeat (destruct H as [<-|H]; [eexists; reflexivity|]). destruct H.
Qed.
