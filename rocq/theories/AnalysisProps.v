(** ExergyAnalysis: C38, C98-C101. *)
From Coq Require Import QArith Qabs Lqa.
From Verif Require Import Base ExergyModel AnalysisModel AnalysisSpec AnalysisProofs AnalysisProofs2 AnalysisWitness.
Open Scope Q_scope.

(* ================================================================== C38 *)

(** If every component satisfies its exergy balance, the analysis closes: fuel
    minus product minus loss is the destruction, each total is what the busses of
    that role carry, and no message is given. *)
Theorem C38_closed : forall an ks ls e r g, analyse an ks ls = Ok (r, g) ->
  NoDup (map k_label ks) ->
  (forall l, In l ls -> In (n_src l) (map k_label ks) /\ In (n_tgt l) (map k_label ks)) ->
  (forall k, In k ks -> balanced an ls e k) ->
  drawn_from an e ks Internal == 0 ->
  0 <= drawn_from an e ks Fuel -> drawn_from an e ks Product <= 0 ->
  exists F P L, o_F r = Some F /\ o_P r = Some P /\ o_L r = Some L
    /\ F == drawn_from an e ks Fuel /\ P == - drawn_from an e ks Product /\ L == - drawn_from an e ks Loss
    /\ F - P - L == o_D r /\ o_open r = false.
Proof. exact network_closed. Qed.
Print Assumptions C38_closed.

(** Charging the destruction on the bus to the component keeps its balance. *)
Theorem C38_aggregation : forall rows c F P D,
  c_F c = Some F -> c_P c = Some P -> c_D c = Some D -> D == F - P ->
  (forall r, dget (c_label c) rows = Some r -> row_D r <> None) ->
  exists F' P' D', c_F (aggregate rows c) = Some F' /\ c_P (aggregate rows c) = Some P'
    /\ c_D (aggregate rows c) = Some D' /\ D' == F' - P'
    /\ D' == D + match dget (c_label c) rows with Some r => zero_if_nan (row_D r) | None => 0 end.
Proof. exact aggregate_balance. Qed.
Print Assumptions C38_aggregation.

(** Inadmissible set-ups are rejected. *)
Theorem C38_accepted : forall an ks ls r g, analyse an ks ls = Ok (r, g) ->
  (an_F an <> [] /\ an_P an <> [])
  /\ forall k, In k ks ->
     (length (filter (fun b => dmem (k_label k) (u_comps b)) (all_busses an)) <= 1)%nat
     /\ ~ In (k_group k) (reserved an) /\ exists bal, k_balance k = Ok bal.
Proof. exact accepted. Qed.
Print Assumptions C38_accepted.

Example C38_example : shown (analyse (plant true 1) parts pipes)
  = Some (Some 100, Some 54, 16, Some 30, false,
          [("source", (100, 0)); ("turbine", (100, 16)); ("sink", (30, 0))]%string).
Proof. vm_compute. reflexivity. Qed.
(** The hypotheses of [C38_closed] hold of it. *)
Example C38_hypotheses :
  let e k := if String.eqb (k_label k) "source" then 100 else if String.eqb (k_label k) "turbine" then 60 else 30 in
  (forall k, In k parts -> balanced (plant true 1) pipes e k)
  /\ drawn_from (plant true 1) e parts Internal == 0 /\ 0 <= drawn_from (plant true 1) e parts Fuel
  /\ drawn_from (plant true 1) e parts Product <= 0.
Proof.
  split; [| split; [| split]; vm_compute; congruence].
  intros k [<- | [<- | [<- | []]]]; (eexists; split; [reflexivity |]; split; [vm_compute; reflexivity |]);
    intros b m X; vm_compute in X; injection X as <- <-; (split; [vm_compute; reflexivity |]);
    vm_compute; congruence.
Qed.
Example C38_rejected :
  analyse {| an_F := []; an_P := [on "power" "turbine" false 1]; an_int := []; an_L := [] |} parts pipes
    = Err TESPyNetworkError
  /\ analyse {| an_F := [on "fuel" "turbine" false 1]; an_P := [on "power" "turbine" false 1]; an_int := []; an_L := [] |}
       parts pipes = Err TESPyNetworkError
  /\ analyse (plant true 1) (source "power" 100 :: tl parts) pipes = Err ValueError.
Proof. vm_compute. auto. Qed.

(* ========================================= C98: destruction of the groups *)

(** The destruction of the groups adds up to that of the network as long as no
    component without own destruction has a lossy bus. *)
Theorem C98_groups_partial : forall an ks ls r g, analyse an ks ls = Ok (r, g) ->
  NoDup (map k_label ks) ->
  (forall c, In c (o_rows r) -> kept (o_bus r) c) ->
  sumq g (fun x => snd (snd x)) == o_D r /\ NoDup (map fst g)
  /\ forall k, In k ks -> In (k_group k) (map fst g).
Proof. exact groups_total. Qed.
Print Assumptions C98_groups_partial.

(** A source on a fuel bus with an efficiency: its loss counts for the network but
    for no group. *)
Theorem C98_groups_refuted : exists an ks ls r g, analyse an ks ls = Ok (r, g)
  /\ NoDup (map k_label ks) /\ o_open r = false
  /\ ~ sumq g (fun x => snd (snd x)) == o_D r.
Proof.
  exists (plant true (1#2)), parts, pipes. do 2 eexists. split; [vm_compute; reflexivity |].
  split; [repeat constructor; cbn; intuition congruence |]. split; [reflexivity |].
  intro X. vm_compute in X. discriminate X.
Qed.
Print Assumptions C98_groups_refuted.

(* ================================================= C99: base of the bus *)

(** A source on a fuel bus with the default base 'component' raises IndexError, as
    does a sink with base 'bus'. *)
Theorem C99_base_refuted : exists an an' ks ls,
  (exists l e, In (on l "source" false e) (an_F an)) /\ analyse an ks ls = Err IndexError
  /\ (exists l e, In (on l "sink" true e) (an_L an')) /\ analyse an' ks ls = Err IndexError.
Proof.
  exists (plant false 1), {| an_F := an_F (plant true 1); an_P := an_P (plant true 1); an_int := [];
    an_L := [on "loss" "sink" true 1] |}, parts, pipes.
  split; [eexists _, _; left; reflexivity|]. split; [vm_compute; reflexivity|]. split; [eexists _, _; left; reflexivity|]. vm_compute; reflexivity.
Qed.
Print Assumptions C99_base_refuted.

(* ===================================== C100: message for an open balance *)

(** With numbers for the totals the message is given exactly if the residual
    reaches 1e-3. *)
Theorem C100_message_partial : forall an ks ls r g F P L, analyse an ks ls = Ok (r, g) ->
  o_F r = Some F -> o_P r = Some P -> o_L r = Some L ->
  (o_open r = true <-> (1 # 1000) <= Qabs (F - P - o_D r - L)).
Proof. exact open_reported. Qed.
Print Assumptions C100_message_partial.

Theorem C100_message_refuted : exists an ks ls r g, analyse an ks ls = Ok (r, g)
  /\ In heater ks /\ o_P r = None /\ o_open r = false.
Proof.
  exists (plant true 1), [source "source" 200; heater; sink "sink" 50],
    [{| n_src := "source"; n_tgt := "turbine"; n_cat := "water"; n_chem := 0; n_phys := 200 |};
     {| n_src := "turbine"; n_tgt := "sink"; n_cat := "water"; n_chem := 0; n_phys := 50 |}].
  do 2 eexists. split; [vm_compute; reflexivity |]. split; [right; left; reflexivity |]. split; reflexivity.
Qed.
Print Assumptions C100_message_refuted.

(* ================================ C101: two kinds of streams to one group *)

(** A group delivering two fluids to one other group makes the analysis raise. *)
Theorem C101_categories_refuted : exists an ks ls,
  (exists r g, analyse an ks (map (fun l => {| n_src := n_src l; n_tgt := n_tgt l; n_cat := "water";
                                               n_chem := n_chem l; n_phys := n_phys l |}) ls) = Ok (r, g))
  /\ analyse an ks ls = Err ValueError.
Proof.
  exists (plant true 1), parts,
    ({| n_src := "source"; n_tgt := "turbine"; n_cat := "air"; n_chem := 0; n_phys := 5 |} :: pipes).
  split; [do 2 eexists; vm_compute; reflexivity | vm_compute; reflexivity].
Qed.
Print Assumptions C101_categories_refuted.

(** A heat exchanger (all shares of the bus exergy nan) on a product bus makes it
    raise as well: the shares count as two categories. *)
Theorem C101_nan_shares_refuted : exists an k ls, k_balance k = Ok (finish (Some 70) (Some 60) no_bus)
  /\ analyse an [source "source" 100; k; sink "sink" 30] ls = Err ValueError.
Proof.
  exists (plant true 1), (turbine 60 70 no_bus), pipes. split; [reflexivity | vm_compute; reflexivity].
Qed.
Print Assumptions C101_nan_shares_refuted.
