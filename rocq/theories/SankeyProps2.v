(** C175, C176: balances of busses and flows between groups in the Sankey tables. *)
From Coq Require Import QArith Qabs Lqa.
From Verif Require Import Base ExergyModel AnalysisModel AnalysisSpec SankeyModel SankeySpec SankeyProofs2 SankeyProofs5 SankeyProofs6.
Open Scope Q_scope.
Open Scope list_scope.

(** C175 – in every column as much flows into the node of a bus as leaves it, and the rows of fuel, product and loss add up to the totals of the network. *)
Theorem C175_bus_nodes : forall an ks ls r gd gs sk,
  analyse an ks ls = Ok (r, gd) -> final_tables an ks ls = Ok (gs, sk) ->
  NoDup (map u_label (all_busses an)) -> (forall l, In l ls -> In (n_tgt l) (map k_label ks)) ->
  (forall f, o_F r = Some f ->
     (forall b, In b (an_F an) -> node_balance (u_label b) sk /\ has_numbers "E_F" (u_label b, "E_F"%string) sk)
     /\ f == Qabs (sumq (an_F an) (fun b => entry "E_F" (u_label b, "E_F"%string) sk)))
  /\ (forall p, o_P r = Some p ->
     (forall b, In b (an_P an) -> node_balance (u_label b) sk /\ has_numbers (u_label b) ("E_P", "E_P")%string sk)
     /\ p == Qabs (sumq (an_P an) (fun b => entry (u_label b) ("E_P", "E_P")%string sk)))
  /\ (forall l, o_L r = Some l ->
     (forall b, In b (an_L an) -> node_balance (u_label b) sk /\ has_numbers (u_label b) ("E_L", "E_L")%string sk)
     /\ l == sumq (an_L an) (fun b => entry (u_label b) ("E_L", "E_L")%string sk)).
Proof. exact bus_nodes. Qed.
Print Assumptions C175_bus_nodes.

(** C176 – the flow from group to group is the sum of the exergies of the connections between them, by category. *)
Theorem C176_group_flows : forall an ks ls gs sk,
  final_tables an ks ls = Ok (gs, sk) -> NoDup (map k_label ks) -> (forall l, In l ls -> In (n_tgt l) (map k_label ks)) ->
  forall g h cat, In g (map k_group ks) -> In h (map k_group ks) -> g <> h ->
  (tget (h, cat) (table_of g sk) = None <-> forall l, In l ls -> between ks g h cat l = false)
  /\ forall v c, tget (h, cat) (table_of g sk) = Some v -> exists x, cell c v = Some x /\ x == sumq ls (fun l => if between ks g h cat l then carried c l else 0).
Proof. exact group_flows. Qed.
Print Assumptions C176_group_flows.

(** Fuel 100 into the source, 100 on to the turbine, 80 delivered: the rows of the tables. *)
Example C175_ex : match final_tables station [from_source 100; turbine_of 90 80] [pipe "source" "turbine" 0 100], analyse station [from_source 100; turbine_of 90 80] [pipe "source" "turbine" 0 100] with
  | Ok (_, sk), Ok (r, _) =>
      (Qeq_bool (entry "E_F" ("fuel", "E_F")%string sk) 100 && Qeq_bool (entry "power" ("E_P", "E_P")%string sk) 80 && Qeq_bool (entry "source" ("turbine", "two-phase-fluid")%string sk) 100
      && Qeq_bool (outflow Physical "fuel" sk) 100 && Qeq_bool (inflow Massless "power" sk) 80)%bool = true /\ o_F r = Some 100
  | _, _ => False end.
Proof. vm_compute. split; reflexivity. Qed.
(** The hypotheses hold for it. *)
Example C175_hypotheses : NoDup (map u_label (all_busses station)) /\ forall l, In l [pipe "source" "turbine" 0 100] -> In (n_tgt l) (map k_label [from_source 100; turbine_of 90 80]).
Proof. split; [repeat constructor; cbn; intuition discriminate|]. intros l [<-|[]]. cbn. auto. Qed.
