(** C259, C260: printed exergy analyses. *)
From Coq Require Import QArith.
From Verif Require Import Base ExPrintModel ExPrintSpec ExPrintProofs.
Open Scope string_scope.
Open Scope list_scope.

(** C259 – exactly the tables asked for are printed. Connections and network are printed as they
    are, the others without the columns group and base, with all rows and all values, in
    descending order of exergy destruction unless this is switched off. *)
Theorem C259_printed : forall o d, has_E_D d -> exists out, print_results o d = Ok out
  /\ printed out "Connection specific physical exergy and chemical exergy" (p_conns o) (fun g => g = d_conns d)
  /\ printed out "Component exergy analysis" (p_comps o) (shows (p_sort o) ["group"] (d_comps d))
  /\ printed out "Bus exergy analysis" (p_busses o) (shows (p_sort o) ["group"; "base"] (d_busses d))
  /\ printed out "Aggregation of components and busses" (p_agg o) (shows (p_sort o) ["group"] (d_agg d))
  /\ printed out "Network exergy analysis" (p_network o) (fun g => g = d_network d)
  /\ printed out "Functional groups exergy flows" (p_groups o) (shows (p_sort o) [] (d_groups d)).
Proof. exact print_spec. Qed.
Print Assumptions C259_printed.

Example C259_ex : match print_results {| p_sort := true; p_busses := false; p_comps := true; p_conns := true; p_groups := false; p_network := false; p_agg := false |} small with
  | Ok out => map (fun x => (fst x, f_cols (snd x), map fst (f_rows (snd x)))) out
  | Err _ => [] end
  = [("Connection specific physical exergy and chemical exergy", ["e_PH"], ["1"]);
     ("Component exergy analysis", ["E_F"; "E_P"; "E_D"; "epsilon"], ["turbine"; "pump"; "sink"])].
Proof. vm_compute. reflexivity. Qed.

(** C260 – components destroying less than 1000 W are printed by default. *)
Theorem C260_small_refuted : exists d out g r q, print_results defaults d = Ok out /\ In ("Component exergy analysis", g) out
  /\ In r (f_rows g) /\ destruction r q /\ q < 1000.
Proof. exact small_printed. Qed.
Print Assumptions C260_small_refuted.
