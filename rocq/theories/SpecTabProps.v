(** C257, C258: tables and report of components over the life of a network. *)
From Verif Require Import Base SpecTabModel SpecTabSpec SpecTabProofs SpecTabProofs2 SpecTabWitness.
Open Scope string_scope.
Open Scope list_scope.

(** C257 – after a complete calculation the results of a class have a row for exactly the
    components of the network of that class, whatever was added, removed and calculated before. *)
Theorem C257_results : forall Q os k l, let n := calculate Q true (session Q os) in
  (exists ls, dget k (n_res n) = Some ls /\ In l ls) <-> has n k l /\ q_params (Q k) <> [].
Proof. exact results_exact. Qed.
Print Assumptions C257_results.

(** C257 – at no time there are results of a component the network does not have. *)
Theorem C257_foreign : forall Q os k l ls, dget k (n_res (session Q os)) = Some ls -> In l ls -> has (session Q os) k l.
Proof. exact results_never_foreign. Qed.
Print Assumptions C257_foreign.

(** C257 – a calculation that is not complete leaves the rows of the results as they were. *)
Theorem C257_incomplete : forall Q n k l, (exists ls, dget k (n_res (calculate Q false n)) = Some ls /\ In l ls) <-> (exists ls, dget k (n_res n) = Some ls /\ In l ls).
Proof. exact incomplete_rows. Qed.
Print Assumptions C257_incomplete.

(** C257 – every calculation, complete or not, brings the specifications of all components of the
    network into the tables. *)
Theorem C257_specifications : forall Q b os l c, let n := calculate Q b (session Q os) in dget l (n_comps n) = Some c ->
  exists t, dget (o_class c) (n_spec n) = Some t /\ shows Q t l c.
Proof. exact specs_current. Qed.
Print Assumptions C257_specifications.

Example C257_ex : let n := calculate classes true (session classes
    [Add "a" (pump ["eta_s"]); Add "x" (exchanger []); Solve true; Remove "a"; Add "b" (pump []); Change "x" (fun p => String.eqb p "kA") (fun _ => false)]) in
  n_res n = [("Pump", ["b"]); ("HeatExchanger", ["x"])]
  /\ option_map t_props (dget "HeatExchanger" (n_spec n)) = Some [("x", [("Q", false); ("kA", true)])].
Proof. vm_compute. auto. Qed.

(** C258 – as long as no component was removed the report can be written; its tables have
    exactly the components of the network, and it has a figure for every characteristic
    specified. *)
Theorem C258_report_partial : forall Q os, let n := calculate Q true (session Q os) in no_removal os ->
  exists rep, report Q n = Ok rep /\ (forall k, In k (keys rep) <-> exists l, has n k l)
  /\ forall k ls figs, In (k, (ls, figs)) rep ->
       (forall l, In l ls <-> has n k l /\ has_columns (Q k))
       /\ (forall l f, In (l, f) figs -> has n k l)
       /\ (forall l c f, dget l (n_comps n) = Some c -> o_class c = k -> In f (q_chars (Q k)) -> o_set c f = true -> In (l, f) figs).
Proof. exact report_ok. Qed.
Print Assumptions C258_report_partial.

(** C258 – a component that was removed is still listed. *)
Theorem C258_listed_refuted : exists Q os rep k ls figs l, let n := calculate Q true (session Q os) in
  report Q n = Ok rep /\ In (k, (ls, figs)) rep /\ In l ls /\ dget l (n_comps n) = None.
Proof. exact removed_listed. Qed.
Print Assumptions C258_listed_refuted.

(** C258 – or no report can be written. *)
Theorem C258_written_refuted : exists Q os, let n := calculate Q true (session Q os) in
  n_comps n <> [] /\ report Q n = Err AttributeError.
Proof. exact removed_raises. Qed.
Print Assumptions C258_written_refuted.

(** C258 – that is so whenever another component of the class has a characteristic specified. *)
Theorem C258_written_always : forall Q os k l l0 c0 f t, let n := calculate Q true (session Q os) in
  dget k (n_spec n) = Some t -> In l (keys (t_chars t)) -> dget l (n_comps n) = None ->
  dget l0 (n_comps n) = Some c0 -> o_class c0 = k -> In f (q_chars (Q k)) -> o_set c0 f = true ->
  report_class Q n k = Err AttributeError /\ exists e, report Q n = Err e.
Proof. exact report_fails. Qed.
Print Assumptions C258_written_always.

(** C258 – the report shows characteristics that are not specified. *)
Theorem C258_figures_refuted : exists Q os rep k ls figs l c f, let n := calculate Q true (session Q os) in
  no_removal os /\ report Q n = Ok rep /\ In (k, (ls, figs)) rep /\ In (l, f) figs /\ dget l (n_comps n) = Some c /\ In f (q_chars (Q k)) /\ o_set c f = false.
Proof. exact unspecified_figure. Qed.
Print Assumptions C258_figures_refuted.

Example C258_ex : let n := calculate classes true (session classes [Add "x" (exchanger ["kA_char"]); Add "a" (pump ["eta_s"])]) in
  report classes n = Ok [("HeatExchanger", (["x"], [("x", "kA_char1"); ("x", "kA_char2")])); ("Pump", (["a"], []))].
Proof. vm_compute. reflexivity. Qed.
