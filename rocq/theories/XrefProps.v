(** Labels, references and figures of reports: C263, C264, C265. *)
From Verif Require Import Base XrefModel XrefSpec XrefProofs XrefProofs2 XrefProofs3 XrefProofs4 XrefWitness.
Open Scope string_scope.
Open Scope list_scope.

(** C263 – every reference of a report to an equation or a figure has its target in the report. *)
Theorem C263_references : forall n, (forall m, In m (n_classes n) -> charts_documented m) -> resolved (report n).
Proof. exact references_resolved. Qed.
Print Assumptions C263_references.

(** C263 – a characteristic of busses is shown once for all busses that use it with the same base. *)
Theorem C263_shared : forall n, one_base n ->
  NoDup (bus_charts (report n)) /\ (forall r, bus_row n r -> w_const r = false -> In (w_char r) (bus_charts (report n))).
Proof. exact shared_once. Qed.
Print Assumptions C263_shared.

(** C264 – the labels of equations are distinct if the names are and at most one bus has a given total. *)
Theorem C264_equations : forall n, distinct_names n -> one_total n -> NoDup (eq_labels (report n)).
Proof. exact equation_labels_distinct. Qed.
Print Assumptions C264_equations.

(** C264 – every figure shows the characteristic it was made for if names are distinct without regard to
    spaces and a component has one characteristic on its busses. *)
Theorem C264_figures : forall n, distinct_files n -> figures_right (report n).
Proof. exact figures_shown. Qed.
Print Assumptions C264_figures.

(** C265 – two busses with given totals: their equations have the same label. *)
Theorem C265_totals_refuted : exists n, distinct_names n /\ ~ NoDup (eq_labels (report n)).
Proof. exact (ex_intro _ totals_twice totals_twice_bad). Qed.
Print Assumptions C265_totals_refuted.

(** C265 – two components with labels that differ in a space: one's figure shows the other's characteristic. *)
Theorem C265_spaces_refuted : exists n ls, NoDup ls /\ n_classes n = [hx ls] /\ distinct_names n /\ ~ figures_right (report n).
Proof. exact (ex_intro _ spaced (ex_intro _ _ (conj (proj1 spaced_bad) (conj eq_refl (proj2 spaced_bad))))). Qed.
Print Assumptions C265_spaces_refuted.

(** C265 – a component with different characteristics on two busses: the first figure shows the second
    characteristic, and both have the same label. *)
Theorem C265_busses_refuted : exists n, n_classes n = [turbine] /\ ~ figures_right (report n) /\ ~ NoDup (fig_labels (report n)).
Proof. exact (ex_intro _ two_lines (conj eq_refl two_lines_bad)). Qed.
Print Assumptions C265_busses_refuted.

(** C265 – a user defined equation with a line and a map: their figures have the same label. *)
Theorem C265_equation_refuted : exists n, n_busses n = [] /\ ~ NoDup (fig_labels (report n)).
Proof. exact (ex_intro _ line_and_map (conj eq_refl line_and_map_bad)). Qed.
Print Assumptions C265_equation_refuted.

(** A plant with heat exchangers, a turbine, two busses and an equation. *)
Example C263_ex : (forall m, In m (n_classes plant) -> charts_documented m) /\
  In (RefEq "HeatExchanger_kA_char") (report plant) /\ In (RefFig "Bus_CharLine_turbinedesign") (report plant).
Proof.
  split; [|cbn; tauto]. intros m [<-|[<-|[]]]; [apply hx_documented|apply turbine_documented].
Qed.
Example C264_ex : distinct_names plant /\ one_total plant /\ distinct_files plant /\ length (eq_labels (report plant)) = 15 /\ length (fig_labels (report plant)) = 7.
Proof. split; [exact plant_names|split; [apply le_n|split; [exact plant_files|split; reflexivity]]]. Qed.
Example C263_shared_ex : one_base plant /\ bus_charts (report plant) = [6].
Proof.
  split; [|reflexivity]. intros r r' (b & I & J) (b' & I' & J') _.
  assert (forall x y, In y (n_busses plant) -> In x (b_rows y) -> w_base x = false) as H.
  { intros x y [<-|[<-|[]]] K; cbn in K; intuition (subst; reflexivity). }
  rewrite (H r b I J), (H r' b' I' J'). reflexivity.
Qed.
