(** Pumps that enter and leave a network. *)
From Verif Require Import Base SpecTabModel SpecTabSpec SpecTabProofs SpecTabProofs2.
Open Scope string_scope.
Open Scope list_scope.

(** The parameters of a pump and of a heat exchanger (excerpt). *)
Definition classes (k : string) : cls :=
  if String.eqb k "Pump" then {| q_params := ["P"; "eta_s"; "pr"]; q_groups := []; q_chars := ["eta_s_char"; "flow_char"]; q_lines := [] |}
  else {| q_params := ["Q"; "kA"]; q_groups := [("kA_char", ["kA_char1"; "kA_char2"])]; q_chars := []; q_lines := ["kA_char1"; "kA_char2"] |}.
Definition pump (given : list string) : comp := {| o_class := "Pump"; o_set := fun p => smem p given; o_var := fun _ => false |}.
Definition exchanger (given : list string) : comp := {| o_class := "HeatExchanger"; o_set := fun p => smem p given; o_var := fun _ => false |}.

Lemma removed_listed : exists Q os rep k ls figs l, let n := calculate Q true (session Q os) in
  report Q n = Ok rep /\ In (k, (ls, figs)) rep /\ In l ls /\ dget l (n_comps n) = None.
Proof.
  exists classes, [Add "a" (pump ["eta_s"]); Add "b" (pump ["eta_s"]); Solve true; Remove "b"],
    [("Pump", (["a"; "b"], []))], "Pump", ["a"; "b"], [], "b".
  vm_compute. auto 10.
Qed.
Lemma removed_raises : exists Q os, let n := calculate Q true (session Q os) in
  n_comps n <> [] /\ report Q n = Err AttributeError.
Proof.
  exists classes, [Add "a" (pump ["eta_s_char"]); Add "b" (pump ["eta_s"]); Solve true; Remove "b"].
  split; [discriminate | vm_compute; reflexivity].
Qed.
Lemma unspecified_figure : exists Q os rep k ls figs l c f, let n := calculate Q true (session Q os) in
  no_removal os /\ report Q n = Ok rep /\ In (k, (ls, figs)) rep /\ In (l, f) figs /\ dget l (n_comps n) = Some c /\ In f (q_chars (Q k)) /\ o_set c f = false.
Proof.
  exists classes, [Add "a" (pump ["eta_s_char"]); Add "b" (pump ["eta_s"])],
    [("Pump", (["a"; "b"], [("a", "eta_s_char"); ("b", "eta_s_char")]))], "Pump", ["a"; "b"], [("a", "eta_s_char"); ("b", "eta_s_char")], "b", (pump ["eta_s"]), "eta_s_char".
  split; [intros l [H | [H | []]]; discriminate H |]. vm_compute. auto 20.
Qed.
