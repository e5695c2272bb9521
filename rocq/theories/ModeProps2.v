(** C42, C112, C182: variables and values after a calculation, mass flow of branches. *)
From Coq Require Import QArith.
From Verif Require Import Base ModeModel ModeSpec ModeSpec2 ModeProofs5 ModeProofs7 ModeWitness.
Open Scope string_scope.
Open Scope list_scope.
Notation own := ModeSpec2.own.

(** C42 – after an offdesign calculation: offdesign parameters are no variables, design parameters are and have the value found, everything else is as specified; values are reported in the unit of the network. *)
Theorem C42_variables : forall u files P sol st st' l c v k, wf st -> solve u files "offdesign" (Some P) sol st = (st', None) ->
  dget l (t_conns st) = Some c -> n_ldes c = false -> prop st l v = Some k ->
  exists k', prop st' l v = Some k'
  /\ k_var k' = (if smem v (n_off c) then false else if smem v (n_des c) then true else k_var k)
  /\ (~ In v (n_off c) -> In v (n_des c) -> k_SI k' = Some (s_conn sol l v))
  /\ (~ In v (n_off c) -> ~ In v (n_des c) ->
        k_SI k' = if k_set k then option_map (u_si u v) (k_val k) else Some (s_conn sol l v))
  /\ k_val k' = option_map (u_un u v) (k_SI k').
Proof. exact off_values. Qed.
Print Assumptions C42_variables.

(** C112 – back in design mode a design parameter is specified with the value of the last calculation, an offdesign parameter has the value found.  Missing: the value given by the user, refuted. *)
Theorem C112_values_partial : forall u files path sol st st' l c v k, wf st -> solve u files "design" path sol st = (st', None) ->
  dget l (t_conns st) = Some c -> n_loff c = false -> prop st l v = Some k ->
  exists k', prop st' l v = Some k'
  /\ (t_redesign st = true -> In v (n_des c) -> ~ In v (n_off c) -> k_set k = false -> k_SI k' = k_SI k)
  /\ (k_set k = true -> t_redesign st = false \/ ~ In v (n_off c) -> k_SI k' = option_map (u_si u v) (k_val k))
  /\ (t_redesign st = true -> In v (n_off c) -> k_SI k' = Some (s_conn sol l v))
  /\ k_val k' = option_map (u_un u v) (k_SI k').
Proof. exact design_values. Qed.
Print Assumptions C112_values_partial.

(** C182 – after a calculation all connections of a mass flow branch report one mass flow: the specified one in SI or one found by the solver; the specification stays where it was made and its container has the design value of the tables. *)
Theorem C182_branch : forall u files mode path sol st st', solve u files mode path sol st = (st', None) -> own st -> disjoint_branches st ->
  own st' /\ t_branches st' = t_branches st /\ keys (t_conns st') = keys (t_conns st)
  /\ forall b, In b (t_branches st) -> exists x : option Q,
     (forall l, In l b -> exists k', dget l (t_m st') = Some k' /\ k_SI k' = x /\ k_val k' = option_map (u_un u "m") x)
     /\ (mass_unlisted st b ->
         (forall l k, In l b -> dget l (t_m st) = Some k -> k_set k = true -> x = option_map (u_si u "m") (k_val k))
         /\ (b <> [] -> (forall l k, In l b -> dget l (t_m st) = Some k -> k_set k = false) -> exists l, In l b /\ x = Some (s_conn sol l "m"))
         /\ (forall l k k', In l b -> dget l (t_m st) = Some k -> dget l (t_m st') = Some k' -> k_set k' = k_set k)
         /\ (forall P d l k k', mode = "offdesign" -> path = Some P -> needs_design st path = true ->
             (forall l c, In l b -> dget l (t_conns st) = Some c -> table_conn (tables files (n_path c) P) l "m" = d) ->
             In l b -> dget l (t_m st) = Some k -> k_set k = true -> dget l (t_m st') = Some k' -> k_design k' = d)).
Proof. exact branch_solve. Qed.
Print Assumptions C182_branch.

(** C182 – the same after any sequence of calculations; every connection has its own container again. *)
Theorem C182_history : forall u files rs st st', runs u files rs st = Some st' -> rs <> [] -> own st -> disjoint_branches st ->
  own st' /\ disjoint_branches st'
  /\ forall b, In b (t_branches st) -> exists x : option Q,
     forall l, In l b -> exists k', dget l (t_m st') = Some k' /\ k_SI k' = x /\ k_val k' = option_map (u_un u "m") x.
Proof. exact branch_runs. Qed.
Print Assumptions C182_history.

(** Two connections in one branch, the second specified with 5 t/h; results in
    kg/s times 3.6 *)
Example C182_ex :
  let u := {| u_si := fun _ x => (x * (10#36))%Q; u_un := fun _ x => (x * (36#10))%Q |} in
  let st := {| t_conns := [cn "a" [("p", given 1)] [] [] [] None false false; cn "b" [("p", free)] [] [] [] None false false];
               t_m := [("a", free); ("b", given 5)]; t_comps := []; t_branches := [["a"; "b"]]; t_redesign := false; t_path := None; t_new := false |} in
  let '(st', e) := solve u disk "design" None (found 3) st in
  own st /\ disjoint_branches st /\ mass_unlisted st ["a"; "b"] /\ e = None
  /\ option_map (fun k => (k_set k, option_map Qred (k_SI k), option_map Qred (k_val k))) (mass st' "a") = Some (false, Some (25#18)%Q, Some 5%Q)
  /\ option_map (fun k => (k_set k, option_map Qred (k_SI k), option_map Qred (k_val k))) (mass st' "b") = Some (true, Some (25#18)%Q, Some 5%Q).
Proof.
  vm_compute. split; [| split; [| split; [| repeat split]]].
  - split; [repeat constructor; cbn; intuition congruence |]. intros l c. repeat (destruct l as [| [[|] [|] [|] [|] [|] [|] [|] [|]] l]; try discriminate); intro E; injection E as <-; repeat split; eexists; reflexivity.
  - split; [repeat constructor; cbn; intuition congruence |]. intros b l [<- | []] I. exact I.
  - intros l c I E. repeat (destruct l as [| [[|] [|] [|] [|] [|] [|] [|] [|]] l]; try discriminate); injection E as <-; split; intros [].
Qed.

