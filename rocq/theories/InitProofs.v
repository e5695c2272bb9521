(** Lemmas: starting values proposed by components. *)
From Coq Require Import QArith Lqa.
From Verif Require Import Base UnitsModel UnitsSpec UnitsProofs StateModel StateSpec StateProofs StateProofs2 StateProofs3 StateProofs4 StateProofs5 StateWitness.
From Verif Require Import InitModel InitSpec.
Open Scope string_scope.
Open Scope list_scope.

Lemma sign_of_heat o :
  (cools o = true /\ heat_sign o = Lt) \/ (cools o = false /\ heats o = true /\ heat_sign o = Gt) \/
  (cools o = false /\ heats o = false /\ heat_sign o = Eq).
Proof.
  unfold cools, heats, heat_sign, nlt. destruct (o_Qset o); cbn [andb]; [|rewrite !andb_false_r; auto].
  rewrite !andb_true_r. destruct (o_Q o) as [q|]; [|auto].
  destruct (Qcompare_spec q 0) as [E|E|E].
  - right; right. assert (A : Qle_bool 0 q = true) by (apply Qle_bool_iff; lra). assert (B : Qle_bool q 0 = true) by (apply Qle_bool_iff; lra).
    rewrite A, B. auto.
  - left. destruct (Qle_bool_dec 0 q) as [(_ & L)|(-> & _)]; [exfalso; lra|auto].
  - right; left. destruct (Qle_bool_dec 0 q) as [(-> & _)|(_ & L)]; [|exfalso; lra]. destruct (Qle_bool_dec q 0) as [(_ & L)|(-> & _)]; [exfalso; lra|auto].
Qed.

Lemma at_C c T v D : h_at_C c T = Ok v -> T + (5463 # 20) == D -> means (n_fluid c) (SI c "p") (AtTemperature D) v.
Proof.
  unfold h_at_C, call2, means. destruct (SI c "p") as [p|]; [|discriminate]. intros H E. exists p, (T + (5463 # 20))%Q. auto.
Qed.
Lemma at_x c x v : h_at_x c x = Ok v -> means (n_fluid c) (SI c "p") (Saturated x) v.
Proof. unfold h_at_x, call2, means. destruct (SI c "p") as [p|]; [|discriminate]. intros H. exists p. auto. Qed.

Ltac keys I := cbn in I; destruct I as [<-|[<-|[]]].
Ltac leaf :=
  match goal with
  | |- means _ _ (AtTemperature _) _ => eapply at_C; [eassumption|reflexivity]
  | |- means _ _ (Saturated _) _ => eapply at_x; eassumption
  | H : Ok _ = Ok _ |- _ => inversion H; subst; cbn [means]; reflexivity
  end.

Lemma outlets_as_documented o c id k v : In k ["p"; "h"] -> ~ turbomachine o -> ~ exchanger o -> (phase_separator o -> k = "p") ->
  invoke "initialise_source" o c id k = Ok v -> means (n_fluid c) (SI c "p") (entry_of k (documented_out o id)) v.
Proof.
  intros I T E P H. unfold invoke in H. unfold turbomachine, exchanger, phase_separator in *. unfold documented_out.
  destruct (sign_of_heat o) as [(C & S)|[(C & C' & S)|(C & C' & S)]];
  destruct (o_cls o) eqn:O; cbn -[cools heats h_at_C h_at_x heat_sign means] in H; try rewrite S; try rewrite C in H; try rewrite C' in H;
    try (exfalso; apply T; cbn; tauto); try (exfalso; apply E; cbn; tauto);
    keys I; cbv [consts either] in H; cbn -[h_at_C h_at_x means] in H |- *; try rewrite C in H; try rewrite C' in H; try leaf; try (exfalso; assert (X : "h" = "p") by (apply P; cbn; tauto); discriminate X).
Qed.

Lemma inlets_as_documented o c id k v : In k ["p"; "h"] -> ~ exchanger o ->
  invoke "initialise_target" o c id k = Ok v -> means (n_fluid c) (SI c "p") (entry_of k (documented_in o id)) v.
Proof.
  intros I E H. unfold invoke in H. unfold exchanger in *. unfold documented_in.
  destruct (sign_of_heat o) as [(C & S)|[(C & C' & S)|(C & C' & S)]];
  destruct (o_cls o) eqn:O; cbn -[cools heats h_at_C h_at_x heat_sign means] in H; try rewrite S; try rewrite C in H; try rewrite C' in H;
    try (exfalso; apply E; cbn; tauto);
    keys I; cbv [consts either] in H; cbn -[h_at_C h_at_x means] in H |- *; try rewrite C in H; try rewrite C' in H; try leaf; destruct (String.eqb id "in1"); leaf.
Qed.

(* ---- the value used ---- *)
Lemma start_at_ends_kept units rnd e k c c' : start_at_ends units rnd e k c = Ok c' ->
  n_good c' = n_good c /\ n_fluid c' = n_fluid c /\ forall j, j <> k -> n_c c' j = n_c c j.
Proof.
  unfold start_at_ends. cbv zeta. match goal with |- rbind ?x _ = _ -> _ => destruct x as [st|] end; cbn [rbind]; [|discriminate].
  unfold start_value. destruct (k_var (n_c c k)); [|inversion 1; auto].
  destruct (if n_good c then _ else _) as [x|]; cbn [rbind]; [|discriminate].
  destruct (to_SI k (k_val0 x) (k_unit x)) as [s|]; cbn [rmap]; [|discriminate]. inversion 1; subst. cbn [upd n_good n_fluid n_c].
  split; [auto|]. split; [auto|]. intros j J. apply String.eqb_neq in J. now rewrite J.
Qed.

Lemma start_at_ends_value units rnd e k c c' : start_at_ends units rnd e k c = Ok c' -> In k ["p"; "h"] -> fresh c k ->
  k_unit (n_c c k) = units k ->
  exists s t x v g, invoke "initialise_source" (d_source e) c (d_source_id e) k = Ok s /\
    invoke "initialise_target" (d_target e) c (d_target_id e) k = Ok t /\
    k_SI (n_c c' k) = Some x /\ x == v /\ generic k g /\ proposed g s t v.
Proof.
  unfold start_at_ends. cbv zeta. intros H I (V & Z & G) U. rewrite V, Z, G in H.
  assert (M : String.eqb k "m" = false) by (keys I; reflexivity). rewrite M in H. cbn [andb negb] in H.
  unfold proposals_for in H. destruct (invoke "initialise_source" _ c _ k) as [s|]; cbn [rbind] in H; [|discriminate].
  destruct (invoke "initialise_target" _ c _ k) as [t|]; cbn [rmap rbind] in H; [|discriminate].
  destruct (start_at _ _ _ _ _ _ H V) as (x & X1 & X2 & X3). rewrite G in X1. cbn [a_rnd a_src a_tgt fst snd] in X1.
  unfold init_val0 in X1. rewrite Z, M in X1. cbv zeta in X1.
  set (v := if Qeq_bool s 0 then _ else _) in X1.
  destruct (convert_from_SI k v (units k)) as [q|] eqn:E; cbn [rmap] in X1; [|discriminate]. inversion X1; subst x; clear X1.
  cbn [k_val0 with_val0 k_unit] in X2. rewrite U in X2. unfold to_SI in X2. destruct (convert_to_SI k q (units k)) as [y|] eqn:F; cbn [rmap] in X2; [|discriminate].
  exists s, t, y, v, (if String.eqb k "p" then 100000%Q else 1000000%Q).
  split; [reflexivity|]. split; [reflexivity|]. split; [unfold SI in X2; congruence|].
  split; [eapply back_and_forth; eauto|]. split.
  - unfold generic. keys I; cbn; auto.
  - unfold proposed, v.
    assert (T : forall q, Qeq_bool q 0 = true -> q == 0) by (intros; now apply Qeq_bool_iff).
    assert (N : forall q, Qeq_bool q 0 = false -> ~ q == 0) by (intros; now apply Qeq_bool_neq).
    destruct (Qeq_bool s 0) eqn:E1; destruct (Qeq_bool t 0) eqn:E2.
    + right; right; right. split; [auto|]. split; [auto|reflexivity].
    + right; right; left. split; [auto|]. split; [auto|reflexivity].
    + right; left. split; [auto|]. split; [auto|reflexivity].
    + left. split; [auto|]. split; [auto|reflexivity].
Qed.

Lemma pass_split units rnd e c c' : first_pass_at_ends units rnd e c = Ok c' ->
  exists c1 c2, start_at_ends units rnd e "m" c = Ok c1 /\ start_at_ends units rnd e "p" c1 = Ok c2 /\ start_at_ends units rnd e "h" c2 = Ok c'.
Proof.
  unfold first_pass_at_ends, each. cbn [fold_left rbind]. destruct (start_at_ends units rnd e "m" c) as [c1|]; cbn [rbind]; [|discriminate].
  destruct (start_at_ends units rnd e "p" c1) as [c2|] eqn:E; cbn [rbind]; [|discriminate]. intros H. exists c1, c2. auto.
Qed.

(** The proposals are evaluated at the pressure the connection starts with. *)
Lemma start_values units rnd e c c' k : first_pass_at_ends units rnd e c = Ok c' -> In k ["p"; "h"] -> fresh c k ->
  k_unit (n_c c k) = units k ->
  exists d s t x v g, n_fluid d = n_fluid c /\ (k = "h" -> SI d "p" = SI c' "p") /\
    invoke "initialise_source" (d_source e) d (d_source_id e) k = Ok s /\
    invoke "initialise_target" (d_target e) d (d_target_id e) k = Ok t /\
    k_SI (n_c c' k) = Some x /\ x == v /\ generic k g /\ proposed g s t v.
Proof.
  intros H I (V & Z & G) U. destruct (pass_split _ _ _ _ _ H) as (c1 & c2 & A & B & C).
  destruct (start_at_ends_kept _ _ _ _ _ _ A) as (A1 & A2 & A3). destruct (start_at_ends_kept _ _ _ _ _ _ B) as (B1 & B2 & B3).
  destruct (start_at_ends_kept _ _ _ _ _ _ C) as (C1 & C2 & C3).
  keys I.
  - destruct (start_at_ends_value _ _ _ _ _ _ B) as (s & t & x & v & g & S1 & S2 & S3 & S4 & S5 & S6); [cbn; auto| |rewrite A3 by discriminate; exact U|].
    { unfold fresh. rewrite A3 by discriminate. rewrite A1. auto. }
    exists c1, s, t, x, v, g. split; [exact A2|]. split; [discriminate|]. rewrite C3 by discriminate. auto 10.
  - destruct (start_at_ends_value _ _ _ _ _ _ C) as (s & t & x & v & g & S1 & S2 & S3 & S4 & S5 & S6); [cbn; auto| | |].
    { unfold fresh. rewrite B3, A3 by discriminate. rewrite B1, A1. auto. }
    { rewrite B3, A3 by discriminate. exact U. }
    exists c2, s, t, x, v, g. split; [congruence|]. split; [intros _; unfold SI; now rewrite C3 by discriminate|]. auto 10.
Qed.

Lemma means_ext f p p' k d v : In k ["p"; "h"] -> (k = "h" -> p' = p) -> (k = "p" -> exists q, d = Value q) -> means f p d v -> means f p' d v.
Proof. intros I A B. keys I; [destruct (B eq_refl) as (q & ->); auto|rewrite A by reflexivity; auto]. Qed.
Lemma out_pressure o id : exists q, entry_of "p" (documented_out o id) = Value q.
Proof. unfold documented_out. destruct (o_cls o); cbn; eexists; reflexivity. Qed.
Lemma in_pressure o id : exists q, entry_of "p" (documented_in o id) = Value q.
Proof. unfold documented_in. destruct (o_cls o); cbn; eexists; reflexivity. Qed.

Lemma start_documented units rnd e c c' k : first_pass_at_ends units rnd e c = Ok c' -> In k ["p"; "h"] -> fresh c k ->
  k_unit (n_c c k) = units k -> ~ turbomachine (d_source e) -> ~ exchanger (d_source e) -> ~ exchanger (d_target e) ->
  (phase_separator (d_source e) -> k = "p") ->
  exists s t x v g, means (n_fluid c) (SI c' "p") (entry_of k (documented_out (d_source e) (d_source_id e))) s /\
    means (n_fluid c) (SI c' "p") (entry_of k (documented_in (d_target e) (d_target_id e))) t /\
    k_SI (n_c c' k) = Some x /\ x == v /\ generic k g /\ proposed g s t v.
Proof.
  intros H I F U T E1 E2 P. destruct (start_values _ _ _ _ _ _ H I F U) as (d & s & t & x & v & g & D1 & D2 & S & S' & R).
  exists s, t, x, v, g. split; [|split; [|exact R]].
  - rewrite <- D1. eapply means_ext; [exact I|intros K; symmetry; exact (D2 K)|intros ->; apply out_pressure|]. eapply outlets_as_documented; eauto.
  - rewrite <- D1. eapply means_ext; [exact I|intros K; symmetry; exact (D2 K)|intros ->; apply in_pressure|]. eapply inlets_as_documented; eauto.
Qed.

(* ---- what differs from the documentation ---- *)
Lemma turbomachine_outlet o c id k : turbomachine o -> invoke "initialise_source" o c id k = Ok 0%Q.
Proof. unfold turbomachine, invoke. cbn [In]. intros [E|[E|[E|[E|[]]]]]; rewrite <- E; reflexivity. Qed.

Lemma turbomachine_start units rnd e c c' k : first_pass_at_ends units rnd e c = Ok c' -> In k ["p"; "h"] -> fresh c k ->
  k_unit (n_c c k) = units k -> turbomachine (d_source e) -> ~ exchanger (d_target e) ->
  exists t x v g, means (n_fluid c) (SI c' "p") (entry_of k (documented_in (d_target e) (d_target_id e))) t /\
    k_SI (n_c c' k) = Some x /\ x == v /\ generic k g /\ ((t == 0 /\ v == g) \/ (~ t == 0 /\ v == t)).
Proof.
  intros H I F U T E2. destruct (start_values _ _ _ _ _ _ H I F U) as (d & s & t & x & v & g & D1 & D2 & A & A' & X & Y & G & R).
  rewrite turbomachine_outlet in A by exact T. injection A as <-.
  exists t, x, v, g. split; [|split; [exact X|split; [exact Y|split; [exact G|]]]].
  - rewrite <- D1. eapply means_ext; [exact I|intros K; symmetry; exact (D2 K)|intros ->; apply in_pressure|]. eapply inlets_as_documented; eauto.
  - destruct R as [(N & _)|[(N & _)|[(_ & N & R)|(_ & N & R)]]]; [exfalso; apply N; reflexivity|exfalso; apply N; reflexivity|right; auto|left; auto].
Qed.

Lemma exchanger_proposals o c id k : exchanger o -> In k ["p"; "h"] ->
  invoke "initialise_source" o c id k = (if String.eqb k "p" then Ok 5000000%Q else h_at_C c (if String.eqb id "out1" then 200 else 250)) /\
  invoke "initialise_target" o c id k = (if String.eqb k "p" then Ok 5000000%Q else h_at_C c (if String.eqb id "in1" then 300 else 220)).
Proof. unfold exchanger, invoke. cbn [In]. intros [E|[E|[E|[E|[]]]]] I; rewrite <- E; keys I; split; reflexivity. Qed.

(** The outlets of separators start saturated as the equations of the class require. *)
Lemma separator_outlet o c id v : phase_separator o -> invoke "initialise_source" o c id "h" = Ok v ->
  means (n_fluid c) (SI c "p") (Saturated (if String.eqb id "out1" then 0 else 1)) v.
Proof.
  unfold phase_separator, invoke. cbn [In]. intros [E|[E|[]]]; rewrite <- E; cbn; destruct (String.eqb id "out1"); apply at_x.
Qed.

Definition part (k : cls) : comp := {| o_cls := k; o_Q := None; o_Qset := false |}.
Definition unknowns (f : fluid) : conn :=
  {| n_c := fun k => {| k_set := false; k_var := true; k_val := None; k_val0 := None; k_SI := None;
                        k_unit := if String.eqb k "p" then "Pa" else if String.eqb k "h" then "J / kg" else "kg / s" |};
     n_r := fun _ => no_ref; n_state := None; n_phase := None; n_good := false; n_known := true; n_fluid := f; n_off := []; n_solved := []; n_eqs := [] |}.
Definition si_units (k : string) : string := if String.eqb k "p" then "Pa" else if String.eqb k "h" then "J / kg" else "kg / s".
Definition between (a b : cls) (i j : string) : ends := {| d_source := part a; d_source_id := i; d_target := part b; d_target_id := j |}.

Lemma turbomachine_outlet_wrong : exists o c id k v, turbomachine o /\ In k ["p"; "h"] /\ invoke "initialise_source" o c id k = Ok v /\
  ~ means (n_fluid c) (SI c "p") (entry_of k (documented_out o id)) v.
Proof.
  exists (part Pump), (unknowns gas), "out1", "p", 0%Q. split; [cbn; auto|]. split; [cbn; auto|]. split; [reflexivity|]. cbn. intros H. discriminate H.
Qed.
Lemma exchanger_pressure_wrong : exists o c id v, exchanger o /\ invoke "initialise_target" o c id "p" = Ok v /\
  ~ means (n_fluid c) (SI c "p") (entry_of "p" (documented_in o id)) v.
Proof.
  exists (part HeatExchanger), (unknowns gas), "in1", 5000000%Q. split; [cbn; auto|]. split; [reflexivity|]. cbn. intros H. discriminate H.
Qed.
Definition warm : conn := upd "p" (with_SI (Some 100000%Q)) (unknowns (water 0)).
Lemma separator_outlet_wrong : exists o c id v, phase_separator o /\ invoke "initialise_source" o c id "h" = Ok v /\
  ~ means (n_fluid c) (SI c "p") (entry_of "h" (documented_out o id)) v.
Proof.
  exists (part DropletSeparator), warm, "out1". eexists. split; [cbn; auto|]. split; [reflexivity|]. cbn.
  intros (p & E & H). discriminate H.
Qed.
