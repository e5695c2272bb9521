From Coq Require Import Lia Lqa.
From Verif Require Import PrepModel PrepSpec TableModel TableSpec CompSpecSpec CompSpecProofs TableProofs.
From Verif Require CharModel CombModel OffModel UpdateModel.
Open Scope nat_scope.
Open Scope string_scope.
Open Scope list_scope.

Lemma auto_var_ok parse c p r k : of_class c k -> dget p (class_params c) = Some r -> t_kind r = KCp -> parse "var" = None ->
  exists k', auto_var parse p k = Ok k' /\ of_class c k' /\ specified k' p = true
    /\ (specified k p = true -> k' = k) /\ (specified k p = false -> var_flag k' p = true)
    /\ forall x, x <> p -> dget x (k_params k') = dget x (k_params k).
Proof.
  intros O R K N. destruct (class_get _ _ _ _ O R) as (q & Q & _). unfold auto_var. rewrite Q.
  destruct (q_is_set q) eqn:S.
  - exists k. split; [reflexivity|]. split; [exact O|]. unfold specified. rewrite Q, S. repeat split; congruence.
  - destruct (var_accepted parse c p r k O R K N) as (k' & A & O' & S' & V). rewrite A. exists k'. split; [reflexivity|]. split; [exact O'|].
    split; [exact S'|]. split; [|split; [auto|]].
    + unfold specified. rewrite Q, S. discriminate.
    + intros x X. unfold cset_attr, cset_one in A. rewrite Q in A. destruct (set_param parse (CV (PStr "var")) q) as [q' [e|]]; [discriminate|].
      injection A as <-. cbn. now rewrite dget_dset_neq.
Qed.
Lemma prepared_number c k k' n p r mandatory : of_class c k -> preprocess mandatory k = Ok (k', n) -> dget p (class_params c) = Some r -> t_kind r = KCp ->
  dget p (k_params k') = dget p (k_params k).
Proof.
  intros O P R K. destruct (prepares_class c k mandatory O) as (k1 & n1 & P1 & _ & _ & _ & D). rewrite P in P1. injection P1 as <- <-.
  apply D. eapply kcp_not_group; [exact R|now rewrite K].
Qed.
Lemma flag_of k k' p : dget p (k_params k') = dget p (k_params k) -> var_flag k' p = var_flag k p.
Proof. unfold var_flag. now intros ->. Qed.
(* the parameter is given by the user or an unknown of the system *)
Lemma given_or_unknown : forall parse calls mandatory, parse "var" = None -> let h := cset_attr_history parse calls (new_component KCombustionEngine) in
  exists k n, engine_preprocess parse mandatory h = Ok (k, n) /\ n = mandatory + equations KCombustionEngine k
  /\ forall p, p = "P" \/ p = "Qloss" -> specified k p = true
     /\ (specified h p = true -> dget p (k_params k) = dget p (k_params h))
     /\ (specified h p = false -> In p (map fst (component_columns 0 k)) /\ forall cols, jac_columns KCombustionEngine k = Ok cols -> In p cols).
Proof.
  intros parse calls mandatory N h. pose proof (history_class parse KCombustionEngine calls) as O. fold h in O. unfold engine_preprocess.
  destruct (auto_var_ok parse KCombustionEngine "P" _ h O eq_refl eq_refl N) as (k1 & A1 & O1 & S1 & E1 & V1 & F1). rewrite A1. cbn [rbind].
  destruct (auto_var_ok parse KCombustionEngine "Qloss" _ k1 O1 eq_refl eq_refl N) as (k2 & A2 & O2 & S2 & E2 & V2 & F2). rewrite A2. cbn [rbind].
  destruct (prepares_class KCombustionEngine k2 mandatory O2) as (k & n & P & OK & C & _ & D). exists k, n. split; [exact P|]. split; [exact C|].
  assert (DP : dget "P" (k_params k) = dget "P" (k_params k1)).
  { rewrite (prepared_number KCombustionEngine k2 k n "P" _ mandatory O2 P eq_refl eq_refl). apply F2. discriminate. }
  assert (DQ : dget "Qloss" (k_params k) = dget "Qloss" (k_params k2)) by exact (prepared_number KCombustionEngine k2 k n "Qloss" _ mandatory O2 P eq_refl eq_refl).
  assert (U : forall p, p = "P" \/ p = "Qloss" -> var_flag k p = true -> In p (map fst (component_columns 0 k)) /\ forall cols, jac_columns KCombustionEngine k = Ok cols -> In p cols).
  { intros p Hp V. split.
    - apply (column_given KCombustionEngine); auto. destruct Hp as [-> | ->]; eexists; split; reflexivity.
    - intros cols J. eapply (carried KCombustionEngine ""); eauto. destruct Hp as [-> | ->]; cbn; tauto. }
  intros p [-> | ->].
  - split; [rewrite (specified_dget k k1 _ DP); exact S1|]. split.
    + intros X. rewrite DP. now rewrite (E1 X).
    + intros X. apply U; [now left|]. rewrite (flag_of _ _ _ DP). auto.
  - split; [rewrite (specified_dget k k2 _ DQ); exact S2|].
    assert (SQ : specified k1 "Qloss" = specified h "Qloss") by (apply specified_dget, F1; discriminate). split.
    + intros X. rewrite DQ. rewrite E2 by congruence. apply F1. discriminate.
    + intros X. apply U; [now right|]. rewrite (flag_of _ _ _ DQ). apply V2. congruence.
Qed.
Definition reactor (c : cls) : Prop := c = KFuelCell \/ c = KWaterElectrolyzer.
Lemma reactor_prepared : forall c e0 parse calls mandatory molar e, parse "var" = None -> c = KFuelCell \/ c = KWaterElectrolyzer -> e0 molar = Ok e ->
  let h := cset_attr_history parse calls (new_component c) in
  exists k n, reactor_preprocess e0 parse mandatory molar h = Ok (k, n, e) /\ n = mandatory + equations c k
  /\ specified k "P" = true
  /\ (specified h "P" = true -> dget "P" (k_params k) = dget "P" (k_params h))
  /\ (specified h "P" = false -> In "P" (map fst (component_columns 0 k)) /\ forall cols, jac_columns c k = Ok cols -> In "P" cols).
Proof.
  intros c e0 parse calls mandatory molar e N C E h. pose proof (history_class parse c calls) as O. fold h in O. unfold reactor_preprocess.
  assert (R : exists r, dget "P" (class_params c) = Some r /\ t_kind r = KCp) by (destruct C as [-> | ->]; eexists; split; reflexivity).
  destruct R as (r & R & K).
  destruct (auto_var_ok parse c "P" r h O R K N) as (k1 & A1 & O1 & S1 & E1 & V1 & F1). rewrite A1. cbn [rbind]. rewrite E. cbn [rbind].
  destruct (prepares_class c k1 mandatory O1) as (k & n & P & OK & CC & _ & D). rewrite P. exists k, n. split; [reflexivity|]. split; [exact CC|].
  assert (DP : dget "P" (k_params k) = dget "P" (k_params k1)) by exact (prepared_number _ _ _ _ _ _ _ O1 P R K).
  split; [rewrite (specified_dget k k1 _ DP); exact S1|]. split.
  - intros X. rewrite DP. now rewrite (E1 X).
  - intros X. assert (V : var_flag k "P" = true) by (rewrite (flag_of _ _ _ DP); auto). split.
    + apply (column_given c); auto. exists r; auto.
    + intros cols J. eapply (carried c ""); eauto. destruct C as [-> | ->]; cbn; tauto.
Qed.
(** preparing again changes nothing *)
Lemma preprocess_again c k mandatory k' n : of_class c k -> preprocess mandatory k = Ok (k', n) -> exists k'', preprocess mandatory k' = Ok (k'', n)
  /\ forall p, dget p (k_params k'') = dget p (k_params k').
Proof.
  intros O P. pose proof (preprocess_class _ _ _ _ _ O P) as O'.
  destruct (prepares_class c k mandatory O) as (k1 & n1 & P1 & _ & C1 & G1 & D1). rewrite P in P1. injection P1 as <- <-.
  destruct (prepares_class c k' mandatory O') as (k2 & n2 & P2 & O2 & C2 & G2 & D2).
  destruct (preprocess_spec mandatory k' (class_groups c k' O') (class_nodup c k' O')) as (ps & R & KK & F). rewrite P2 in R. injection R as -> _.
  assert (X : forall p, dget p (k_params (k_with_params k' ps)) = dget p (k_params k')).
  { intros p. destruct (dget p (class_params c)) as [r|] eqn:R.
    - destruct (is_group (t_kind r)) eqn:I; [|apply D2; eapply kcp_not_group; eauto].
      destruct (t_kind r) eqn:K; try discriminate. destruct (class_get _ _ _ _ O' R) as (q & Q & S & _ & _). cbn [new_param q_kind] in S. rewrite K in S.
      cbn [k_params k_with_params]. rewrite (F p q Q), Q. f_equal. unfold final. rewrite S.
      assert (E : forallb (pset (k_params k')) elements = q_is_set q).
      { pose proof (G1 p r elements R K) as G. unfold specified in G at 1. rewrite Q in G.
        assert (FF : forallb (pset (k_params k')) elements = true <-> (forall e, In e elements -> specified k' e = true)) by apply forallb_forall.
        destruct (forallb (pset (k_params k')) elements), (q_is_set q); try reflexivity.
        - symmetry. apply G, FF. reflexivity.
        - apply FF, G. reflexivity. }
      rewrite E. destruct q; reflexivity.
    - assert (Z : forall k0, of_class c k0 -> dget p (k_params k0) = None).
      { intros k0 [K0 _]. apply dget_None_notin. rewrite K0. now apply dget_None_notin. }
      rewrite (Z _ O2), (Z _ O'). reflexivity. }
  eexists. split; [|exact X]. rewrite P2. do 2 f_equal. rewrite C2, C1. f_equal. unfold equations. f_equal. apply filter_ext_in'. intros [p r] _. cbn [fst snd].
  f_equal. now apply specified_dget.
Qed.
Lemma again : forall parse c calls mandatory k n, preprocess mandatory (cset_attr_history parse calls (new_component c)) = Ok (k, n) ->
  exists k', preprocess mandatory k = Ok (k', n) /\ forall p, dget p (k_params k') = dget p (k_params k).
Proof. intros parse c calls mandatory k n. apply preprocess_again with (c := c). apply history_class. Qed.

(* ------------------------------------------------------------------ e0 *)
Lemma e0_values : forall molar M, dget "H2" molar = Some M -> (0 < M)%Q ->
  exists a b, fuel_cell_e0 molar = Ok a /\ electrolyzer_e0 molar = Ok b /\ (a * M == -286000)%Q /\ (b == - a)%Q /\ (a < 0)%Q.
Proof.
  intros molar M H P. unfold fuel_cell_e0, electrolyzer_e0. rewrite H.
  assert (Z : Qeq_bool M 0 = false) by (apply not_true_iff_false; intros E; apply Qeq_bool_iff in E; lra). rewrite Z.
  eexists _, _. split; [reflexivity|]. split; [reflexivity|]. unfold hf. cbn [String.eqb Ascii.eqb Bool.eqb].
  assert (A : forall x : Q, ((2 * -286000 - 2 * 0 - 0) / (2 * x) * x == -286000)%Q -> True) by auto.
  split; [field; lra|]. split; [field; lra|].
  apply Qlt_shift_div_r; lra.
Qed.
Lemma e0_name : exists molar, (exists M, dget "hydrogen" molar = Some M /\ (0 < M)%Q) /\
  forall parse mandatory k, ~ exists r, reactor_preprocess fuel_cell_e0 parse mandatory molar k = Ok r.
Proof.
  exists [("hydrogen", 2 # 1000)]. split; [exists (2 # 1000); split; reflexivity|]. intros parse mandatory k (r & H). unfold reactor_preprocess in H.
  destruct (auto_var parse "P" k); cbn in H; discriminate.
Qed.
Lemma e0_missing : forall parse mandatory molar k k1, auto_var parse "P" k = Ok k1 -> dget "H2" molar = None ->
  reactor_preprocess fuel_cell_e0 parse mandatory molar k = Err KeyError /\ reactor_preprocess electrolyzer_e0 parse mandatory molar k = Err KeyError.
Proof. intros parse mandatory molar k k1 A H. unfold reactor_preprocess, fuel_cell_e0, electrolyzer_e0. rewrite A, H. split; reflexivity. Qed.

(* ------------------------------------------------------------------ condenser *)
Lemma keys_set {V} k (v e : V) d : dget k d = Some e -> keys (dset k v d) = keys d.
Proof.
  induction d as [|[a x] d IH]; cbn; [discriminate|]. destruct (String.eqb k a) eqn:E; cbn.
  - apply String.eqb_eq in E. now subst.
  - intros H. f_equal. auto.
Qed.
Lemma condenser_prepared c mandatory k q : of_class c k -> c = KCondenser -> dget "subcooling" (k_params k) = Some q ->
  exists k' n, condenser_preprocess mandatory k = Ok (k', n) /\ n = mandatory + equations KCondenser k'
    /\ specified k' "subcooling" = negb (truth (q_val q)).
Proof.
  intros O -> Q. unfold condenser_preprocess. rewrite Q. set (q1 := put_field (FIsSet (negb (truth (q_val q)))) q).
  set (k1 := k_with_params k (dset "subcooling" q1 (k_params k))).
  assert (O1 : of_class KCondenser k1).
  { destruct O as [K S]. split.
    - unfold k1. cbn [k_params k_with_params]. rewrite <- K. eapply keys_set; eauto.
    - intros p q' H. unfold k1 in H. cbn [k_params k_with_params] in H. destruct (string_dec p "subcooling") as [->|N].
      + rewrite dget_dset_eq in H. injection H as <-. destruct (S _ _ Q) as (r & R & X). exists r. split; [exact R|]. eapply static_trans; [exact X|]. apply put_static.
      + rewrite dget_dset_neq in H by auto. eauto. }
  destruct (prepares_class KCondenser k1 mandatory O1) as (k' & n & P & _ & C & _ & D). exists k', n. split; [exact P|]. split; [exact C|].
  assert (E : dget "subcooling" (k_params k') = dget "subcooling" (k_params k1)).
  { apply D. eapply kcp_not_group; reflexivity. }
  unfold specified. rewrite E. unfold k1. cbn [k_params k_with_params]. rewrite dget_dset_eq. reflexivity.
Qed.
Lemma simple_value parse b k c : of_class c k -> c = KCondenser -> exists q, dget "subcooling" (k_params (fst (cset_attr parse (asks b) k))) = Some q /\ q_val q = PBool b.
Proof.
  intros O ->. destruct (class_get KCondenser k "subcooling" _ O eq_refl) as (q & Q & K & _ & _). cbn in K.
  unfold asks, cset_attr, cset_one. rewrite Q. unfold set_param. rewrite K. cbn [dc_set_attr]. rewrite K. cbn [field_allowed dc_set_attr put_field q_kind fst k_params k_with_params].
  rewrite dget_dset_eq. eexists. split; reflexivity.
Qed.
Lemma one_call parse kw c k : of_class c k -> of_class c (fst (cset_attr parse kw k)).
Proof.
  intros [K S]. split; [rewrite cset_attr_keys; exact K|]. intros p q H. destruct (cset_attr_static _ _ _ _ _ H) as (q0 & H0 & X).
  destruct (S _ _ H0) as (r & R & Y). exists r. split; [exact R|]. eapply static_trans; eauto.
Qed.
Lemma subcooling_switch : forall parse calls mandatory b, let h := cset_attr_history parse calls (new_component KCondenser) in
  exists k n, condenser_preprocess mandatory (fst (cset_attr parse (asks b) h)) = Ok (k, n) /\ n = mandatory + equations KCondenser k
    /\ specified k "subcooling" = negb b.
Proof.
  intros parse calls mandatory b h. pose proof (history_class parse KCondenser calls) as O. fold h in O.
  destruct (simple_value parse b h KCondenser O eq_refl) as (q & Q & V). pose proof (one_call parse (asks b) _ _ O) as O'.
  destruct (condenser_prepared KCondenser mandatory _ q O' eq_refl Q) as (k & n & A & B & C). exists k, n. rewrite V in C. auto.
Qed.
Lemma truth_no w : truth w = false <-> counts_as_no w.
Proof.
  split.
  - destruct w as [|n|b|s|l|d| |]; cbn; intros H; try discriminate; try constructor.
    + destruct n as [q|]; try discriminate. constructor. apply Qeq_bool_iff. now apply Bool.negb_false_iff.
    + subst b. constructor.
    + apply Bool.negb_false_iff, String.eqb_eq in H. subst s. constructor.
    + destruct l; [constructor|discriminate].
    + destruct d; [constructor|discriminate].
  - intros H. destruct H as [| |q H| | |]; try reflexivity. cbn. apply Qeq_bool_iff in H. now rewrite H.
Qed.
Lemma subcooling_value : forall parse calls mandatory w, w <> PNone -> let h := cset_attr_history parse calls (new_component KCondenser) in
  exists k n, condenser_preprocess mandatory (fst (cset_attr parse [("subcooling", CV w)] h)) = Ok (k, n) /\ n = mandatory + equations KCondenser k
    /\ (specified k "subcooling" = true <-> counts_as_no w).
Proof.
  intros parse calls mandatory w W h. pose proof (history_class parse KCondenser calls) as O. fold h in O.
  assert (S : exists q, dget "subcooling" (k_params (fst (cset_attr parse [("subcooling", CV w)] h))) = Some q /\ q_val q = w).
  { destruct (class_get KCondenser h "subcooling" _ O eq_refl) as (q & Q & K & _ & _). cbn in K.
    unfold cset_attr, cset_one. rewrite Q. unfold set_param. rewrite K.
    destruct w; try congruence; cbn [dc_set_attr]; rewrite K; cbn [field_allowed dc_set_attr put_field q_kind fst k_params k_with_params];
      rewrite dget_dset_eq; eexists; split; reflexivity. }
  destruct S as (q & Q & V). pose proof (one_call parse [("subcooling", CV w)] _ _ O) as O'.
  destruct (condenser_prepared KCondenser mandatory _ q O' eq_refl Q) as (k & n & A & B & C). exists k, n. rewrite V in C.
  split; [exact A|]. split; [exact B|]. rewrite C, Bool.negb_true_iff. apply truth_no.
Qed.
Lemma subcooling_default : forall mandatory, exists k n, condenser_preprocess mandatory (new_component KCondenser) = Ok (k, n) /\ specified k "subcooling" = true.
Proof.
  intros mandatory. destruct (condenser_prepared KCondenser mandatory (new_component KCondenser) _ (history_class (fun _ => None) KCondenser []) eq_refl eq_refl) as (k & n & A & _ & B).
  exists k, n. split; [exact A|]. rewrite B. reflexivity.
Qed.
Lemma subcooling_unset : exists calls, (exists pre, calls = pre ++ [[("subcooling", CV PNone)]]) /\ forall parse mandatory,
  exists k n, condenser_preprocess mandatory (cset_attr_history parse calls (new_component KCondenser)) = Ok (k, n) /\ specified k "subcooling" = false.
Proof.
  exists [asks true; [("subcooling", CV PNone)]]. split; [exists [asks true]; reflexivity|]. intros parse mandatory.
  pose proof (history_class parse KCondenser [asks true; [("subcooling", CV PNone)]]) as O.
  destruct (condenser_prepared KCondenser mandatory _ _ O eq_refl eq_refl) as (k & n & A & _ & B). exists k, n. split; [exact A|exact B].
Qed.

(* ------------------------------------------------------------------ steam turbine *)
Lemma single_pure fd f : UpdateModel.single_fluid fd = Some f <-> pure fd f.
Proof.
  unfold UpdateModel.single_fluid, UpdateModel.number_of_fluids, pure.
  set (g := fun x : string * Q => UpdateModel.qlt UpdateModel.ERR (snd x)).
  assert (G : forall x, g x = true <-> (UpdateModel.ERR < snd x)%Q).
  { intros x. unfold g, UpdateModel.qlt. rewrite negb_true_iff. rewrite <- not_true_iff_false, Qle_bool_iff. split; [apply Qnot_le_lt|apply Qlt_not_le]. }
  assert (G' : forall x, g x = false <-> (snd x <= UpdateModel.ERR)%Q).
  { intros x. rewrite <- not_true_iff_false, G. split; [apply Qnot_lt_le|apply Qle_not_lt]. }
  assert (N : forall l, filter g l = [] <-> Forall (fun y => (snd y <= UpdateModel.ERR)%Q) l).
  { induction l as [|y l IH]; cbn; [split; constructor|]. destruct (g y) eqn:E.
    - split; [discriminate|]. intros F. inversion F; subst. apply G' in H1. congruence.
    - rewrite IH. split; [constructor; [now apply G'|assumption]|intros F; now inversion F]. }
  split.
  - destruct (Nat.ltb 1 (length (filter g fd))) eqn:L; [discriminate|]. apply Nat.ltb_ge in L. intros H.
    induction fd as [|[a x] fd IH]; cbn in *; [discriminate|]. destruct (g (a, x)) eqn:E.
    + cbn in L, H. injection H as <-. exists [], fd, x. split; [reflexivity|]. split; [now apply G in E|]. apply N. cbn [app]. destruct (filter g fd) as [|z zs] ; [reflexivity|cbn in L; lia].
    + destruct (IH L H) as (l & r & y & -> & Y & F). exists ((a, x) :: l), r, y. split; [reflexivity|]. split; [exact Y|]. cbn. constructor; [now apply G' in E|exact F].
  - intros (l & r & x & -> & X & F). apply Forall_app in F as [F1 F2]. apply N in F1, F2.
    rewrite filter_app. cbn [filter]. rewrite F1, F2. assert (E : g (f, x) = true) by now apply G. rewrite E. reflexivity.
Qed.
Lemma steam_pure : forall aliases fd parse calls mandatory, let h := cset_attr_history parse calls (new_component KSteamTurbine) in
  (forall f, pure fd f -> exists k n, steam_preprocess aliases fd mandatory h = (negb (CombModel.alias_in_list aliases f ["water"]), Ok (k, n)) /\ n = mandatory + equations KSteamTurbine k)
  /\ ((forall f, ~ pure fd f) -> steam_preprocess aliases fd mandatory h = (false, Err ValueError)).
Proof.
  intros aliases fd parse calls mandatory h. unfold steam_preprocess. split.
  - intros f P. apply single_pure in P. rewrite P. destruct (prepares_class KSteamTurbine h mandatory (history_class parse KSteamTurbine calls)) as (k & n & A & _ & B & _).
    exists k, n. rewrite A. auto.
  - intros N. destruct (UpdateModel.single_fluid fd) as [f|] eqn:E; [|reflexivity]. apply single_pure in E. destruct (N f E).
Qed.

(* ------------------------------------------------------------------ engine *)
Lemma domain_silent c x : 2 <= length (CharModel.cl_x c) -> exists ws, OffModel.line_domain c x = Ok ws /\ (ws = [] <-> ~ outside c x).
Proof.
  intros L. unfold OffModel.line_domain, outside, CharModel.pyidx. set (l := CharModel.cl_x c) in *.
  assert (H1 : nth_error l (length l - 1) = Some (last l 0%Q)).
  { clear -L. induction l as [|a [|b l] IH]; cbn in *; try lia. destruct l as [|d l]; [reflexivity|]. rewrite Nat.sub_0_r in *. apply IH. cbn. lia. }
  assert (H2 : exists m, nth_error l 1 = Some m) by (destruct l as [|a [|b l']]; cbn in *; try lia; eauto).
  assert (H3 : nth_error l 0 = Some (hd 0%Q l)) by (destruct l; cbn in *; [lia|reflexivity]).
  replace ((-1 <? - Z.of_nat (length l))%Z || (Z.of_nat (length l) <=? -1)%Z)%bool with false by (symmetry; apply orb_false_iff; split; [apply Z.ltb_ge|apply Z.leb_gt]; lia).
  replace ((0 <? - Z.of_nat (length l))%Z || (Z.of_nat (length l) <=? 0)%Z)%bool with false by (symmetry; apply orb_false_iff; split; [apply Z.ltb_ge|apply Z.leb_gt]; lia).
  replace ((1 <? - Z.of_nat (length l))%Z || (Z.of_nat (length l) <=? 1)%Z)%bool with false by (symmetry; apply orb_false_iff; split; [apply Z.ltb_ge|apply Z.leb_gt]; lia).
  change (-1 <? 0)%Z with true. change (0 <? 0)%Z with false. change (1 <? 0)%Z with false. cbn iota.
  replace (Z.to_nat (Z.of_nat (length l) + -1)) with (length l - 1) by lia. rewrite H1. change (Z.to_nat 0) with 0. rewrite H3. change (Z.to_nat 1) with 1.
  destruct H2 as (m & H2). rewrite H2. cbn [rbind rmap].
  destruct (Qle_bool x (last l 0%Q)) eqn:A; cbn [negb].
  - apply Qle_bool_iff in A. destruct (Qle_bool (hd 0%Q l) x) eqn:B; cbn [negb].
    + apply Qle_bool_iff in B. eexists. split; [reflexivity|]. split; [intros _ [C|C]; lra|reflexivity].
    + eexists. split; [reflexivity|]. split; [discriminate|]. intros C. exfalso. apply C. left. apply Qnot_le_lt. intros D. apply Qle_bool_iff in D. congruence.
  - eexists. split; [reflexivity|]. split; [discriminate|]. intros C. exfalso. apply C. right. apply Qnot_le_lt. intros D. apply Qle_bool_iff in D. congruence.
Qed.
Lemma engine_load : forall design P tiP Qloss Q1 Q2, Forall (fun c => 2 <= length (CharModel.cl_x c)) [tiP; Qloss; Q1; Q2] ->
  exists ws, engine_bounds design P tiP Qloss Q1 Q2 = Ok ws /\ (ws = [] <-> forall c, In c [tiP; Qloss; Q1; Q2] -> ~ outside c (load design P)).
Proof.
  intros design P tiP Qloss Q1 Q2 F. unfold engine_bounds. fold (load design P). generalize dependent (load design P). intros x.
  generalize dependent [tiP; Qloss; Q1; Q2]. intros l F. induction F as [|c l L F IH].
  - exists []. split; [reflexivity|]. split; [intros _ c []|reflexivity].
  - destruct IH as (ws & A & B). destruct (domain_silent c x L) as (w & C & D). cbn [rmapM]. rewrite C. cbn [rbind].
    destruct (rmapM (fun c => OffModel.line_domain c x) l) as [vs|e]; cbn [rmap] in A; [|discriminate]. injection A as A. cbn [rmap rbind concat].
    exists (w ++ ws). rewrite A. split; [reflexivity|]. split.
    + intros E. apply app_eq_nil in E as [E1 E2]. intros c' [<-|I]; [now apply D|]. now apply B.
    + intros H. rewrite (proj2 D), (proj2 B); [reflexivity| |]; intros; apply H; cbn; auto.
Qed.
