(** Lemmas: rejected calls of set_attr. *)
From Verif Require Import ConnSpecModel CompSpecModel ConnSpecSpec CompSpecSpec SetAttrSpec ConnSpecProofs CompSpecProofs.
Open Scope string_scope.
Open Scope list_scope.

Ltac names :=
  repeat match goal with
  | G : (_ || _)%bool = true |- _ => apply orb_prop in G; destruct G as [G|G]
  | G : String.eqb _ _ = true |- _ => apply String.eqb_eq in G; subst
  | G : smem _ _ = true |- _ => apply smem_In in G; cbn in G
  end.

Ltac each_name G := repeat (destruct G as [<-|G]; [vm_compute; auto 60|]); try contradiction.

Lemma set_one_keyword parse k v c c' : set_one parse k v c = (c', None) -> In k connection_keywords.
Proof.
  intros H. unfold set_one in H.
  destruct (String.eqb k "label"); [discriminate|].
  destruct (contains "fluid" k) eqn:F.
  - unfold fluid_specification in H. destruct (String.eqb k "fluid_balance") eqn:K1; [names; vm_compute; auto 60|].
    destruct v; try discriminate.
    destruct (String.eqb k "fluid") eqn:K2; [names; vm_compute; auto 60|].
    destruct (String.eqb k "fluid0") eqn:K3; [names; vm_compute; auto 60|].
    destruct (String.eqb k "fluid_engines") eqn:K4; [names; vm_compute; auto 60|]. discriminate.
  - destruct (smem k property_data || smem k property_data0)%bool eqn:P.
    + names; repeat (destruct P as [<-|P]; [try (vm_compute in F; discriminate F); try (vm_compute; auto 60; fail)|]);
        try contradiction; exfalso; destruct v; cbn in H; try discriminate;
        try (destruct (parse s); discriminate).
    + destruct (String.eqb k "state") eqn:K1; [names; vm_compute; auto 60|].
      destruct (smem k ["design"; "offdesign"]) eqn:K2; [names; each_name K2|].
      destruct (String.eqb k "design_path") eqn:K3; [names; vm_compute; auto 60|].
      destruct (smem k ["printout"; "local_design"; "local_offdesign"]) eqn:K4; [names; each_name K4|].
      destruct (String.eqb k "mixing_rule") eqn:K5; [names; vm_compute; auto 60|]. discriminate.
Qed.

Lemma names_known l : forallb (fun x => smem x property_data) l = true -> forall x, In x l -> In x property_names.
Proof.
  intros H x I. rewrite forallb_forall in H. specialize (H x I). names. each_name H.
Qed.

Lemma set_one_typed parse k v c c' : set_one parse k v c = (c', None) -> well_typed k v.
Proof.
  intros H. unfold well_typed. split; [|split; [|split; [|split]]].
  - intros [<-|[<-|[]]]; unfold set_one in H; cbn in H; destruct v; try discriminate;
      (eexists; split; [reflexivity|]; destruct (forallb _ l) eqn:E; [|discriminate]; exact (names_known l E)).
  - intros [<-|[<-|[<-|[<-|[]]]]]; unfold set_one in H; cbn in H; destruct v; try discriminate; eauto.
  - intros ->; unfold set_one in H; cbn in H; destruct v; try discriminate; auto.
    repeat (match type of H with context [match ?x with _ => _ end] => is_var x; destruct x end; try discriminate; auto).
    all: destruct s; try discriminate; auto.
  - intros [<-|[<-|[<-|[]]]]; unfold set_one in H; cbn in H; destruct v; try discriminate; eauto.
  - intros [<-|[<-|[<-|[<-|[]]]]] o f d ->; unfold set_one in H; cbn in H; discriminate.
Qed.

Lemma set_attr_each parse (P : string -> pv -> Prop) :
  (forall k v c c', set_one parse k v c = (c', None) -> P k v) ->
  forall kw c c', set_attr parse kw c = (c', None) -> forall k v, In (k, v) kw -> P k v.
Proof.
  intros Hone. induction kw as [|[k1 v1] kw IH]; intros c c' H k v I; [destruct I|].
  cbn [set_attr] in H. destruct (set_one parse k1 v1 c) as [c1 [e|]] eqn:E; [discriminate|].
  destruct I as [I|I]; [inversion I; subst; eauto|eauto].
Qed.

Lemma conn_keywords parse kw c c' : set_attr parse kw c = (c', None) ->
  forall k v, In (k, v) kw -> In k connection_keywords /\ well_typed k v.
Proof.
  intros H k v I. split.
  - exact (set_attr_each parse (fun k _ => In k connection_keywords) (set_one_keyword parse) kw c c' H k v I).
  - exact (set_attr_each parse well_typed (set_one_typed parse) kw c c' H k v I).
Qed.

Lemma label_protected parse kw c : In "label" (keys kw) -> snd (set_attr parse kw c) <> None.
Proof.
  intros H E. unfold keys in H. apply in_map_iff in H. destruct H as ([k v] & K & I). cbn in K. subst k.
  destruct (set_attr parse kw c) as [c' e] eqn:G. cbn in E. subst e.
  destruct (conn_keywords parse kw c c' G "label" v I) as [X _]. vm_compute in X.
  repeat (destruct X as [X|X]; [discriminate|]). exact X.
Qed.

(* ---- components ---- *)

Lemma cset_attr_each parse (P : dict param -> string -> carg -> Prop) (K : dict param -> dict param -> Prop) :
  (forall d, K d d) -> (forall a b d, K a b -> K b d -> K a d) ->
  (forall k v c, K (k_params c) (k_params (fst (cset_one parse k v c)))) ->
  (forall a b k v, K a b -> P b k v -> P a k v) ->
  (forall k v c c', cset_one parse k v c = (c', None) -> P (k_params c) k v) ->
  forall kw c c', cset_attr parse kw c = (c', None) -> forall k v, In (k, v) kw -> P (k_params c) k v.
Proof.
  intros Kr Kt Ko Kp Hone. induction kw as [|[k1 v1] kw IH]; intros c c' H k v I; [destruct I|].
  cbn [cset_attr] in H. pose proof (Ko k1 v1 c) as X. destruct (cset_one parse k1 v1 c) as [c1 [e|]] eqn:E; [discriminate|].
  cbn [fst] in X. destruct I as [I|I]; [inversion I; subst; eauto|eauto].
Qed.

(** The names of the parameters and their kinds never change. *)
Definition same_kinds (a b : dict param) : Prop :=
  keys b = keys a /\ forall k, option_map q_kind (dget k b) = option_map q_kind (dget k a).

Lemma same_kinds_one parse k v c : same_kinds (k_params c) (k_params (fst (cset_one parse k v c))).
Proof.
  split; [apply cset_one_keys|]. intros j. destruct (string_dec j k) as [->|N].
  - unfold cset_one. destruct (dget k (k_params c)) as [q|] eqn:E.
    + pose proof (set_param_kind parse v q) as Y. destruct (set_param parse v q) as [q' e]. cbn in *.
      rewrite dget_dset_eq. cbn. now rewrite Y.
    + destruct (smem k ["design"; "offdesign"]);
        [destruct v as [[]| |]; cbn; rewrite ?E; try reflexivity; destruct (forallb _ l); cbn; try destruct (String.eqb k "design"); cbn; now rewrite ?E|].
      destruct (smem k ["local_design"; "local_offdesign"; "printout"; "char_warnings"]);
        [destruct v as [[]| |]; cbn; rewrite ?E; try reflexivity;
         destruct (String.eqb k "local_design"), (String.eqb k "local_offdesign"), (String.eqb k "printout"); cbn; now rewrite ?E|].
      destruct (String.eqb k "design_path"); [cbn; now rewrite E|].
      destruct (String.eqb k "fkt_group"); cbn; now rewrite E.
  - rewrite cset_one_other by auto. reflexivity.
Qed.

(** What one keyword of a component needs. *)
Definition acceptable (d : dict param) (k : string) (v : carg) : Prop :=
  (In k (keys d) \/ In k component_settings) /\
  (~ In k (keys d) -> In k ["design"; "offdesign"] -> exists l, v = CV (PList l) /\ forall x, In x l -> In x (keys d)) /\
  (~ In k (keys d) -> In k ["local_design"; "local_offdesign"; "printout"; "char_warnings"] -> exists b, v = CV (PBool b)) /\
  (forall q fs, option_map q_kind (dget k d) = Some q -> q <> KSimple -> v = CDict fs -> forall f, In f fs -> has_field q f) /\
  (forall q, option_map q_kind (dget k d) = Some q -> q = KCp -> forall i, v <> CChar i) /\
  (forall q, option_map q_kind (dget k d) = Some q -> has_curve q -> v = CV PNone \/ exists x, v = CChar x \/ exists fs, v = CDict fs).

Lemma field_has k f : field_allowed k f = true -> has_field k f.
Proof.
  destruct f; cbn; auto.
  - destruct k; try discriminate; auto.
  - destruct k; try discriminate; unfold has_value; auto.
  - destruct k; try discriminate; unfold has_curve; auto.
  - intros H. apply smem_In in H. split; [|split].
    + intros N. destruct k; auto; exfalso; cbn in H, N;
        repeat (destruct N as [<-|N]; [repeat (destruct H as [H|H]; [discriminate|]); exact H|]); exact N.
    + intros ->. destruct k; unfold has_curve; auto; exfalso; cbn in H; repeat (destruct H as [H|H]; [discriminate|]); exact H.
    + intros ->. destruct k; eauto; exfalso; cbn in H; repeat (destruct H as [H|H]; [discriminate|]); exact H.
Qed.

Lemma dc_fields fs : forall q q', dc_set_attr fs q = (q', None) -> forall f, In f fs -> has_field (q_kind q) f.
Proof.
  induction fs as [|f1 fs IH]; intros q q' H f I; [destruct I|].
  cbn [dc_set_attr] in H. destruct (field_allowed (q_kind q) f1) eqn:E; [|discriminate].
  destruct I as [<-|I]; [now apply field_has|].
  assert (Z : q_kind (put_field f1 q) = q_kind q) by (destruct f1; reflexivity).
  rewrite <- Z. eauto.
Qed.

Lemma cset_one_acceptable parse k v c c' : cset_one parse k v c = (c', None) -> acceptable (k_params c) k v.
Proof.
  intros H. unfold cset_one in H. destruct (dget k (k_params c)) as [q|] eqn:D.
  - assert (N : In k (keys (k_params c))) by (apply dget_In in D; apply (in_map fst) in D; exact D).
    destruct (set_param parse v q) as [q' e] eqn:E. inversion H; subst; clear H.
    unfold acceptable. rewrite D. cbn [option_map]. split; [auto|]. split; [tauto|]. split; [tauto|]. split; [|split].
    + intros k0 fs K S -> f I. inversion K; subst; clear K. unfold set_param in E.
      destruct (q_kind q) eqn:Kq; [|congruence| | | |]; rewrite <- Kq; eapply dc_fields; eauto.
    + intros k0 K -> i ->. unfold set_param in E. inversion K as [K1]. rewrite K1 in E. discriminate.
    + intros k0 K Hc. inversion K; subst; clear K. unfold set_param in E.
      destruct v as [w|fs|i]; [|right; exists 0; eauto|right; eauto].
      destruct w; auto; destruct Hc as [Hc|Hc]; rewrite Hc in E; discriminate.
  - assert (N : ~ In k (keys (k_params c))) by now apply dget_None_notin.
    unfold acceptable. rewrite D. cbn [option_map].
    assert (Z : In k component_settings /\
      (In k ["design"; "offdesign"] -> exists l, v = CV (PList l) /\ forall x, In x l -> In x (keys (k_params c))) /\
      (In k ["local_design"; "local_offdesign"; "printout"; "char_warnings"] -> exists b, v = CV (PBool b))).
    { destruct (smem k ["design"; "offdesign"]) eqn:K1.
      - destruct v as [[]| |]; try discriminate. destruct (forallb _ l) eqn:F; [|discriminate].
        names. split; [each_name K1|]. split.
        + intros _. eexists; split; [reflexivity|]. intros x I. rewrite forallb_forall in F. now apply smem_In, F.
        + intros M. exfalso. cbn in M. destruct K1 as [<-|[<-|[]]]; repeat (destruct M as [M|M]; [discriminate|]); exact M.
      - destruct (smem k ["local_design"; "local_offdesign"; "printout"; "char_warnings"]) eqn:K2.
        + destruct v as [[]| |]; try discriminate. names. split; [each_name K2|]. split; [|eauto].
          intros M. exfalso. apply smem_In in M. congruence.
        + split.
          * destruct (String.eqb k "design_path") eqn:K3; [names; vm_compute; auto 60|].
            destruct (String.eqb k "fkt_group") eqn:K4; [names; vm_compute; auto 60|]. discriminate.
          * split; intros M; exfalso; apply smem_In in M; congruence. }
    destruct Z as (Z1 & Z2 & Z3). split; [auto|]. split; [auto|]. split; [auto|]. split; [|split]; intros; discriminate.
Qed.

Lemma comp_keywords parse kw c c' : cset_attr parse kw c = (c', None) ->
  forall k v, In (k, v) kw -> acceptable (k_params c) k v.
Proof.
  apply (cset_attr_each parse acceptable same_kinds).
  - intros d. split; reflexivity.
  - intros a b d [A1 A2] [B1 B2]. split; [congruence|]. intros j. rewrite B2. apply A2.
  - apply same_kinds_one.
  - intros a b k v [A1 A2] H. unfold acceptable in *. rewrite A1, (A2 k) in H. exact H.
  - intros k v c0 c1. apply cset_one_acceptable.
Qed.

Lemma comp_settings parse kw c c' : cset_attr parse kw c = (c', None) ->
  forall k v, In (k, v) kw ->
  (In k (keys (k_params c)) \/ In k component_settings) /\
  (~ In k (keys (k_params c)) -> In k ["design"; "offdesign"] ->
     exists l, v = CV (PList l) /\ forall x, In x l -> In x (keys (k_params c))) /\
  (~ In k (keys (k_params c)) -> In k ["local_design"; "local_offdesign"; "printout"; "char_warnings"] -> exists b, v = CV (PBool b)).
Proof.
  intros H k v I. destruct (comp_keywords parse kw c c' H k v I) as (A & B & C & _). auto.
Qed.

Lemma comp_fields parse kw c c' : cset_attr parse kw c = (c', None) ->
  forall k q, dget k (k_params c) = Some q ->
  (forall fs, In (k, CDict fs) kw -> q_kind q <> KSimple -> forall f, In f fs -> has_field (q_kind q) f) /\
  (q_kind q = KCp -> forall i, ~ In (k, CChar i) kw) /\
  (has_curve (q_kind q) -> forall v, In (k, v) kw -> v = CV PNone \/ exists x, v = CChar x \/ exists fs, v = CDict fs).
Proof.
  intros H k q D.
  assert (Z : option_map q_kind (dget k (k_params c)) = Some (q_kind q)) by now rewrite D.
  split; [|split].
  - intros fs I S f F. destruct (comp_keywords parse kw c c' H k _ I) as (_ & _ & _ & A & _). eapply A; eauto.
  - intros Kq i I. destruct (comp_keywords parse kw c c' H k _ I) as (_ & _ & _ & _ & A & _). eapply A; eauto.
  - intros Hc v I. destruct (comp_keywords parse kw c c' H k _ I) as (_ & _ & _ & _ & _ & A). eapply A; eauto.
Qed.

(* design path of a component *)
Lemma path_one parse k v c c' : cset_one parse k v c = (c', None) ->
  dget "design_path" (k_params c) = None ->
  dget "design_path" (k_params c') = None /\
  (k_design_path c', k_new_design c') =
    (if String.eqb k "design_path" then (v, true)
     else if String.eqb k "fkt_group" then (k_design_path c, match dget k (k_params c) with None => true | Some _ => k_new_design c end)
     else (k_design_path c, k_new_design c)).
Proof.
  intros H D. split.
  - pose proof (same_kinds_one parse k v c) as [A _]. rewrite H in A. cbn [fst] in A.
    apply dget_None_notin. rewrite A. now apply dget_None_notin.
  - unfold cset_one in H. destruct (dget k (k_params c)) as [q|] eqn:E.
    + assert (N : String.eqb k "design_path" = false) by (apply String.eqb_neq; intros ->; congruence).
      rewrite N. destruct (set_param parse v q) as [q' e]. inversion H; subst. cbn. now destruct (String.eqb k "fkt_group").
    + destruct (smem k ["design"; "offdesign"]) eqn:K1.
      { destruct v as [[]| |]; try discriminate. destruct (forallb _ l); [|discriminate]. names.
        destruct K1 as [<-|[<-|[]]]; inversion H; subst; reflexivity. }
      destruct (smem k ["local_design"; "local_offdesign"; "printout"; "char_warnings"]) eqn:K2.
      { destruct v as [[]| |]; try discriminate. names.
        destruct K2 as [<-|[<-|[<-|[<-|[]]]]]; inversion H; subst; reflexivity. }
      destruct (String.eqb k "design_path"); [inversion H; subst; reflexivity|].
      destruct (String.eqb k "fkt_group"); inversion H; subst; reflexivity.
Qed.

Lemma path_kept parse kw : forall c c', cset_attr parse kw c = (c', None) ->
  dget "design_path" (k_params c) = None -> dget "design_path" kw = None ->
  k_design_path c' = k_design_path c /\ (k_new_design c = true -> k_new_design c' = true).
Proof.
  induction kw as [|[k1 v1] kw IH]; intros c c' H D N; [inversion H; subst; auto|].
  cbn [cset_attr] in H. destruct (cset_one parse k1 v1 c) as [c1 [e|]] eqn:E; [discriminate|].
  destruct (path_one parse k1 v1 c c1 E D) as [D1 P].
  cbn [dget] in N. rewrite String.eqb_sym in N. destruct (String.eqb k1 "design_path"); [discriminate|].
  destruct (IH c1 c' H D1 N) as [A B]. rewrite A. split.
  - destruct (String.eqb k1 "fkt_group"); now inversion P.
  - intros X. apply B. destruct (String.eqb k1 "fkt_group"); inversion P as [[P1 P2]]; rewrite ?P2; auto.
    now destruct (dget k1 (k_params c)).
Qed.

Lemma path_given parse kw : forall c c' v, cset_attr parse kw c = (c', None) -> NoDup (keys kw) ->
  dget "design_path" (k_params c) = None -> dget "design_path" kw = Some v ->
  k_design_path c' = v /\ k_new_design c' = true.
Proof.
  induction kw as [|[k1 v1] kw IH]; intros c c' v H ND D G; [discriminate|].
  cbn [cset_attr] in H. destruct (cset_one parse k1 v1 c) as [c1 [e|]] eqn:E; [discriminate|].
  destruct (path_one parse k1 v1 c c1 E D) as [D1 P].
  cbn [keys map fst] in ND. inversion ND as [|? ? N1 ND']; subst.
  cbn [dget] in G. rewrite String.eqb_sym in G. destruct (String.eqb k1 "design_path") eqn:K.
  - apply String.eqb_eq in K; subst k1. inversion G; subst.
    destruct (path_kept parse kw c1 c' H D1) as [A B]; [now apply dget_None_notin|].
    injection P as P1 P2. rewrite A. split; [exact P1|exact (B P2)].
  - eapply IH; eauto.
Qed.

(* ---- rejected calls ---- *)

Lemma rejected_prefix parse kw : forall c c' e, set_attr parse kw c = (c', Some e) ->
  exists before k v after c1, kw = before ++ (k, v) :: after /\ set_attr parse before c = (c1, None) /\
    set_one parse k v c1 = (c', Some e).
Proof.
  induction kw as [|[k1 v1] kw IH]; intros c c' e H; [discriminate|].
  cbn [set_attr] in H. destruct (set_one parse k1 v1 c) as [c1 [e1|]] eqn:E.
  - inversion H; subst. exists [], k1, v1, kw, c. split; [reflexivity|]. split; [reflexivity|exact E].
  - destruct (IH c1 c' e H) as (b & k & v & af & c2 & -> & B & C).
    exists ((k1, v1) :: b), k, v, af, c2. split; [reflexivity|]. split; [|exact C]. cbn [set_attr]. now rewrite E.
Qed.

Lemma rejected_one parse k v c c' e : set_one parse k v c = (c', Some e) -> k <> "fluid" ->
  ~ In k ["m_ref"; "p_ref"; "h_ref"; "T_ref"; "v_ref"] -> c' = c.
Proof.
  intros H F R. unfold set_one in H.
  destruct (String.eqb k "label"); [now inversion H|].
  destruct (contains "fluid" k) eqn:C.
  { unfold fluid_specification in H. apply String.eqb_neq in F. rewrite F in H.
    destruct (String.eqb k "fluid_balance"); [destruct v; now inversion H|].
    destruct v; try now inversion H. destruct (String.eqb k "fluid0"); [discriminate|].
    destruct (String.eqb k "fluid_engines"); [discriminate|now inversion H]. }
  destruct (smem k property_data || smem k property_data0)%bool eqn:P.
  { unfold parameter_specification in H.
    assert (Z : smem k property_data = true -> smem k value_props = true).
    { intros A. destruct (smem_property_data_value k A) as [G|[G|G]]; [auto| |congruence].
      apply smem_In in G. contradiction. }
    destruct v; cbn [is_numeric] in H;
    repeat (match type of H with context [match ?x with _ => _ end] => destruct x eqn:? end; try discriminate);
      try (now inversion H); exfalso; specialize (Z eq_refl); congruence. }
  destruct (String.eqb k "state").
  { destruct v; try (now inversion H).
    repeat (match type of H with context [match ?x with _ => _ end] => is_var x; destruct x end; try discriminate; try (now inversion H)). }
  destruct (smem k ["design"; "offdesign"]); [destruct v; try (now inversion H); destruct (forallb _ l); now inversion H|].
  destruct (String.eqb k "design_path"); [discriminate|].
  destruct (smem k ["printout"; "local_design"; "local_offdesign"]); [destruct v; now inversion H|].
  destruct (String.eqb k "mixing_rule"); [discriminate|now inversion H].
Qed.

Lemma rejected_call parse kw c c' e : set_attr parse kw c = (c', Some e) ->
  exists before k v after c1, kw = before ++ (k, v) :: after /\ set_attr parse before c = (c1, None) /\ snd (set_attr parse [(k, v)] c1) = Some e /\ (~ In k ["fluid"; "m_ref"; "p_ref"; "h_ref"; "T_ref"; "v_ref"] -> c' = c1).
Proof.
  intros H. destruct (rejected_prefix parse kw c c' e H) as (b & k & v & af & c1 & A & B & C).
  exists b, k, v, af, c1. split; [exact A|]. split; [exact B|]. split; [cbn [set_attr]; now rewrite C|].
  intros N. eapply rejected_one; [exact C| |].
  - intros ->. apply N. cbn. auto.
  - intros M. apply N. cbn in *. tauto.
Qed.

Lemma not_atomic : exists parse kw c c' e, set_attr parse kw c = (c', Some e) /\ value_spec c "m" = None /\ value_spec c' "m" = Some (PNum (Fin 5)).
Proof.
  exists (fun _ => None), [("m", PNum (Fin 5)); ("presure", PNum (Fin 1))], conn_default. do 2 eexists.
  split; [reflexivity|]. split; reflexivity.
Qed.

Lemma reference_flagged : exists parse k v c c' e, set_attr parse [(k, v)] c = (c', Some e) /\ rp_is_set (c_ref c k) = false /\ rp_is_set (c_ref c' k) = true /\ rp_ref (c_ref c' k) = None.
Proof.
  exists (fun _ => None), "p_ref", (PNum (Fin 5)), conn_default. do 2 eexists.
  split; [reflexivity|]. split; [reflexivity|]. split; reflexivity.
Qed.
