(** Lemmas: the stages of a calculation keep two networks in different units alike. *)
From Coq Require Import QArith Qabs Lqa.
From Verif Require Import Base UnitsModel UnitsSpec UnitsProofs StateModel StateSpec StateProofs StateUnitsSpec StateUnitsProofs.
Open Scope string_scope.
Open Scope list_scope.

Ltac fields := conn_tac.
Ltac proj := cbn [k_set k_var k_val k_val0 k_SI k_unit r_set r_conn r_factor r_delta r_SI].

Section two_units.
Variables u1 u2 : string -> string.

(** Containers during a calculation. *)
Record cm (k : string) (x y : cont) : Prop := {
  cm_set : k_set x = k_set y; cm_var : k_var x = k_var y; cm_SI : same (k_SI x) (k_SI y);
  cm_val0 : In k ["m"; "p"; "h"] -> means_same k (u1 k) (u2 k) (k_val0 x) (k_val0 y);
  cm_unit : In k fpd_keys -> k_unit x = entry_unit u1 k /\ k_unit y = entry_unit u2 k }.

(** References during a calculation. *)
Record rm (k : string) (x y : ref) : Prop := {
  rm_set : r_set x = r_set y; rm_conn : r_conn x = r_conn y; rm_factor : r_factor x = r_factor y;
  rm_delta : In k ref_keys -> r_set x = true -> means_same (if String.eqb k "T" then "Td_bp" else k) (u1 k) (u2 k) (Some (r_delta x)) (Some (r_delta y));
  rm_SI : In k ref_keys -> r_set x = true -> same (r_SI x) (r_SI y) }.

(** Connections during a calculation. *)
Record mid (c1 c2 : conn) : Prop := {
  m_fluid : n_fluid c1 = n_fluid c2; m_respectful : respectful (n_fluid c1);
  m_state : n_state c1 = n_state c2; m_phase : n_phase c1 = n_phase c2; m_good : n_good c1 = n_good c2; m_known : n_known c1 = n_known c2;
  m_off : n_off c1 = n_off c2; m_solved : n_solved c1 = n_solved c2; m_eqs : n_eqs c1 = n_eqs c2;
  m_c : forall k, cm k (n_c c1 k) (n_c c2 k);
  m_r : forall k, rm k (n_r c1 k) (n_r c2 k);
  m_deg : degrees_alike u1 u2 c1 c2;
  m_flow : flow_alike u1 u2 c1 }.

Lemma mid_isset c1 c2 k : mid c1 c2 -> isset c1 k = isset c2 k.
Proof. intros M. apply (cm_set _ _ _ (m_c _ _ M k)). Qed.
Lemma mid_SI c1 c2 k : mid c1 c2 -> same (SI c1 k) (SI c2 k).
Proof. intros M. apply (cm_SI _ _ _ (m_c _ _ M k)). Qed.
Lemma mid_var c1 c2 k : mid c1 c2 -> k_var (n_c c1 k) = k_var (n_c c2 k).
Proof. intros M. apply (cm_var _ _ _ (m_c _ _ M k)). Qed.

(* ---- updates ---- *)

Lemma mid_upd k g1 g2 c1 c2 : mid c1 c2 ->
  (cm k (n_c c1 k) (n_c c2 k) -> cm k (g1 (n_c c1 k)) (g2 (n_c c2 k))) ->
  (forall x, k_set (g1 x) = k_set x) -> (forall x, k_val (g1 x) = k_val x) -> (forall x, k_val (g2 x) = k_val x) ->
  (forall x, k_val0 (g1 x) = None -> k_val0 x = None) ->
  mid (upd k g1 c1) (upd k g2 c2).
Proof.
  intros M H S1 V1 V2 Z. destruct M. constructor; fields; auto.
  - intros j. destruct (String.eqb j k) eqn:E; [apply String.eqb_eq in E; subst; auto|auto].
  - unfold degrees_alike, wants in *. fields. destruct (String.eqb "Td_bp" k); [rewrite S1, V1, V2|]; exact m_deg0.
  - unfold flow_alike, wants in *. fields. destruct (String.eqb "m" k); [rewrite S1|exact m_flow0].
    destruct m_flow0 as [A|[A|[A|A]]]; auto. right; right; left. intros N. apply A. apply Z. exact N.
Qed.

Lemma mid_with_SI k s1 s2 c1 c2 : mid c1 c2 -> same s1 s2 -> mid (upd k (with_SI s1) c1) (upd k (with_SI s2) c2).
Proof. intros M S. apply mid_upd; auto. intros []; constructor; auto. Qed.

Lemma mid_with_var k b c1 c2 : mid c1 c2 -> mid (upd k (with_var b) c1) (upd k (with_var b) c2).
Proof. intros M. apply mid_upd; auto. intros []; constructor; auto. Qed.

Lemma mid_with_eqs s e c1 c2 : mid c1 c2 -> mid (with_eqs c1 s e) (with_eqs c2 s e).
Proof. intros []. constructor; auto. Qed.
Lemma mid_with_good c1 c2 : mid c1 c2 -> mid (with_good c1) (with_good c2).
Proof. intros []. constructor; auto. unfold flow_alike. cbn. auto. Qed.
Lemma mid_with_phase x c1 c2 : mid c1 c2 -> mid (with_phase x c1) (with_phase x c2).
Proof. intros []. constructor; auto. Qed.

(* ---- specified values ---- *)

Lemma unit_entry u k : unit_of u k = entry_unit u k.
Proof. unfold unit_of, entry_unit. now destruct (String.eqb k "Td_bp"). Qed.

(** Before the units are written. *)
Definition pre (c1 c2 : conn) : Prop := twin u1 u2 c1 c2 /\ degrees_alike u1 u2 c1 c2 /\ flow_alike u1 u2 c1.
(** Units written for some properties. *)
Definition written (ks : list string) (c1 c2 : conn) : Prop :=
  pre c1 c2 /\ forall k, In k ks -> k_unit (n_c c1 k) = entry_unit u1 k /\ k_unit (n_c c2 k) = entry_unit u2 k.
Definition written_ref (ks : list string) (c1 c2 : conn) : Prop :=
  written fpd_keys c1 c2 /\ forall k, In k ks -> r_set (n_r c1 k) = true -> same (r_SI (n_r c1 k)) (r_SI (n_r c2 k)).

Hypothesis ok1 : units_ok u1.
Hypothesis ok2 : units_ok u2.

Lemma set_property_agree ks k c1 c2 : In k fpd_keys -> written ks c1 c2 ->
  agree (written (k :: ks)) (set_property u1 k c1) (set_property u2 k c2).
Proof.
  intros I [[T [D F]] U]. unfold set_property. rewrite !unit_entry.
  assert (B : forall s1 s2, same s1 s2 -> written (k :: ks) (upd k (with_SI s1) (upd k (with_unit (entry_unit u1 k)) c1))
                                                          (upd k (with_SI s2) (upd k (with_unit (entry_unit u2 k)) c2))).
  { intros s1 s2 S. destruct T. split; [split; [|split]|].
    - constructor; fields; auto; intros j; destruct (String.eqb j k); proj; auto.
    - unfold degrees_alike, wants in *. fields. destruct (String.eqb "Td_bp" k); exact D.
    - unfold flow_alike, wants in *. fields. destruct (String.eqb "m" k); exact F.
    - intros j J. fields. destruct (String.eqb j k) eqn:E; [apply String.eqb_eq in E; subst; auto|].
      destruct J as [J|J]; [subst; rewrite String.eqb_refl in E; discriminate|auto]. }
  pose proof (t_set _ _ _ _ T k) as St. unfold isset. rewrite <- St. destruct (k_set (n_c c1 k)) eqn:K.
  - eapply agree_map; [apply to_SI_agree; [apply ok1; auto|apply ok2; auto|apply (t_val _ _ _ _ T k I K)]|]. exact B.
  - cbn. specialize (B _ _ (t_SI _ _ _ _ T k)). clear - B T U D F.
    destruct T. split; [split; [|split]|].
    + constructor; fields; auto; intros j; destruct (String.eqb j k); proj; auto.
    + unfold degrees_alike, wants in *. fields. destruct (String.eqb "Td_bp" k); exact D.
    + unfold flow_alike, wants in *. fields. destruct (String.eqb "m" k); exact F.
    + intros j J. fields. destruct (String.eqb j k) eqn:E; [apply String.eqb_eq in E; subst; auto|].
      destruct J as [J|J]; [subst; rewrite String.eqb_refl in E; discriminate|auto].
Qed.

Lemma each_grow {A} (R : list string -> A -> A -> Prop) f1 f2 :
  forall todo don, (forall k d x y, In k todo -> R d x y -> agree (R (k :: d)) (f1 k x) (f2 k y)) ->
  forall x y, R don x y -> agree (R (rev todo ++ don)) (each f1 todo x) (each f2 todo y).
Proof.
  induction todo as [|k todo IH]; intros don H x y X; [exact X|].
  unfold each; cbn [fold_left rbind rev]. rewrite <- app_assoc.
  pose proof (H k don x y (or_introl eq_refl) X) as F.
  destruct (f1 k x) as [a|e], (f2 k y) as [b|e']; cbn in F; try contradiction.
  - apply IH; [intros; apply H; [right|]; auto|exact F].
  - rewrite !each_err. exact F.
Qed.

Lemma set_ref_agree ks k c1 c2 : In k ref_keys -> written_ref ks c1 c2 ->
  agree (written_ref (k :: ks)) (set_ref u1 k c1) (set_ref u2 k c2).
Proof.
  intros I [[[T [D F]] U] S]. unfold set_ref. rewrite <- (t_rset _ _ _ _ T k).
  destruct (r_set (n_r c1 k)) eqn:K.
  - pose proof (t_rdelta _ _ _ _ T k I K) as (s & t & Es & Et & E). rewrite Es, Et. cbn.
    destruct T. split; [split; [split; [|split; [exact D|exact F]]|exact U]|].
    + constructor; fields; auto; intros j; destruct (String.eqb j k) eqn:EJ; proj; auto; apply String.eqb_eq in EJ; subst; auto.
    + intros j J R. revert R. fields. destruct (String.eqb j k) eqn:EJ; cbn; [intros _; exact E|].
      destruct J as [J|J]; [subst; rewrite String.eqb_refl in EJ; discriminate|auto].
  - cbn. split; [split; [split; [|split]|]|]; auto. intros j [->|J] R; [congruence|auto].
Qed.

Lemma set_properties_agree c1 c2 : pre c1 c2 -> agree mid (set_properties u1 c1) (set_properties u2 c2).
Proof.
  intros P. unfold set_properties.
  eapply agree_bind with (R := written fpd_keys).
  - eapply agree_weak; [apply (each_grow written) with (don := [])|].
    + intros; apply set_property_agree; auto.
    + split; [exact P|intros ? []].
    + intros x y [A B]. split; [exact A|]. intros k K. apply B. rewrite app_nil_r. now apply -> in_rev.
  - intros x y W. eapply agree_weak; [apply (each_grow written_ref) with (don := [])|].
    + intros; apply set_ref_agree; auto.
    + split; [exact W|intros ? []].
    + intros c d [[[T [D F]] U] B]. destruct T. constructor; auto.
      * intros k. constructor; auto.
      * intros k. constructor; auto. intros K. apply B. rewrite app_nil_r. now apply -> in_rev.
Qed.

(* ---- presolving ---- *)

Lemma set_offdesign_mid c1 c2 : mid c1 c2 -> mid (set_offdesign c1) (set_offdesign c2).
Proof.
  intros M. unfold set_offdesign. rewrite <- (m_off _ _ M).
  assert (G : forall l, (forall e, In e l -> In e (n_off c1)) -> forall x y, mid x y /\ n_off x = n_off c1 ->
    mid (fold_left (fun c e => upd (fst e) (fun k => with_SI (snd e) (with_set k)) c) l x)
        (fold_left (fun c e => upd (fst e) (fun k => with_SI (snd e) (with_set k)) c) l y)).
  { induction l as [|[k s] l IH]; intros Hl x y [X O]; [exact X|]. cbn. apply IH; [intros; apply Hl; right; auto|]. split; [|exact O].
    assert (I : In k (keys (n_off x))) by (rewrite O; apply (in_map fst _ (k, s)); apply Hl; left; reflexivity).
    destruct X. constructor; fields; auto.
    - intros j. destruct (String.eqb j k); auto. destruct (m_c0 j). constructor; auto; cbn. apply same_refl.
    - unfold degrees_alike, wants in *. fields. destruct (String.eqb "Td_bp" k) eqn:E; [|exact m_deg0].
      apply String.eqb_eq in E. subst k. intros _. cbn. apply m_deg0. right. exact I.
    - unfold flow_alike, wants in *. fields. destruct (String.eqb "m" k) eqn:E; [|exact m_flow0]. cbn. left. left. reflexivity. }
  apply G; auto.
Qed.

Lemma filter_isset c1 c2 l : mid c1 c2 -> filter (isset c1) l = filter (isset c2) l.
Proof. intros M. apply filter_ext. intros k. apply mid_isset. exact M. Qed.

Ltac fl M := rewrite <- (m_fluid _ _ M) in *; pose proof (m_respectful _ _ M) as (RhT & RhQ & Rps & RTs & RT & RQ & Rv & Rs & Rph).

Lemma simplify_agree c1 c2 : mid c1 c2 -> agree mid (simplify c1) (simplify c2).
Proof.
  intros M. unfold simplify. unfold counted. rewrite <- (filter_isset _ _ _ M), <- !(mid_isset _ _ _ M), <- (m_eqs _ _ M). fl M.
  destruct (Nat.ltb 3 _); [reflexivity|].
  destruct (negb (isset c1 "h") && isset c1 "p").
  - destruct (isset c1 "T"); [|destruct (isset c1 "Td_bp") eqn:TD; [|destruct (isset c1 "x")]].
    + eapply agree_map; [apply call2_agree; [exact RhT|apply mid_SI, M|apply mid_SI, M]|].
      intros x y E. apply mid_with_SI; [|exact E]. apply mid_with_eqs, M.
    + eapply agree_bind; [apply call1_agree; [exact RTs|apply mid_SI, M]|]. intros x y E.
      eapply agree_map; [apply call2_agree; [exact RhT|apply mid_SI, M|]|].
      * apply plus_same; [exact E|]. apply (m_deg _ _ M). left. exact TD.
      * intros h h' E'. apply mid_with_SI; [|exact E']. apply mid_with_eqs, M.
    + eapply agree_map; [apply call2_agree; [exact RhQ|apply mid_SI, M|apply mid_SI, M]|].
      intros x y E. apply mid_with_SI; [|exact E]. apply mid_with_eqs, M.
    + exact M.
  - destruct (negb (isset c1 "h") && negb (isset c1 "p") && isset c1 "T" && isset c1 "x"); [|exact M].
    eapply agree_bind; [apply call1_agree; [exact Rps|apply mid_SI, M]|]. intros p p' E.
    eapply agree_map; [apply call2_agree; [exact RhQ|exact E|apply mid_SI, M]|].
    intros h h' E'. apply mid_with_SI; [|exact E']. apply mid_with_SI; [|exact E]. apply mid_with_eqs, M.
Qed.

Lemma assign_mid k c1 c2 : mid c1 c2 -> mid (assign k c1) (assign k c2).
Proof. intros M. unfold assign. rewrite <- (mid_isset _ _ _ M), <- (m_solved _ _ M). apply mid_with_var, M. Qed.

Lemma equations_mid c1 c2 : mid c1 c2 -> equations c1 = equations c2.
Proof.
  intros M. unfold equations. f_equal.
  - apply filter_ext. intros k. now rewrite (mid_isset _ _ _ M), (m_solved _ _ M).
  - f_equal. apply filter_ext. intros k. apply (rm_set _ _ _ (m_r _ _ M k)).
Qed.

Lemma presolve_agree c1 c2 : mid c1 c2 -> agree mid (presolve c1) (presolve c2).
Proof.
  intros M. unfold presolve.
  assert (M' : mid (set_offdesign (with_eqs c1 [] [])) (set_offdesign (with_eqs c2 [] []))) by (apply set_offdesign_mid, mid_with_eqs, M).
  eapply agree_map with (R := mid).
  - rewrite <- (m_known _ _ M'). destruct (n_known _); [apply simplify_agree, M'|exact M'].
  - intros x y X. cbv zeta.
    assert (Y : mid (assign "h" (assign "p" (assign "m" x))) (assign "h" (assign "p" (assign "m" y)))) by (repeat apply assign_mid; exact X).
    rewrite <- (m_solved _ _ Y), <- (equations_mid _ _ Y). apply mid_with_eqs, Y.
Qed.

(* ---- starting values ---- *)

Lemma mph_fpd k : In k ["m"; "p"; "h"] -> In k fpd_keys /\ entry_unit u1 k = u1 k /\ entry_unit u2 k = u2 k.
Proof. intros [<-|[<-|[<-|[]]]]; cbn; tauto. Qed.

Lemma mid_replace k x y c1 c2 : mid c1 c2 -> cm k x y -> k_set x = k_set (n_c c1 k) -> k_val x = k_val (n_c c1 k) -> k_val y = k_val (n_c c2 k) ->
  (k_val0 x = None -> k_val0 (n_c c1 k) = None) -> mid (upd k (fun _ => x) c1) (upd k (fun _ => y) c2).
Proof.
  intros M C S V1 V2 Z. destruct M. constructor; fields; auto.
  - intros j. destruct (String.eqb j k) eqn:E; [apply String.eqb_eq in E; subst; auto|auto].
  - unfold degrees_alike, wants in *. fields. destruct (String.eqb "Td_bp" k) eqn:E; [apply String.eqb_eq in E; subst k; rewrite S, V1, V2|]; exact m_deg0.
  - unfold flow_alike, wants in *. fields. destruct (String.eqb "m" k) eqn:E; [apply String.eqb_eq in E; subst k; rewrite S|exact m_flow0].
    destruct m_flow0 as [A|[A|[A|A]]]; auto. right; right; left. intros N. apply A, Z, N.
Qed.

Definition started (k : string) (o1 o2 x y : cont) : Prop :=
  cm k x y /\ k_set x = k_set o1 /\ k_val x = k_val o1 /\ k_val y = k_val o2 /\ (k_val0 x = None -> k_val0 o1 = None).

Lemma init_val0_agree rnd vs vt k c1 c2 : In k ["m"; "p"; "h"] -> mid c1 c2 -> k_var (n_c c1 k) = true -> n_good c1 = false ->
  (k = "m" -> ~ wants c1 "m") ->
  agree (started k (n_c c1 k) (n_c c2 k)) (init_val0 u1 rnd vs vt k (n_c c1 k)) (init_val0 u2 rnd vs vt k (n_c c2 k)).
Proof.
  intros I M V G NW. destruct (mph_fpd k I) as (If & E1 & E2). unfold init_val0.
  pose proof (m_c _ _ M k) as C. pose proof (cm_val0 _ _ _ C I) as Z.
  destruct (k_val0 (n_c c1 k)) as [a|] eqn:A, (k_val0 (n_c c2 k)) as [b|] eqn:B; try contradiction.
  - repeat split; auto; try apply C; try congruence.
  - destruct (String.eqb k "m") eqn:K.
    + apply String.eqb_eq in K. subst k. cbn.
      assert (U : u1 "m" = u2 "m").
      { destruct (m_flow _ _ M) as [X|[X|[X|X]]]; [elim (NW eq_refl X)|congruence|congruence|exact X]. }
      assert (Kn : unit_known "m" (u1 "m") = Some true) by (apply (ok1 "m"); cbn; auto).
      destruct (to_SI_known "m" (rnd + 1) _ Kn) as [s S].
      repeat split; try apply C; cbn; auto; try discriminate. intros _. exists s, s. rewrite <- U. repeat split; auto.
    + set (v := if Qeq_bool vs 0 then _ else _).
      assert (K1 : unit_known k (u1 k) = Some true) by (rewrite <- E1; apply ok1; auto).
      assert (K2 : unit_known k (u2 k) = Some true) by (rewrite <- E2; apply ok2; auto).
      destruct (from_SI_known k v _ K1) as [q Q1], (from_SI_known k v _ K2) as [r Q2]. rewrite Q1, Q2. cbn.
      destruct (roundtrip_out_in _ _ _ _ Q1) as (s & S1 & S2), (roundtrip_out_in _ _ _ _ Q2) as (t & T1 & T2).
      repeat split; try apply C; cbn; auto; try discriminate. intros _. exists s, t. repeat split; auto. now rewrite S2, T2.
Qed.

(** The unknowns are not specified. *)
Definition honest (c : conn) : Prop := k_var (n_c c "m") = true -> ~ wants c "m".

Definition midh (c1 c2 : conn) : Prop := mid c1 c2 /\ honest c1.

Lemma start_value_agree a l k c1 c2 : In k ["m"; "p"; "h"] -> midh c1 c2 -> agree midh (start_value u1 a l k c1) (start_value u2 a l k c2).
Proof.
  intros I [M H]. unfold start_value. rewrite <- (mid_var _ _ _ M). destruct (k_var (n_c c1 k)) eqn:V; [|split; auto].
  destruct (mph_fpd k I) as (If & E1 & E2).
  eapply agree_bind with (R := started k (n_c c1 k) (n_c c2 k)).
  - rewrite <- (m_good _ _ M). destruct (n_good c1) eqn:G.
    + cbn. split; [apply (m_c _ _ M k)|auto].
    + apply init_val0_agree; auto. intros ->. auto.
  - intros x y (C & S & V1 & V2 & Z). eapply agree_map with (R := same).
    + destruct (cm_unit _ _ _ C If) as [-> ->]. rewrite E1, E2.
      apply to_SI_agree; [rewrite <- E1; apply ok1; auto|rewrite <- E2; apply ok2; auto|apply (cm_val0 _ _ _ C I)].
    + intros s t E. split.
      * apply mid_replace; auto. destruct C; constructor; auto.
      * unfold honest, wants in *. fields. destruct (String.eqb "m" k) eqn:K; [|exact H].
        apply String.eqb_eq in K. subst k. intros _. rewrite S. apply H. exact V.
Qed.

Lemma first_pass_agree a l c1 c2 : midh c1 c2 -> agree midh (first_pass u1 a None l c1) (first_pass u2 a None l c2).
Proof. intros M. unfold first_pass, from_path. apply each_agree; [|exact M]. intros. apply start_value_agree; auto. Qed.

Lemma offdesign_set c k : In k (keys (n_off c)) -> k_set (n_c (set_offdesign c) k) = true.
Proof.
  intros H. unfold set_offdesign. unfold keys in H. generalize dependent (n_off c). intros l. revert c. induction l as [|[j s] l IH]; intros c; [intros []|].
  assert (Mono : forall l c, k_set (n_c c k) = true -> k_set (n_c (fold_left (fun c (e : string * num) => upd (fst e) (fun k => with_SI (snd e) (with_set k)) c) l c) k) = true).
  { clear. induction l as [|e l IH]; intros c H; [exact H|]. cbn. apply IH. fields. destruct (String.eqb k (fst e)); auto. }
  cbn. intros [->|I]; [|apply IH; exact I]. apply Mono. fields. now rewrite String.eqb_refl.
Qed.

Lemma simplify_sets c c' : simplify c = Ok c' -> (forall k, k_set (n_c c' k) = k_set (n_c c k)) /\ n_off c' = n_off c.
Proof.
  unfold simplify. intros H.
  repeat match type of H with
  | (if ?b then _ else _) = _ => destruct b
  | rbind ?r _ = _ => destruct r; cbn [rbind] in H
  | rmap _ ?r = _ => destruct r; cbn [rmap] in H
  | Err _ = Ok _ => discriminate
  | Ok _ = Ok _ => inversion H; subst; clear H
  end; fields; split; auto; intros k; destruct (String.eqb k "h"); auto; destruct (String.eqb k "p"); auto.
Qed.

Lemma presolve_honest c c' : presolve c = Ok c' -> honest c'.
Proof.
  unfold presolve. set (d := set_offdesign (with_eqs c [] [])). intros H.
  assert (O : forall k, In k (keys (n_off d)) -> k_set (n_c d k) = true).
  { intros k K. unfold d. apply offdesign_set. revert K. unfold d, set_offdesign.
    assert (Off : forall l x, n_off (fold_left (fun c (e : string * num) => upd (fst e) (fun k => with_SI (snd e) (with_set k)) c) l x) = n_off x)
      by (induction l as [|? ? IH]; intros x; [reflexivity|cbn; rewrite IH; reflexivity]).
    rewrite Off. auto. }
  assert (E : exists e, (if n_known d then simplify d else Ok d) = Ok e /\ (forall k, k_set (n_c e k) = k_set (n_c d k)) /\ n_off e = n_off d).
  { destruct (n_known d); [|exists d; auto]. destruct (simplify d) as [e|] eqn:S; [|discriminate H]. exists e. split; [auto|]. apply simplify_sets. exact S. }
  destruct E as (e & Ee & Es & Eo). rewrite Ee in H. cbn in H. inversion H; subst; clear H.
  unfold honest, wants. unfold assign. fields. cbn [String.eqb Ascii.eqb Bool.eqb]. cbn. intros V [W|W].
  - rewrite W in V. discriminate.
  - rewrite Eo in W. rewrite Es, (O _ W) in V. discriminate.
Qed.

Lemma ref_start_mid n1 n2 k c1 c2 : In k ref_keys -> paired mid n1 n2 -> mid c1 c2 -> mid (ref_start n1 k c1) (ref_start n2 k c2).
Proof.
  intros I [K P] M. unfold ref_start. destruct (m_r _ _ M k) as [A B C D E]. rewrite <- A, <- (mid_isset _ _ _ M), <- B, <- C.
  destruct (r_set (n_r c1 k)) eqn:R; cbn [andb]; [|exact M]. destruct (negb (isset c1 k)); [|exact M].
  apply mid_with_SI; [exact M|]. apply plus_same; [|auto]. apply mult_same; [|apply same_refl].
  destruct (dget (r_conn (n_r c1 k)) n1) as [o1|] eqn:D1.
  - destruct (keys_some _ _ _ _ K D1) as [o2 D2]. rewrite D2. apply mid_SI. eapply P; eauto.
  - rewrite (keys_none _ _ _ K D1). exact Logic.I.
Qed.

Lemma attempt_agree r1 r2 c1 c2 g1 g2 : agree Qeq r1 r2 -> mid c1 c2 -> (forall x y, x == y -> mid (g1 x) (g2 y)) ->
  agree mid (attempt r1 c1 g1) (attempt r2 c2 g2).
Proof. destruct r1 as [x|e], r2 as [y|e']; cbn; try contradiction; [auto|]. intros <- M G. destruct e; cbn; auto. Qed.

Lemma precalc_agree c1 c2 : mid c1 c2 -> agree mid (precalc c1) (precalc c2).
Proof.
  intros M. unfold precalc. rewrite <- (mid_var _ _ _ M). destruct (k_var (n_c c1 "h")); [|exact M].
  eapply agree_bind with (R := mid).
  - rewrite <- (mid_isset _ _ _ M). destruct (isset c1 "x"); [|exact M]. fl M.
    apply attempt_agree; [apply call2_agree; [exact RhQ|apply mid_SI, M|apply mid_SI, M]|exact M|].
    intros; apply mid_with_SI; auto.
  - clear M. intros x y M. rewrite <- (mid_isset _ _ _ M). destruct (isset x "T"); [|exact M]. fl M.
    apply attempt_agree; [apply call2_agree; [exact RhT|apply mid_SI, M|apply mid_SI, M]|exact M|].
    intros; apply mid_with_SI; auto.
Qed.

Lemma phase_start_agree c1 c2 : mid c1 c2 -> agree mid (phase_start c1) (phase_start c2).
Proof.
  intros M. unfold phase_start. rewrite <- !(mid_isset _ _ _ M), <- (m_state _ _ M), <- (mid_var _ _ _ M).
  rewrite <- (nlt_same (Some 0%Q) (SI c1 "Td_bp") (Some 0%Q) (SI c2 "Td_bp")) by (try apply same_refl; apply mid_SI, M).
  rewrite <- (nlt_same (SI c1 "Td_bp") (Some 0%Q) (SI c2 "Td_bp") (Some 0%Q)) by (try apply same_refl; apply mid_SI, M).
  fl M. destruct (_ && k_var _); [|exact M].
  destruct (_ || _); [|destruct (_ || _); [|exact M]].
  - eapply agree_map; [apply call2_agree; [exact RhQ|apply mid_SI, M|apply same_refl]|]. intros x y E.
    rewrite <- (nlt_same (SI c1 "h") (Some x) (SI c2 "h") (Some y)) by (try exact E; apply mid_SI, M).
    destruct (nlt _ _); [|exact M]. apply mid_with_SI; [exact M|]. cbn. rewrite E. reflexivity.
  - eapply agree_map; [apply call2_agree; [exact RhQ|apply mid_SI, M|apply same_refl]|]. intros x y E.
    rewrite <- (nlt_same (Some x) (SI c1 "h") (Some y) (SI c2 "h")) by (try exact E; apply mid_SI, M).
    destruct (nlt _ _); [|exact M]. apply mid_with_SI; [exact M|]. cbn. rewrite E. reflexivity.
Qed.

Lemma second_pass_agree n1 n2 c1 c2 : paired mid n1 n2 -> mid c1 c2 -> agree mid (second_pass n1 c1) (second_pass n2 c2).
Proof.
  intros P M. unfold second_pass. eapply agree_bind with (R := mid); [|apply phase_start_agree].
  rewrite <- (m_good _ _ M). destruct (n_good c1); [exact M|]. apply precalc_agree.
  apply fold_agree; [|exact M]. intros. apply ref_start_mid; auto.
Qed.

Lemma initialise_agree a n1 n2 : NoDup (keys n1) -> paired pre n1 n2 ->
  agree (fun m1 m2 => paired mid m1 m2 /\ keys m1 = keys n1) (initialise u1 a None n1) (initialise u2 a None n2).
Proof.
  intros ND P. unfold initialise.
  pose (top := fun _ _ : conn => True).
  assert (S1 : agree (paired mid) (over (fun _ _ => set_properties u1) n1) (over (fun _ _ => set_properties u2) n2)).
  { apply over_agree with (W := top) (R := pre); unfold top; auto. intros; apply set_properties_agree; auto. }
  destruct (over (fun _ _ => set_properties u1) n1) as [a1|] eqn:O1, (over (fun _ _ => set_properties u2) n2) as [a2|]; cbn in S1 |- *; try contradiction; [|exact S1].
  pose proof (over_keys _ _ _ O1) as K1.
  assert (S2 : agree (paired midh) (over (fun _ _ => presolve) a1) (over (fun _ _ => presolve) a2)).
  { apply over_agree with (W := top) (R := mid); unfold top; auto; [|rewrite K1; auto].
    intros. pose proof (presolve_agree c1 c2 H0) as A. destruct (presolve c1) as [x|] eqn:E, (presolve c2); cbn in *; auto. split; [exact A|].
    eapply presolve_honest; eauto. }
  destruct (over (fun _ _ => presolve) a1) as [b1|] eqn:O2, (over (fun _ _ => presolve) a2) as [b2|]; cbn in S2 |- *; try contradiction; [|exact S2].
  pose proof (over_keys _ _ _ O2) as K2.
  assert (S3 : agree (paired midh) (over (fun _ => first_pass u1 a None) b1) (over (fun _ => first_pass u2 a None) b2)).
  { apply over_agree with (W := top) (R := midh); unfold top; auto; [|rewrite K2, K1; auto]. intros; apply first_pass_agree; auto. }
  destruct (over (fun _ => first_pass u1 a None) b1) as [d1|] eqn:O3, (over (fun _ => first_pass u2 a None) b2) as [d2|]; cbn in S3 |- *; try contradiction; [|exact S3].
  pose proof (over_keys _ _ _ O3) as K3.
  assert (S4 : agree (paired mid) (over (fun net _ => second_pass net) d1) (over (fun net _ => second_pass net) d2)).
  { apply over_agree with (W := mid) (R := mid); auto; [|rewrite K3, K2, K1; auto|].
    - intros; apply second_pass_agree; auto.
    - destruct S3 as [A B]. split; [exact A|]. intros. eapply B; eauto. }
  destruct (over (fun net _ => second_pass net) d1) as [e1|] eqn:O4, (over (fun net _ => second_pass net) d2) as [e2|]; cbn in S4 |- *; try contradiction; [|exact S4].
  split; [exact S4|]. rewrite (over_keys _ _ _ O4). congruence.
Qed.

(* ---- results ---- *)

Lemma solved_mid sol l c1 c2 : mid c1 c2 -> mid (solved sol l c1) (solved sol l c2).
Proof.
  intros M. unfold solved. apply fold_agree; [|exact M]. intros k x y _ X. rewrite <- (mid_var _ _ _ X).
  destruct (k_var (n_c x k)); [|exact X]. apply mid_with_SI; [exact X|apply same_refl].
Qed.

Lemma catch_agree r1 r2 : agree Qeq r1 r2 -> agree same (catch r1) (catch r2).
Proof. destruct r1 as [x|e], r2 as [y|e']; cbn; auto; try contradiction. intros <-. destruct e; cbn; auto. Qed.

Lemma pure_results_agree c1 c2 : mid c1 c2 -> agree mid (pure_results c1) (pure_results c2).
Proof.
  intros M. unfold pure_results. eapply agree_bind with (R := mid).
  - rewrite <- (mid_isset _ _ _ M). destruct (isset c1 "x"); [exact M|]. fl M.
    eapply agree_map; [apply catch_agree, call2_agree; [exact RQ|apply mid_SI, M|apply mid_SI, M]|]. intros; apply mid_with_SI; auto.
  - fl M. clear M. intros d1 d2 M. eapply agree_bind with (R := mid).
    + pose proof (call2_agree eq (f_phase (n_fluid c1)) _ _ _ _ Rph (mid_SI _ _ "p" M) (mid_SI _ _ "h" M)) as A.
      destruct (call2 _ (SI d1 "p") _) as [x|e], (call2 _ (SI d2 "p") _) as [y|e']; cbn in A; try contradiction; subst.
      * apply mid_with_phase, M.
      * destruct e'; cbn; auto. apply mid_with_phase, M.
    + clear M d1 d2. intros d1 d2 M. rewrite <- (mid_isset _ _ _ M). destruct (isset d1 "Td_bp"); [exact M|].
      assert (A : agree Qeq (rbind (call2 (f_Tph (n_fluid c1)) (SI d1 "p") (SI d1 "h")) (fun T => rmap (fun Ts => (T - Ts)%Q) (call1 (f_Tsat (n_fluid c1)) (SI d1 "p"))))
        (rbind (call2 (f_Tph (n_fluid c1)) (SI d2 "p") (SI d2 "h")) (fun T => rmap (fun Ts => (T - Ts)%Q) (call1 (f_Tsat (n_fluid c1)) (SI d2 "p"))))).
      { eapply agree_bind; [apply call2_agree; [exact RT|apply mid_SI, M|apply mid_SI, M]|]. intros x y E.
        eapply agree_map; [apply call1_agree; [exact RTs|apply mid_SI, M]|]. intros x' y' E'. cbv beta. apply Qplus_comp; [exact E|]. apply Qopp_comp. exact E'. }
      destruct (rbind (call2 _ (SI d1 "p") _) _) as [x|e], (rbind (call2 _ (SI d2 "p") _) _) as [y|e']; cbn in A; try contradiction; subst.
      * apply mid_with_SI; auto.
      * destruct e'; cbn; auto. apply mid_with_SI; [exact M|exact Logic.I].
Qed.

Lemma mixture_agree c1 c2 T T' : mid c1 c2 -> T == T' -> agree eq (mixture_ok c1 T) (mixture_ok c2 T').
Proof.
  intros M E. unfold mixture_ok. fl M. eapply agree_bind; [apply call2_agree; [exact RhT|apply mid_SI, M|exact E]|].
  intros x y X. pose proof (mid_SI _ _ "h" M) as H. destruct (SI c1 "h") as [h|], (SI c2 "h") as [h'|]; cbn in H; try contradiction; [|reflexivity].
  assert (E1 : Qle_bool (Qabs (x - h)) (1 # 1000) = Qle_bool (Qabs (y - h')) (1 # 1000)) by (rewrite X, H; reflexivity).
  assert (E2 : Qeq_bool h 0 = Qeq_bool h' 0) by (rewrite H; reflexivity).
  assert (E3 : Qle_bool (Qabs ((x - h) / h)) (1 # 1000) = Qle_bool (Qabs ((y - h') / h')) (1 # 1000)) by (rewrite X, H; reflexivity).
  rewrite E1, E2, E3. match goal with |- agree eq ?r _ => destruct r; reflexivity end.
Qed.

(** Values written for some properties; the others as before. *)
Definition reported (ks : list string) (c1 c2 : conn) : Prop :=
  mid c1 c2 /\ forall k, In k ks -> means_same k (entry_unit u1 k) (entry_unit u2 k) (k_val (n_c c1 k)) (k_val (n_c c2 k)).

Lemma report_agree ks k c1 c2 : In k fpd_keys -> reported ks c1 c2 ->
  agree (reported (k :: ks)) (rmap (fun v => upd k (with_val v) c1) (from_SI k (SI c1 k) (k_unit (n_c c1 k))))
                             (rmap (fun v => upd k (with_val v) c2) (from_SI k (SI c2 k) (k_unit (n_c c2 k)))).
Proof.
  intros I [M R]. destruct (cm_unit _ _ _ (m_c _ _ M k) I) as [-> ->].
  assert (A : agree (fun v w => means_same k (entry_unit u1 k) (entry_unit u2 k) v w /\ (k = "Td_bp" -> (forall q, means_same "Td_bp" (u1 "T") (u2 "T") (Some q) (Some q)) -> same v w))
     (from_SI k (SI c1 k) (entry_unit u1 k)) (from_SI k (SI c2 k) (entry_unit u2 k))).
  { pose proof (from_SI_agree k _ _ _ _ (ok1 k I) (ok2 k I) (mid_SI _ _ k M)) as B. pose proof (mid_SI _ _ k M) as S.
    unfold from_SI in *. destruct (SI c1 k) as [s|], (SI c2 k) as [t|]; try contradiction.
    - destruct (convert_from_SI k s _) as [q|] eqn:Eq, (convert_from_SI k t _) as [r|] eqn:Er; cbn in B |- *; try contradiction; auto.
      split; [exact B|]. intros -> H. exact (same_scale "Td_bp" (u1 "T") (u2 "T") H s t q r S Eq Er).
    - destruct (convert_from_SI k 0 (entry_unit u1 k)), (convert_from_SI k 0 (entry_unit u2 k)); cbn in B |- *; try contradiction; auto. }
  eapply agree_map; [exact A|]. intros v w [B C]. split.
  - destruct M. constructor; fields; auto.
    + intros j. destruct (String.eqb j k); [|auto]. destruct (m_c0 j). constructor; auto.
    + unfold degrees_alike, wants in *. fields. destruct (String.eqb "Td_bp" k) eqn:E; [|exact m_deg0].
      apply String.eqb_eq in E. cbn. intros W. specialize (m_deg0 W). split; [apply m_deg0|]. apply C; [auto|apply m_deg0].
    + unfold flow_alike, wants in *. fields. destruct (String.eqb "m" k); exact m_flow0.
  - intros j J. fields. destruct (String.eqb j k) eqn:E; [apply String.eqb_eq in E; subst; exact B|].
    destruct J as [J|J]; [subst; rewrite String.eqb_refl in E; discriminate|auto].
Qed.

Definition post (c1 c2 : conn) : Prop := pre c1 c2 /\ reports_same u1 u2 c1 c2.

Lemma val0_mid ks c1 c2 : (forall k, In k ks -> In k ["m"; "p"; "h"]) -> n_good c1 = true -> reported fpd_keys c1 c2 ->
  reported fpd_keys (fold_left (fun c k => upd k (fun x => with_val0 (k_val x) x) c) ks c1) (fold_left (fun c k => upd k (fun x => with_val0 (k_val x) x) c) ks c2).
Proof.
  revert c1 c2. induction ks as [|k ks IH]; intros c1 c2 H G [M R]; [split; auto|]. cbn. apply IH; [intros; apply H; right; auto|exact G|].
  assert (I : In k ["m"; "p"; "h"]) by (apply H; left; reflexivity). destruct (mph_fpd k I) as (If & E1 & E2).
  split.
  - destruct M. constructor; fields; auto.
    + intros j. destruct (String.eqb j k) eqn:E; [|auto]. apply String.eqb_eq in E. subst j. destruct (m_c0 k). constructor; auto. intros _. cbn.
      rewrite <- E1, <- E2. apply R; auto.
    + unfold degrees_alike, wants in *. fields. destruct (String.eqb "Td_bp" k); exact m_deg0.
    + unfold flow_alike. fields. auto.
  - intros j J. fields. destruct (String.eqb j k); apply R; auto.
Qed.

Lemma results_agree c1 c2 : mid c1 c2 -> agree post (results c1) (results c2).
Proof.
  intros M0. unfold results. pose proof (mid_with_good _ _ M0) as M.
  assert (G : n_good (with_good c1) = true) by reflexivity.
  generalize dependent (with_good c1). generalize dependent (with_good c2). clear M0 c1 c2. intros c2 c1 M G. cbv zeta.
  fl M. eapply agree_bind; [apply call2_agree; [exact RT|apply mid_SI, M|apply mid_SI, M]|]. intros T T' E.
  pose (mg := fun c d : conn => mid c d /\ n_good c = true).
  assert (MG : mid (upd "T" (with_SI (Some T)) c1) (upd "T" (with_SI (Some T')) c2)) by (apply mid_with_SI; auto).
  eapply agree_bind with (R := fun x y => mg (fst x) (fst y) /\ snd x = snd y).
  - destruct (f_mixture (n_fluid c1)).
    + eapply agree_map; [apply mixture_agree; [exact MG|exact E]|]. intros x y X. cbn. split; [split; [exact MG|exact G]|exact X].
    + assert (A : agree mg (pure_results (upd "T" (with_SI (Some T)) c1)) (pure_results (upd "T" (with_SI (Some T')) c2))).
      { pose proof (pure_results_agree _ _ MG) as A.
        assert (F : forall c d, pure_results c = Ok d -> n_good d = n_good c).
        { clear. intros c d H. unfold pure_results in H.
          repeat match type of H with
          | rbind (if ?b then _ else _) _ = _ => destruct b
          | (if ?b then _ else _) = _ => destruct b
          | rbind (rmap _ ?r) _ = _ => destruct r; cbn [rmap rbind] in H
          | rbind (match ?r with Ok _ => _ | Err _ => _ end) _ = _ => destruct r as [|[]]; cbn [rbind] in H
          | match ?r with Ok _ => _ | Err _ => _ end = _ => destruct r as [|[]]
          | Err _ = Ok _ => discriminate
          | Ok _ = Ok _ => inversion H; subst; clear H
          | _ => progress cbn [rbind] in H
          end; reflexivity. }
        destruct (pure_results (upd "T" (with_SI (Some T)) c1)) as [x|] eqn:P, (pure_results (upd "T" (with_SI (Some T')) c2)); cbn in A |- *; auto.
        split; [exact A|]. rewrite (F _ _ P). exact G. }
      eapply agree_map; [exact A|]. intros; cbn; auto.
  - intros [d1 b1] [d2 b2] [[D1 D2] B]. cbn in B, D1, D2. subst b2.
    eapply agree_bind with (R := mg).
    + destruct b1.
      * eapply agree_bind; [apply call2_agree; [exact Rv|apply mid_SI, D1|apply mid_SI, D1]|]. intros v v' V.
        eapply agree_map; [apply call2_agree; [exact Rs|apply mid_SI, D1|apply mid_SI, D1]|]. intros s s' S.
        split; [|exact D2]. apply mid_with_SI; [|exact S]. apply mid_with_SI; [|apply mult_same; [exact V|apply mid_SI, D1]]. apply mid_with_SI; [exact D1|exact V].
      * cbn. split; [|exact D2]. repeat apply mid_with_SI; try exact Logic.I. exact D1.
    + clear D1 D2 d1 d2. intros d1 d2 [D1 D2].
      assert (A : agree (fun c d => reported fpd_keys c d /\ n_good c = true)
        (each (fun k c => rmap (fun v => upd k (with_val v) c) (from_SI k (SI c k) (k_unit (n_c c k)))) fpd_keys d1)
        (each (fun k c => rmap (fun v => upd k (with_val v) c) (from_SI k (SI c k) (k_unit (n_c c k)))) fpd_keys d2)).
      { eapply agree_weak; [apply (each_grow (fun ks c d => reported ks c d /\ n_good c = true)) with (don := [])|].
        - intros k d x y K [X Y]. pose proof (report_agree d k x y K X) as Z.
          destruct (rmap _ (from_SI k (SI x k) _)) as [x'|] eqn:Ex, (rmap _ (from_SI k (SI y k) _)); cbn in Z |- *; auto. split; [exact Z|].
          destruct (from_SI k (SI x k) _); [|discriminate]. cbn in Ex. inversion Ex; subst. exact Y.
        - split; [split; [exact D1|intros ? []]|exact D2].
        - intros x y [[X Y] Z]. split; [split; [exact X|]|exact Z]. intros k K. apply Y. rewrite app_nil_r. now apply -> in_rev. }
      eapply agree_map; [exact A|]. intros x y [X Y].
      pose proof (val0_mid ["m"; "p"; "h"] x y (fun k K => K) Y X) as [Z W].
      set (x' := fold_left _ _ x) in *. set (y' := fold_left _ _ y) in *. clearbody x' y'. clear - Z W.
      split; [|exact W]. destruct Z. split; [|split; auto]. constructor; auto.
      * intros k. apply (m_c0 k).
      * intros k. apply (m_c0 k).
      * intros k. apply (m_c0 k).
      * intros k K. apply (m_c0 k). exact K.
      * intros k. apply (m_r0 k).
      * intros k. apply (m_r0 k).
      * intros k. apply (m_r0 k).
      * intros k. apply (m_r0 k).
Qed.

Lemma keys_solved (sol : string -> string -> Q) n : keys (map (fun e => (fst e, solved sol (fst e) (snd e))) n) = keys n.
Proof. unfold keys. rewrite map_map. apply map_ext. auto. Qed.

Lemma dget_solved sol n l : dget l (map (fun e => (fst e, solved sol (fst e) (snd e))) n) = option_map (solved sol l) (dget l n).
Proof.
  induction n as [|[k c] n IH]; [reflexivity|]. cbn. destruct (String.eqb l k) eqn:E; [|exact IH]. apply String.eqb_eq in E. now subst.
Qed.

Lemma solve_agree a sol n1 n2 : NoDup (keys n1) -> paired pre n1 n2 ->
  agree (fun m1 m2 => paired post m1 m2 /\ keys m1 = keys n1) (solve u1 a None sol n1) (solve u2 a None sol n2).
Proof.
  intros ND P. unfold solve. eapply agree_bind; [apply initialise_agree; eauto|]. intros x y [[K X] N].
  set (x' := map _ x). set (y' := map _ y).
  assert (XY : paired mid x' y').
  { split; [unfold x', y'; rewrite !keys_solved; exact K|]. intros l c1 c2. unfold x', y'. rewrite !dget_solved.
    destruct (dget l x) as [d1|] eqn:D1, (dget l y) as [d2|] eqn:D2; cbn; try discriminate. intros A B; inversion A; inversion B; subst.
    apply solved_mid. eapply X; eauto. }
  assert (Kx : keys x' = keys n1) by (unfold x'; rewrite keys_solved; exact N).
  assert (A : agree (paired post) (over (fun _ _ => results) x') (over (fun _ _ => results) y')).
  { apply over_agree with (W := fun _ _ => True) (R := mid); auto; [|rewrite Kx; auto]. intros; apply results_agree; auto. }
  destruct (over (fun _ _ => results) x') as [z|] eqn:O; [|exact A].
  destruct (over (fun _ _ => results) y') as [z'|]; [|exact A]. split; [exact A|]. rewrite (over_keys _ _ _ O). exact Kx.
Qed.
End two_units.

(* ---- theorems ---- *)

Lemma paired_pre u1 u2 n1 n2 : twins u1 u2 n1 n2 -> plainly u1 u2 n1 n2 -> paired (pre u1 u2) n1 n2.
Proof. intros [A B] [_ C]. split; [exact A|]. intros l c1 c2 D1 D2. split; [eapply B; eauto|eapply C; eauto]. Qed.

Lemma units_solve u1 u2 a sol n1 n2 : units_ok u1 -> units_ok u2 -> NoDup (keys n1) -> twins u1 u2 n1 n2 -> plainly u1 u2 n1 n2 ->
  agree (fun m1 m2 => twins u1 u2 m1 m2 /\ plainly u1 u2 m1 m2 /\ paired (reports_same u1 u2) m1 m2) (solve u1 a None sol n1) (solve u2 a None sol n2).
Proof.
  intros O1 O2 ND T P. eapply agree_weak; [apply solve_agree; auto using paired_pre|].
  intros x y [[A B] _]. repeat split; auto; intros; eapply B; eauto.
Qed.

Lemma units_solves u1 u2 runs : units_ok u1 -> units_ok u2 -> forall n1 n2, NoDup (keys n1) -> twins u1 u2 n1 n2 -> plainly u1 u2 n1 n2 ->
  agree (fun m1 m2 => twins u1 u2 m1 m2 /\ plainly u1 u2 m1 m2) (solves u1 runs n1) (solves u2 runs n2).
Proof.
  intros O1 O2. induction runs as [|[a sol] runs IH]; intros n1 n2 ND T P; [cbn; auto|]. cbn [solves].
  eapply agree_bind; [apply solve_agree; auto; apply paired_pre; auto|].
  intros x y [[A B] K]. apply IH.
  - now rewrite K.
  - split; [exact A|]. intros. eapply B; eauto.
  - split; [exact A|]. intros l c1 c2 D1 D2. destruct (B l c1 c2 D1 D2) as [[_ [D F]] _]. auto.
Qed.

Lemma units_initialise u1 u2 a n1 n2 : units_ok u1 -> units_ok u2 -> NoDup (keys n1) -> twins u1 u2 n1 n2 -> plainly u1 u2 n1 n2 ->
  agree (paired (fun c1 c2 => n_eqs c1 = n_eqs c2 /\ forall k, k_var (n_c c1 k) = k_var (n_c c2 k) /\ same (k_SI (n_c c1 k)) (k_SI (n_c c2 k))))
    (initialise u1 a None n1) (initialise u2 a None n2).
Proof.
  intros O1 O2 ND T P. eapply agree_weak; [apply initialise_agree; auto using paired_pre|].
  intros x y [[A B] _]. split; [exact A|]. intros l c1 c2 D1 D2. pose proof (B l c1 c2 D1 D2) as M. split; [apply (m_eqs _ _ _ _ M)|].
  intros k. split; [eapply mid_var; eauto|eapply mid_SI; eauto].
Qed.
