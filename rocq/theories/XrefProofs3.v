(** Figures show their characteristics. *)
From Coq Require Import Ascii Lia DecimalString DecimalNat.
From Verif Require Import Base XrefModel XrefSpec XrefProofs.
Open Scope string_scope.
Open Scope list_scope.

Lemma content_some : forall f l c, In (Plot f c) l -> exists d, content f l = Some d.
Proof.
  intros f l c. induction l as [|i l IH]; intros H; [destruct H|]. destruct H as [H|H].
  - subst i. cbn. destruct (content f l); [eauto|]. rewrite String.eqb_refl. eauto.
  - destruct (IH H) as [d E]. destruct i; cbn; rewrite E; eauto.
Qed.
Lemma content_in : forall f l d, content f l = Some d -> In (Plot f d) l.
Proof.
  intros f l d. induction l as [|i l IH]; intros H; [discriminate H|].
  destruct i; cbn in H; try (right; apply IH; exact H).
  destruct (content f l) as [e|] eqn:E.
  - injection H as ->. right. apply IH. reflexivity.
  - destruct (String.eqb file f) eqn:F; [|discriminate H]. apply String.eqb_eq in F. injection H as ->. subst. left. reflexivity.
Qed.
(** Enough: every figure has its drawing, and a file is only drawn with one characteristic. *)
Lemma right_from : forall l, (forall lb f c, In (Fig lb f c) l -> In (Plot f c) l) ->
  (forall f c d, In (Plot f c) l -> In (Plot f d) l -> c = d) -> figures_right l.
Proof.
  intros l A B lb f c H. apply A in H. destruct (content_some f l c H) as [d E]. rewrite E.
  rewrite (B f d c (content_in _ _ _ E) H). reflexivity.
Qed.

(* --------------------------------------------- drawings of a report *)

(** A drawing of a class. *)
Definition of_class (m : cl) (f : string) (c : nat) : Prop :=
  exists k p l, drawable m p /\ In l (c_comps m) /\ f = char_file (c_name m) k p l /\ c = c_char m l p.
Definition of_bus (mode : string) (b : bus) (f : string) (c : nat) : Prop :=
  exists r, In r (b_rows b) /\ w_const r = false /\ f = bus_file mode (w_comp r) /\ c = w_char r.

Lemma charts_drawable : forall m p g k, In (p, g, k) (charts m) -> drawable m p.
Proof.
  intros m p g k I. unfold charts in I. apply in_app_iff in I. destruct I as [I|I].
  - apply in_map_iff in I. destruct I as ([[c d] k'] & E & J). cbn in E. injection E as <- <- <-. right. left. eauto.
  - apply in_flat_map in I. destruct I as ([[g' d] es] & J & I). apply in_flat_map in I. destruct I as ([e [k'|]] & I' & I); [|destruct I].
    cbn in I. destruct I as [I|[]]. injection I as <- <- <-. right. right. exists g', d, es, k'. auto.
Qed.

Lemma class_plots : forall m f c, In (Plot f c) (constr_items m ++ spec_items m) -> of_class m f c.
Proof.
  intros m f c H. apply in_app_iff in H. destruct H as [H|H].
  - unfold constr_items in H. apply in_app_iff in H. destruct H as [H|H]; apply in_flat_map in H; destruct H as (k & Ik & H).
    + destruct k as [l|l|l fs]; try destruct H. apply in_app_iff in H. destruct H as [H|H].
      * apply in_map_iff in H. destruct H as (x & E & I). unfold drawn in E. injection E as <- <-. exists KLine, l, x.
        split; [left; exact Ik|]. auto.
      * apply in_flat_map in H. destruct H as (y & _ & H). cbn in H. destruct H as [H|[H|[]]]; discriminate H.
    + apply in_map_iff in H. destruct H as (? & E & _). discriminate E.
  - unfold spec_items in H. apply in_app_iff in H. destruct H as [H|H].
    + apply in_flat_map in H. destruct H as ([[p g] k] & Ic & H). apply in_map_iff in H. destruct H as (x & E & I).
      unfold drawn in E. injection E as <- <-. exists k, p, x. split; [eapply charts_drawable; exact Ic|]. auto.
    + exfalso. destruct (c_comps m) as [|l0 ls] eqn:Ec; [destruct H|]. rewrite <- Ec in H.
      rewrite !in_app_iff in H. destruct H as [H|[H|H]].
      * apply in_map_iff in H. destruct H as (? & E & _). discriminate E.
      * apply in_map_iff in H. destruct H as (? & E & _). discriminate E.
      * destruct (documented m); [destruct H|]. apply in_flat_map in H. destruct H as ([[p g] k] & _ & H).
        apply in_flat_map in H. destruct H as (y & _ & H). cbn in H. destruct H as [H|[H|[]]]; discriminate H.
Qed.
Lemma class_figs : forall m lb f c, In (Fig lb f c) (constr_items m ++ spec_items m) -> In (Plot f c) (constr_items m ++ spec_items m).
Proof.
  intros m lb f c H. apply in_app_iff in H. apply in_app_iff. destruct H as [H|H]; [left|right].
  - unfold constr_items in *. apply in_app_iff in H. apply in_app_iff. destruct H as [H|H]; apply in_flat_map in H; destruct H as (k & Ik & H).
    + left. apply in_flat_map. exists k. split; [exact Ik|]. destruct k as [l|l|l fs]; try destruct H.
      apply in_app_iff in H. apply in_app_iff. destruct H as [H|H].
      * apply in_map_iff in H. destruct H as (? & E & _). discriminate E.
      * left. apply in_flat_map in H. destruct H as (y & Iy & H). cbn in H. destruct H as [H|[H|[]]]; [|discriminate H].
        injection H as <- <- <-. apply in_map_iff. exists y. auto.
    + apply in_map_iff in H. destruct H as (? & E & _). discriminate E.
  - unfold spec_items in *. apply in_app_iff in H. apply in_app_iff. left. destruct H as [H|H].
    + apply in_flat_map in H. destruct H as ([[p g] k] & Ic & H). apply in_map_iff in H. destruct H as (x & E & I). discriminate E.
    + destruct (c_comps m) as [|l0 ls] eqn:Ec; [destruct H|]. rewrite <- Ec in *.
      rewrite !in_app_iff in H. destruct H as [H|[H|H]].
      * apply in_map_iff in H. destruct H as (? & E & _). discriminate E.
      * apply in_map_iff in H. destruct H as (? & E & _). discriminate E.
      * destruct (documented m); [destruct H|]. apply in_flat_map in H. destruct H as ([[p g] k] & Ic & H).
        apply in_flat_map in H. destruct H as (y & Iy & H). cbn in H. destruct H as [H|[H|[]]]; [|discriminate H].
        injection H as <- <- <-. apply in_flat_map. exists (p, g, k). split; [exact Ic|]. apply in_map_iff. exists y. auto.
Qed.

Lemma bus_loop_plots : forall mode rows p i q, bus_loop mode rows p = (i, q) ->
  (forall f c, In (Plot f c) i -> exists r, In r rows /\ w_const r = false /\ f = bus_file mode (w_comp r) /\ c = w_char r) /\
  (forall lb f c, In (Fig lb f c) i -> In (Plot f c) i).
Proof.
  intros mode rows. induction rows as [|r rows IH]; intros p i q H; cbn [bus_loop] in H.
  - injection H as <- <-. split; [intros f c []|intros lb f c []].
  - assert (G : forall f c, (exists r', In r' rows /\ w_const r' = false /\ f = bus_file mode (w_comp r') /\ c = w_char r') ->
                 exists r', In r' (r :: rows) /\ w_const r' = false /\ f = bus_file mode (w_comp r') /\ c = w_char r').
    { intros f c (r' & I & X). exists r'. split; [right; exact I|exact X]. }
    destruct (w_const r) eqn:W.
    { destruct (IH p i q H) as [A B]. split; [|exact B]. intros f c I. apply G, A, I. }
    destruct (find_chart (w_char r) (w_base r) p).
    + destruct (bus_loop mode rows p) as [i' q'] eqn:L. injection H as <- <-. destruct (IH p i' q' L) as [A B]. split.
      * intros f c [I|I]; [discriminate I|]. apply G, A, I.
      * intros lb f c [I|I]; [discriminate I|]. right. exact (B lb f c I).
    + destruct (bus_loop mode rows (p ++ _)) as [i' q'] eqn:L. injection H as <- <-. destruct (IH _ i' q' L) as [A B]. split.
      * intros f c [I|[I|[I|I]]]; try discriminate I.
        -- injection I as <- <-. exists r. split; [left; reflexivity|auto].
        -- apply G, A, I.
      * intros lb f c [I|[I|[I|I]]]; try discriminate I.
        -- injection I as <- <- <-. left. reflexivity.
        -- right. right. right. exact (B lb f c I).
Qed.
Lemma busses_plots : forall mode bs p,
  (forall f c, In (Plot f c) (bus_items mode bs p) -> exists b, In b bs /\ of_bus mode b f c) /\
  (forall lb f c, In (Fig lb f c) (bus_items mode bs p) -> In (Plot f c) (bus_items mode bs p)).
Proof.
  intros mode bs. induction bs as [|b bs IH]; intros p; cbn [bus_items].
  - split; [intros f c []|intros lb f c []].
  - fold (total_items b). destruct (bus_loop mode (b_rows b) p) as [i q] eqn:L.
    destruct (bus_loop_plots mode (b_rows b) p i q L) as [A B]. destruct (IH q) as [C D]. split.
    + intros f c H. rewrite !in_app_iff in H. destruct H as [H|[H|H]].
      * apply total_items_eq in H. discriminate H.
      * exists b. split; [left; reflexivity|exact (A f c H)].
      * destruct (C f c H) as (b' & I & X). exists b'. split; [right; exact I|exact X].
    + intros lb f c H. rewrite !in_app_iff in *. destruct H as [H|[H|H]].
      * apply total_items_eq in H. discriminate H.
      * right. left. exact (B lb f c H).
      * right. right. exact (D lb f c H).
Qed.

Lemma char_file_inj : forall cp cp' k k' p p' l l', plain cp -> plain cp' ->
  char_file cp k p l = char_file cp' k' p' l' ->
  cp = cp' /\ k = k' /\ (p ++ "_" ++ under l)%string = (p' ++ "_" ++ under l')%string.
Proof.
  intros cp cp' k k' p p' l l' P P' H. unfold char_file in H. apply app_inj_l in H.
  apply plain_split in H; [|exact P|exact P']. destruct H as [E H]. split; [exact E|].
  apply plain_split in H; [|destruct k; apply no_us_plain; reflexivity|destruct k'; apply no_us_plain; reflexivity].
  destruct H as [Ek H]. split; [destruct k, k'; (reflexivity || discriminate Ek)|].
  apply (app_inj_r ".pdf"). rewrite !app_assoc_s. exact H.
Qed.
Lemma bus_file_inj : forall mode l l', bus_file mode l = bus_file mode l' -> under l = under l'.
Proof. intros mode l l' H. unfold bus_file in H. apply app_inj_l in H. apply app_inj_r in H. exact H. Qed.
Lemma bus_class_file : forall mode l cp k p l', plain cp -> bus_file mode l = char_file cp k p l' -> cp = "Bus".
Proof.
  intros mode l cp k p l' P H. unfold bus_file, char_file in H.
  change ("figures/Bus_CharLine_" ++ under l ++ mode ++ ".pdf")%string
    with ("figures/" ++ "Bus" ++ "_" ++ ("CharLine_" ++ under l ++ mode ++ ".pdf"))%string in H.
  apply app_inj_l in H. apply plain_split in H; [symmetry; apply H|apply no_us_plain; reflexivity|exact P].
Qed.

(** A name without underscore begins after the last underscore. *)
Lemma plain_last : forall a c b d, plain b -> plain d -> (a ++ "_" ++ b = c ++ "_" ++ d)%string -> a = c /\ b = d.
Proof.
  induction a as [|x a IH]; intros c b d Pb Pd H.
  - destruct c as [|y c]; cbn in H.
    + injection H as H. auto.
    + injection H as E H. destruct (Pb c d H).
  - destruct c as [|y c]; cbn in H.
    + injection H as E H. symmetry in H. destruct (Pd a b H).
    + injection H as E H. destruct (IH c b d Pb Pd H). subst. auto.
Qed.
Lemma str_plain : forall i, plain (str i).
Proof.
  intros i. apply no_us_plain. unfold str. generalize (Nat.to_uint i). induction u; cbn; auto.
Qed.
Lemma str_inj : forall i j, str i = str j -> i = j.
Proof.
  intros i j H. unfold str in H. apply (f_equal DecimalString.NilEmpty.uint_of_string) in H.
  rewrite !DecimalString.NilEmpty.usu in H. injection H as H. apply DecimalNat.Unsigned.to_uint_inj. exact H.
Qed.

Definition ude_file (k : string) (u : ude) (i : nat) : string :=
  ("figures/UDE_" ++ k ++ "_" ++ under (u_label u) ++ "_" ++ str i ++ ".pdf")%string.
(** A drawing of a user defined equation. *)
Definition of_ude (u : ude) (f : string) (c : nat) : Prop :=
  exists k i, f = ude_file (kind_name k) u (S i) /\ nth_error (match k with KLine => u_lines u | KMap => u_maps u end) i = Some c.

Lemma ude_figures_plots : forall k u cs i f c, In (Plot f c) (ude_figures k u i cs) -> exists j, f = ude_file k u (i + j) /\ nth_error cs j = Some c.
Proof.
  intros k u cs. induction cs as [|d cs IH]; intros i f c H; cbn [ude_figures] in H; [destruct H|].
  cbn [In app] in H. destruct H as [H|[H|[H|H]]]; try discriminate H.
  - injection H as <- <-. exists 0. rewrite Nat.add_0_r. split; reflexivity.
  - destruct (IH (S i) f c H) as (j & E & N). exists (S j). rewrite <- plus_n_Sm. split; [exact E|exact N].
Qed.
Lemma ude_figures_figs : forall k u cs i lb f c, In (Fig lb f c) (ude_figures k u i cs) -> In (Plot f c) (ude_figures k u i cs).
Proof.
  intros k u cs. induction cs as [|d cs IH]; intros i lb f c H; cbn [ude_figures] in *; [destruct H|].
  cbn [In app] in *. destruct H as [H|[H|[H|H]]]; try discriminate H.
  - injection H as <- <- <-. left. reflexivity.
  - do 3 right. exact (IH (S i) lb f c H).
Qed.
Lemma ude_plots : forall u f c, In (Plot f c) (ude_items u) -> of_ude u f c.
Proof.
  intros u f c H. unfold ude_items in H. cbn [In app] in H. destruct H as [H|[H|H]]; try discriminate H.
  apply in_app_iff in H. destruct H as [H|H]; apply ude_figures_plots in H; destruct H as (j & E & N).
  - exists KLine, j. auto.
  - exists KMap, j. auto.
Qed.
Lemma ude_figs : forall u lb f c, In (Fig lb f c) (ude_items u) -> In (Plot f c) (ude_items u).
Proof.
  intros u lb f c H. unfold ude_items in *. cbn [In app] in *. destruct H as [H|[H|H]]; try discriminate H.
  do 2 right. apply in_app_iff in H. apply in_app_iff. destruct H as [H|H]; [left|right]; eapply ude_figures_figs; exact H.
Qed.
Lemma ude_file_inj : forall k k' u u' i j, ude_file (kind_name k) u i = ude_file (kind_name k') u' j -> k = k' /\ under (u_label u) = under (u_label u') /\ i = j.
Proof.
  intros k k' u u' i j H. unfold ude_file in H. apply app_inj_l in H.
  apply plain_split in H; [|destruct k; apply no_us_plain; reflexivity|destruct k'; apply no_us_plain; reflexivity].
  destruct H as [Ek H]. split; [destruct k, k'; (reflexivity || discriminate Ek)|].
  assert (G : ((under (u_label u) ++ "_" ++ str i) ++ ".pdf" = (under (u_label u') ++ "_" ++ str j) ++ ".pdf")%string)
    by (rewrite !app_assoc_s; exact H).
  apply app_inj_r in G. apply plain_last in G; [|apply str_plain|apply str_plain].
  destruct G as [A B]. split; [exact A|apply str_inj; exact B].
Qed.
Lemma ude_class_file : forall k u i cp k' p l, plain cp -> ude_file k u i = char_file cp k' p l -> cp = "UDE".
Proof.
  intros k u i cp k' p l P H. unfold ude_file, char_file in H.
  change ("figures/UDE_" ++ k ++ "_" ++ under (u_label u) ++ "_" ++ str i ++ ".pdf")%string
    with ("figures/" ++ "UDE" ++ "_" ++ (k ++ "_" ++ under (u_label u) ++ "_" ++ str i ++ ".pdf"))%string in H.
  apply app_inj_l in H. apply plain_split in H; [symmetry; apply H|apply no_us_plain; reflexivity|exact P].
Qed.
Lemma ude_bus_file : forall k u i mode l, ude_file k u i <> bus_file mode l.
Proof. intros k u i mode l H. unfold ude_file, bus_file in H. discriminate H. Qed.

Lemma key_of : forall (A B : Type) (g : A -> B) l a b, NoDup (map g l) -> In a l -> In b l -> g a = g b -> a = b.
Proof.
  intros A B g. induction l as [|x l IH]; intros a b N I J E; [destruct I|]. cbn in N. inversion N as [|? ? M N']. subst.
  destruct I as [<-|I], J as [<-|J].
  - reflexivity.
  - destruct M. rewrite E. apply in_map. exact J.
  - destruct M. rewrite <- E. apply in_map. exact I.
  - exact (IH a b N' I J E).
Qed.

Lemma report_plots : forall n f c, In (Plot f c) (report n) ->
  (exists u, In u (n_udes n) /\ of_ude u f c) \/ (exists m, In m (n_classes n) /\ of_class m f c) \/ (exists b, In b (n_busses n) /\ of_bus (n_mode n) b f c).
Proof.
  intros n f c H. unfold report, prop_items, fluid_items in H. rewrite !in_app_iff in H.
  destruct H as [[H|H]|[[H|H]|[H|[H|H]]]]; try (apply in_map_iff in H; destruct H as (? & E & _); discriminate E).
  - left. apply in_flat_map in H. destruct H as (u & Iu & H). exists u. split; [exact Iu|apply ude_plots; exact H].
  - right. left. apply in_flat_map in H. destruct H as (m & Im & H). exists m. split; [exact Im|]. apply class_plots. exact H.
  - right. right. exact (proj1 (busses_plots (n_mode n) (n_busses n) []) f c H).
Qed.
Lemma report_figs : forall n lb f c, In (Fig lb f c) (report n) -> In (Plot f c) (report n).
Proof.
  intros n lb f c H. unfold report, prop_items, fluid_items in *. rewrite !in_app_iff in *.
  destruct H as [[H|H]|[[H|H]|[H|[H|H]]]]; try (apply in_map_iff in H; destruct H as (? & E & _); discriminate E).
  - do 2 right. left. apply in_flat_map in H. destruct H as (u & Iu & H). apply in_flat_map. exists u. split; [exact Iu|].
    exact (ude_figs u lb f c H).
  - do 3 right. left. apply in_flat_map in H. destruct H as (m & Im & H). apply in_flat_map. exists m. split; [exact Im|].
    exact (class_figs m lb f c H).
  - do 4 right. exact (proj2 (busses_plots (n_mode n) (n_busses n) []) lb f c H).
Qed.

Lemma figures_shown : forall n, distinct_files n -> figures_right (report n).
Proof.
  intros n (Nu & Nc & Hc & Hb). apply right_from; [apply report_figs|].
  intros f c d H J. apply report_plots in H. apply report_plots in J.
  destruct H as [(u & Iu & k & i & E & Ec)|[(m & Im & k & p & l & Dp & Il & E & Ec)|(b & Ib & r & Ir & W & E & Ec)]];
  destruct J as [(u' & Iu' & k' & i' & E' & Ec')|[(m' & Im' & k' & p' & l' & Dp' & Il' & E' & Ec')|(b' & Ib' & r' & Ir' & W' & E' & Ec')]]; subst f.
  - apply ude_file_inj in E'. destruct E' as (<- & El & Ei). injection Ei as <-.
    assert (u = u') by (eapply (key_of _ _ (fun u => under (u_label u))); eassumption). subst u'. congruence.
  - destruct (Hc m' Im') as (P & _ & B & _). destruct (B (ude_class_file _ _ _ _ _ _ _ P E')).
  - destruct (ude_bus_file _ _ _ _ _ E').
  - destruct (Hc m Im) as (P & _ & B & _). symmetry in E'. destruct (B (ude_class_file _ _ _ _ _ _ _ P E')).
  - destruct (Hc m Im) as (P & _ & _ & Q & L). destruct (Hc m' Im') as (P' & _).
    destruct (char_file_inj _ _ _ _ _ _ _ _ P P' E') as (En & _ & El).
    assert (m = m') by (eapply key_of; eassumption). subst m'.
    destruct (String.string_dec p p') as [<-|Np].
    + apply app_inj_l in El. cbn in El. injection El as El. assert (l = l') by (apply L; assumption). subst. reflexivity.
    + destruct (Q p p' (under l) (under l') Dp Dp' Np El).
  - destruct (Hc m Im) as (P & B & _). symmetry in E'. destruct (B (bus_class_file _ _ _ _ _ _ P E')).
  - symmetry in E'. destruct (ude_bus_file _ _ _ _ _ E').
  - destruct (Hc m' Im') as (P & B & _). destruct (B (bus_class_file _ _ _ _ _ _ P E')).
  - apply bus_file_inj in E'. subst c d. eapply Hb; [exact Ib|exact Ib'|exact Ir|exact Ir'|exact W|exact W'|exact E'].
Qed.
