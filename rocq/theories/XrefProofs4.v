(** Characteristics of busses are shown once. *)
From Coq Require Import Ascii Lia.
From Verif Require Import Base XrefModel XrefSpec XrefProofs XrefProofs2.
Open Scope string_scope.
Open Scope list_scope.

Lemma bc_app : forall a b, bus_charts (a ++ b) = bus_charts a ++ bus_charts b.
Proof. intros. unfold bus_charts. apply flat_map_app. Qed.
Lemma bc_none : forall l, (forall lb f c, In (Fig lb f c) l -> String.prefix "Bus_CharLine_" lb = false) -> bus_charts l = [].
Proof.
  induction l as [|i l IH]; intros H; [reflexivity|]. cbn. fold (bus_charts l).
  rewrite IH by (intros lb f c I; exact (H lb f c (or_intror I))). destruct i; try reflexivity.
  rewrite (H label file of (or_introl eq_refl)). reflexivity.
Qed.
Lemma bc_flat : forall (A : Type) (g : A -> list item) l, (forall x, In x l -> bus_charts (g x) = []) -> bus_charts (flat_map g l) = [].
Proof.
  induction l as [|x l IH]; intros H; [reflexivity|]. cbn. rewrite bc_app, H by (left; reflexivity). apply IH. intros. apply H. right. assumption.
Qed.

Lemma bc_pairs : forall (A : Type) (g : A -> string) l, bus_charts (map (fun x => RefEq (g x)) l ++ map (fun x => Eq (g x)) l) = [].
Proof.
  intros. apply bc_none. intros lb f c H. apply in_app_iff in H. destruct H as [H|H]; apply in_map_iff in H; destruct H as (? & E & _); discriminate E.
Qed.
Lemma bc_ude_figures : forall k u cs i, bus_charts (ude_figures k u i cs) = [].
Proof. induction cs as [|c cs IH]; intros i; [reflexivity|]. cbn [ude_figures]. rewrite bc_app, IH. reflexivity. Qed.
Lemma bc_ude : forall u, bus_charts (ude_items u) = [].
Proof. intros. unfold ude_items. rewrite !bc_app, !bc_ude_figures. reflexivity. Qed.
Lemma bc_shown : forall m k p g ls, bus_charts (flat_map (shown m k p g) ls) = [].
Proof. intros. apply bc_flat. intros l _. unfold shown, char_label. destruct k; reflexivity. Qed.
Lemma bc_drawn : forall m k p ls, bus_charts (map (drawn m k p) ls) = [].
Proof. intros. apply bc_none. intros lb f c H. apply in_map_iff in H. destruct H as (? & E & _). discriminate E. Qed.
Lemma bc_eqs : forall (A : Type) (g : A -> string) l, bus_charts (map (fun x => Eq (g x)) l) = [].
Proof. intros. apply bc_none. intros lb f c H. apply in_map_iff in H. destruct H as (? & E & _). discriminate E. Qed.
Lemma bc_refs : forall (A : Type) (g : A -> string) l, bus_charts (map (fun x => RefEq (g x)) l) = [].
Proof. intros. apply bc_none. intros lb f c H. apply in_map_iff in H. destruct H as (? & E & _). discriminate E. Qed.
Lemma bc_class : forall m, bus_charts (constr_items m ++ spec_items m) = [].
Proof.
  intros m. rewrite bc_app. unfold constr_items, spec_items. rewrite !bc_app. rewrite !bc_flat.
  - cbn [app]. destruct (c_comps m) as [|l0 ls] eqn:Ec; [reflexivity|]. rewrite <- Ec. rewrite !bc_app, bc_eqs, bc_refs. cbn [app].
    destruct (documented m); [reflexivity|]. apply bc_flat. intros [[p g] k] _. apply bc_shown.
  - intros [[p g] k] _. apply bc_drawn.
  - intros k _. apply bc_eqs.
  - intros k _. destruct k; try reflexivity. rewrite bc_app, bc_drawn, bc_shown. reflexivity.
Qed.

Definition key (e : nat * bool * string) : nat * bool := fst e.
Definition chart (e : nat * bool * string) : nat := fst (fst e).
Lemma find_chart_none : forall c b p, find_chart c b p = None -> ~ In (c, b) (map key p).
Proof.
  intros c b p. induction p as [|[[c' b'] y] p IH]; cbn [find_chart map key]; intros H I; [destruct I|].
  destruct (Nat.eqb c c' && Bool.eqb b b') eqn:E; [discriminate H|]. destruct I as [I|I]; [|exact (IH H I)].
  cbn in I. injection I as -> ->. rewrite Nat.eqb_refl, Bool.eqb_reflx in E. discriminate E.
Qed.

Lemma bus_prefix : forall mode l, String.prefix "Bus_CharLine_" (bus_label mode l) = true.
Proof. intros. unfold bus_label. cbn. destruct (l ++ mode)%string; reflexivity. Qed.

Lemma bus_loop_charts : forall mode rows p i q, bus_loop mode rows p = (i, q) ->
  map chart q = map chart p ++ bus_charts i /\ (NoDup (map key p) -> NoDup (map key q)) /\
  (forall r, In r rows -> w_const r = false -> In (w_char r, w_base r) (map key q)) /\
  (forall k, In k (map key p) -> In k (map key q)) /\
  (forall k, In k (map key q) -> In k (map key p) \/ exists r, In r rows /\ w_const r = false /\ k = (w_char r, w_base r)).
Proof.
  intros mode rows. induction rows as [|r rows IH]; intros p i q H; cbn [bus_loop] in H.
  - injection H as <- <-. cbn. rewrite app_nil_r. split; [reflexivity|split; [auto|split; [intros r []|split; auto]]].
  - destruct (w_const r) eqn:W.
    { destruct (IH p i q H) as (A & B & C & D & E). split; [exact A|split; [exact B|split; [|split; [exact D|]]]].
      - intros r' [<-|I] W'; [congruence|exact (C r' I W')].
      - intros k I. destruct (E k I) as [I'|(r' & I' & X)]; [left; exact I'|right; exists r'; split; [right; exact I'|exact X]]. }
    destruct (find_chart (w_char r) (w_base r) p) as [l|] eqn:F.
    + destruct (bus_loop mode rows p) as [i' q'] eqn:L. injection H as <- <-.
      destruct (IH p i' q' L) as (A & B & C & D & E). split; [exact A|split; [exact B|split; [|split; [exact D|]]]].
      * intros r' [<-|I] W'; [|exact (C r' I W')]. apply D. apply find_chart_in in F.
        apply in_map_iff. exists (w_char r, w_base r, l). auto.
      * intros k I. destruct (E k I) as [I'|(r' & I' & X)]; [left; exact I'|right; exists r'; split; [right; exact I'|exact X]].
    + destruct (bus_loop mode rows (p ++ [(w_char r, w_base r, bus_label mode (w_comp r))])) as [i' q'] eqn:L. injection H as <- <-.
      destruct (IH _ i' q' L) as (A & B & C & D & E). apply find_chart_none in F. split; [|split; [|split; [|split]]].
      * rewrite A, map_app, <- app_assoc. cbn [map app]. unfold bus_charts. cbn [flat_map]. rewrite bus_prefix. reflexivity.
      * intros N. apply B. rewrite map_app. apply nodup_app; [exact N|constructor; [intros []|constructor]|].
        intros x I [<-|[]]. exact (F I).
      * intros r' [<-|I] W'; [|exact (C r' I W')]. apply D. rewrite map_app. apply in_app_iff. right. left. reflexivity.
      * intros k I. apply D. rewrite map_app. apply in_app_iff. left. exact I.
      * intros k I. destruct (E k I) as [I'|(r' & I' & X)]; [|right; exists r'; split; [right; exact I'|exact X]].
        rewrite map_app in I'. apply in_app_iff in I'. destruct I' as [I'|[<-|[]]]; [left; exact I'|].
        right. exists r. split; [left; reflexivity|auto].
Qed.

Lemma busses_charts : forall mode bs p, exists q,
  map chart q = map chart p ++ bus_charts (bus_items mode bs p) /\ (NoDup (map key p) -> NoDup (map key q)) /\
  (forall b r, In b bs -> In r (b_rows b) -> w_const r = false -> In (w_char r, w_base r) (map key q)) /\
  (forall k, In k (map key p) -> In k (map key q)) /\
  (forall k, In k (map key q) -> In k (map key p) \/ exists b r, In b bs /\ In r (b_rows b) /\ w_const r = false /\ k = (w_char r, w_base r)).
Proof.
  intros mode bs. induction bs as [|b bs IH]; intros p; cbn [bus_items].
  - exists p. cbn. rewrite app_nil_r. split; [reflexivity|split; [auto|split; [intros b r []|split; auto]]].
  - destruct (bus_loop mode (b_rows b) p) as [i q] eqn:L. destruct (bus_loop_charts _ _ _ _ _ L) as (A & B & C & D & E).
    destruct (IH q) as (q' & A' & B' & C' & D' & E'). exists q'. split; [|split; [|split; [|split]]].
    + rewrite A', A, !bc_app, <- app_assoc. f_equal. destruct (b_set b); [destruct (b_rows b)|]; reflexivity.
    + auto.
    + intros b' r [<-|I] J W; [apply D', (C r J W)|exact (C' b' r I J W)].
    + auto.
    + intros k I. destruct (E' k I) as [I'|(b' & r & J & X)].
      * destruct (E k I') as [I''|(r & J & X)]; [left; exact I''|right; exists b, r; split; [left; reflexivity|split; [exact J|exact X]]].
      * right. exists b', r. split; [right; exact J|exact X].
Qed.

Lemma shared_once : forall n, one_base n ->
  NoDup (bus_charts (report n)) /\ (forall r, bus_row n r -> w_const r = false -> In (w_char r) (bus_charts (report n))).
Proof.
  intros n O.
  assert (R : bus_charts (report n) = bus_charts (bus_items (n_mode n) (n_busses n) [])).
  { unfold report, prop_items, fluid_items. rewrite !bc_app.
    rewrite <- !bc_app. rewrite (bc_app (map _ (n_props n) ++ _)), bc_pairs. cbn [app].
    rewrite (bc_app (map _ (n_fluids n) ++ _)), bc_pairs. cbn [app].
    rewrite bc_app, bc_flat by (intros; apply bc_ude). cbn [app].
    rewrite bc_app, bc_flat by (intros; apply bc_class). reflexivity. }
  rewrite R. destruct (busses_charts (n_mode n) (n_busses n) []) as (q & A & B & C & _ & E).
  cbn [map app] in A, B, E. rewrite <- A. split.
  - assert (N : NoDup (map fst (map key q))).
    { apply nodup_map_inj; [|apply B; constructor]. intros [c b] [c' b'] I J F. cbn in F. subst c'.
      destruct (E _ I) as [[]|(x & r & Ix & Ir & W & K)]. destruct (E _ J) as [[]|(x' & r' & Ix' & Ir' & W' & K')].
      injection K as -> ->. injection K' as K1 ->. apply f_equal2; [reflexivity|]. apply O; [exists x; auto|exists x'; auto|exact K1]. }
    rewrite map_map in N. exact N.
  - intros r (b & I & J) W. specialize (C b r I J W). apply in_map_iff in C. destruct C as (e & K & Ie).
    apply in_map_iff. exists e. split; [|exact Ie]. unfold chart, key in *. rewrite K. reflexivity.
Qed.
