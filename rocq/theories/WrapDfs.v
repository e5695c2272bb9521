(** Depth first search as the wrapper branches do it, on an abstract graph. *)
From Coq Require Import Relations.
From Verif Require Import TopoModel.
Open Scope nat_scope.
Open Scope list_scope.

Section Dfs.
Variable tgt src : nat -> nat.
Variable nx : nat -> list nat.
Variable grd each : nat -> bool.

Fixpoint dfs (f : nat) (conns comps : list nat) (c : nat) : option (list nat * list nat) :=
  match f with
  | 0 => None
  | S f' =>
      if grd (tgt c) && nmem (tgt c) comps then Some (conns, comps)
      else
        (fix loop os conns comps :=
           match os with
           | [] => Some (conns, comps)
           | o :: os' =>
               match dfs f' (conns ++ [o]) (if each (tgt c) then comps ++ [tgt c] else comps) o with
               | None => None
               | Some r => loop os' (fst r) (snd r)
               end
           end) (nx c) conns (if each (tgt c) then comps else comps ++ [tgt c])
  end.
Fixpoint dloop (f : nat) (k : nat) (os conns comps : list nat) : option (list nat * list nat) :=
  match os with
  | [] => Some (conns, comps)
  | o :: os' =>
      match dfs f (conns ++ [o]) (if each k then comps ++ [k] else comps) o with
      | None => None
      | Some r => dloop f k os' (fst r) (snd r)
      end
  end.
Lemma dfs_eq f conns comps c : dfs (S f) conns comps c =
  if grd (tgt c) && nmem (tgt c) comps then Some (conns, comps)
  else dloop f (tgt c) (nx c) conns (if each (tgt c) then comps else comps ++ [tgt c]).
Proof.
  cbn [dfs]. destruct (grd (tgt c) && nmem (tgt c) comps); [reflexivity|].
  generalize (if each (tgt c) then comps else comps ++ [tgt c]) as ks. generalize conns. induction (nx c) as [|o os IH]; intros cs ks; cbn [dloop]; [reflexivity|].
  destruct (dfs f (cs ++ [o]) (if each (tgt c) then ks ++ [tgt c] else ks) o) as [r|]; [apply IH|reflexivity].
Qed.

Definition next (a b : nat) : Prop := In b (nx a).
Definition reach := clos_refl_trans nat next.

Hypothesis next_src : forall a b, next a b -> src b = tgt a.
Hypothesis grd_same : forall a b, grd (tgt a) = true -> tgt a = tgt b -> nx a = nx b.
Hypothesis pred_unique : forall a b o, grd (tgt a) = false -> next a o -> next b o -> a = b.
Hypothesis nx_NoDup : forall a, NoDup (nx a).

Lemma nmem_In x l : nmem x l = true <-> In x l.
Proof. unfold nmem. rewrite existsb_exists. split; [intros (y & A & B); apply Nat.eqb_eq in B; now subst|intros H; exists x; split; [exact H|apply Nat.eqb_refl]]. Qed.
Lemma In_snoc {A} (x y : A) l : In x (l ++ [y]) <-> In x l \/ x = y.
Proof. rewrite in_app_iff. cbn. intuition. Qed.

(* ---- what is added is reachable ---- *)
Lemma dfs_sound : forall f conns comps c conns' comps', dfs f conns comps c = Some (conns', comps') ->
  incl conns conns' /\ incl comps comps' /\ forall x, In x conns' -> In x conns \/ reach c x.
Proof.
  induction f as [|f IH]; intros conns comps c conns' comps' H; [discriminate|]. rewrite dfs_eq in H.
  destruct (grd (tgt c) && nmem (tgt c) comps). { assert (conns' = conns /\ comps' = comps) as (-> & ->) by (split; congruence). split; [apply incl_refl|]. split; [apply incl_refl|]. auto. }
  assert (G : forall os, incl os (nx c) -> forall cs ks, dloop f (tgt c) os cs ks = Some (conns', comps') ->
    incl cs conns' /\ incl ks comps' /\ forall x, In x conns' -> In x cs \/ reach c x).
  { induction os as [|o os IHo]; intros HO cs ks D; cbn [dloop] in D.
    - assert (conns' = cs /\ comps' = ks) as (-> & ->) by (split; congruence). split; [apply incl_refl|]. split; [apply incl_refl|]. auto.
    - destruct (dfs f (cs ++ [o]) (if each (tgt c) then ks ++ [tgt c] else ks) o) as [(cs1, ks1)|] eqn:E; [|discriminate]. cbn [fst snd] in D.
      destruct (IH _ _ _ _ _ E) as (A1 & A2 & A3). destruct (IHo (fun x X => HO x (or_intror X)) _ _ D) as (B1 & B2 & B3).
      split; [intros x X; apply B1, A1, in_or_app; now left|]. split.
      + intros x X. apply B2, A2. destruct (each (tgt c)); [apply in_or_app; now left|exact X].
      + intros x X. assert (CO : reach c o) by (apply rt_step; unfold next; apply HO; now left).
        destruct (B3 x X) as [Y|Y]; [|now right]. destruct (A3 x Y) as [Z|Z].
        * apply In_snoc in Z. destruct Z as [Z | ->]; [now left|now right].
        * right. eapply rt_trans; eauto. }
  destruct (G (nx c) (incl_refl _) _ _ H) as (A & B & C). split; [exact A|]. split; [|exact C].
  intros x X. apply B. destruct (each (tgt c)); [exact X|apply in_or_app; now left].
Qed.

(* ---- successors are added, apart from those pending ---- *)
Definition inv (conns comps P : list nat) : Prop := forall k c, In k comps -> grd k = true -> tgt c = k -> forall o, next c o -> In o conns \/ In o P.

Lemma inv_snoc conns comps P a : inv conns comps P -> (grd (tgt a) = true -> forall o, next a o -> In o conns \/ In o P) -> inv conns (comps ++ [tgt a]) P.
Proof.
  intros H N k c K G T o O. apply In_snoc in K. destruct K as [K | ->]; [eapply H; eauto|].
  apply (N G). unfold next. rewrite (grd_same a c G) by congruence. exact O.
Qed.
Lemma inv_mono conns conns' comps P P' : inv conns comps P -> (forall o, In o conns \/ In o P -> In o conns' \/ In o P') -> inv conns' comps P'.
Proof. intros H M k c K G T o O. apply M. eapply H; eauto. Qed.

Lemma dfs_complete : forall f conns comps c P conns' comps', dfs f conns comps c = Some (conns', comps') -> inv conns comps P ->
  inv conns' comps' P /\ forall x, x = c \/ (In x conns' /\ ~ In x conns) -> forall o, next x o -> In o conns' \/ In o P.
Proof.
  induction f as [|f IH]; intros conns comps c P conns' comps' H V; [discriminate|]. rewrite dfs_eq in H.
  destruct (grd (tgt c) && nmem (tgt c) comps) eqn:B.
  { assert (conns' = conns /\ comps' = comps) as (-> & ->) by (split; congruence). split; [exact V|].
    apply andb_prop in B. destruct B as (B1 & B2). apply nmem_In in B2. intros x [-> |(X & Y)] o O; [eapply V; eauto|contradiction]. }
  assert (G : forall os, incl os (nx c) -> forall cs ks, (forall o, In o (nx c) -> In o cs \/ In o os) -> dloop f (tgt c) os cs ks = Some (conns', comps') -> inv cs ks (os ++ P) ->
    incl cs conns' /\ incl os conns' /\ inv conns' comps' P /\ forall x, In x conns' /\ ~ In x cs -> forall o, next x o -> In o conns' \/ In o P).
  { induction os as [|o os IHo]; intros HO cs ks HC D VI; cbn [dloop] in D.
    - assert (conns' = cs /\ comps' = ks) as (-> & ->) by (split; congruence). split; [apply incl_refl|]. split; [intros ? []|]. split; [exact VI|]. intros x (X & Y). contradiction.
    - destruct (dfs f (cs ++ [o]) (if each (tgt c) then ks ++ [tgt c] else ks) o) as [(cs1, ks1)|] eqn:E; [|discriminate]. cbn [fst snd] in D.
      assert (V1 : inv (cs ++ [o]) (if each (tgt c) then ks ++ [tgt c] else ks) (os ++ P)).
      { assert (V0 : inv (cs ++ [o]) ks (os ++ P)).
        { eapply inv_mono; [exact VI|]. intros x. rewrite In_snoc, !in_app_iff. cbn. intuition. }
        destruct (each (tgt c)); [|exact V0]. apply inv_snoc; [exact V0|]. intros _ x X. destruct (HC x X) as [Y|Y].
        - left. apply In_snoc. now left.
        - cbn in Y. rewrite In_snoc, in_app_iff. intuition. }
      destruct (IH _ _ _ _ _ _ E V1) as (A1 & A2). destruct (dfs_sound _ _ _ _ _ _ E) as (S1 & _ & _).
      destruct (IHo (fun x X => HO x (or_intror X)) cs1 ks1) as (B1 & B2 & B3 & B4); [|exact D|exact A1|].
      { intros x X. destruct (HC x X) as [Y|[-> |Y]]; [left; apply S1, in_or_app; now left|left; apply S1, In_snoc; now right|now right]. }
      split; [intros x X; apply B1, S1, in_or_app; now left|]. split; [intros x [-> |X]; [apply B1, S1, In_snoc; now right|now apply B2]|]. split; [exact B3|].
      intros x (X & NX) y Y. destruct (in_dec Nat.eq_dec x cs1) as [I1|I1]; [|apply (B4 x (conj X I1) y Y)].
      assert (Q : x = o \/ (In x cs1 /\ ~ In x (cs ++ [o]))).
      { destruct (Nat.eq_dec x o); [now left|right]. split; [exact I1|]. rewrite In_snoc. intuition. }
      destruct (A2 x Q y Y) as [Z|Z]; [left; now apply B1|]. apply in_app_iff in Z. destruct Z as [Z|Z]; [left; now apply B2|now right]. }
  destruct (G (nx c) (incl_refl _) conns (if each (tgt c) then comps else comps ++ [tgt c])) as (A & B0 & C & D); [auto|exact H| |].
  { assert (V0 : inv conns comps (nx c ++ P)) by (eapply inv_mono; [exact V|]; intros x; rewrite in_app_iff; tauto).
    destruct (each (tgt c)); [exact V0|]. apply inv_snoc; [exact V0|]. intros _ o O. right. apply in_or_app. now left. }
  split; [exact C|]. intros x [-> |X] o O; [left; now apply B0|now apply (D x X)].
Qed.

(** Search from a start: exactly what can be reached. *)
Lemma dfs_reach f s ks conns' comps' : dfs f [s] ks s = Some (conns', comps') -> (forall k, In k ks -> grd k = false) ->
  forall x, In x conns' <-> reach s x.
Proof.
  intros H KS x. destruct (dfs_sound _ _ _ _ _ _ H) as (A & _ & B). split.
  - intros X. destruct (B x X) as [[-> |[]]|Y]; [apply rt_refl|exact Y].
  - intros R. apply clos_rt_rtn1 in R. induction R as [|y z Y _ IH]; [apply A; now left|].
    destruct (dfs_complete _ _ _ _ [] _ _ H) as (_ & C). { intros k c K G. rewrite (KS k K) in G. discriminate. }
    destruct (C y) with (o := z) as [Z|[]]; [|exact Y|exact Z].
    destruct (Nat.eq_dec y s) as [-> |N]; [now left|]. right. split; [exact IH|]. intros [E|[]]. congruence.
Qed.

(* ---- nothing is added twice, and the search ends ---- *)
Variable U : list nat.
Variable start : nat.
Hypothesis start_first : forall a, ~ next a start.
Hypothesis U_next : forall a b, In a U -> next a b -> In b U.

Record ok (conns comps : list nat) : Prop := {
  ok_nd : NoDup conns; ok_U : incl conns U;
  ok_pred : forall x, In x conns -> x = start \/ exists y, In y conns /\ next y x;
  ok_grd : forall x, In x conns -> x = start \/ grd (src x) = false \/ In (src x) comps }.
(** [c] is about to be expanded for the first time. *)
Definition unexpanded (conns comps : list nat) (c : nat) : Prop :=
  (grd (tgt c) = true /\ In (tgt c) comps) \/ forall o, next c o -> ~ In o conns.

Lemma fresh_unexpanded conns comps c o : ok conns comps -> In c conns -> next c o -> ~ In o conns -> In (tgt c) comps \/ grd (tgt c) = false ->
  unexpanded (conns ++ [o]) comps o.
Proof.
  intros K C N F T. unfold unexpanded. destruct (grd (tgt o)) eqn:G.
  - destruct (in_dec Nat.eq_dec (tgt o) comps) as [I0|I0]; [now left|]. right. intros x X. rewrite In_snoc. intros [Y| ->].
    + destruct (ok_grd _ _ K x Y) as [-> |[Z|Z]]; [now apply (start_first o)| |]; rewrite (next_src _ _ X) in Z; [congruence|contradiction].
    + pose proof (next_src _ _ N) as E1. pose proof (next_src _ _ X) as E2. rewrite E2 in E1. destruct T as [T|T]; [rewrite <- E1 in T; contradiction|rewrite <- E1 in T; congruence].
  - right. intros x X. rewrite In_snoc. intros [Y| ->].
    + destruct (ok_pred _ _ K x Y) as [-> |(y & Z & M)]; [now apply (start_first o)|]. rewrite <- (pred_unique o y x G X M) in Z. contradiction.
    + rewrite (pred_unique o c o G X N) in F. contradiction.
Qed.

Lemma ok_snoc conns comps c o : ok conns comps -> In c conns -> next c o -> ~ In o conns -> In (tgt c) comps \/ grd (tgt c) = false -> ok (conns ++ [o]) comps.
Proof.
  intros K C N F T. constructor.
  - apply (NoDup_Add (a := o) (l := conns)); [|split; [apply (ok_nd _ _ K)|exact F]].
    rewrite <- (app_nil_r conns) at 1. apply Add_app.
  - intros x X. apply In_snoc in X. destruct X as [X | ->]; [now apply (ok_U _ _ K)|]. apply (U_next c); [now apply (ok_U _ _ K)|exact N].
  - intros x X. apply In_snoc in X. destruct X as [X | ->].
    + destruct (ok_pred _ _ K x X) as [->|(y & Y & M)]; [now left|]. right. exists y. split; [apply in_or_app; now left|exact M].
    + right. exists c. split; [apply in_or_app; now left|exact N].
  - intros x X. apply In_snoc in X. destruct X as [X | ->]; [now apply (ok_grd _ _ K)|]. right. rewrite (next_src _ _ N). tauto.
Qed.
Lemma ok_comps conns comps comps' : ok conns comps -> incl comps comps' -> ok conns comps'.
Proof. intros [A B C D] I0. constructor; auto. intros x X. destruct (D x X) as [?|[?|?]]; auto. Qed.

Lemma dfs_total : forall f conns comps c, ok conns comps -> In c conns -> unexpanded conns comps c -> length U < f + length conns ->
  exists conns' comps', dfs f conns comps c = Some (conns', comps') /\ ok conns' comps' /\
    forall x, In x conns' -> In x conns \/ ((grd (src x) = false \/ ~ In (src x) comps) /\ exists y, (y = c \/ ~ In y conns) /\ next y x).
Proof.
  induction f as [|f IH]; intros conns comps c K C E L.
  { exfalso. pose proof (NoDup_incl_length (ok_nd _ _ K) (ok_U _ _ K)). lia. }
  rewrite dfs_eq. destruct (grd (tgt c) && nmem (tgt c) comps) eqn:B. { exists conns, comps. auto. }
  destruct E as [(E1 & E2)|E]. { apply nmem_In in E2. rewrite E1, E2 in B. discriminate. }
  assert (NG : grd (tgt c) = false \/ ~ In (tgt c) comps).
  { destruct (grd (tgt c)); [right|now left]. intros X. apply nmem_In in X. rewrite X in B. discriminate. }
  assert (G : forall os, NoDup os -> incl os (nx c) -> forall cs ks, incl conns cs -> incl comps ks -> ok cs ks -> (each (tgt c) = false -> In (tgt c) ks) -> (forall o, In o os -> ~ In o cs) ->
    (forall x, In x cs -> In x conns \/ ((grd (src x) = false \/ ~ In (src x) comps) /\ exists y, (y = c \/ ~ In y conns) /\ next y x)) ->
    exists conns' comps', dloop f (tgt c) os cs ks = Some (conns', comps') /\ ok conns' comps' /\
    forall x, In x conns' -> In x conns \/ ((grd (src x) = false \/ ~ In (src x) comps) /\ exists y, (y = c \/ ~ In y conns) /\ next y x)).
  { induction os as [|o os IHo]; intros ND HO cs ks IC IK KO EK FR NEW; cbn [dloop]. { exists cs, ks. auto. }
    set (ks' := if each (tgt c) then ks ++ [tgt c] else ks).
    assert (TK : In (tgt c) ks') by (unfold ks'; destruct (each (tgt c)); [apply In_snoc; now right|now apply EK]).
    assert (IK' : incl ks ks') by (unfold ks'; destruct (each (tgt c)); [intros x X; apply in_or_app; now left|apply incl_refl]).
    assert (NO : next c o) by (apply HO; now left). assert (FO : ~ In o cs) by (apply FR; now left). assert (CC : In c cs) by now apply IC.
    pose proof (ok_comps _ _ _ KO IK') as KO'.
    destruct (IH (cs ++ [o]) ks' o) as (cs1 & ks1 & D1 & K1 & N1).
    - eapply ok_snoc; eauto.
    - apply In_snoc. now right.
    - eapply fresh_unexpanded; eauto.
    - rewrite app_length. cbn. pose proof (NoDup_incl_length (ok_nd _ _ K) IC). lia.
    - rewrite D1. cbn [fst snd]. destruct (dfs_sound _ _ _ _ _ _ D1) as (S1 & S2 & _). inversion ND as [|? ? ND1 ND2]; subst. apply IHo; auto.
      + intros x X. apply HO. now right.
      + intros x X. apply S1, in_or_app. left. now apply IC.
      + intros x X. apply S2, IK', IK, X.
      + intros x X Y. assert (NX : next c x) by (apply HO; now right). destruct (N1 x Y) as [Z|(Z1 & y & Z2 & Z3)].
        * apply In_snoc in Z. destruct Z as [Z | ->]; [apply (FR x); [now right|exact Z]|contradiction].
        * rewrite (next_src _ _ NX) in Z1. destruct Z1 as [Z1|Z1]; [|contradiction].
          pose proof (pred_unique c y x Z1 NX Z3) as ->. destruct Z2 as [-> |Z2]; [contradiction|]. apply Z2, in_or_app. now left.
      + intros x X. destruct (N1 x X) as [Z|(Z1 & y & Z2 & Z3)].
        * apply In_snoc in Z. destruct Z as [Z | ->]; [now apply NEW|]. right. rewrite (next_src _ _ NO). split; [exact NG|]. exists c. auto.
        * right. split; [destruct Z1 as [Z1|Z1]; [now left|right; intros Q; apply Z1, IK', IK, Q]|]. exists y. split; [|exact Z3]. right.
          destruct Z2 as [-> |Z2]; [intros Q; apply FO, IC, Q|intros Q; apply Z2, in_or_app; left; now apply IC]. }
  apply G; auto using incl_refl.
  - destruct (each (tgt c)); [apply incl_refl|intros x X; apply in_or_app; now left].
  - eapply ok_comps; [exact K|]. destruct (each (tgt c)); [apply incl_refl|intros x X; apply in_or_app; now left].
  - intros ->. apply In_snoc. now right.
Qed.

(** From the start: it ends, nothing twice, exactly what can be reached. *)
Lemma dfs_from_start f ks : In start U -> length U < S f -> (forall k, In k ks -> grd k = false) ->
  exists conns comps, dfs (S f) [start] ks start = Some (conns, comps) /\ NoDup conns /\ forall x, In x conns <-> reach start x.
Proof.
  intros SU L KS. destruct (dfs_total (S f) [start] ks start) as (cs & ks' & D & K & _).
  - constructor.
    + constructor; [intros []|constructor].
    + intros x [<-|[]]. exact SU.
    + intros x [<-|[]]. now left.
    + intros x [<-|[]]. now left.
  - now left.
  - right. intros o O [<-|[]]. now apply (start_first start).
  - cbn. lia.
  - exists cs, ks'. split; [exact D|]. split; [apply (ok_nd _ _ K)|]. apply (dfs_reach _ _ _ _ _ D KS).
Qed.
End Dfs.
