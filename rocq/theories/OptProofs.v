(** Lemmas about optimisation problems. *)
From Coq Require Import Lqa FinFun.
From Verif Require Import OptModel OptSpec.
Open Scope nat_scope.
Open Scope list_scope.

(* ---- lists ---- *)

Lemma nodup_app {A} (a b : list A) : NoDup a -> NoDup b -> (forall x, In x a -> In x b -> False) -> NoDup (a ++ b).
Proof.
  induction a as [|x a IH]; cbn; intros H1 H2 D; [exact H2|]. inversion H1; subst. constructor.
  - rewrite in_app_iff. intros [H|H]; [contradiction|]. exact (D x (or_introl eq_refl) H).
  - apply IH; auto. intros y Y1 Y2. exact (D y (or_intror Y1) Y2).
Qed.
(** Enumeration of a dictionary whose elements carry the key. *)
Lemma nodup_concat {V B} (f : string * V -> list B) (key : B -> string) (l : dict V) :
  NoDup (keys l) -> (forall x, In x l -> NoDup (f x)) -> (forall x b, In x l -> In b (f x) -> key b = fst x) -> NoDup (concat (map f l)).
Proof.
  induction l as [|x l IH]; cbn; intros N F K; [constructor|]. inversion N; subst. apply nodup_app.
  - apply F. now left.
  - apply IH; auto.
  - intros b B1 B2. apply in_concat in B2. destruct B2 as (y & Y1 & Y2). apply in_map_iff in Y1. destruct Y1 as (z & <- & Z).
    apply K in B1; [|now left]. apply K in Y2; [|now right]. apply H1. rewrite <- B1, Y2. now apply in_map.
Qed.
Lemma in_concat_map {A B} (f : A -> list B) l b : In b (concat (map f l)) <-> exists x, In x l /\ In b (f x).
Proof.
  rewrite in_concat. split.
  - intros (y & Y1 & Y2). apply in_map_iff in Y1. destruct Y1 as (x & <- & X). eauto.
  - intros (x & X1 & X2). exists (f x). split; [now apply in_map|exact X2].
Qed.
Lemma rmapM_forall2 {A B} (f : A -> res B) l : forall r, rmapM f l = Ok r -> Forall2 (fun a b => f a = Ok b) l r.
Proof.
  induction l as [|a l IH]; cbn; intros r H; [inversion H; constructor|].
  destruct (f a) eqn:E; [|discriminate]. cbn in H. destruct (rmapM f l); [|discriminate]. inversion H; subst. constructor; auto.
Qed.
Lemma forall2_map_r {A B C} (P : A -> C -> Prop) (f : B -> C) l r : Forall2 (fun a b => P a (f b)) l r -> Forall2 P l (map f r).
Proof. induction 1; cbn; constructor; auto. Qed.
Lemma forall2_impl {A B} (P Q : A -> B -> Prop) l r : (forall a b, In a l -> P a b -> Q a b) -> Forall2 P l r -> Forall2 Q l r.
Proof. intros H F. induction F; constructor; [apply H; [now left|auto]|]. apply IHF. intros. apply H; [now right|auto]. Qed.
Lemma forall2_map_l {A B C} (P : C -> B -> Prop) (f : A -> C) l r : Forall2 (fun a b => P (f a) b) l r -> Forall2 P (map f l) r.
Proof. induction 1; cbn; constructor; auto. Qed.
Lemma forall2_len {A B} (P : A -> B -> Prop) l r : Forall2 P l r -> length l = length r.
Proof. induction 1; cbn; congruence. Qed.

(* ---- dictionaries ---- *)

Lemma keys_dset_in {V} k (v : V) d : In k (keys d) -> keys (dset k v d) = keys d.
Proof.
  induction d as [|[k' v'] d IH]; cbn; [tauto|]. destruct (String.eqb k k') eqn:E; cbn; [auto|].
  intros [H|H]; [apply String.eqb_neq in E; congruence|]. f_equal. apply IH. exact H.
Qed.
Lemma dget_some {V} k (d : dict V) : In k (keys d) -> exists v, dget k d = Some v.
Proof. intros H. destruct (dget k d) eqn:E; [eauto|]. apply dget_None_notin in E. contradiction. Qed.

Lemma merged_in {V} (d : dict (dict V)) : NoDup (keys d) ->
  NoDup (keys (merged d)) /\ (forall o x, In (o, x) (merged d) -> In (o, x) d \/ x = []) /\
  (forall o x, In (o, x) d -> In (o, x) (merged d)).
Proof.
  assert (W : forall k (d : dict (dict V)), NoDup (keys d) -> NoDup (keys (with_default k d)) /\
     (forall o x, In (o, x) (with_default k d) -> In (o, x) d \/ x = []) /\ (forall o x, In (o, x) d -> In (o, x) (with_default k d))).
  { intros k e N. unfold with_default. destruct (dmem k e) eqn:E; [auto|]. split; [|split].
    - unfold keys. rewrite map_app. apply nodup_app; [exact N|repeat constructor; auto|]. cbn. intros x X [<-|[]].
      apply (dmem_In k e) in X. congruence.
    - intros o x X. apply in_app_iff in X. destruct X as [X|[X|[]]]; [auto|inversion X; auto].
    - intros o x X. apply in_app_iff. auto. }
  intros N. unfold merged. destruct (W "Connections"%string d N) as (A1 & A2 & A3).
  destruct (W "Components"%string _ A1) as (B1 & B2 & B3). split; [exact B1|]. split; [|auto].
  intros o x X. destruct (B2 o x X) as [Y|Y]; auto.
Qed.

(* ---- decision variables ---- *)

Definition label_places (o l : string) (e : entry) : list place :=
  if nested o then match e with Params ps => map (fun k => (o, l, Some k)) (keys ps) | Single _ => [] end else [(o, l, None)].
Definition obj_places (o : string) (d : dict entry) : list place := concat (map (fun le => label_places o (fst le) (snd le)) d).
Definition places (v : dict (dict entry)) : list place := concat (map (fun od => obj_places (fst od) (snd od)) v).
Definition fits (o : string) (e : entry) : Prop := match e with Params _ => nested o = true | Single _ => nested o = false end.
Definition shape (v : dict (dict entry)) : Prop := forall o d l e, In (o, d) v -> In (l, e) d -> fits o e.

Lemma places_spec v : python_dict v -> shape v -> NoDup (places v) /\ forall q, In q (places v) <-> leaf v q <> None.
Proof.
  intros (N & P) S. split.
  - unfold places. apply (nodup_concat _ (fun q : place => fst (fst q))); [exact N| |].
    + intros (o & d) H. destruct (P o d H) as (N1 & N2). cbn. unfold obj_places.
      apply (nodup_concat _ (fun q : place => snd (fst q))); [exact N1| |].
      * intros (l & e) H1. cbn. unfold label_places. destruct (nested o); [|repeat constructor; auto].
        destruct e as [ps|]; [|constructor]. apply FinFun.Injective_map_NoDup; [intros a b E; congruence|eauto].
      * intros (l & e) b _. cbn. unfold label_places. destruct (nested o); [destruct e|]; cbn; try tauto.
        -- intros B. apply in_map_iff in B. destruct B as (k & <- & _). reflexivity.
        -- intros [<-|[]]. reflexivity.
    + intros (o & d) b _ H. cbn in *. unfold obj_places in H. apply in_concat_map in H. destruct H as ((l & e) & _ & H).
      cbn in H. unfold label_places in H. destruct (nested o); [destruct e|]; cbn in H; try tauto.
      * apply in_map_iff in H. destruct H as (k & <- & _). reflexivity.
      * destruct H as [<-|[]]. reflexivity.
  - intros ((o & l) & k). unfold places. rewrite in_concat_map. unfold leaf. split.
    + intros ((o' & d) & H1 & H2). cbn in H2. unfold obj_places in H2. apply in_concat_map in H2. destruct H2 as ((l' & e) & H2 & H3).
      cbn in H3. pose proof (S _ _ _ _ H1 H2) as F. unfold label_places in H3. destruct (P _ _ H1) as (N1 & N2).
      destruct e as [ps|c]; cbn in F; rewrite F in H3.
      * apply in_map_iff in H3. destruct H3 as (p & E & I). inversion E; subst. rewrite (In_dget _ _ _ N H1), (In_dget _ _ _ N1 H2).
        destruct (dget_some p ps I) as (c & ->). discriminate.
      * destruct H3 as [E|[]]. inversion E; subst. rewrite (In_dget _ _ _ N H1), (In_dget _ _ _ N1 H2). discriminate.
    + intros H. destruct (dget o v) as [d|] eqn:E1; [|congruence]. destruct (dget l d) as [e|] eqn:E2; [|congruence].
      apply dget_In in E1. apply dget_In in E2. exists (o, d). split; [exact E1|]. cbn. unfold obj_places. rewrite in_concat_map.
      exists (l, e). split; [exact E2|]. cbn. pose proof (S _ _ _ _ E1 E2) as F. unfold label_places.
      destruct e as [ps|c]; cbn in F; rewrite F.
      * destruct k as [p|]; [|congruence]. apply in_map_iff. exists p. split; [reflexivity|].
        destruct (dget p ps) eqn:G; [|congruence]. apply dget_In in G. change p with (fst (p, c)). now apply in_map.
      * destruct k; [congruence|]. now left.
Qed.

(** Construction: names and bounds in the order of the places. *)

Lemma label_vars_spec o l e nb : label_vars o l e = Ok nb -> fits o e.
Proof. unfold label_vars, fits. destruct (nested o), e; intros H; try discriminate H; reflexivity. Qed.
Lemma label_vars_bounds o l e nb d v : label_vars o l e = Ok nb -> (forall ps, e = Params ps -> NoDup (keys ps)) ->
  dget o v = Some d -> dget l d = Some e ->
  Forall2 (fun q n => fst n = pname q /\ leaf v q = Some (Bounds (fst (snd n)) (snd (snd n)))) (label_places o l e) nb.
Proof.
  unfold label_vars, label_places. intros H N G1 G2. destruct (nested o) eqn:E; destruct e as [ps|c]; try discriminate.
  - apply rmapM_forall2 in H. unfold keys. rewrite map_map. apply forall2_map_l. revert H. apply forall2_impl. intros (p & c) b I H.
    cbn in *. destruct c; [|discriminate]. inversion H; subst. split; [reflexivity|]. cbn.
    rewrite G1, G2. exact (In_dget _ _ _ (N ps eq_refl) I).
  - destruct c; [|discriminate]. inversion H; subst. constructor; [|constructor]. split; [reflexivity|]. cbn. rewrite G1, G2. reflexivity.
Qed.

Lemma forall2_concat {A B C} (P : A -> C -> Prop) (f : B -> list A) (g : B -> res (list C)) l r :
  rmapM g l = Ok r -> (forall b c, In b l -> g b = Ok c -> Forall2 P (f b) c) -> Forall2 P (concat (map f l)) (concat r).
Proof.
  intros H K. apply rmapM_forall2 in H. induction H; cbn; [constructor|]. apply Forall2_app.
  - apply K; [now left|auto].
  - apply IHForall2. intros. apply K; [now right|auto].
Qed.

Lemma all_vars_spec v nb : python_dict v -> all_vars v = Ok nb -> shape v /\
  Forall2 (fun q n => fst n = pname q /\ leaf v q = Some (Bounds (fst (snd n)) (snd (snd n)))) (places v) nb.
Proof.
  intros (N & P) H. unfold all_vars in H. match type of H with rmap _ ?r = _ => destruct r as [r0|] eqn:R end; [|discriminate].
  inversion H; subst; clear H. split.
  - intros o d l e I1 I2. apply rmapM_forall2 in R.
    assert (X : forall A B (Q : A -> B -> Prop) (l : list A) m a, Forall2 Q l m -> In a l -> exists b, Q a b).
    { clear. intros A B Q l m a F. induction F; cbn; [tauto|]. intros [<-|H1]; eauto. }
    destruct (X _ _ _ _ _ _ R I1) as (b & B). cbn in B. match type of B with rmap _ ?r = _ => destruct r as [r1|] eqn:R1 end; [|discriminate].
    apply rmapM_forall2 in R1. destruct (X _ _ _ _ _ _ R1 I2) as (c & C). cbn in C. now apply label_vars_spec in C.
  - unfold places. apply (forall2_concat _ _ _ _ _ R). intros (o & d) c I H. cbn in *.
    match type of H with rmap _ ?r = _ => destruct r as [r1|] eqn:R1 end; [|discriminate]. inversion H; subst; clear H.
    unfold obj_places. apply (forall2_concat _ _ _ _ _ R1). intros (l & e) c I2 H. cbn in *. destruct (P _ _ I) as (N1 & N2).
    apply (label_vars_bounds o l e c d v H); [|now apply In_dget|now apply In_dget]. intros ps ->. eauto.
Qed.

(* ---- writing decision vectors ---- *)

Definition same (a b : entry) : Prop :=
  match a, b with Params x, Params y => keys x = keys y | Single _, Single _ => True | _, _ => False end.
Definition samed (d d' : dict entry) : Prop := Forall2 (fun a b => fst a = fst b /\ same (snd a) (snd b)) d d'.
Lemma same_refl e : same e e. Proof. destruct e; cbn; auto. Qed.
Lemma same_trans a b c : same a b -> same b c -> same a c.
Proof. destruct a, b, c; cbn; try tauto. congruence. Qed.
Lemma samed_refl d : samed d d.
Proof. induction d; constructor; auto. split; [reflexivity|apply same_refl]. Qed.
Lemma samed_trans a b c : samed a b -> samed b c -> samed a c.
Proof.
  intros H. revert c. induction H as [|x y l m (E & S) _ IH]; intros c H; inversion H; subst; constructor; [|now apply IH].
  destruct H2. split; [congruence|]. eapply same_trans; eauto.
Qed.
Lemma samed_keys d d' : samed d d' -> keys d' = keys d.
Proof. induction 1 as [|x y l m (E & _) _ IH]; cbn; [reflexivity|]. f_equal; [auto|exact IH]. Qed.
Lemma samed_dset l e e' d : dget l d = Some e -> same e e' -> samed d (dset l e' d).
Proof.
  induction d as [|[k v] d IH]; cbn; [discriminate|]. destruct (String.eqb l k) eqn:E; intros H S.
  - inversion H; subst. constructor; [split; [reflexivity|exact S]|apply samed_refl].
  - constructor; [split; [reflexivity|apply same_refl]|exact (IH H S)].
Qed.
Lemma samed_places o d d' : samed d d' -> obj_places o d' = obj_places o d.
Proof.
  unfold obj_places. induction 1 as [|[l e] [l' e'] d d' (E & S) _ IH]; cbn in *; [reflexivity|]. subst l'. f_equal; [|exact IH].
  unfold label_places. destruct (nested o); [|reflexivity]. destruct e, e'; cbn in S; try tauto. now rewrite S.
Qed.
Lemma samed_in d d' l e' : samed d d' -> In (l, e') d' -> exists e, In (l, e) d /\ same e e'.
Proof.
  induction 1 as [|[k e] [k' e2] d d' (E & S) _ IH]; cbn in *; [tauto|]. subst k'. intros [H|H].
  - inversion H; subst. eauto.
  - destruct (IH H) as (x & X & Y). eauto.
Qed.
Lemma same_fits o a b : same a b -> fits o a -> fits o b.
Proof. destruct a, b; cbn; tauto. Qed.
Lemma same_sym a b : same a b -> same b a.
Proof. destruct a, b; cbn; auto. Qed.

Lemma write_params_spec ps : forall xs d d' xs' e, write_params ps xs d = (d', xs', e) -> NoDup ps -> incl ps (keys d) ->
  keys d' = keys d /\ (forall k, ~ In k ps -> dget k d' = dget k d) /\
  ((length ps <= length xs /\ e = None /\ xs' = skipn (length ps) xs /\
    Forall2 (fun k x => dget k d' = Some (Value x)) ps (firstn (length ps) xs)) \/
   (length xs < length ps /\ e = Some IndexError)).
Proof.
  induction ps as [|p ps IH]; intros xs d d' xs' e H N I; cbn [write_params] in H.
  - inversion H; subst. split; [reflexivity|]. split; [auto|]. left. cbn. split; [lia|]. repeat split. constructor.
  - inversion N as [|? ? N1 N2]; subst. destruct xs as [|x xs].
    + inversion H; subst. split; [reflexivity|]. split; [auto|]. right. cbn. split; [lia|reflexivity].
    + assert (K : In p (keys d)) by (apply I; now left).
      destruct (IH xs (dset p (Value x) d) d' xs' e H N2) as (A & B & C).
      { rewrite keys_dset_in by exact K. intros y Y. apply I. now right. }
      rewrite keys_dset_in in A by exact K. split; [exact A|]. split.
      * intros k Hk. rewrite B by (intros X; apply Hk; now right). apply dget_dset_neq. intros ->. apply Hk. now left.
      * destruct C as [(C1 & C2 & C3 & C4)|(C1 & C2)]; [left|right; cbn; split; [lia|exact C2]].
        cbn [length firstn skipn]. split; [lia|]. split; [exact C2|]. split; [exact C3|]. constructor; [|exact C4].
        rewrite B by exact N1. apply dget_dset_eq.
Qed.

Lemma firstn_add {A} n m (l : list A) : firstn (n + m) l = firstn n l ++ firstn m (skipn n l).
Proof. revert l; induction n as [|n IH]; intros [|x l]; cbn; try reflexivity; [now rewrite !firstn_nil|]. f_equal. apply IH. Qed.
Lemma skipn_add {A} n m (l : list A) : skipn (n + m) l = skipn m (skipn n l).
Proof. revert l; induction n as [|n IH]; intros [|x l]; cbn; try reflexivity; [now rewrite !skipn_nil|]. apply IH. Qed.

Definition okd (o : string) (d : dict entry) : Prop :=
  NoDup (keys d) /\ forall l e, In (l, e) d -> fits o e /\ forall ps, e = Params ps -> NoDup (keys ps).

(** [leaf] in one object type *)
Definition leafd (d : dict entry) (q : place) : option cell :=
  match q with
  | (o, l, k) => match dget l d, k with
                 | Some (Params ps), Some p => dget p ps
                 | Some (Single c), None => Some c
                 | _, _ => None
                 end
  end.
Lemma leafd_label d d' q : dget (snd (fst q)) d = dget (snd (fst q)) d' -> leafd d q = leafd d' q.
Proof. destruct q as ((o & l) & k). cbn. now intros ->. Qed.

Lemma label_places_label o l e q : In q (label_places o l e) -> snd (fst q) = l.
Proof.
  unfold label_places. destruct (nested o); [destruct e|]; cbn; try tauto.
  - intros H. apply in_map_iff in H. destruct H as (k & <- & _). reflexivity.
  - intros [<-|[]]. reflexivity.
Qed.

Lemma write_labels_spec o todo : forall xs d d' xs' e, write_labels o todo xs d = (d', xs', e) -> okd o todo ->
  (forall l en, In (l, en) todo -> dget l d = Some en) ->
  samed d d' /\ (forall l, ~ In l (keys todo) -> dget l d' = dget l d) /\
  ((length (obj_places o todo) <= length xs /\ e = None /\ xs' = skipn (length (obj_places o todo)) xs /\
    Forall2 (fun q x => leafd d' q = Some (Value x)) (obj_places o todo) (firstn (length (obj_places o todo)) xs)) \/
   (length xs < length (obj_places o todo) /\ e = Some IndexError)).
Proof.
  induction todo as [|[l en] todo IH]; intros xs d d' xs' e H (N & K) G; cbn [write_labels] in H.
  - inversion H; subst. split; [apply samed_refl|]. split; [auto|]. left. cbn. split; [lia|]. repeat split. constructor.
  - cbn in N. inversion N as [|? ? N1 N2]; subst. fold (keys todo) in N1, N2.
    assert (GL : dget l d = Some en) by (apply G; now left). destruct (K l en (or_introl eq_refl)) as (F & NP).
    change (obj_places o ((l, en) :: todo)) with (label_places o l en ++ obj_places o todo). rewrite app_length.
    assert (STEP : forall en' ys, write_labels o todo ys (dset l en' d) = (d', xs', e) -> same en en' ->
       ys = skipn (length (label_places o l en)) xs -> length (label_places o l en) <= length xs ->
       Forall2 (fun q x => leafd (dset l en' d) q = Some (Value x)) (label_places o l en) (firstn (length (label_places o l en)) xs) ->
       samed d d' /\ (forall l0, ~ In l0 (keys ((l, en) :: todo)) -> dget l0 d' = dget l0 d) /\
       ((length (label_places o l en) + length (obj_places o todo) <= length xs /\ e = None /\
         xs' = skipn (length (label_places o l en) + length (obj_places o todo)) xs /\
         Forall2 (fun q x => leafd d' q = Some (Value x)) (label_places o l en ++ obj_places o todo)
           (firstn (length (label_places o l en) + length (obj_places o todo)) xs)) \/
        (length xs < length (label_places o l en) + length (obj_places o todo) /\ e = Some IndexError))).
    { intros en' ys H1 S -> LE FO. destruct (IH _ _ _ _ _ H1) as (A & B & C).
      { split; [exact N2|]. intros l0 e0 X0. apply (K l0). now right. }
      { intros l1 e1 I1. rewrite dget_dset_neq; [apply G; now right|]. intros ->. apply N1. change l with (fst (l, e1)). now apply in_map. }
      split; [exact (samed_trans _ _ _ (samed_dset l en en' d GL S) A)|]. split.
      - intros l1 L1. cbn in L1. rewrite B by (intros X; apply L1; now right). apply dget_dset_neq. intros ->. apply L1. now left.
      - rewrite skipn_length in C. destruct C as [(C1 & C2 & C3 & C4)|(C1 & C2)]; [left|right; split; [lia|exact C2]].
        split; [lia|]. split; [exact C2|]. split; [now rewrite skipn_add|]. rewrite firstn_add. apply Forall2_app; [|exact C4].
        revert FO. apply forall2_impl. intros q x Q E. rewrite <- E. apply leafd_label. rewrite (label_places_label _ _ _ _ Q). apply B. exact N1. }
    destruct (nested o) eqn:NO.
    + destruct en as [ps|c]; [|cbn in F; congruence].
      destruct (write_params (keys ps) xs ps) as [[ps' ys] er] eqn:W.
      destruct (write_params_spec _ _ _ _ _ _ W (NP ps eq_refl) (incl_refl _)) as (P1 & P2 & P3).
      assert (LP : label_places o l (Params ps) = map (fun k => (o, l, Some k)) (keys ps)) by (unfold label_places; now rewrite NO).
      rewrite LP in *. rewrite map_length in *.
      destruct P3 as [(Q1 & -> & Q2 & Q3)|(Q1 & ->)].
      * apply (STEP _ _ H); [cbn; congruence|exact Q2|exact Q1|]. apply forall2_map_l. revert Q3. apply forall2_impl. intros k x _ E. cbn. rewrite dget_dset_eq. exact E.
      * inversion H; subst. split; [eapply samed_dset; [exact GL|cbn; congruence]|]. split; [|right; split; [lia|reflexivity]].
        intros l1 L1. apply dget_dset_neq. intros ->. apply L1. now left.
    + destruct en as [ps|c]; [cbn in F; congruence|].
      assert (LP : label_places o l (Single c) = [(o, l, None)]) by (unfold label_places; now rewrite NO).
      rewrite LP in *. cbn [length] in *. destruct xs as [|x xs].
      * inversion H; subst. split; [apply samed_refl|]. split; [auto|]. right. cbn. split; [lia|reflexivity].
      * apply (STEP _ _ H); [exact Logic.I|reflexivity|cbn; lia|]. cbn. constructor; [|constructor]. unfold leafd. now rewrite dget_dset_eq.
Qed.

Lemma dget_content h vs o a : dget o vs = Some a -> dget o (content h vs) = Some (h a).
Proof.
  induction vs as [|[k b] vs IH]; cbn; [discriminate|]. destruct (String.eqb o k); [|exact IH]. intros H. now inversion H.
Qed.
Lemma obj_places_obj o d q : In q (obj_places o d) -> fst (fst q) = o.
Proof.
  unfold obj_places. rewrite in_concat_map. intros ((l & e) & _ & H). cbn in H. unfold label_places in H.
  destruct (nested o); [destruct e|]; cbn in H; try tauto.
  - apply in_map_iff in H. destruct H as (k & <- & _). reflexivity.
  - destruct H as [<-|[]]. reflexivity.
Qed.

Lemma write_all_spec vs todo : NoDup (keys vs) -> forall xs h h' e, incl todo vs -> NoDup (map snd todo) ->
  (forall o a, In (o, a) todo -> okd o (h a)) -> write_all todo vs xs h = (h', e) ->
  (forall a, samed (h a) (h' a)) /\ (forall a, ~ In a (map snd todo) -> h' a = h a) /\
  ((length (places (content h todo)) <= length xs /\ e = None /\
    Forall2 (fun q x => leaf (content h' vs) q = Some (Value x)) (places (content h todo)) (firstn (length (places (content h todo))) xs)) \/
   (length xs < length (places (content h todo)) /\ e = Some IndexError)).
Proof.
  intros NV. induction todo as [|[o a] todo IH]; intros xs h h' e I N K H; cbn [write_all] in H.
  - inversion H; subst. split; [intros; apply samed_refl|]. split; [auto|]. left. cbn. split; [lia|]. split; [reflexivity|constructor].
  - cbn in N. inversion N as [|? ? N1 N2]; subst.
    assert (G : dget o vs = Some a) by (apply In_dget; [exact NV|apply I; now left]). rewrite G in H.
    change (places (content h ((o, a) :: todo))) with (obj_places o (h a) ++ places (content h todo)). rewrite app_length.
    destruct (write_labels o (h a) xs (h a)) as [[d ys] er] eqn:W.
    destruct (K o a (or_introl eq_refl)) as (K1 & K2).
    destruct (write_labels_spec o (h a) xs (h a) d ys er W (conj K1 K2)) as (S1 & S2 & S3).
    { intros l en IN. now apply In_dget. }
    set (h1 := fun k => if Nat.eqb k a then d else h k) in *.
    assert (E1 : h1 a = d) by (unfold h1; now rewrite Nat.eqb_refl).
    assert (E2 : forall b, b <> a -> h1 b = h b) by (intros b Hb; unfold h1; apply Nat.eqb_neq in Hb; now rewrite Hb).
    assert (SA : forall b, samed (h b) (h1 b)).
    { intros b. destruct (Nat.eq_dec b a) as [->|D]; [now rewrite E1|rewrite E2 by exact D; apply samed_refl]. }
    assert (C1 : content h1 todo = content h todo).
    { unfold content. apply map_ext_in. intros (o' & b) B. cbn. f_equal. apply E2. intros ->. apply N1. change a with (snd (o', a)). now apply in_map. }
    destruct S3 as [(L1 & -> & L2 & L3)|(L1 & ->)].
    + destruct (IH ys h1 h' e) as (A & B & C); auto.
      { intros x X. apply I. now right. }
      { intros o' b X. assert (b <> a) by (intros ->; apply N1; change a with (snd (o', a)); now apply in_map). rewrite E2 by assumption. apply K. now right. }
      split; [intros b; exact (samed_trans _ _ _ (SA b) (A b))|]. split.
      * intros b Hb. rewrite B by (intros X; apply Hb; now right). apply E2. intros ->. apply Hb. now left.
      * rewrite C1 in C. subst ys. rewrite skipn_length in C. destruct C as [(D1 & D2 & D3)|(D1 & D2)]; [left|right; split; [lia|exact D2]].
        split; [lia|]. split; [exact D2|]. rewrite firstn_add. apply Forall2_app; [|exact D3].
        revert L3. apply forall2_impl. intros q x Q E. pose proof (obj_places_obj _ _ _ Q) as QO. destruct q as ((o' & l) & k). cbn in QO. subst o'.
        unfold leaf. rewrite (dget_content h' vs o a G). rewrite B by exact N1. rewrite E1. exact E.
    + assert (HH : h' = h1 /\ e = Some IndexError) by (split; congruence). destruct HH as (-> & ->).
      split; [exact SA|]. split; [|right; split; [lia|reflexivity]].
      intros b Hb. apply E2. intros ->. apply Hb. now left.
Qed.

(* ---- histories ---- *)

Definition good (pl : list place) (pb : problem) : Prop :=
  input_dict pb = variables pb /\ NoDup (keys (variables pb)) /\ NoDup (map snd (variables pb)) /\
  (forall o a, In (o, a) (variables pb) -> okd o (heap pb a)) /\ places (content (heap pb) (variables pb)) = pl.

Lemma okd_same o d d' : samed d d' -> okd o d -> okd o d'.
Proof.
  intros S (N & K). split; [now rewrite (samed_keys _ _ S)|]. intros l e I. destruct (samed_in _ _ _ _ S I) as (e0 & I0 & S0).
  destruct (K l e0 I0) as (F & P). split; [exact (same_fits _ _ _ S0 F)|]. intros ps ->. destruct e0 as [ps0|]; cbn in S0; [|tauto].
  rewrite <- S0. now apply P.
Qed.
Lemma places_same h h' vs : (forall a, samed (h a) (h' a)) -> places (content h' vs) = places (content h vs).
Proof.
  intros S. unfold places, content. rewrite !map_map. f_equal. apply map_ext. intros (o & a). cbn. now apply samed_places.
Qed.

Definition frame (pb pb' : problem) : Prop :=
  variables pb' = variables pb /\ input_dict pb' = input_dict pb /\ constr pb' = constr pb /\ objective pb' = objective pb /\
  variable_list pb' = variable_list pb /\ bounds pb' = bounds pb /\ nic pb' = nic pb /\ constraint_list pb' = constraint_list pb.

Lemma fitness_step {M} (um : user_model M) x pl pb m : good pl pb ->
  exists pb' m' r, fitness um x (pb, m) = ((pb', m'), r) /\ good pl pb' /\ frame pb pb' /\
  (length pl <= length x -> exists d, Forall2 (fun q v => leaf d q = Some (Value v)) pl (firstn (length pl) x) /\
     d = content (heap pb') (variables pb') /\ m' = fst (solve_model um d m) /\
     (snd (solve_model um d m) = None ->
        r = rbind (get_objective um m' (objective pb)) (fun f =>
            rbind (rmapM (evaluate um m' (constr pb) false) (enum (upper_limits (constr pb)))) (fun cu =>
            rbind (rmapM (evaluate um m' (constr pb) true) (enum (lower_limits (constr pb)))) (fun cl => Ok (f :: cu ++ cl))))) /\
     (forall e, snd (solve_model um d m) = Some e -> r = Err e)) /\
  (length x < length pl -> m' = m /\ r = Err IndexError).
Proof.
  intros (G1 & G2 & G3 & G4 & G5). unfold fitness. rewrite G1.
  destruct (write_all (variables pb) (variables pb) x (heap pb)) as [h e] eqn:W.
  destruct (write_all_spec (variables pb) (variables pb) G2 x (heap pb) h e (incl_refl _) G3 G4 W) as (A & _ & C). rewrite G5 in C.
  cbv zeta. set (pb' := {| heap := h |}).
  assert (GP : good pl pb').
  { unfold good, pb'; cbn [heap variables input_dict]. split; [reflexivity|]. split; [exact G2|]. split; [exact G3|]. split.
    - intros o a I. exact (okd_same _ _ _ (A a) (G4 o a I)).
    - now rewrite (places_same _ _ _ A). }
  assert (FR : frame pb pb') by (unfold frame, pb'; cbn; rewrite G1; repeat split).
  destruct C as [(L & -> & F)|(L & ->)].
  - destruct (solve_model um (content h (variables pb)) m) as [m' [er|]] eqn:SM;
      (exists pb', m'; eexists; split; [reflexivity|]; split; [exact GP|]; split; [exact FR|]; split; [|intros; lia]);
      intros _; exists (content h (variables pb)); (split; [exact F|]); (split; [reflexivity|]); rewrite SM; cbn [fst snd].
    + split; [reflexivity|]. split; [discriminate|]. intros e E. now inversion E.
    + split; [reflexivity|]. split; [reflexivity|discriminate].
  - exists pb', m. eexists. split; [reflexivity|]. split; [exact GP|]. split; [exact FR|]. split; [intros; lia|auto].
Qed.

Lemma frame_trans a b c : frame a b -> frame b c -> frame a c.
Proof. unfold frame. intuition congruence. Qed.
Lemma evaluations_good {M} (um : user_model M) xs : forall pl pb m, good pl pb ->
  good pl (fst (evaluations um xs (pb, m))) /\ frame pb (fst (evaluations um xs (pb, m))).
Proof.
  induction xs as [|x xs IH]; intros pl pb m G; cbn [evaluations].
  - split; [exact G|]. unfold frame. repeat split.
  - destruct (fitness_step um x pl pb m G) as (pb' & m' & r & -> & G' & F & _). cbn [fst].
    destruct (IH pl pb' m' G') as (A & B). split; [exact A|]. exact (frame_trans _ _ _ F B).
Qed.

Lemma keys_combine {V} (ks : list string) : forall (vs : list V), length ks <= length vs -> keys (combine ks vs) = ks.
Proof. induction ks as [|k ks IH]; intros [|v vs] H; cbn in *; try reflexivity; [lia|]. f_equal. apply IH. lia. Qed.
Lemma snd_combine {V} (ks : list string) : forall (vs : list V), length vs <= length ks -> map snd (combine ks vs) = vs.
Proof. induction ks as [|k ks IH]; intros [|v vs] H; cbn in *; try reflexivity; [lia|]. f_equal. apply IH. lia. Qed.

Lemma content_alloc v : content (fun a => nth a (map snd v) []) (alloc v) = v.
Proof.
  unfold content, alloc.
  enough (H : forall w n, (forall i x, nth_error w i = Some x -> nth_error v (n + i) = Some x) ->
     map (fun ka => (fst ka, nth (snd ka) (map snd v) [])) (combine (keys w) (seq n (length w))) = w).
  { apply (H v 0). auto. }
  induction w as [|[k d] w IH]; intros n E; cbn; [reflexivity|]. f_equal.
  - f_equal. assert (X : nth_error (map snd v) n = Some d).
    { specialize (E 0 (k, d) eq_refl). rewrite Nat.add_0_r in E. rewrite nth_error_map, E. reflexivity. }
    now apply nth_error_nth.
  - apply IH. intros i x I. replace (S n + i) with (n + S i) by lia. now apply E.
Qed.

Lemma leaf_merged user q : python_dict user -> leaf (merged user) q <> None <-> leaf user q <> None.
Proof.
  intros (N & _). destruct (merged_in user N) as (A & B & C). destruct q as ((o & l) & k). unfold leaf. split; intros H.
  - destruct (dget o (merged user)) as [d|] eqn:E; [|congruence]. apply dget_In in E. destruct (B _ _ E) as [X|X]; [|subst d; cbn in H; congruence].
    now rewrite (In_dget _ _ _ N X).
  - destruct (dget o user) as [d|] eqn:E; [|congruence]. apply dget_In in E. now rewrite (In_dget _ _ _ A (C _ _ E)).
Qed.
Lemma leaf_merged_some user q c : python_dict user -> leaf (merged user) q = Some c -> leaf user q = Some c.
Proof.
  intros (N & _). destruct (merged_in user N) as (A & B & C). destruct q as ((o & l) & k). unfold leaf. intros H.
  destruct (dget o (merged user)) as [d|] eqn:E; [|congruence]. apply dget_In in E. destruct (B _ _ E) as [X|X]; [|subst d; cbn in H; congruence].
  now rewrite (In_dget _ _ _ N X).
Qed.
Lemma python_merged user : python_dict user -> python_dict (merged user).
Proof.
  intros (N & P). destruct (merged_in user N) as (A & B & C). split; [exact A|]. intros o d I. destruct (B _ _ I) as [X|X]; [now apply (P o)|]. subst d.
  split; [constructor|intros l ps []].
Qed.

Lemma init_good show user c obj pb : python_dict user -> init show user c obj = Ok pb ->
  exists pl, NoDup pl /\ (forall q, In q pl <-> leaf user q <> None) /\ variable_list pb = map pname pl /\
    length (fst (bounds pb)) = length pl /\ length (snd (bounds pb)) = length pl /\
    Forall2 (fun q b => leaf user q = Some (Bounds (fst b) (snd b))) pl (combine (fst (bounds pb)) (snd (bounds pb))) /\ good pl pb.
Proof.
  intros P H. pose proof (python_merged _ P) as PM. unfold init in H. cbv zeta in H.
  destruct (all_vars (merged user)) as [nb|] eqn:V; [|discriminate]. cbn [rbind] in H.
  match type of H with rbind ?r _ = _ => destruct r as [cu|] end; [|discriminate]. cbn [rbind] in H.
  match type of H with rbind ?r _ = _ => destruct r as [cl|] end; [|discriminate]. cbn [rbind] in H.
  inversion H; subst; clear H. cbn [variable_list bounds fst snd]. destruct (all_vars_spec _ _ PM V) as (S & F).
  destruct (places_spec _ PM S) as (N & Q). exists (places (merged user)). pose proof (forall2_len _ _ _ F) as L.
  split; [exact N|]. split; [intros q; rewrite Q; now apply leaf_merged|]. split.
  { clear -F. induction F as [|q n l m (E & _) _ IH]; cbn; [reflexivity|]. now rewrite E, IH. }
  rewrite !map_length. split; [congruence|]. split; [congruence|]. split.
  { clear -F P. induction F as [|q n l m (_ & E) _ IH]; cbn; constructor; [|exact IH]. cbn. now apply leaf_merged_some in E. }
  destruct PM as (PN & PP). unfold good. cbn [heap variables input_dict]. split; [reflexivity|].
  assert (LK : length (keys (merged user)) = length (seq 0 (length (merged user)))) by (unfold keys; now rewrite map_length, seq_length).
  split; [unfold alloc; rewrite keys_combine by lia; exact PN|].
  split; [unfold alloc; rewrite snd_combine by lia; apply seq_NoDup|].
  split; [|now rewrite content_alloc].
  intros o a I. assert (X : In (o, nth a (map snd (merged user)) []) (merged user)).
  { rewrite <- (content_alloc (merged user)) at 2. unfold content.
    apply in_map_iff. exists (o, a). split; [reflexivity|exact I]. }
  destruct (PP _ _ X) as (N1 & N2). split; [exact N1|]. intros l e IE. split; [exact (S _ _ _ _ X IE)|]. intros ps ->. exact (N2 _ _ IE).
Qed.

(** Decision variables *)
Lemma decision_variables show user c obj pb : python_dict user -> init show user c obj = Ok pb ->
  exists pl, NoDup pl /\ (forall q, In q pl <-> leaf user q <> None) /\ variable_list pb = map pname pl /\
    length (fst (bounds pb)) = length pl /\ length (snd (bounds pb)) = length pl /\
    Forall2 (fun q b => leaf user q = Some (Bounds (fst b) (snd b))) pl (combine (fst (bounds pb)) (snd (bounds pb))) /\
    forall (M : Type) (um : user_model M) hist m0 x, let s := evaluations um hist (pb, m0) in
      bounds (fst s) = bounds pb /\ variable_list (fst s) = variable_list pb /\
      (length pl <= length x -> exists d, Forall2 (fun q v => leaf d q = Some (Value v)) pl (firstn (length pl) x) /\
         (forall q, leaf d q <> None -> In q pl) /\
         snd (fst (fitness um x s)) = fst (solve_model um d (snd s)) /\
         (forall e, snd (solve_model um d (snd s)) = Some e -> snd (fitness um x s) = Err e)) /\
      (length x < length pl -> snd (fst (fitness um x s)) = snd s /\ snd (fitness um x s) = Err IndexError).
Proof.
  intros P H. destruct (init_good _ _ _ _ _ P H) as (pl & A1 & A2 & A3 & A4 & A5 & A6 & A7). exists pl.
  split; [exact A1|]. split; [exact A2|]. split; [exact A3|]. split; [exact A4|]. split; [exact A5|]. split; [exact A6|].
  intros M um hist m0 x s. destruct (evaluations_good um hist pl pb m0 A7) as (G & (F1 & F2 & F3 & F4 & F5 & F6 & F7 & F8)).
  fold s in G, F1, F2, F3, F4, F5, F6, F7, F8. split; [exact F6|]. split; [exact F5|].
  destruct s as [pb1 m1]. cbn [fst snd] in *.
  destruct (fitness_step um x pl pb1 m1 G) as (pb' & m' & r & -> & G' & _ & OK & SHORT). cbn [fst snd]. split; [|exact SHORT].
  intros L. destruct (OK L) as (d & D1 & D2 & D3 & _ & D5). exists d. split; [exact D1|]. split; [|split; [exact D3|exact D5]].
  intros q Q. destruct G' as (_ & H2 & _ & H4 & <-). subst d. apply places_spec; [| |exact Q].
  - split.
    + unfold content, keys. rewrite map_map. cbn. exact H2.
    + intros o d I. unfold content in I. apply in_map_iff in I. destruct I as ((o' & a) & E & I). inversion E; subst. destruct (H4 _ _ I) as (N & K).
      split; [exact N|]. intros l ps J. destruct (K l _ J) as (_ & Z). now apply Z.
  - intros o d l e I J. unfold content in I. apply in_map_iff in I. destruct I as ((o' & a) & E & I). inversion E; subst. now apply (H4 _ _ I) in J.
Qed.
