(** Proofs about the tables of components over the life of a network. *)
From Verif Require Import Base SpecTabModel SpecTabSpec.
Open Scope string_scope.
Open Scope list_scope.

Section P.
Variable Q : string -> cls.

(** A label is in the results of a class. *)
Definition listed_in (n : net) (k l : string) : Prop := exists ls, dget k (n_res n) = Some ls /\ In l ls.

(* ---------------------------------------------------------- one step each *)

Lemma over_cons : forall A (f : A -> net -> net) x l n, over f (x :: l) n = over f l (f x n).
Proof. reflexivity. Qed.

Lemma init_comps : forall cs n, n_comps (over init_comp cs n) = n_comps n.
Proof. induction cs as [| c cs IH]; intro n; [reflexivity |]. rewrite over_cons. now rewrite IH. Qed.
Lemma spec_comps : forall cs n, n_comps (over (spec_comp Q) cs n) = n_comps n.
Proof.
  induction cs as [| c cs IH]; intro n; [reflexivity |]. rewrite over_cons, IH. unfold spec_comp.
  now destruct (dget (o_class (snd c)) (n_spec n)).
Qed.
Lemma res_comps : forall cs n, n_comps (over (res_comp Q) cs n) = n_comps n.
Proof.
  induction cs as [| c cs IH]; intro n; [reflexivity |]. rewrite over_cons, IH. unfold res_comp.
  now destruct (dget (o_class (snd c)) (n_res n)).
Qed.
Lemma spec_res : forall cs n, n_res (over (spec_comp Q) cs n) = n_res n.
Proof.
  induction cs as [| c cs IH]; intro n; [reflexivity |]. rewrite over_cons, IH. unfold spec_comp.
  now destruct (dget (o_class (snd c)) (n_spec n)).
Qed.
Lemma res_spec : forall cs n, n_spec (over (res_comp Q) cs n) = n_spec n.
Proof.
  induction cs as [| c cs IH]; intro n; [reflexivity |]. rewrite over_cons, IH. unfold res_comp.
  now destruct (dget (o_class (snd c)) (n_res n)).
Qed.
Lemma calculate_comps : forall b n, n_comps (calculate Q b n) = n_comps n.
Proof.
  intros b n. unfold calculate. destruct b; [rewrite res_comps |]; rewrite spec_comps; apply init_comps.
Qed.

Lemma init_listed : forall cs n k l, listed_in (over init_comp cs n) k l <-> listed_in n k l.
Proof.
  induction cs as [| c cs IH]; intros n k l; [reflexivity |]. rewrite over_cons, IH. unfold listed_in, init_comp. cbn [n_res]. destruct (dmem (o_class c) (n_res n)) eqn:M; [reflexivity |].
  destruct (String.eqb k (o_class c)) eqn:K.
  - apply String.eqb_eq in K. subst k. rewrite dget_dset_eq.
    assert (D : dget (o_class c) (n_res n) = None).
    { apply dget_None_notin. intro X. apply dmem_In in X. congruence. }
    rewrite D. split; intros (ls & E & I); [injection E as <-; destruct I | discriminate E].
  - apply String.eqb_neq in K. now rewrite dget_dset_neq.
Qed.
Lemma init_res : forall cs n c, In c cs -> exists ls, dget (o_class c) (n_res (over init_comp cs n)) = Some ls.
Proof.
  assert (K : forall cs n k ls, dget k (n_res n) = Some ls -> exists ls', dget k (n_res (over init_comp cs n)) = Some ls').
  { induction cs as [| c cs IH]; intros n k ls H; [now exists ls |]. rewrite over_cons. apply (IH _ k ls).
    unfold init_comp. cbn [n_res]. destruct (dmem (o_class c) (n_res n)) eqn:M; [exact H |].
    rewrite dget_dset_neq; [exact H |]. intros ->. assert (X : In (o_class c) (keys (n_res n))).
    { apply dget_In in H. apply (in_map fst) in H. exact H. }
    apply dmem_In in X. congruence. }
  induction cs as [| c' cs IH]; intros n c I; [destruct I |]. rewrite over_cons. destruct I as [-> | I]; [| now apply IH].
  unfold init_comp at 2. destruct (dmem (o_class c) (n_res n)) eqn:M.
  - unfold dmem in M. destruct (dget (o_class c) (n_res n)) as [ls |] eqn:D; [| discriminate M].
    apply (K cs _ _ ls). cbn [n_res]. exact D.
  - apply (K cs _ _ []). cbn [n_res]. apply dget_dset_eq.
Qed.
Lemma init_spec : forall cs n c, In c cs -> exists t, dget (o_class c) (n_spec (over init_comp cs n)) = Some t.
Proof.
  assert (K : forall cs n k t, dget k (n_spec n) = Some t -> dget k (n_spec (over init_comp cs n)) = Some t).
  { induction cs as [| c cs IH]; intros n k t H; [exact H |]. rewrite over_cons. apply IH.
    unfold init_comp. cbn [n_spec]. destruct (dmem (o_class c) (n_spec n)) eqn:M; [exact H |].
    rewrite dget_dset_neq; [exact H |]. intros ->. assert (X : In (o_class c) (keys (n_spec n))).
    { apply dget_In in H. apply (in_map fst) in H. exact H. }
    apply dmem_In in X. congruence. }
  induction cs as [| c' cs IH]; intros n c I; [destruct I |]. rewrite over_cons. destruct I as [-> | I]; [| now apply IH].
  unfold init_comp at 2. destruct (dmem (o_class c) (n_spec n)) eqn:M.
  - unfold dmem in M. destruct (dget (o_class c) (n_spec n)) as [t |] eqn:D; [| discriminate M].
    exists t. apply K. cbn [n_spec]. exact D.
  - exists no_tabs. apply K. cbn [n_spec]. apply dget_dset_eq.
Qed.

Lemma row_in_In : forall l ls x, In x (row_in l ls) <-> In x ls \/ x = l.
Proof.
  intros l ls x. unfold row_in. destruct (smem l ls) eqn:M.
  - apply smem_In in M. split; [tauto |]. intros [H | ->]; assumption.
  - rewrite in_app_iff. cbn [In]. split; intros [H | H]; auto. destruct H as [-> | []]. now right.
Qed.
(** what one component writes into the results *)
Lemma res_one : forall l c n k x, listed_in (res_comp Q (l, c) n) k x <->
  listed_in n k x \/ (k = o_class c /\ x = l /\ q_params (Q (o_class c)) <> [] /\ dget (o_class c) (n_res n) <> None).
Proof.
  intros l c n k x. unfold listed_in, res_comp. cbn [fst snd].
  destruct (dget (o_class c) (n_res n)) as [ls |] eqn:D.
  2:{ split; [tauto |]. intros [H | (_ & _ & _ & H)]; [exact H | congruence]. }
  cbn [n_res]. destruct (q_params (Q (o_class c))) as [| p ps] eqn:P.
  { split; [tauto |]. intros [H | (_ & _ & H & _)]; [exact H | congruence]. }
  destruct (String.eqb k (o_class c)) eqn:K.
  - apply String.eqb_eq in K. subst k. rewrite dget_dset_eq, D. split.
    + intros (ls' & E & I). injection E as <-. apply row_in_In in I. destruct I as [I | ->]; [left; eauto | right].
      repeat split; discriminate.
    + intros [(ls' & E & I) | (_ & -> & _)]; exists (row_in l ls); (split; [reflexivity |]); apply row_in_In; [| now right].
      injection E as <-. now left.
  - apply String.eqb_neq in K. rewrite dget_dset_neq by exact K. split; [tauto |]. intros [H | (H & _)]; [exact H | congruence].
Qed.
Lemma res_kept : forall lc n k, dget k (n_res n) <> None -> dget k (n_res (res_comp Q lc n)) <> None.
Proof.
  intros lc n k H. unfold res_comp. destruct (dget (o_class (snd lc)) (n_res n)) as [ls |] eqn:D; [| exact H].
  cbn [n_res]. destruct (q_params (Q (o_class (snd lc)))); [exact H |].
  destruct (String.eqb k (o_class (snd lc))) eqn:K.
  - apply String.eqb_eq in K. subst k. rewrite dget_dset_eq. discriminate.
  - apply String.eqb_neq in K. now rewrite dget_dset_neq.
Qed.
Lemma res_all : forall cs n k x, (forall l c, In (l, c) cs -> dget (o_class c) (n_res n) <> None) ->
  listed_in (over (res_comp Q) cs n) k x <->
  listed_in n k x \/ (exists c, In (x, c) cs /\ o_class c = k /\ q_params (Q k) <> []).
Proof.
  induction cs as [| [l c] cs IH]; intros n k x H.
  - split; [tauto |]. intros [A | (c & [] & _)]. exact A.
  - rewrite over_cons, IH.
    2:{ intros l' c' I. apply res_kept. apply (H l' c'). now right. }
    rewrite res_one. split.
    + intros [[A | (-> & -> & P & _)] | (c' & I & E & P)]; [now left | right | right].
      * exists c. repeat split; [now left | exact P].
      * exists c'. repeat split; [now right | exact E | exact P].
    + intros [A | (c' & [I | I] & E & P)]; [now left; left | left; right | right].
      * injection I as <- <-. subst k. repeat split; [exact P |]. apply (H l c). now left.
      * exists c'. now repeat split.
Qed.

(* -------------------------------------------------------------- sessions *)

Definition good (n : net) : Prop :=
  NoDup (keys (n_comps n)) /\ (forall k l, listed_in n k l -> has n k l /\ q_params (Q k) <> []).
Lemma over_prepared : forall n l c, In (l, c) (n_comps n) ->
  dget (o_class c) (n_res (over (spec_comp Q) (n_comps n) (over init_comp (map snd (n_comps n)) n))) <> None.
Proof.
  intros n l c I. rewrite spec_res. destruct (init_res (map snd (n_comps n)) n c) as (ls & E).
  { change c with (snd (l, c)). now apply in_map. }
  congruence.
Qed.
Lemma calculate_listed : forall b n k x, listed_in (calculate Q b n) k x <->
  listed_in n k x \/ (b = true /\ exists c, In (x, c) (n_comps n) /\ o_class c = k /\ q_params (Q k) <> []).
Proof.
  intros b n k x. unfold calculate. rewrite init_comps.
  assert (S : forall k x, listed_in (over (spec_comp Q) (n_comps n) (over init_comp (map snd (n_comps n)) n)) k x <-> listed_in n k x).
  { intros k' x'. unfold listed_in at 1. rewrite spec_res. apply init_listed. }
  destruct b.
  - rewrite spec_comps, init_comps. rewrite res_all.
    + rewrite S. intuition auto.
    + apply over_prepared.
  - rewrite S. split; [tauto |]. intros [A | (B & _)]; [exact A | discriminate B].
Qed.
Lemma good_run : forall o n, good n -> good (run Q o n).
Proof.
  intros o n (N & G). destruct o as [l c | l | l set var | b]; cbn [run].
  - destruct (dmem l (n_comps n)) eqn:M; [now split |]. split; [now apply NoDup_keys_dset |].
    intros k x H. destruct (G k x H) as ((c' & D & E) & P). split; [| exact P]. exists c'. split; [| exact E].
    cbn [n_comps]. rewrite dget_dset_neq; [exact D |]. intros ->. unfold dmem in M. rewrite D in M. discriminate.
  - destruct (dget l (n_comps n)) as [c |] eqn:D; [| now split]. split; [now apply NoDup_keys_ddel |].
    intros k x (ls & E & I). cbn [n_res] in E.
    assert (L : listed_in n k x /\ x <> l \/ (listed_in n k x /\ k <> o_class c)).
    { destruct (dget (o_class c) (n_res n)) as [ls0 |] eqn:D0.
      - destruct (String.eqb k (o_class c)) eqn:K.
        + apply String.eqb_eq in K. subst k. rewrite dget_dset_eq in E. injection E as <-.
          apply filter_In in I. destruct I as (I & B). left. split; [now exists ls0 |].
          intros ->. now rewrite String.eqb_refl in B.
        + apply String.eqb_neq in K. rewrite dget_dset_neq in E by exact K. right. split; [now exists ls | exact K].
      - right. split; [now exists ls |]. intros ->. congruence. }
    assert (X : listed_in n k x) by tauto. destruct (G k x X) as ((c' & D' & E') & P). split; [| exact P].
    exists c'. split; [| exact E']. cbn [n_comps]. rewrite dget_ddel_neq; [exact D' |].
    intros ->. destruct L as [(_ & L) | (_ & L)]; [congruence |]. apply L. rewrite <- E'. congruence.
  - destruct (dget l (n_comps n)) as [c |] eqn:D; [| now split]. split; [now apply NoDup_keys_dset |].
    intros k x H. destruct (G k x H) as ((c' & D' & E') & P). split; [| exact P].
    unfold has. cbn [n_comps]. destruct (String.eqb x l) eqn:X.
    + apply String.eqb_eq in X. subst x. rewrite dget_dset_eq. eexists. split; [reflexivity |]. cbn. congruence.
    + apply String.eqb_neq in X. rewrite dget_dset_neq by exact X. now exists c'.
  - split; [now rewrite calculate_comps |]. intros k x H. apply calculate_listed in H.
    destruct H as [H | (_ & c & I & E & P)].
    + destruct (G k x H) as ((c & D & E) & P). split; [| exact P]. exists c. now rewrite calculate_comps.
    + split; [| exact P]. exists c. rewrite calculate_comps. split; [now apply In_dget | exact E].
Qed.
Lemma good_session : forall os, good (session Q os).
Proof.
  intro os. unfold session. assert (G : good empty_net).
  { split; [constructor |]. intros k l (ls & E & _). discriminate E. }
  revert G. generalize empty_net. induction os as [| o os IH]; intros n G; [exact G |]. cbn [fold_left]. apply IH. now apply good_run.
Qed.

Lemma results_exact : forall os k l, let n := calculate Q true (session Q os) in
  (exists ls, dget k (n_res n) = Some ls /\ In l ls) <-> has n k l /\ q_params (Q k) <> [].
Proof.
  intros os k l n. pose proof (good_session os) as (N & G). subst n. fold (listed_in (calculate Q true (session Q os)) k l).
  rewrite calculate_listed. unfold has. rewrite calculate_comps. split.
  - intros [H | (_ & c & I & E & P)]; [now apply G |]. split; [| exact P]. exists c. split; [now apply In_dget | exact E].
  - intros ((c & D & E) & P). right. split; [reflexivity |]. exists c. repeat split; [now apply dget_In | exact E | exact P].
Qed.
Lemma results_never_foreign : forall os k l ls, dget k (n_res (session Q os)) = Some ls -> In l ls -> has (session Q os) k l.
Proof. intros os k l ls E I. apply (proj2 (good_session os)). now exists ls. Qed.

(* -------------------------------------------------- specification tables *)

Lemma dget_flags : forall cols f c, In c cols -> dget c (flags cols f) = Some (f c).
Proof.
  induction cols as [| a cols IH]; intros f c I; [destruct I |]. cbn [flags map dget]. fold (flags cols f).
  destruct (String.eqb c a) eqn:E; [apply String.eqb_eq in E; now subst |].
  destruct I as [-> | I]; [now rewrite String.eqb_refl in E |]. now apply IH.
Qed.
Lemma put_dget : forall l cols f t c, In c cols -> exists r, dget l (put l (flags cols f) t) = Some r /\ dget c r = Some (f c).
Proof.
  intros l cols f t c I. exists (flags cols f). split; [| now apply dget_flags].
  destruct cols as [| a cols]; [destruct I |]. cbn [flags map put]. apply dget_dset_eq.
Qed.
Lemma put_other : forall l l' r t, l <> l' -> dget l (put l' r t) = dget l t.
Proof. intros l l' r t N. unfold put. destruct r; [reflexivity |]. now apply dget_dset_neq. Qed.
Lemma put_shows : forall l c t, shows Q (put_all Q l c t) l c.
Proof.
  intros l c t. unfold shows. repeat split.
  - intros p I. destruct (put_dget l _ (o_set c) (t_props t) p I) as (r & A & B).
    destruct (put_dget l _ (o_var c) (t_vars t) p I) as (r' & A' & B'). exists r, r'. now repeat split.
  - intros g I. exact (put_dget l _ (o_set c) (t_groups t) g I).
  - intros g I. exact (put_dget l _ (o_set c) (t_chars t) g I).
Qed.
Lemma put_shows_other : forall l c l' c' t, l <> l' -> shows Q t l c -> shows Q (put_all Q l' c' t) l c.
Proof.
  intros l c l' c' t N (A & B & C). unfold shows. cbn [put_all t_props t_vars t_groups t_chars].
  repeat split; intros x I; rewrite !put_other by exact N; auto.
Qed.
Lemma spec_kept : forall cs n k t, dget k (n_spec n) = Some t -> exists t', dget k (n_spec (over (spec_comp Q) cs n)) = Some t'.
Proof.
  induction cs as [| [l c] cs IH]; intros n k t H; [now exists t |]. rewrite over_cons.
  unfold spec_comp at 2. cbn [fst snd]. destruct (dget (o_class c) (n_spec n)) as [t0 |] eqn:D; [| now apply (IH n k t)].
  destruct (String.eqb k (o_class c)) eqn:K.
  - apply String.eqb_eq in K. subst k. apply (IH _ _ (put_all Q l c t0)). cbn [n_spec]. apply dget_dset_eq.
  - apply String.eqb_neq in K. apply (IH _ _ t). cbn [n_spec]. now rewrite dget_dset_neq.
Qed.
Lemma spec_stays : forall cs n l c t, ~ In l (map fst cs) -> dget (o_class c) (n_spec n) = Some t -> shows Q t l c ->
  exists t', dget (o_class c) (n_spec (over (spec_comp Q) cs n)) = Some t' /\ shows Q t' l c.
Proof.
  induction cs as [| [l' c'] cs IH]; intros n l c t N D S; [now exists t |]. rewrite over_cons.
  cbn [map fst In] in N. unfold spec_comp at 2. cbn [fst snd].
  destruct (dget (o_class c') (n_spec n)) as [t0 |] eqn:D0; [| now apply (IH n l c t); [tauto | |]].
  destruct (String.eqb (o_class c) (o_class c')) eqn:K.
  - apply String.eqb_eq in K. rewrite <- K in *. rewrite D in D0. injection D0 as <-.
    apply (IH _ l c (put_all Q l' c' t)); [tauto | cbn [n_spec]; apply dget_dset_eq |].
    apply put_shows_other; [| exact S]. intros ->. apply N. now left.
  - apply String.eqb_neq in K. apply (IH _ l c t); [tauto | cbn [n_spec]; now rewrite dget_dset_neq | exact S].
Qed.
Lemma spec_shows : forall cs n l c, NoDup (map fst cs) -> In (l, c) cs -> (forall l c, In (l, c) cs -> dget (o_class c) (n_spec n) <> None) ->
  exists t, dget (o_class c) (n_spec (over (spec_comp Q) cs n)) = Some t /\ shows Q t l c.
Proof.
  induction cs as [| [l' c'] cs IH]; intros n l c ND I H; [destruct I |]. inversion ND as [| ? ? NI ND']; subst.
  rewrite over_cons. destruct I as [I | I].
  - injection I as -> ->. destruct (dget (o_class c) (n_spec n)) as [t |] eqn:D; [| now destruct (H l c (or_introl eq_refl))].
    apply (spec_stays cs _ l c (put_all Q l c t) NI); [| apply put_shows].
    unfold spec_comp. cbn [fst snd]. rewrite D. cbn [n_spec]. apply dget_dset_eq.
  - apply IH; [exact ND' | exact I |]. intros l0 c0 I0. specialize (H l0 c0 (or_intror I0)).
    destruct (dget (o_class c0) (n_spec n)) as [t |] eqn:D; [| congruence].
    destruct (spec_kept [(l', c')] n (o_class c0) t D) as (t' & E). rewrite over_cons in E. cbn [over fold_left] in E. congruence.
Qed.
Lemma specs_current : forall b os l c, let n := calculate Q b (session Q os) in dget l (n_comps n) = Some c ->
  exists t, dget (o_class c) (n_spec n) = Some t /\ shows Q t l c.
Proof.
  intros b os l c n D. pose proof (good_session os) as (N & _). subst n. rewrite calculate_comps in D. set (n := session Q os) in *.
  assert (X : exists t, dget (o_class c) (n_spec (over (spec_comp Q) (n_comps n) (over init_comp (map snd (n_comps n)) n))) = Some t /\ shows Q t l c).
  { apply spec_shows; [exact N | now apply dget_In |]. intros l' c' I. destruct (init_spec (map snd (n_comps n)) n c') as (t & E).
    { change c' with (snd (l', c')). now apply in_map. } congruence. }
  unfold calculate. rewrite init_comps. destruct b; [rewrite res_spec |]; exact X.
Qed.
Lemma incomplete_rows : forall n k l, (exists ls, dget k (n_res (calculate Q false n)) = Some ls /\ In l ls) <-> (exists ls, dget k (n_res n) = Some ls /\ In l ls).
Proof.
  intros n k l. pose proof (calculate_listed false n k l) as H. unfold listed_in in H. rewrite H.
  split; [intros [X | (X & _)]; [exact X | discriminate X] | now left].
Qed.
End P.
