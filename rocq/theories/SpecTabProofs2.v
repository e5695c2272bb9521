(** Proofs about the report of the components of a network. *)
From Verif Require Import Base SpecTabModel SpecTabSpec SpecTabProofs.
Open Scope string_scope.
Open Scope list_scope.

Section P.
Variable Q : string -> cls.

(** Rows of the specification tables belong to components of the network. *)
Definition own_rows (n : net) (k : string) (cols : list string) (t : rows) : Prop := forall l, In l (keys t) -> has n k l /\ cols <> [].
Definition owned (n : net) : Prop := forall k t, dget k (n_spec n) = Some t ->
  own_rows n k (keys (q_groups (Q k))) (t_groups t) /\ own_rows n k (q_chars (Q k)) (t_chars t)
  /\ own_rows n k (q_params (Q k)) (t_vars t) /\ own_rows n k (q_params (Q k)) (t_props t).
Lemma own_more : forall n n' k cols t, (forall l, has n k l -> has n' k l) -> own_rows n k cols t -> own_rows n' k cols t.
Proof. intros n n' k cols t H O l I. destruct (O l I). auto. Qed.
Lemma owned_more : forall n n', n_spec n' = n_spec n -> (forall k l, has n k l -> has n' k l) -> owned n -> owned n'.
Proof.
  intros n n' E H O k t D. rewrite E in D. destruct (O k t D) as (A & B & C & F).
  split; [| split; [| split]]; apply (own_more n n' k); auto.
Qed.
Lemma keys_put : forall l r t x, In x (keys (put l r t)) -> In x (keys t) \/ (x = l /\ r <> []).
Proof.
  intros l r t x I. unfold put in I. destruct r; [now left |]. apply keys_dset in I.
  destruct I as [I | I]; [right; split; [exact I | discriminate] | now left].
Qed.
Lemma own_put : forall n l c cols f t, dget l (n_comps n) = Some c -> own_rows n (o_class c) cols t -> own_rows n (o_class c) cols (put l (flags cols f) t).
Proof.
  intros n l c cols f t D O x I. apply keys_put in I. destruct I as [I | (-> & N)]; [now apply O |].
  split; [now exists c |]. intros ->. now apply N.
Qed.
Lemma owned_spec : forall cs n, (forall l c, In (l, c) cs -> dget l (n_comps n) = Some c) -> owned n -> owned (over (spec_comp Q) cs n).
Proof.
  induction cs as [| [l c] cs IH]; intros n H O; [exact O |]. rewrite over_cons.
  assert (E : n_comps (spec_comp Q (l, c) n) = n_comps n).
  { unfold spec_comp. now destruct (dget (o_class (snd (l, c))) (n_spec n)). }
  apply IH. { intros l' c' I. rewrite E. apply H. now right. }
  unfold spec_comp. cbn [fst snd]. destruct (dget (o_class c) (n_spec n)) as [t |] eqn:D; [| exact O].
  intros k t' D'. cbn [n_spec] in D'. destruct (String.eqb k (o_class c)) eqn:K.
  - apply String.eqb_eq in K. subst k. rewrite dget_dset_eq in D'. injection D' as <-.
    destruct (O _ t D) as (A & B & C & F). pose proof (H l c (or_introl eq_refl)) as HL.
    unfold put_all. cbn [t_groups t_chars t_vars t_props]. split; [| split; [| split]]; apply own_put; assumption.
  - apply String.eqb_neq in K. rewrite dget_dset_neq in D' by exact K. exact (O k t' D').
Qed.
Lemma owned_init : forall cs n, owned n -> owned (over init_comp cs n).
Proof.
  induction cs as [| c cs IH]; intros n O; [exact O |]. rewrite over_cons. apply IH.
  intros k t D. unfold init_comp in D. cbn [n_spec] in D. destruct (dmem (o_class c) (n_spec n)); [exact (O k t D) |].
  destruct (String.eqb k (o_class c)) eqn:K.
  - apply String.eqb_eq in K. subst k. rewrite dget_dset_eq in D. injection D as <-. split; [| split; [| split]]; intros l [].
  - apply String.eqb_neq in K. rewrite dget_dset_neq in D by exact K. exact (O k t D).
Qed.
Lemma owned_calculate : forall b n, NoDup (keys (n_comps n)) -> owned n -> owned (calculate Q b n).
Proof.
  intros b n N O. unfold calculate. rewrite init_comps.
  assert (X : owned (over (spec_comp Q) (n_comps n) (over init_comp (map snd (n_comps n)) n))).
  { apply owned_spec; [| now apply owned_init]. intros l c I. rewrite init_comps. now apply In_dget. }
  destruct b; [| exact X]. revert X. apply owned_more; [apply res_spec |]. unfold has. intros k l H. now rewrite res_comps.
Qed.
Lemma owned_run : forall o n, (forall l, o <> Remove l) -> NoDup (keys (n_comps n)) -> owned n -> owned (run Q o n).
Proof.
  intros o n R N O. destruct o as [l c | l | l set var | b]; cbn [run].
  - destruct (dmem l (n_comps n)) eqn:M; [exact O |]. revert O. apply owned_more; [reflexivity |].
    intros k x (c' & D & E). exists c'. split; [| exact E]. cbn [n_comps]. rewrite dget_dset_neq; [exact D |].
    intros ->. unfold dmem in M. rewrite D in M. discriminate.
  - now destruct (R l).
  - destruct (dget l (n_comps n)) as [c |] eqn:D; [| exact O]. revert O. apply owned_more; [reflexivity |].
    intros k x (c' & D' & E'). unfold has. cbn [n_comps]. destruct (String.eqb x l) eqn:X.
    + apply String.eqb_eq in X. subst x. rewrite dget_dset_eq. eexists. split; [reflexivity |]. cbn. congruence.
    + apply String.eqb_neq in X. rewrite dget_dset_neq by exact X. now exists c'.
  - now apply owned_calculate.
Qed.
Lemma owned_session : forall os, no_removal os -> owned (session Q os).
Proof.
  intros os R. unfold session. assert (G : good Q empty_net).
  { split; [constructor |]. intros k l (ls & E & _). discriminate E. }
  assert (O : owned empty_net) by (intros k t D; discriminate D).
  revert G O R. generalize empty_net. induction os as [| o os IH]; intros n G O R; [exact O |]. cbn [fold_left]. apply IH.
  - now apply good_run.
  - apply owned_run; [| apply G | exact O]. intros l ->. apply (R l). now left.
  - intros l I. apply (R l). now right.
Qed.

(* ---------------------------------------------------------------- report *)

Lemma rmapM_ok : forall A B (f : A -> res B) (g : A -> B) l, (forall a, In a l -> f a = Ok (g a)) -> rmapM f l = Ok (map g l).
Proof.
  induction l as [| a l IH]; intro H; [reflexivity |]. cbn [rmapM map]. rewrite (H a) by now left. cbn [rbind].
  rewrite IH; [reflexivity |]. intros. apply H. now right.
Qed.
Lemma rmapM_err : forall A B (f : A -> res B) l a e, In a l -> f a = Err e -> (forall b e', In b l -> f b = Err e' -> e' = e) -> rmapM f l = Err e.
Proof.
  induction l as [| b l IH]; intros a e I F H; [destruct I |]. cbn [rmapM]. destruct I as [-> | I].
  - now rewrite F.
  - destruct (f b) as [v | e'] eqn:B'; cbn [rbind].
    + rewrite (IH a e I F); [reflexivity |]. intros. apply (H b0 e'); [now right | assumption].
    + f_equal. apply (H b e'); [now left | exact B'].
Qed.
Definition char_figs (cols : list string) (t : rows) : list (string * string) := concat (map (fun c => map (fun r => (fst r, c)) t) cols).
Lemma char_ok : forall n cols t, (forall l, In l (keys t) -> dget l (n_comps n) <> None) -> char_figures n cols t = Ok (char_figs cols t).
Proof.
  intros n cols t H. unfold char_figures.
  rewrite (rmapM_ok _ _ _ (fun c => map (fun r => (fst r, c)) t)); [reflexivity |].
  intros c _. apply rmapM_ok. intros r I. unfold comp_at. destruct (dget (fst r) (n_comps n)) eqn:D; [reflexivity |].
  exfalso. apply (H (fst r)); [now apply in_map | exact D].
Qed.
Definition group_figs (q : cls) (cols : list string) (t : rows) : list (string * string) :=
  concat (map (fun g => concat (map (fun r => map (fun e => (fst r, e)) (filter (fun e => smem e (q_lines q) || smem e (q_chars q))
    (match dget g (q_groups q) with Some es => es | None => [] end))) t)) cols).
Lemma group_ok : forall n q cols t, (forall l, In l (keys t) -> dget l (n_comps n) <> None) -> group_figures n q cols t = Ok (group_figs q cols t).
Proof.
  intros n q cols t H. unfold group_figures.
  rewrite (rmapM_ok _ _ _ (fun g => concat (map (fun r => map (fun e => (fst r, e)) (filter (fun e => smem e (q_lines q) || smem e (q_chars q))
    (match dget g (q_groups q) with Some es => es | None => [] end))) t))); [reflexivity |].
  intros g _. rewrite (rmapM_ok _ _ _ (fun r => map (fun e => (fst r, e)) (filter (fun e => smem e (q_lines q) || smem e (q_chars q))
    (match dget g (q_groups q) with Some es => es | None => [] end)))); [reflexivity |].
  intros r I. unfold comp_at. destruct (dget (fst r) (n_comps n)) eqn:D; [reflexivity |].
  exfalso. apply (H (fst r)); [now apply in_map | exact D].
Qed.
Lemma char_figs_In : forall cols t l c, In (l, c) (char_figs cols t) <-> In c cols /\ In l (keys t).
Proof.
  intros cols t l c. unfold char_figs. rewrite in_concat. split.
  - intros (x & I & J). apply in_map_iff in I. destruct I as (c' & <- & C). apply in_map_iff in J. destruct J as (r & E & R).
    injection E as <- <-. split; [exact C | now apply in_map].
  - intros (C & L). exists (map (fun r => (fst r, c)) t). split; [apply in_map_iff; now exists c |].
    apply in_map_iff in L. destruct L as (r & <- & R). apply in_map_iff. now exists r.
Qed.
Lemma group_figs_In : forall q cols t l e, In (l, e) (group_figs q cols t) -> In l (keys t).
Proof.
  intros q cols t l e I. unfold group_figs in I. apply in_concat in I. destruct I as (x & X & J).
  apply in_map_iff in X. destruct X as (g & <- & _). apply in_concat in J. destruct J as (y & Y & J).
  apply in_map_iff in Y. destruct Y as (r & <- & R). apply in_map_iff in J. destruct J as (e' & E & _). injection E as <- _. now apply in_map.
Qed.
Lemma in_force_In : forall cols t c, In c (in_force cols t) <-> In c cols /\ exists l r, In (l, r) t /\ dget c r = Some true.
Proof.
  intros cols t c. unfold in_force. rewrite filter_In. split.
  - intros (I & E). split; [exact I |]. apply existsb_exists in E. destruct E as ([l r] & R & B). cbn [snd] in B.
    exists l, r. split; [exact R |]. destruct (dget c r) as [[] |]; [reflexivity | discriminate | discriminate].
  - intros (I & l & r & R & B). split; [exact I |]. apply existsb_exists. exists (l, r). split; [exact R |]. cbn [snd]. now rewrite B.
Qed.
Lemma union_In : forall a b x, In x (union a b) <-> In x a \/ In x b.
Proof.
  intros a b x. unfold union. rewrite in_app_iff, filter_In. split; [tauto |]. intros [A | B]; [now left |].
  destruct (smem x a) eqn:M; [left; now apply smem_In | right]. split; [exact B | reflexivity].
Qed.
Lemma last_row_spec : forall loops, match last_row loops with Some l => exists ls, In ls loops /\ In l ls | None => forall ls, In ls loops -> ls = [] end.
Proof.
  intro loops. unfold last_row.
  assert (G : forall loops acc, match fold_left (fun r l => match rev l with [] => r | x :: _ => Some x end) loops acc with
     | Some l => (exists ls, In ls loops /\ In l ls) \/ acc = Some l | None => acc = None /\ forall ls : list string, In ls loops -> ls = [] end).
  { induction loops0 as [| a loops0 IH]; intro acc.
    - cbn. destruct acc; [now right | split; [reflexivity | intros ls []]].
    - cbn [fold_left]. specialize (IH (match rev a with [] => acc | x :: _ => Some x end)).
      destruct (fold_left _ loops0 _) as [l |].
      + destruct IH as [(ls & I & J) | E]; [left; exists ls; split; [now right | exact J] |].
        destruct (rev a) as [| x xs] eqn:R; [now right |]. injection E as ->. left. exists a. split; [now left |].
        apply in_rev. rewrite R. now left.
      + destruct IH as (E & H). destruct (rev a) as [| x xs] eqn:R; [| discriminate E]. split; [exact E |].
        intros ls [<- | I]; [| now apply H]. rewrite <- (rev_involutive a), R. reflexivity. }
  specialize (G loops None). destruct (fold_left _ loops None) as [l |].
  - destruct G as [G | G]; [exact G | discriminate G].
  - apply G.
Qed.
Lemma unique_In : forall l x, In x (unique l) <-> In x l.
Proof.
  induction l as [| a l IH]; intro x; [reflexivity |]. cbn [unique In]. rewrite filter_In, IH. split.
  - intros [H | (H & _)]; auto.
  - intros [H | H]; [now left |]. destruct (String.eqb x a) eqn:E; [apply String.eqb_eq in E; left; now subst | right; now split].
Qed.
Lemma has_unique : forall n k, NoDup (keys (n_comps n)) -> (In k (unique (map (fun c => o_class (snd c)) (n_comps n))) <-> exists l, has n k l).
Proof.
  intros n k N. rewrite unique_In, in_map_iff. split.
  - intros ([l c] & E & I). exists l, c. split; [now apply In_dget | exact E].
  - intros (l & c & D & E). exists (l, c). split; [exact E | now apply dget_In].
Qed.

Lemma report_class_ok : forall os k, let n := calculate Q true (session Q os) in no_removal os -> (exists l, has n k l) ->
  exists ls figs, report_class Q n k = Ok (ls, figs)
  /\ (forall l, In l ls <-> has n k l /\ has_columns (Q k))
  /\ (forall l f, In (l, f) figs -> has n k l)
  /\ (forall l c f, dget l (n_comps n) = Some c -> o_class c = k -> In f (q_chars (Q k)) -> o_set c f = true -> In (l, f) figs).
Proof.
  intros os k n R (l0 & c0 & D0 & E0).
  pose proof (good_session Q os) as (N & _).
  assert (O : owned n) by (apply owned_calculate; [exact N | now apply owned_session]).
  pose proof (results_exact Q os k) as RE. cbn zeta in RE. fold n in RE.
  assert (SC : forall l c, dget l (n_comps n) = Some c -> exists t, dget (o_class c) (n_spec n) = Some t /\ shows Q t l c)
    by (intros l c D; exact (specs_current Q true os l c D)).
  destruct (SC l0 c0 D0) as (t & T & _). rewrite E0 in T.
  assert (RS : exists res, dget k (n_res n) = Some res).
  { subst k. unfold n, calculate. rewrite spec_comps, init_comps.
    assert (X : In (l0, c0) (n_comps (session Q os))) by (unfold n in D0; rewrite calculate_comps in D0; now apply dget_In).
    pose proof (over_prepared Q (session Q os) l0 c0 X) as P.
    assert (K : forall cs m, dget (o_class c0) (n_res m) <> None -> dget (o_class c0) (n_res (over (res_comp Q) cs m)) <> None).
    { induction cs as [| lc cs IH]; intros m H; [exact H |]. rewrite over_cons. apply IH. now apply res_kept. }
    specialize (K (n_comps (session Q os)) _ P). destruct (dget (o_class c0) (n_res (over (res_comp Q) _ _))) as [res |]; [now exists res | congruence]. }
  destruct RS as (res & RS). destruct (O k t T) as (OG & OC & OV & OP).
  assert (IN : forall k l, has n k l -> dget l (n_comps n) <> None) by (intros k' l (c & D & _); congruence).
  unfold report_class. rewrite RS, T. cbn zeta.
  rewrite char_ok by (intros l I; apply (IN k); now apply OC). cbn [rbind].
  rewrite group_ok by (intros l I; apply (IN k); now apply OG). cbn [rbind].
  set (gs := in_force (keys (q_groups (Q k))) (t_groups t)). set (cs := in_force (q_chars (Q k)) (t_chars t)).
  set (labels := union (union res (keys (t_groups t))) (keys (t_chars t))).
  assert (HR : forall l, In l res <-> has n k l /\ q_params (Q k) <> []).
  { intro l. rewrite <- RE. split; [intro I; now exists res |]. intros (ls & E & I). congruence. }
  assert (KD : forall (d : rows) l r, dget l d = Some r -> In l (keys d)).
  { intros d l r D. apply dget_In in D. change l with (fst (l, r)). now apply in_map. }
  assert (L : forall l, In l labels <-> has n k l /\ has_columns (Q k)).
  { intro l. unfold labels. rewrite !union_In, HR. unfold has_columns. split.
    - intros [[(A & B) | A] | A]; [tauto | |].
      + destruct (OG l A) as (H & G). split; [exact H |]. right. left. intro Z. apply G. now rewrite Z.
      + destruct (OC l A) as (H & G). tauto.
    - intros (H & [P | [G | C]]); [now left; left | left; right | right]; destruct H as (c & D & E);
        destruct (SC l c D) as (t' & T' & S); rewrite E, T in T'; injection T' as <-; destruct S as (_ & SG & SH); rewrite E in SG, SH.
      + destruct (q_groups (Q k)) as [| [g es] gg] eqn:QG; [congruence |]. destruct (SG g) as (r & X & _); [now left |]. now apply (KD _ l r).
      + destruct (q_chars (Q k)) as [| g gg] eqn:QG; [congruence |]. destruct (SH g) as (r & X & _); [now left |]. now apply (KD _ l r). }
  assert (FIG : (forall l f, In (l, f) (char_figs cs (t_chars t) ++ group_figs (Q k) gs (t_groups t)) -> has n k l)
    /\ (forall l c f, dget l (n_comps n) = Some c -> o_class c = k -> In f (q_chars (Q k)) -> o_set c f = true ->
         In (l, f) (char_figs cs (t_chars t) ++ group_figs (Q k) gs (t_groups t)))).
  { split.
    - intros l f I. apply in_app_iff in I. destruct I as [I | I].
      + apply char_figs_In in I. now apply OC.
      + apply group_figs_In in I. now apply OG.
    - intros l c f D E I S. apply in_app_iff. left. apply char_figs_In.
      destruct (SC l c D) as (t' & T' & SH). rewrite E, T in T'. injection T' as <-. destruct SH as (_ & _ & SH). rewrite E in SH.
      destruct (SH f I) as (r & X & Y). split; [| now apply (KD _ l r)].
      apply in_force_In. split; [exact I |]. exists l, r. split; [now apply dget_In |]. now rewrite Y, S. }
  destruct labels as [| x xs] eqn:LB.
  - exists [], []. split; [reflexivity |]. split; [exact L |]. split; [intros l f [] |].
    intros l c f D E I S. destruct FIG as (F1 & F2). exfalso. apply (L l). split; [now exists c |]. right. right. intro Z. rewrite Z in I. destruct I.
  - match goal with |- context [headers n ?a ?b] => assert (H : headers n a b = Ok tt) end.
    { unfold headers. destruct (filter _ _) as [| z zs] eqn:F; [reflexivity |].
      assert (Z : In z (in_force (q_params (Q k)) (t_props t) ++ in_force (q_params (Q k)) (t_vars t) ++ gs ++ cs)).
      { assert (Z : In z (z :: zs)) by now left. rewrite <- F in Z. now apply filter_In in Z. }
      match goal with |- context [last_row ?b] => pose proof (last_row_spec b) as LS; destruct (last_row b) as [l |] end.
      - destruct LS as (ls & I & J). assert (X : has n k l).
        { cbn [In] in I. destruct I as [<- | [<- | [<- | []]]].
          - destruct (q_params (Q k)); [destruct J |]. now apply HR.
          - destruct cs; [destruct J |]. now apply OC.
          - destruct gs; [destruct J |]. now apply OG. }
        unfold comp_at. destruct (dget l (n_comps n)) eqn:D; [reflexivity |]. now destruct (IN k l X).
      - exfalso. rewrite !in_app_iff in Z.
        assert (PP : forall r l, In (l, r) (t_props t) \/ In (l, r) (t_vars t) -> False).
        { intros r l I. assert (HK : has n k l /\ q_params (Q k) <> []).
          { destruct I as [I | I]; [apply OP | apply OV]; change l with (fst (l, r)); now apply in_map. }
          assert (RI : In l res) by now apply HR. destruct HK as (_ & HK).
          specialize (LS (match q_params (Q k) with [] => [] | _ => res end) (or_introl eq_refl)).
          destruct (q_params (Q k)); [congruence |]. rewrite LS in RI. destruct RI. }
        destruct Z as [Z | [Z | [Z | Z]]].
        + apply in_force_In in Z. destruct Z as (_ & l & r & I & _). apply (PP r l). now left.
        + apply in_force_In in Z. destruct Z as (_ & l & r & I & _). apply (PP r l). now right.
        + specialize (LS (match gs with [] => [] | _ => keys (t_groups t) end) (or_intror (or_intror (or_introl eq_refl)))).
          destruct gs as [| g gg] eqn:G; [destruct Z |]. assert (Y : In g (in_force (keys (q_groups (Q k))) (t_groups t))) by (fold gs; rewrite G; now left).
          apply in_force_In in Y. destruct Y as (_ & l & r & I & _). apply (in_map fst) in I. unfold keys in LS. rewrite LS in I. destruct I.
        + specialize (LS (match cs with [] => [] | _ => keys (t_chars t) end) (or_intror (or_introl eq_refl))).
          destruct cs as [| g gg] eqn:G; [destruct Z |]. assert (Y : In g (in_force (q_chars (Q k)) (t_chars t))) by (fold cs; rewrite G; now left).
          apply in_force_In in Y. destruct Y as (_ & l & r & I & _). apply (in_map fst) in I. unfold keys in LS. rewrite LS in I. destruct I. }
    rewrite H. cbn [rmap]. do 2 eexists. split; [reflexivity |]. split; [exact L |]. exact FIG.
Qed.

Lemma report_ok : forall os, let n := calculate Q true (session Q os) in no_removal os ->
  exists rep, report Q n = Ok rep /\ (forall k, In k (keys rep) <-> exists l, has n k l)
  /\ forall k ls figs, In (k, (ls, figs)) rep -> 
       (forall l, In l ls <-> has n k l /\ has_columns (Q k))
       /\ (forall l f, In (l, f) figs -> has n k l)
       /\ (forall l c f, dget l (n_comps n) = Some c -> o_class c = k -> In f (q_chars (Q k)) -> o_set c f = true -> In (l, f) figs).
Proof.
  intros os n R. assert (N : NoDup (keys (n_comps n))).
  { unfold n. rewrite calculate_comps. apply good_session. }
  set (cls := unique (map (fun c => o_class (snd c)) (n_comps n))).
  set (g := fun k => match report_class Q n k with Ok r => (k, r) | Err _ => (k, ([], [])) end).
  assert (E : report Q n = Ok (map g cls)).
  { unfold report. fold cls. apply rmapM_ok. intros k I. apply (has_unique n k N) in I.
    destruct (report_class_ok os k R I) as (ls & figs & E & _). fold n in E. unfold g. now rewrite E. }
  exists (map g cls). split; [exact E |]. split.
  - intro k. rewrite <- (has_unique n k N). fold cls. unfold keys. rewrite map_map.
    replace (map (fun x => fst (g x)) cls) with cls; [reflexivity |].
    rewrite <- (map_id cls) at 1. apply map_ext. intro a. unfold g. now destruct (report_class Q n a).
  - intros k ls figs I. apply in_map_iff in I. destruct I as (k' & G & I). apply (has_unique n k' N) in I.
    destruct (report_class_ok os k' R I) as (ls' & figs' & E' & X). fold n in E', X. unfold g in G. rewrite E' in G.
    injection G as <- <- <-. exact X.
Qed.

(** with a removed component *)
Lemma report_fails : forall os k l l0 c0 f t, let n := calculate Q true (session Q os) in
  dget k (n_spec n) = Some t -> In l (keys (t_chars t)) -> dget l (n_comps n) = None ->
  dget l0 (n_comps n) = Some c0 -> o_class c0 = k -> In f (q_chars (Q k)) -> o_set c0 f = true ->
  report_class Q n k = Err AttributeError /\ exists e, report Q n = Err e.
Proof.
  intros os k l l0 c0 f t n T I D D0 E0 F S.
  assert (SC : exists t, dget (o_class c0) (n_spec n) = Some t /\ shows Q t l0 c0) by exact (specs_current Q true os l0 c0 D0).
  destruct SC as (t' & T' & SH). rewrite E0, T in T'. injection T' as <-. destruct SH as (_ & _ & SH). rewrite E0 in SH.
  destruct (SH f F) as (r & X & Y). rewrite S in Y.
  assert (RC : report_class Q n k = Err AttributeError).
  { unfold report_class. assert (RS : exists res, dget k (n_res n) = Some res).
    { subst k. unfold n, calculate. rewrite spec_comps, init_comps.
      assert (Z : In (l0, c0) (n_comps (session Q os))) by (unfold n in D0; rewrite calculate_comps in D0; now apply dget_In).
      pose proof (over_prepared Q (session Q os) l0 c0 Z) as P.
      assert (K : forall cs m, dget (o_class c0) (n_res m) <> None -> dget (o_class c0) (n_res (over (res_comp Q) cs m)) <> None).
      { induction cs as [| lc cs IH]; intros m H; [exact H |]. rewrite over_cons. apply IH. now apply res_kept. }
      specialize (K (n_comps (session Q os)) _ P). destruct (dget (o_class c0) (n_res (over (res_comp Q) _ _))) as [res |]; [now exists res | congruence]. }
    destruct RS as (res & RS). rewrite RS, T. cbn zeta.
    assert (CF : char_figures n (in_force (q_chars (Q k)) (t_chars t)) (t_chars t) = Err AttributeError).
    { unfold char_figures. apply in_map_iff in I. destruct I as (r0 & R0 & I). 
      rewrite (rmapM_err _ _ _ _ f AttributeError); [reflexivity | | |].
      - apply in_force_In. split; [exact F |]. exists l0, r. split; [now apply dget_In | exact Y].
      - apply (rmapM_err _ _ _ _ r0); [exact I | unfold comp_at; now rewrite R0, D |].
        intros b e' _ B. unfold comp_at in B. destruct (dget (fst b) (n_comps n)); [discriminate B |]. injection B as <-. reflexivity.
      - intros b e' _ B. clear - B. revert e' B. generalize (t_chars t). induction r as [| r1 rs IH]; intros e' B; [discriminate B |].
        cbn [rmapM] in B. unfold comp_at in B at 1. destruct (dget (fst r1) (n_comps n)); cbn [rmap rbind] in B; [| now injection B].
        destruct (rmapM _ rs) as [v | e1] eqn:M; [discriminate B |]. cbn in B. injection B as <-. now apply IH. }
    rewrite CF. reflexivity. }
  split; [exact RC |]. unfold report.
  assert (U : In k (unique (map (fun c => o_class (snd c)) (n_comps n)))).
  { apply unique_In. apply in_map_iff. exists (l0, c0). split; [exact E0 | now apply dget_In]. }
  revert U. generalize (unique (map (fun c => o_class (snd c)) (n_comps n))). induction l1 as [| a l1 IH]; intro U; [destruct U |].
  cbn [rmapM]. destruct U as [-> | U]; [rewrite RC; now exists AttributeError |].
  destruct (report_class Q n a) as [v | e]; cbn [rmap rbind]; [| now exists e].
  destruct (IH U) as (e & E). rewrite E. now exists e.
Qed.
End P.
