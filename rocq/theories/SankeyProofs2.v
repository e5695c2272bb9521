(** Lemmas about Sankey links and the tables of an analysis. *)
From Coq Require Import QArith Qabs Lia Lqa.
From Verif Require Import Base ExergyModel AnalysisModel AnalysisSpec AnalysisProofs AnalysisProofs2 SankeyModel SankeySpec SankeyProofs.
Open Scope Q_scope.
Open Scope list_scope.

(* --------------------------------------------------------------------- positions *)

Lemma index_first x l i : index_of x l = Ok i <-> first_at x l i.
Proof.
  unfold first_at. revert i. induction l as [|y l IH]; cbn; intros i.
  - split; [discriminate|]. intros (H & _). destruct i; discriminate.
  - destruct (String.eqb_spec x y) as [->|N].
    + split.
      * intros H. injection H as <-. split; [reflexivity|]. intros j L. lia.
      * intros (H & A). destruct i as [|i]; [reflexivity|]. exfalso. apply (A 0%nat); [lia|reflexivity].
    + destruct (index_of x l) as [k|e] eqn:E; cbn.
      * split.
        -- intros H. injection H as <-. destruct (proj1 (IH k) eq_refl) as (A & B). split; [exact A|]. intros [|j] L; cbn; [congruence|]. apply B. lia.
        -- intros (H & A). destruct i as [|i]; [cbn in H; congruence|]. f_equal. f_equal. assert (X : Ok k = Ok i :> res nat); [|congruence]. apply IH. split; [exact H|]. intros j L. apply (A (S j)). lia.
      * split; [discriminate|]. intros (H & A). destruct i as [|i]; [cbn in H; congruence|]. exfalso. assert (X : Err e = Ok i :> res nat); [|discriminate]. apply IH. split; [exact H|]. intros j L. apply (A (S j)). lia.
Qed.
Lemma index_in x l : In x l -> exists i, index_of x l = Ok i.
Proof.
  induction l as [|y l IH]; cbn; [contradiction|]. intros H. destruct (String.eqb_spec x y) as [->|N]; [eauto|]. destruct H as [H|H]; [congruence|]. destruct (IH H) as (i & ->). cbn. eauto.
Qed.
Lemma mapM_In {A B} (f : A -> res B) l r : rmapM f l = Ok r -> forall b, In b r <-> exists a, In a l /\ f a = Ok b.
Proof.
  revert r. induction l as [|a l IH]; cbn; intros r H.
  - injection H as <-. intros b. split; [contradiction|]. intros (a & [] & _).
  - destruct (f a) as [b0|] eqn:F; cbn in H; [|discriminate]. destruct (rmapM f l) as [r'|] eqn:E; cbn in H; [|discriminate]. injection H as <-. intros b. cbn. rewrite (IH r' eq_refl b). split.
    + intros [<-|(a' & I & G)]; eauto.
    + intros (a' & [<-|I] & G); [left; congruence|right; eauto].
Qed.
Lemma mapM_all {A B} (f : A -> res B) l r a : rmapM f l = Ok r -> In a l -> exists b, f a = Ok b /\ In b r.
Proof.
  revert r. induction l as [|a' l IH]; cbn; intros r H; [contradiction|]. destruct (f a') as [b0|] eqn:F; cbn in H; [|discriminate]. destruct (rmapM f l) as [r'|] eqn:E; cbn in H; [|discriminate]. injection H as <-.
  intros [<-|I]; [exists b0; cbn; auto|]. destruct (IH r' eq_refl I) as (b & G & J). exists b. cbn. auto.
Qed.
Lemma mapM_total {A B} (f : A -> res B) l : (forall a, In a l -> exists b, f a = Ok b) -> exists r, rmapM f l = Ok r.
Proof.
  induction l as [|a l IH]; cbn; intros H; [eauto|]. destruct (H a (or_introl eq_refl)) as (b & ->). destruct IH as (r & ->); [auto|]. cbn. eauto.
Qed.

(* ------------------------------------------------------------------------- links *)

Section Links.
Variables (pal : dict string) (order : list string).
Definition is_link (l : slink) (g : string) (k : string * string) (v : num) : Prop :=
  v = Some (l_val l) /\ 0 < l_val l /\ first_at g order (l_src l) /\ first_at (fst k) order (l_tgt l) /\ dget (snd k) pal = Some (l_col l).
Lemma cell_spec src k v r : cell_link pal order src k v = Ok r -> forall l, In l r <->
  l_src l = src /\ v = Some (l_val l) /\ 0 < l_val l /\ first_at (fst k) order (l_tgt l) /\ dget (snd k) pal = Some (l_col l).
Proof.
  unfold cell_link. destruct v as [q|].
  - destruct (Qle_bool q 0) eqn:Q.
    + intros H. injection H as <-. intros l. split; [contradiction|]. intros (_ & E & P & _). injection E as ->. apply Qle_bool_iff in Q. lra.
    + assert (P : 0 < q). { apply Qnot_le_lt. intros L. apply Qle_bool_iff in L. congruence. }
      destruct (index_of (fst k) order) as [t|] eqn:I; cbn; [|discriminate]. destruct (dget (snd k) pal) as [c|] eqn:C; [|discriminate]. intros H. injection H as <-. intros l. cbn. split.
      * intros [<-|[]]. cbn. apply index_first in I. auto.
      * intros (S & E & _ & F & D). left. apply index_first in F. destruct l as [a b v c']. cbn in *. rewrite I in F. injection F as ->. injection E as ->. injection D as ->. now subst.
  - intros H. injection H as <-. intros l. split; [contradiction|]. intros (_ & E & _). discriminate.
Qed.
Lemma row_spec src r ls : row_links pal order src r = Ok ls -> forall l, In l ls <->
  exists c, l_src l = src /\ cell c (snd r) = Some (l_val l) /\ 0 < l_val l /\ first_at (fst (fst r)) order (l_tgt l) /\ dget (snd (fst r)) pal = Some (l_col l).
Proof.
  destruct r as [k [[a b] c]]. unfold row_links. cbn [fst snd].
  destruct (cell_link pal order src k a) as [x|] eqn:A; cbn [rbind]; [|discriminate]. destruct (cell_link pal order src k b) as [y|] eqn:B; cbn [rbind]; [|discriminate]. destruct (cell_link pal order src k c) as [z|] eqn:C; cbn [rbind]; [|discriminate].
  intros H. injection H as <-. intros l. rewrite !in_app_iff, (cell_spec _ _ _ _ A l), (cell_spec _ _ _ _ B l), (cell_spec _ _ _ _ C l). split.
  - intros [H|[H|H]]; [exists Chemical|exists Physical|exists Massless]; exact H.
  - intros ([| |] & H); cbn in H; tauto.
Qed.
Lemma table_spec e ls : table_links pal order e = Ok ls -> forall l, In l ls <-> exists k v c, In (k, v) (snd e) /\ is_link l (fst e) k (cell c v).
Proof.
  unfold table_links. destruct (index_of (fst e) order) as [src|] eqn:I; cbn [rbind]; [|discriminate]. destruct (rmapM (row_links pal order src) (snd e)) as [rs|] eqn:M; cbn; [|discriminate].
  intros H. injection H as <-. intros l. rewrite in_concat. split.
  - intros (x & X & L). apply (mapM_In _ _ _ M) in X. destruct X as ((k, v) & IR & R). apply (row_spec _ _ _ R) in L. destruct L as (c & S & V & P & T & D). exists k, v, c. split; [exact IR|].
    unfold is_link. apply index_first in I. subst src. auto.
  - intros (k & v & c & IR & V & P & S & T & D). destruct (mapM_all _ _ _ _ M IR) as (x & R & X). exists x. split; [exact X|]. apply (row_spec _ _ _ R). exists c. apply index_first in S. split; [congruence|]. auto.
Qed.
Lemma all_spec sk rs : rmapM (table_links pal order) sk = Ok rs -> forall l, In l (concat rs) <-> exists g t k v c, In (g, t) sk /\ In (k, v) t /\ is_link l g k (cell c v).
Proof.
  intros M l. rewrite in_concat. split.
  - intros (x & X & L). apply (mapM_In _ _ _ M) in X. destruct X as ((g, t) & IR & R). apply (table_spec _ _ R) in L. destruct L as (k & v & c & J & S). exists g, t, k, v, c. auto.
  - intros (g & t & k & v & c & IR & J & S). destruct (mapM_all _ _ _ _ M IR) as (x & R & X). exists x. split; [exact X|]. apply (table_spec _ _ R). eauto.
Qed.

(** Totals. *)
Definition vals (ls : list slink) : Q := sumq ls l_val.
Lemma vals_app a b : vals (a ++ b) == vals a + vals b.
Proof. apply sumq_app. Qed.
Lemma cell_total src k v r : cell_link pal order src k v = Ok r -> vals r == positive v.
Proof.
  unfold cell_link, positive. destruct v as [q|]; [|intros H; injection H as <-; reflexivity]. destruct (Qle_bool q 0); [intros H; injection H as <-; reflexivity|].
  destruct (index_of (fst k) order); cbn; [|discriminate]. destruct (dget (snd k) pal); [|discriminate]. intros H. injection H as <-. cbn. lra.
Qed.
Definition row_total (r : (string * string) * vec) : Q := positive (cell Chemical (snd r)) + positive (cell Physical (snd r)) + positive (cell Massless (snd r)).
Lemma row_vals src r ls : row_links pal order src r = Ok ls -> vals ls == row_total r.
Proof.
  destruct r as [k [[a b] c]]. unfold row_links, row_total. cbn [fst snd cell].
  destruct (cell_link pal order src k a) as [x|] eqn:A; cbn [rbind]; [|discriminate]. destruct (cell_link pal order src k b) as [y|] eqn:B; cbn [rbind]; [|discriminate]. destruct (cell_link pal order src k c) as [z|] eqn:C; cbn [rbind]; [|discriminate].
  intros H. injection H as <-. rewrite !vals_app, (cell_total _ _ _ _ A), (cell_total _ _ _ _ B), (cell_total _ _ _ _ C). lra.
Qed.
Lemma concat_vals {A} (f : A -> res (list slink)) w l rs : (forall a r, In a l -> f a = Ok r -> vals r == w a) -> rmapM f l = Ok rs -> vals (concat rs) == sumq l w.
Proof.
  revert rs. induction l as [|a l IH]; cbn; intros rs W H; [injection H as <-; reflexivity|]. destruct (f a) as [r|] eqn:F; cbn in H; [|discriminate]. destruct (rmapM f l) as [rs'|] eqn:M; cbn in H; [|discriminate]. injection H as <-.
  cbn. rewrite vals_app, (W a r (or_introl eq_refl) F). rewrite (IH rs' (fun a r I => W a r (or_intror I)) eq_refl). reflexivity.
Qed.
Lemma shown_sumq sk : shown_total sk == sumq sk (fun e => sumq (snd e) row_total).
Proof.
  assert (X : forall t s, fold_right (fun r s => positive (cell Chemical (snd r)) + positive (cell Physical (snd r)) + positive (cell Massless (snd r)) + s) s t == sumq t row_total + s).
  { induction t as [|r t IH]; cbn [fold_right]; intros s; [rewrite sumq_nil; lra|]. rewrite IH. rewrite sumq_cons. unfold row_total. lra. }
  unfold shown_total. induction sk as [|e sk IH]; cbn [fold_right]; [reflexivity|]. rewrite X, sumq_cons, IH. reflexivity.
Qed.
Lemma links_total sk rs : rmapM (table_links pal order) sk = Ok rs -> vals (concat rs) == shown_total sk.
Proof.
  intros M. rewrite shown_sumq. apply (concat_vals (table_links pal order)); [|exact M]. intros e r _. unfold table_links. destruct (index_of (fst e) order) as [src|]; cbn [rbind]; [|discriminate].
  destruct (rmapM (row_links pal order src) (snd e)) as [x|] eqn:E; cbn; [|discriminate]. intros H. injection H as <-. apply (concat_vals (row_links pal order src)); [|exact E]. intros a b _. apply row_vals.
Qed.

(** Existence. *)
Lemma cell_ok src k v : In (fst k) order -> In (snd k) (keys pal) -> exists r, cell_link pal order src k v = Ok r.
Proof.
  intros I C. unfold cell_link. destruct v as [q|]; [|eauto]. destruct (Qle_bool q 0); [eauto|]. destruct (index_in _ _ I) as (i & ->). cbn. destruct (dget (snd k) pal) eqn:D; [eauto|]. apply dget_None_notin in D. contradiction.
Qed.
Lemma tables_ok sk : (forall g, In g (keys sk) -> In g order) -> closed sk -> in_categories (keys pal) sk -> exists rs, rmapM (table_links pal order) sk = Ok rs.
Proof.
  intros K C G. apply mapM_total. intros (g, t) I. unfold table_links. cbn [fst snd]. destruct (index_in g order) as (src & ->); [apply K; unfold keys; apply in_map_iff; exists (g, t); auto|]. cbn [rbind].
  destruct (mapM_total (row_links pal order src) t) as (r & ->); [|cbn; eauto]. intros (k, ((a, b), c)) J. unfold row_links. cbn [fst snd].
  assert (T : In (fst k) order). { apply K. apply (C g). exists t, (snd k), (a, b, c). split; [exact I|]. destruct k. exact J. }
  assert (P : In (snd k) (keys pal)) by (eapply G; eauto).
  destruct (cell_ok src k a T P) as (x & ->). destruct (cell_ok src k b T P) as (y & ->). destruct (cell_ok src k c T P) as (z & ->). cbn. eauto.
Qed.
End Links.

(* ----------------------------------------------------- categories of removed groups *)

Lemma bypass_rows g s sk a t k v : NoDup (keys sk) -> In (a, t) (bypass g s sk) -> In (k, v) t -> exists g' t' v', In (g', t') sk /\ In (k, v') t'.
Proof.
  intros U I J. assert (UD : NoDup (keys (dset s (drop_target g (frame_add (table_of s sk) (table_of g sk))) sk))) by (now apply NoDup_keys_dset).
  assert (D : dget a (dset s (drop_target g (frame_add (table_of s sk) (table_of g sk))) sk) = Some t).
  { unfold bypass in I. apply In_dget in I; [|now apply NoDup_keys_ddel]. destruct (string_dec a g) as [->|N]; [rewrite dget_ddel_eq in I by exact UD; discriminate|]. now rewrite dget_ddel_neq in I by auto. }
  assert (TO : forall x w, In (k, w) (table_of x sk) -> exists g' t' v', In (g', t') sk /\ In (k, v') t').
  { intros x w L. unfold table_of in L. destruct (dget x sk) as [t'|] eqn:E; [|contradiction]. apply dget_In in E. eauto. }
  destruct (string_dec a s) as [->|N].
  - rewrite dget_dset_eq in D. injection D as <-. unfold drop_target in J. apply filter_In in J. destruct J as (J & _). unfold frame_add in J. apply in_app_iff in J. destruct J as [J|J].
    + apply in_map_iff in J. destruct J as ((k', v') & E & J). cbn in E. injection E as -> _. eauto.
    + apply filter_In in J. destruct J as (J & _). eauto.
  - rewrite dget_dset_neq in D by auto. apply dget_In in D. eauto.
Qed.
Lemma In_ddel {V} a (t : V) g d : In (a, t) (ddel g d) -> In (a, t) d.
Proof. induction d as [|(k, v) d IH]; cbn; [auto|]. destruct (String.eqb g k); cbn; tauto. Qed.
Lemma steps_categories R C sk sk' : proper sk -> steps R sk sk' -> in_categories C sk -> in_categories C sk'.
Proof.
  intros P H. induction H as [sk|g s sk sk' CB H IH|g sk sk' CB H IH]; intros G; [exact G| |].
  - apply IH; [now apply proper_bypass with R|]. intros a t k v I J. destruct (bypass_rows g s sk a t k v (proj1 P) I J) as (g' & t' & v' & I' & J'). eapply G; eauto.
  - apply IH; [now apply proper_drop|]. intros a t k v I J. apply In_ddel in I. eapply G; eauto.
Qed.

(* ------------------------------------------------------------------------ threshold *)

Lemma above_In thr sk g t : In (g, t) (above thr sk) -> exists t', In (g, t') sk /\ t = filter (shown thr) t'.
Proof. unfold above. rewrite in_map_iff. intros ((g', t') & E & I). cbn in E. injection E as -> <-. eauto. Qed.
Lemma keys_above thr sk : keys (above thr sk) = keys sk.
Proof. unfold above, keys. rewrite map_map. reflexivity. Qed.
Lemma above_proper thr sk : proper sk -> proper (above thr sk).
Proof.
  intros (U & P). split; [now rewrite keys_above|]. intros g t I. apply above_In in I. destruct I as (t' & I & ->). apply filter_unique. eapply P; eauto.
Qed.
Lemma above_closed thr sk : closed sk -> closed (above thr sk).
Proof.
  intros C s g (t & c & v & I & J). rewrite keys_above. apply above_In in I. destruct I as (t' & I & ->). apply filter_In in J. apply (C s). exists t', c, v. tauto.
Qed.
Lemma above_categories C thr sk : in_categories C sk -> in_categories C (above thr sk).
Proof.
  intros G g t k v I J. apply above_In in I. destruct I as (t' & I & ->). apply filter_In in J. destruct J. eapply G; eauto.
Qed.

(* -------------------------------------------------------------------- input of plotly *)

Lemma input_run an groups order colors thr dis sk out : sankey_input an groups order colors thr dis sk = Ok out ->
  exists sk', remove_transit (S (length sk)) (reserved an) (above thr sk) = Ok sk' /\
  snd out = match order with [] => default_order an groups | _ => order end /\
  (forall l, In l (fst out) <-> exists g t k v c, In (g, t) sk' /\ In (k, v) t /\ is_link (palette colors) (snd out) l g k (cell c v)) /\
  sumq (fst out) l_val == shown_total sk' /\
  (order <> [] -> forall g, In g (keys sk') -> In g order).
Proof.
  unfold sankey_input. destruct (remove_transit (S (length sk)) (reserved an) (above thr sk)) as [sk'|]; cbn [rbind]; [|discriminate]. intros H. exists sk'. split; [reflexivity|]. cbv zeta in H.
  set (o := match order with [] => default_order an groups | _ => order end) in *.
  assert (X : rmap (fun ls => (concat ls, o)) (rmapM (table_links (palette colors) o) sk') = Ok out /\ (order <> [] -> forall g, In g (keys sk') -> In g order)).
  { destruct order as [|x order]; [split; [exact H|congruence]|]. destruct (missing (x :: order) sk') as [|y m] eqn:M; [|discriminate]. split; [exact H|]. intros _ g I. unfold missing in M.
    destruct (smem g (x :: order)) eqn:S; [now apply smem_In|]. assert (J : In g (filter (fun n => negb (smem n (x :: order))) (keys sk'))) by (apply filter_In; rewrite S; auto). rewrite M in J. contradiction. }
  clear H. destruct X as (H & K). destruct (rmapM (table_links (palette colors) o) sk') as [rs|] eqn:M; cbn in H; [|discriminate]. injection H as <-. cbn [fst snd]. split; [reflexivity|]. split; [|split; [|exact K]].
  - intros l. apply all_spec. exact M.
  - exact (links_total _ _ _ _ M).
Qed.
Lemma above_length thr sk : length (above thr sk) = length sk.
Proof. unfold above. apply map_length. Qed.
Lemma input_removed an thr sk : proper sk -> exists sk', remove_transit (S (length sk)) (reserved an) (above thr sk) = Ok sk'.
Proof. intros P. rewrite <- (above_length thr). apply transit_total. now apply above_proper. Qed.
Lemma input_missing an groups order colors thr dis sk sk' g : remove_transit (S (length sk)) (reserved an) (above thr sk) = Ok sk' ->
  order <> [] -> In g (keys sk') -> ~ In g order -> sankey_input an groups order colors thr dis sk = Err ValueError.
Proof.
  intros H N I M. unfold sankey_input. rewrite H. cbn [rbind]. destruct order as [|x order]; [congruence|]. destruct (missing (x :: order) sk') as [|y m] eqn:E; [|reflexivity].
  assert (J : In g (missing (x :: order) sk')); [|rewrite E in J; contradiction]. unfold missing. apply filter_In. split; [exact I|]. destruct (smem g (x :: order)) eqn:S; [|reflexivity]. apply smem_In in S. contradiction.
Qed.
Lemma input_ok an groups order colors thr dis sk : proper sk -> closed sk -> in_categories (keys (palette colors)) sk ->
  (forall g, In g (keys sk) -> In g match order with [] => default_order an groups | _ => order end) ->
  exists ls, sankey_input an groups order colors thr dis sk = Ok (ls, match order with [] => default_order an groups | _ => order end).
Proof.
  intros P C G K. unfold sankey_input. destruct (input_removed an thr sk P) as (sk' & H). rewrite H. cbn [rbind]. cbv zeta.
  pose proof (remove_steps _ _ _ _ H) as ST. pose proof (above_proper thr sk P) as PA. destruct (steps_keys _ _ _ PA ST) as (_ & KS & _). rewrite keys_above in KS.
  set (o := match order with [] => default_order an groups | _ => order end) in *.
  destruct (tables_ok (palette colors) o sk') as (rs & M).
  - intros g I. apply K. now apply KS.
  - apply (steps_closed _ _ _ PA ST). now apply above_closed.
  - apply (steps_categories _ _ _ _ PA ST). now apply above_categories.
  - rewrite M. cbn. exists (concat rs). destruct order as [|x order]; [reflexivity|]. destruct (missing (x :: order) sk') as [|y m] eqn:E; [reflexivity|]. exfalso.
    assert (J : In y (missing (x :: order) sk')) by (rewrite E; now left). unfold missing in J. apply filter_In in J. destruct J as (J & N). apply KS, K, smem_In in J. subst o. now rewrite J in N.
Qed.

(* ------------------------------------------------------------- tables of an analysis *)

Section Tables.
Variables (C : list string).
Definition row_ok (ks : list string) (r : (string * string) * vec) : Prop := In (fst (fst r)) ks /\ In (snd (fst r)) C.
Definition tables_good (sk : dict table) : Prop := proper sk /\ forall g t r, In (g, t) sk -> In r t -> row_ok (keys sk) r.
Lemma good_closed sk : tables_good sk -> closed sk.
Proof. intros (_ & A) s g (t & c & v & I & J). now destruct (A s t _ I J). Qed.
Lemma good_categories sk : tables_good sk -> in_categories C sk.
Proof. intros (_ & A) g t k v I J. now destruct (A g t _ I J). Qed.
Lemma tset_keys k v t : map fst (tset k v t) = map fst t /\ In k (map fst t) \/ map fst (tset k v t) = map fst t ++ [k] /\ ~ In k (map fst t).
Proof.
  induction t as [|(k', v') t IH]; cbn; [right; auto|]. destruct (key_eqb k k') eqn:E.
  - apply key_eqb_eq in E. subst. left. cbn. auto.
  - assert (N : k' <> k) by (intros ->; now rewrite key_eqb_refl in E). cbn. destruct IH as [(A & B)|(A & B)]; rewrite A; [left; auto|right]. split; [reflexivity|]. intros [X|X]; auto.
Qed.
Lemma tset_unique k v t : rows_unique t -> rows_unique (tset k v t).
Proof.
  unfold rows_unique. intros U. destruct (tset_keys k v t) as [(-> & _)|(-> & N)]; [exact U|]. apply NoDup_rev in U. rewrite <- (rev_involutive (map fst t ++ [k])). apply NoDup_rev. rewrite rev_app_distr. cbn. constructor; [|exact U]. now rewrite <- in_rev.
Qed.
Lemma tset_rows k v t r : In r (tset k v t) -> In (fst r) (map fst t) \/ fst r = k.
Proof.
  intros I. apply (in_map fst) in I. destruct (tset_keys k v t) as [(E & _)|(E & _)]; rewrite E in I; [auto|]. apply in_app_iff in I. destruct I as [I|[I|[]]]; auto.
Qed.
Definition good_table (ks : list string) (t : table) : Prop := rows_unique t /\ forall r, In r t -> row_ok ks r.
Lemma good_tset ks k v t : good_table ks t -> In (fst k) ks -> In (snd k) C -> good_table ks (tset k v t).
Proof.
  intros (U & A) K S. split; [now apply tset_unique|]. intros r I. apply tset_rows in I. destruct I as [I|E].
  - apply in_map_iff in I. destruct I as (r' & E & I). specialize (A r' I). unfold row_ok in *. now rewrite <- E.
  - unfold row_ok. rewrite E. auto.
Qed.
Lemma good_tadd ks k v t : good_table ks t -> In (fst k) ks -> In (snd k) C -> good_table ks (tadd k v t).
Proof. apply good_tset. Qed.
Lemma good_mono ks ks' t : (forall x, In x ks -> In x ks') -> good_table ks t -> good_table ks' t.
Proof. intros M (U & A). split; [exact U|]. intros r I. destruct (A r I). split; auto. Qed.
Lemma good_get sk g : tables_good sk -> good_table (keys sk) (table_of g sk).
Proof.
  intros ((U & P) & A). unfold table_of. destruct (dget g sk) as [t|] eqn:E; [|split; [constructor|intros r []]]. apply dget_In in E. split; [now apply (P g)|]. intros r I. eapply A; eauto.
Qed.
Lemma good_dset sk g t : tables_good sk -> good_table (g :: keys sk) t -> tables_good (dset g t sk).
Proof.
  intros ((U & P) & A) G. assert (UD : NoDup (keys (dset g t sk))) by (now apply NoDup_keys_dset).
  assert (X : forall a b, In (a, b) (dset g t sk) -> a = g /\ b = t \/ In (a, b) sk).
  { intros a b I. apply In_dget in I; [|exact UD]. destruct (string_dec a g) as [->|N]; [rewrite dget_dset_eq in I; injection I as <-; auto|]. rewrite dget_dset_neq in I by auto. right. now apply dget_In. }
  assert (M : forall x, In x (g :: keys sk) -> In x (keys (dset g t sk))) by (intros x [<-|I]; apply keys_dset; auto).
  split; [split; [exact UD|]|].
  - intros a b I. destruct (X a b I) as [(-> & ->)|J]; [apply G|now apply (P a)].
  - intros a b r I J. destruct (X a b I) as [(-> & ->)|K]; [apply (good_mono _ _ _ M G); exact J|]. destruct (A a b r K J) as (Y & Z). split; [apply M; now right|exact Z].
Qed.
Lemma good_map (f : string -> table -> table) sk : tables_good sk -> (forall g t, good_table (keys sk) t -> good_table (keys sk) (f g t)) ->
  tables_good (map (fun gt => (fst gt, f (fst gt) (snd gt))) sk).
Proof.
  intros ((U & P) & A) F. set (sk1 := map (fun gt => (fst gt, f (fst gt) (snd gt))) sk). assert (K : keys sk1 = keys sk) by (unfold keys, sk1; rewrite map_map; reflexivity).
  assert (X : forall g t, In (g, t) sk1 -> good_table (keys sk) t).
  { intros g t I. unfold sk1 in I. apply in_map_iff in I. destruct I as ((g', t') & E & I). cbn in E. injection E as _ <-. apply F. split; [now apply (P g')|]. intros r J. eapply A; eauto. }
  split; [split; [now rewrite K|]|]; intros g t I.
  - now apply (X g t I).
  - intros J. rewrite K. now apply (X g t).
Qed.

Lemma good_shares target cat ports scale l t t' ks : In target ks -> In cat C -> In "work"%string C -> add_shares target cat ports scale l t = Ok t' -> good_table ks t -> good_table ks t'.
Proof.
  intros T K W. revert t. induction l as [|(pos, v) l IH]; cbn [add_shares]; intros t H G; [injection H as <-; exact G|].
  assert (A : forall c w, In c C -> good_table ks (add_share target c pos w t)) by (intros c w I; apply good_tadd; auto).
  destruct v as [q|].
  - destruct (Qeq_bool q 0); [now apply (IH t)|]. destruct (Nat.ltb pos 2); [destruct ports; [discriminate|]|]; (eapply IH; [exact H|]); auto.
  - destruct (Nat.ltb pos 2); [destruct ports; [discriminate|]|]; (eapply IH; [exact H|]); auto.
Qed.

Definition cats_ok (k : comp) : Prop := In (k_cat_in k) C /\ In (k_cat_out k) C.
Lemma all_reserved an b : In b (all_busses an) -> In (u_label b) (reserved an).
Proof. unfold all_busses, reserved. rewrite !in_app_iff. intros H. right. rewrite !map_app, !in_app_iff. destruct H as [H|[H|[H|H]]]; apply (in_map u_label) in H; tauto. Qed.
Lemma first_bus_in label bs b m : first_bus label bs = Some (b, m) -> In b bs.
Proof. induction bs as [|b' bs IH]; cbn; [discriminate|]. destruct (dget label (u_comps b')); [intros H; injection H as -> _; now left|]. intros H. right. now apply IH. Qed.

(** The invariant of the run: tables good, keys are reserved names and groups of the rows. *)
Definition run_inv (an : analysis) (rows : list comp_row) (sk : dict table) : Prop :=
  tables_good sk /\ (forall x, In x (keys sk) <-> In x (reserved an) \/ In x (map c_group rows)).
Lemma step_inv an k rows st rows' st' : In "work"%string C -> cats_ok k -> component_step an k (rows, st) = Ok (rows', st') -> run_inv an rows (st_sankey st) ->
  run_inv an rows' (st_sankey st') /\ map c_label rows' = map c_label rows ++ [k_label k].
Proof.
  intros W CK S (G & K). unfold component_step in S. destruct (k_balance k) as [bal|]; cbn [rbind] in S; [|discriminate]. destruct (smem (k_group k) (reserved an)) eqn:RS; [discriminate|].
  match type of S with rbind (eval_busses _ _ _ _ _ ?s) _ = _ => set (s0 := s) in S end.
  assert (G0 : tables_good (st_sankey s0) /\ forall x, In x (keys (st_sankey s0)) <-> In x (keys (st_sankey st)) \/ x = k_group k).
  { subst s0. cbn [st_sankey]. destruct (dmem (k_group k) (st_sankey st)) eqn:D.
    - split; [exact G|]. intros x. apply dmem_In in D. split; [auto|]. intros [I| ->]; auto.
    - split; [apply good_dset; [exact G|split; [constructor|intros r []]]|]. intros x. rewrite keys_dset. tauto. }
  destruct G0 as (G0 & K0). clearbody s0. destruct (eval_busses an k bal (all_busses an) 0 s0) as [s2|] eqn:EV; cbn [rbind] in S; [|discriminate]. injection S as <- <-. split.
  2:{ now rewrite map_app. }
  assert (KG : In (k_group k) (keys (st_sankey s0))) by (apply K0; now right).
  assert (X : tables_good (st_sankey s2) /\ forall x, In x (keys (st_sankey s2)) <-> In x (keys (st_sankey s0))).
  { apply eval_some in EV. destruct (first_bus (k_label k) (all_busses an)) as [[b mb]|] eqn:FB; [|subst s2; tauto]. apply first_bus_in, all_reserved in FB.
    assert (BK : In (u_label b) (keys (st_sankey s0))) by (apply K0; left; apply K; now left).
    unfold eval_member in EV. destruct (bus_total (E_bus bal)); cbn [rbind] in EV; [|discriminate]. destruct CK as (CI & CO).
    destruct (b_base mb); match type of EV with rbind ?t _ = _ => destruct t as [t'|] eqn:AS; cbn [rbind] in EV; [|discriminate] end; injection EV as <-; cbn [st_sankey].
    - split; [|intros x; rewrite keys_dset; intuition congruence]. apply good_dset; [exact G0|]. apply (good_mono (keys (st_sankey s0))); [cbn; auto|]. eapply good_shares; [| | |exact AS|]; auto. now apply good_get.
    - split; [|intros x; rewrite keys_dset; intuition congruence]. apply good_dset; [exact G0|]. apply (good_mono (keys (st_sankey s0))); [cbn; auto|]. eapply good_shares; [| | |exact AS|]; auto. now apply good_get. }
  destruct X as (X & Y). split; [exact X|]. intros x. rewrite Y, K0, K, map_app, in_app_iff. cbn. intuition.
Qed.
Lemma run_all an ks rows st rows' st' : In "work"%string C -> (forall k, In k ks -> cats_ok k) -> run_components an ks (rows, st) = Ok (rows', st') -> run_inv an rows (st_sankey st) ->
  run_inv an rows' (st_sankey st') /\ map c_label rows' = map c_label rows ++ map k_label ks.
Proof.
  intros W. revert rows st. induction ks as [|k ks IH]; cbn [run_components]; intros rows st CK H I.
  - injection H as <- <-. cbn. rewrite app_nil_r. auto.
  - destruct (component_step an k (rows, st)) as [[r1 s1]|] eqn:S; cbn [rbind] in H; [|discriminate]. destruct (step_inv an k rows st r1 s1 W (CK k (or_introl eq_refl)) S I) as (I1 & L1).
    destruct (IH r1 s1 (fun k' J => CK k' (or_intror J)) H I1) as (I2 & L2). split; [exact I2|]. rewrite L2, L1. cbn. now rewrite <- app_assoc.
Qed.
Lemma start_good an : run_inv an [] (st_sankey (snd (start an))).
Proof.
  cbn [start snd st_sankey]. assert (X : forall ls (d : dict table), (proper d /\ forall g t, In (g, t) d -> t = []) ->
    let d' := fold_left (fun d l => dset l [] d) ls d in (proper d' /\ forall g t, In (g, t) d' -> t = []) /\ forall x, In x (keys d') <-> In x ls \/ In x (keys d)).
  { induction ls as [|l ls IH]; cbn; intros d D; [tauto|]. assert (D1 : proper (dset l [] d) /\ forall g t, In (g, t) (dset l [] d) -> t = []).
    { destruct D as ((U & P) & E). assert (UD : NoDup (keys (dset l ([] : table) d))) by (now apply NoDup_keys_dset).
      assert (Y : forall g t, In (g, t) (dset l [] d) -> t = []).
      { intros g t I. apply In_dget in I; [|exact UD]. destruct (string_dec g l) as [->|N]; [rewrite dget_dset_eq in I; congruence|]. rewrite dget_dset_neq in I by auto. apply (E g). now apply dget_In. }
      split; [split; [exact UD|]|exact Y]. intros g t I. rewrite (Y g t I). constructor. }
    destruct (IH _ D1) as (A & B). split; [exact A|]. intros x. rewrite B, keys_dset. intuition. }
  destruct (X (reserved an) []) as ((P & E) & K); [split; [split; [constructor|intros g t []]|intros g t []]|]. split.
  - split; [exact P|]. intros g t r I J. rewrite (E g t I) in J. contradiction.
  - intros x. rewrite K. cbn. tauto.
Qed.
Lemma fuel_good bs sk sk' : fuel_rows bs sk = Ok sk' -> In "E_F"%string C -> tables_good sk -> In "E_F"%string (keys sk) -> (forall b, In b bs -> In (u_label b) (keys sk)) ->
  tables_good sk' /\ forall x, In x (keys sk') <-> In x (keys sk).
Proof.
  revert sk. induction bs as [|b bs IH]; cbn [fuel_rows]; intros sk H CF G EF B; [injection H as <-; tauto|]. destruct (group_input (u_label b) sk vzero); cbn [rbind] in H; [|discriminate].
  match type of H with fuel_rows _ (dset _ ?t _) = _ => set (t0 := t) in H end.
  assert (KE : forall x, In x (keys (dset "E_F"%string t0 sk)) <-> In x (keys sk)) by (intros x; rewrite keys_dset; intuition congruence).
  destruct (IH _ H CF) as (A & K).
  - apply good_dset; [exact G|]. apply (good_mono (keys sk)); [cbn; auto|]. apply good_tset; [now apply good_get|apply B; now left|exact CF].
  - now apply KE.
  - intros b' I. apply KE, B. now right.
  - split; [exact A|]. intros x. now rewrite K, KE.
Qed.
Lemma out_good tag bs sk sk' : out_rows tag bs sk = Ok sk' -> In tag C -> tables_good sk -> In tag (keys sk) -> (forall b, In b bs -> In (u_label b) (keys sk)) ->
  tables_good sk' /\ forall x, In x (keys sk') <-> In x (keys sk).
Proof.
  revert sk. induction bs as [|b bs IH]; cbn [out_rows]; intros sk H CF G EF B; [injection H as <-; tauto|]. destruct (group_input (u_label b) sk vzero); cbn [rbind] in H; [|discriminate].
  match type of H with out_rows _ _ (dset _ ?t _) = _ => set (t0 := t) in H end.
  assert (KE : forall x, In x (keys (dset (u_label b) t0 sk)) <-> In x (keys sk)). { intros x. rewrite keys_dset. pose proof (B b (or_introl eq_refl)). intuition congruence. }
  destruct (IH _ H CF) as (A & K).
  - apply good_dset; [exact G|]. apply (good_mono (keys sk)); [cbn; auto|]. apply good_tset; [now apply good_get|exact EF|exact CF].
  - now apply KE.
  - intros b' I. apply KE, B. now right.
  - split; [exact A|]. intros x. now rewrite K, KE.
Qed.
Lemma group_of_in rows label : In label (map c_label rows) -> In (group_of rows label) (map c_group rows).
Proof.
  intros I. unfold group_of. destruct (find (fun c => String.eqb (c_label c) label) rows) as [c|] eqn:F.
  - apply find_some in F. apply in_map. tauto.
  - exfalso. apply in_map_iff in I. destruct I as (c & E & I). pose proof (find_none _ _ F c I) as N. cbn in N. rewrite E, String.eqb_refl in N. discriminate.
Qed.
Lemma links_good rows ls sk : tables_good sk -> (forall l, In l ls -> In (n_tgt l) (map c_label rows) /\ In (n_cat l) C) -> (forall x, In x (map c_group rows) -> In x (keys sk)) ->
  tables_good (add_links rows ls sk).
Proof.
  intros G L K. unfold add_links. apply (good_map (link_rows rows ls)); [exact G|]. intros g t T. unfold link_rows.
  set (comps := map c_label (filter (fun c => String.eqb (c_group c) g) rows)). generalize comps at 2 as cs. intros cs. revert t T. induction cs as [|k cs IH]; cbn [fold_left]; intros t T; [exact T|]. apply IH. clear IH cs.
  revert t T. induction ls as [|l ls IH]; cbn [fold_left]; intros t T; [exact T|]. apply IH; [intros l' I; apply L; now right|].
  destruct (String.eqb (n_src l) k && negb (smem (n_tgt l) comps))%bool; [|exact T]. destruct (L l (or_introl eq_refl)) as (A & B). apply good_tadd; [exact T| |exact B]. cbn. apply K. now apply group_of_in.
Qed.
Lemma group_data_groups groups agg sk out : group_data groups agg sk = Ok out -> map fst out = groups.
Proof.
  revert out. induction groups as [|g gs IH]; cbn [group_data]; intros out H; [injection H as <-; reflexivity|]. destruct (group_input g sk vzero); cbn [rbind] in H; [|discriminate]. destruct (group_data gs agg sk) as [r|]; cbn [rbind] in H; [|discriminate]. injection H as <-. cbn. now rewrite (IH r eq_refl).
Qed.
Lemma final_good an ks ls groups sk : final_tables an ks ls = Ok (groups, sk) -> (forall c, In c ["work"; "E_D"; "E_F"; "E_P"; "E_L"]%string -> In c C) ->
  (forall k, In k ks -> cats_ok k) -> (forall l, In l ls -> In (n_tgt l) (map k_label ks) /\ In (n_cat l) C) ->
  tables_good sk /\ forall x, In x (keys sk) <-> In x (reserved an) \/ In x groups.
Proof.
  intros H CC CK L. unfold final_tables in H. destruct (create an) as [[]|]; cbn [rbind] in H; [|discriminate]. destruct (run_components an ks (start an)) as [[rows st]|] eqn:RC; cbn [rbind] in H; [|discriminate]. cbv zeta in H.
  match type of H with rbind ?t _ = _ => destruct t as [sk1|] eqn:FU; cbn [rbind] in H; [|discriminate H] end.
  match type of H with rbind ?t _ = _ => destruct t as [sk2|] eqn:OP; cbn [rbind] in H; [|discriminate H] end.
  match type of H with rbind ?t _ = _ => destruct t as [sk3|] eqn:OL; cbn [rbind] in H; [|discriminate H] end.
  match type of H with rbind ?t _ = _ => destruct t as [g'|] eqn:GD; cbn [rbind] in H; [|discriminate H] end.
  injection H as <- <-. apply group_data_groups in GD. set (R := totals (rows, st)) in *. assert (ER : o_rows R = rows) by reflexivity. assert (ES : o_sankey R = st_sankey st) by reflexivity. rewrite ER in *. rewrite ES in FU.
  destruct (run_all an ks [] (snd (start an)) rows st) as ((G & K) & LB); [apply CC; cbn; tauto|exact CK|exact RC|apply start_good|]. cbn in LB.
  assert (RS : forall t, In t ["E_P"; "E_F"; "E_D"; "E_L"]%string -> In t (reserved an)) by (intros t I; unfold reserved; apply in_or_app; now left).
  assert (G0 : tables_good (add_D (o_agg R) (st_sankey st))).
  { unfold add_D. apply (good_map (fun g t => tset ("E_D", "E_D")%string (Some 0, Some 0, Some (group_D (o_agg R) g)) t)); [exact G|]. intros g t T. apply good_tset; [exact T| |apply CC; cbn; tauto]. apply K. left. apply RS. cbn. tauto. }
  assert (K0 : keys (add_D (o_agg R) (st_sankey st)) = keys (st_sankey st)) by (unfold add_D, keys; rewrite map_map; reflexivity).
  assert (BK : forall b, In b (all_busses an) -> In (u_label b) (keys (st_sankey st))) by (intros b I; apply K; left; now apply all_reserved).
  assert (TK : forall t, In t ["E_P"; "E_F"; "E_D"; "E_L"]%string -> In t (keys (st_sankey st))) by (intros t I; apply K; left; now apply RS).
  destruct (fuel_good _ _ _ FU) as (G1 & K1); [apply CC; cbn; tauto|exact G0|rewrite K0; apply TK; cbn; tauto|intros b I; rewrite K0; apply BK; unfold all_busses; rewrite !in_app_iff; tauto|]. rewrite K0 in K1.
  destruct (out_good _ _ _ _ OP) as (G2 & K2); [apply CC; cbn; tauto|exact G1|apply K1, TK; cbn; tauto|intros b I; apply K1, BK; unfold all_busses; rewrite !in_app_iff; tauto|].
  destruct (out_good _ _ _ _ OL) as (G3 & K3); [apply CC; cbn; tauto|exact G2|apply K2, K1, TK; cbn; tauto|intros b I; apply K2, K1, BK; unfold all_busses; rewrite !in_app_iff; tauto|].
  assert (KL : keys (add_links rows ls sk3) = keys sk3) by (unfold add_links, keys; rewrite map_map; reflexivity). split.
  - apply links_good; [exact G3|intros l I; rewrite LB; now apply L|]. intros x I. apply K3, K2, K1, K. now right.
  - intros x. rewrite KL, K3, K2, K1, K, GD. pose proof (unique_in (map c_group rows) x). tauto.
Qed.
End Tables.

Lemma keys_palette_mono (l : dict string) (d : dict string) x : In x (keys d) -> In x (keys (fold_left (fun d c => dset (fst c) (snd c) d) l d)).
Proof. revert d. induction l as [|c l IH]; cbn; intros d I; [exact I|]. apply IH. apply keys_dset. now right. Qed.
Lemma palette_default colors x : In x (keys colordict) -> In x (keys (palette colors)).
Proof. apply keys_palette_mono. Qed.

Lemma diagram_total an ks ls order colors thr dis groups sk : final_tables an ks ls = Ok (groups, sk) ->
  (forall k, In k ks -> In (k_cat_in k) (keys (palette colors)) /\ In (k_cat_out k) (keys (palette colors))) ->
  (forall l, In l ls -> In (n_tgt l) (map k_label ks) /\ In (n_cat l) (keys (palette colors))) ->
  (forall x, order <> [] -> In x (reserved an) \/ In x groups -> In x order) ->
  exists out, diagram an ks ls order colors thr dis = Ok out.
Proof.
  intros H CK L O. destruct (final_good (keys (palette colors)) an ks ls groups sk H) as (G & K).
  - intros c I. apply palette_default. revert I. cbn. tauto.
  - exact CK.
  - exact L.
  - unfold diagram. rewrite H. cbn [rbind fst snd]. destruct (input_ok an groups order colors thr dis sk) as (x & E); [apply G|now apply good_closed with (keys (palette colors))|now apply good_categories| |eauto].
    intros g I. apply K in I. destruct order as [|y order]; [|apply O; [discriminate|exact I]]. unfold default_order. rewrite !in_app_iff. destruct I as [I|I]; [|tauto].
    unfold reserved in I. rewrite !map_app, !in_app_iff in I. rewrite !map_app, !in_app_iff. cbn in I |- *. tauto.
Qed.

(* ------------------------------------------------------------------------- statements *)

Lemma transit_closed fuel R sk sk' : proper sk -> closed sk -> remove_transit fuel R sk = Ok sk' -> closed sk'.
Proof. intros P C H. exact (steps_closed R sk sk' P (remove_steps R fuel sk sk' H) C). Qed.
Lemma links_exact an groups order colors thr dis sk ls o : sankey_input an groups order colors thr dis sk = Ok (ls, o) ->
  exists sk', remove_transit (S (length sk)) (reserved an) (above thr sk) = Ok sk' /\
  (forall x, In x ls <-> exists g t k v c, In (g, t) sk' /\ In (k, v) t /\
     cell c v = Some (l_val x) /\ 0 < l_val x /\ first_at g o (l_src x) /\ first_at (fst k) o (l_tgt x) /\ dget (snd k) (palette colors) = Some (l_col x)) /\
  fold_right (fun x s => l_val x + s) 0 ls == shown_total sk' /\
  o = match order with [] => default_order an groups | _ => order end.
Proof. intros H. apply input_run in H. destruct H as (sk' & R & O & L & T & _). exists sk'. cbn [fst snd] in *. auto. Qed.
Lemma palette_given colors c x : NoDup (keys colors) -> In (c, x) colors -> dget c (palette colors) = Some x.
Proof.
  unfold palette. generalize colordict. induction colors as [|(c', x') colors IH]; cbn; intros d U I; [contradiction|]. inversion U as [|? ? N U']; subst. destruct I as [E|I]; [|now apply IH].
  injection E as -> ->. clear IH U. assert (X : forall l (d : dict string), ~ In c (keys l) -> dget c (fold_left (fun d e => dset (fst e) (snd e) d) l d) = dget c d).
  { induction l as [|(a, b) l IH]; cbn; intros d0 M; [reflexivity|]. rewrite IH by tauto. apply dget_dset_neq. intros ->. tauto. }
  rewrite X by exact N. apply dget_dset_eq.
Qed.
Lemma palette_kept colors c : ~ In c (keys colors) -> dget c (palette colors) = dget c colordict.
Proof.
  unfold palette. generalize colordict. induction colors as [|(a, b) l IH]; cbn; intros d0 M; [reflexivity|]. rewrite IH by tauto. apply dget_dset_neq. intros ->. tauto.
Qed.
Lemma threshold_rows thr sk g k v : NoDup (keys sk) -> (In (k, v) (table_of g (above thr sk)) <-> In (k, v) (table_of g sk) /\ thr <= size v).
Proof.
  intros U. assert (E : table_of g (above thr sk) = filter (shown thr) (table_of g sk)).
  { unfold table_of, above. clear U. induction sk as [|(a, t) sk IH]; cbn; [reflexivity|]. destruct (String.eqb g a); [reflexivity|exact IH]. }
  rewrite E, filter_In. assert (X : shown thr (k, v) = true <-> thr <= size v); [|tauto]. unfold shown. cbn [snd]. destruct v as [[a b] c]. rewrite Qle_bool_iff. rewrite nansum_sumq. unfold sumq, size. cbn [fold_right cell fst snd].
  destruct a, b, c; cbn; split; intros H; try lra; revert H; change (Qabs 0) with 0; lra.
Qed.
Lemma option_ignored an ks ls order colors thr : diagram an ks ls order colors thr true = diagram an ks ls order colors thr false.
Proof. reflexivity. Qed.

(** A plant: fuel to a boiler, power from a turbine, a pump between. *)
Definition from_source (x : Q) : comp :=
  {| k_label := "source"; k_group := "source"; k_balance := Ok {| E_F := None; E_P := None; E_D := None; epsilon := None; E_bus := Shares (Some 0) (Some x) (Some 0) |};
     k_inlets := 0; k_outlets := 1; k_cat_in := "work"; k_cat_out := "two-phase-fluid" |}.
Definition machine (label : string) (F P : Q) (b : bus_value) : comp :=
  {| k_label := label; k_group := label; k_balance := Ok (finish (Some F) (Some P) b);
     k_inlets := 1; k_outlets := 1; k_cat_in := "two-phase-fluid"; k_cat_out := "two-phase-fluid" |}.
Definition station : analysis :=
  {| an_F := [{| u_label := "fuel"; u_comps := [("source"%string, {| b_base := true; b_eff := 1 |})] |}];
     an_P := [{| u_label := "power"; u_comps := [("turbine"%string, {| b_base := false; b_eff := 1 |})] |}]; an_int := []; an_L := [] |}.
Definition pipe (a b : string) (chem phys : Q) : link := {| n_src := a; n_tgt := b; n_cat := "two-phase-fluid"; n_chem := chem; n_phys := phys |}.
Definition turbine_of (F P : Q) : comp := machine "turbine" F P (Shares (Some 0) (Some 0) (Some P)).

Lemma threshold_small : exists an ks ls thr out x, diagram an ks ls [] [] thr false = Ok out /\ In x (fst out) /\ l_val x < thr.
Proof.
  exists station, [from_source 100; turbine_of 90 80], [pipe "source" "turbine" (1#10000) 100], (1#1000).
  destruct (diagram station [from_source 100; turbine_of 90 80] [pipe "source" "turbine" (1#10000) 100] [] [] (1#1000) false) as [out|] eqn:E; [|vm_compute in E; discriminate].
  vm_compute in E. injection E as <-. eexists. eexists. split; [reflexivity|]. cbn [fst]. split; [right; left; reflexivity|reflexivity].
Qed.
Lemma negative_hidden : exists an ks ls thr ls' o l, diagram an ks ls [] [] thr false = Ok (ls', o) /\ In l ls /\ n_src l <> n_tgt l /\ thr <= Qabs (n_phys l) /\
  forall x, In x ls' -> nth_error o (l_tgt x) <> Some (n_tgt l).
Proof.
  exists station, [from_source 100; turbine_of 90 80], [pipe "source" "turbine" 0 (-(50))], (1#1000).
  destruct (diagram station [from_source 100; turbine_of 90 80] [pipe "source" "turbine" 0 (-(50))] [] [] (1#1000) false) as [(ls', o)|] eqn:E; [|vm_compute in E; discriminate].
  vm_compute in E. injection E as <- <-. eexists. eexists. eexists. split; [reflexivity|]. split; [left; reflexivity|]. split; [discriminate|]. split; [vm_compute; discriminate|].
  intros x I. cbn in I. repeat (destruct I as [<-|I]; [cbn; discriminate|]). contradiction.
Qed.
Lemma columns_separate : exists an ks ls thr ls' o x y, diagram an ks ls [] [] thr false = Ok (ls', o) /\ In x ls' /\ In y ls' /\ x <> y /\
  l_src x = l_src y /\ l_tgt x = l_tgt y /\ l_col x = l_col y.
Proof.
  exists station, [from_source 100; turbine_of 90 80], [pipe "source" "turbine" 10 100], (1#1000).
  destruct (diagram station [from_source 100; turbine_of 90 80] [pipe "source" "turbine" 10 100] [] [] (1#1000) false) as [(ls', o)|] eqn:E; [|vm_compute in E; discriminate].
  vm_compute in E. injection E as <- <-. do 4 eexists. split; [reflexivity|]. split; [right; left; reflexivity|]. split; [do 2 right; left; reflexivity|]. split; [discriminate|]. auto.
Qed.
Lemma self_link : exists an ks ls thr ls' o x, diagram an ks ls [] [] thr false = Ok (ls', o) /\ (forall l, In l ls -> n_src l <> n_tgt l) /\ In x ls' /\ l_src x = l_tgt x.
Proof.
  exists station, [from_source 100; turbine_of 90 80; machine "pump" 5 5 (Shares (Some 0) (Some 0) (Some 0))],
    [pipe "source" "turbine" 10 100; pipe "turbine" "pump" 0 10; pipe "pump" "turbine" 0 10], (1#1000).
  match goal with |- exists ls' o x, ?d = _ /\ _ => destruct d as [(ls', o)|] eqn:E; [|vm_compute in E; discriminate] end.
  vm_compute in E. injection E as <- <-. do 3 eexists. split; [reflexivity|]. split.
  - intros l I. cbn in I. repeat (destruct I as [<-|I]; [cbn; discriminate|]). contradiction.
  - split; [do 6 right; left; reflexivity|reflexivity].
Qed.
(** Tables good for an example of removal: b passes on what a sends, c is not connected. *)
Definition chain_tables : dict table :=
  [("a", [(("b", "work"), (Some 0, Some 0, Some 7)); (("E_D", "E_D"), (Some 0, Some 0, Some 1))]);
   ("b", [(("d", "work"), (Some 0, Some 0, Some 7))]); ("c", []);
   ("d", [(("E_D", "E_D"), (Some 0, Some 0, Some 2)); (("E_P", "E_P"), (Some 0, Some 0, Some 5))]); ("E_D", []); ("E_P", [])]%string.
