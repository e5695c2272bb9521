(** Lemmas: labels and subsystems. *)
From Coq Require Import Ascii Lia.
From Verif Require Import TopoModel TopoSpec TopoProofs SubsysModel SubsysSpec.
Open Scope string_scope.
Open Scope list_scope.

(* ---- strings ---- *)
Lemma app_assoc_s (a b c : string) : ((a ++ b) ++ c = a ++ b ++ c)%string.
Proof. induction a; cbn; congruence. Qed.
Lemma prefix_app : forall a s, String.prefix a s = true <-> exists b, s = (a ++ b)%string.
Proof.
  induction a as [|x a IH]; intros s; [split; [exists s; reflexivity|destruct s; reflexivity]|].
  destruct s as [|y s]; cbn [String.prefix]; [split; [discriminate|intros (b & E); discriminate]|].
  destruct (ascii_dec x y) as [->|N].
  - rewrite IH. split; intros (b & E); exists b; cbn in *; congruence.
  - split; [discriminate|intros (b & E)]. inversion E. congruence.
Qed.
Lemma occurs_iff sub : forall s, occurs sub s = true <-> part_of sub s.
Proof.
  unfold part_of. induction s as [|x s IH]; cbn [occurs].
  - rewrite orb_false_r, prefix_app. split.
    + intros (b & E). exists "", b. exact E.
    + intros (a & b & E). destruct a; [exists b; exact E|discriminate].
  - rewrite orb_true_iff, prefix_app, IH. split.
    + intros [(b & E)|(a & b & ->)]; [exists "", b; exact E|exists (String x a), b; reflexivity].
    + intros ([|y a] & b & E); [left; exists b; exact E|right]. inversion E. exists a, b. reflexivity.
Qed.
Lemma occurs_false sub s : occurs sub s = false <-> ~ part_of sub s.
Proof. rewrite <- occurs_iff. destruct (occurs sub s); split; congruence. Qed.

Lemma component_label_iff s : (component_label (LStr s) = Ok s <-> without ";" s /\ without "," s /\ without "." s)
  /\ (component_label (LStr s) = Err ValueError <-> part_of ";" s \/ part_of "," s \/ part_of "." s).
Proof.
  unfold component_label, without. cbn [existsb].
  pose proof (occurs_iff ";" s) as A. pose proof (occurs_iff "," s) as B. pose proof (occurs_iff "." s) as C.
  destruct (occurs ";" s), (occurs "," s), (occurs "." s); cbn [orb]; split; split; intros H; try discriminate; try reflexivity;
    intuition (try discriminate).
Qed.
Lemma subsystem_label_iff s : (subsystem_label (LStr s) = Ok s <-> without ";" s /\ ~ part_of ", " s /\ without "." s)
  /\ (subsystem_label (LStr s) = Err ValueError <-> part_of ";" s \/ part_of ", " s \/ part_of "." s).
Proof.
  unfold subsystem_label, without. cbn [filter].
  pose proof (occurs_iff ";" s) as A. pose proof (occurs_iff ", " s) as B. pose proof (occurs_iff "." s) as C.
  destruct (occurs ";" s), (occurs ", " s), (occurs "." s); cbn [length Nat.ltb Nat.leb]; split; split; intros H; try discriminate; try reflexivity;
    intuition (try discriminate).
Qed.
Lemma other_label : component_label LOther = Err ValueError /\ subsystem_label LOther = Err ValueError.
Proof. split; reflexivity. Qed.

Lemma connection_labels : forall s o t i,
  connection_label s o t i None = Ok (default_label s o t i) /\ (forall l, connection_label s o t i (Some (LStr l)) = Ok l) /\
  connection_label s o t i (Some LOther) = Err TypeError.
Proof. intros. split; [|split]; reflexivity. Qed.

Lemma split_first ch : forall a b a' b', without ch a -> without ch a' ->
  (a ++ String ch b = a' ++ String ch b')%string -> a = a' /\ b = b'.
Proof.
  induction a as [|x a IH]; intros b [|x' a'] b' N N' E; cbn in E.
  - inversion E. auto.
  - inversion E; subst. exfalso. apply N'. exists "", a'. reflexivity.
  - inversion E; subst. exfalso. apply N. exists "", a. reflexivity.
  - injection E as -> E. destruct (IH b a' b') as (-> & ->); auto.
    + intros (u & v & ->). apply N. exists (String x' u), v. reflexivity.
    + intros (u & v & ->). apply N'. exists (String x' u), v. reflexivity.
Qed.

Lemma default_label_inj s o t i s' o' t' i' :
  without ":" s -> without ":" t -> without ":" s' -> without ":" t' -> without "_" o -> without "_" o' ->
  default_label s o t i = default_label s' o' t' i' -> s = s' /\ o = o' /\ t = t' /\ i = i'.
Proof.
  unfold default_label. cbn [String.append]. intros S T S' T' O O' E.
  apply split_first in E; auto. destruct E as (-> & E). apply split_first in E; auto. destruct E as (-> & E).
  destruct (split_first _ _ _ _ _ T T' E) as (-> & ->). auto.
Qed.

Lemma default_labels_unique W n : default_labels W n ->
  (forall c, has_conn n c -> without ":" (w_clabel W (w_source W c)) /\ without ":" (w_clabel W (w_target W c)) /\ without "_" (w_source_id W c)) ->
  (forall c d, has_conn n c -> has_conn n d -> w_clabel W (w_source W c) = w_clabel W (w_source W d) -> w_source W c = w_source W d) ->
  (forall c d, has_conn n c -> has_conn n d -> w_source W c = w_source W d -> w_source_id W c = w_source_id W d -> c = d) ->
  forall c d, has_conn n c -> has_conn n d -> w_label W c = w_label W d -> c = d.
Proof.
  intros D F U P c d C E L. rewrite (D c C), (D d E) in L.
  destruct (F c C) as (F1 & F2 & F3). destruct (F d E) as (G1 & G2 & G3).
  apply default_label_inj in L; auto. destruct L as (A & B & _). apply P; auto.
Qed.

(* ---- subsystems ---- *)
Lemma add_each_app W order xs ys n : add_each W order (xs ++ ys) n =
  match add_each W order xs n with (n', None) => add_each W order ys n' | (n', Some e) => (n', Some e) end.
Proof.
  revert n. induction xs as [|x xs IH]; intros n; cbn [app add_each]; [reflexivity|].
  destruct (add_conns W order [AConn x] n) as [n' [e|]]; [reflexivity|apply IH].
Qed.
Lemma subsys_each W order subs n : add_subsys W order subs n = add_each W order (flat_map (map snd) subs) n.
Proof.
  revert n. induction subs as [|s subs IH]; intros n; cbn [add_subsys flat_map]; [reflexivity|].
  rewrite add_each_app. destruct (add_each W order (map snd s) n) as [n' [e|]]; [reflexivity|apply IH].
Qed.

Lemma add_each_conns W order cs : forall n n', conns_ok W n -> add_each W order cs n = (n', None) ->
  conns_ok W n' /\ (forall c, has_conn n' c <-> has_conn n c \/ In c cs) /\ n_conns n' = n_conns n ++ map (fun c => (w_label W c, c)) cs.
Proof.
  induction cs as [|c cs IH]; intros n n' K H; cbn [add_each] in H.
  - injection H as <-. split; [exact K|]. split; [intros; cbn; tauto|]. cbn. now rewrite app_nil_r.
  - destruct (add_conns W order [AConn c] n) as [n1 [e|]] eqn:A; [discriminate|].
    pose proof (add_conns_effect _ _ _ _ _ K A) as E.
    assert (K1 : conns_ok W n1).
    { pose proof (run_op_conns_ok W order (fun x => x) (Add [AConn c]) n) as R. cbn [run_op] in R. rewrite A in R. apply R; [split; reflexivity|exact K]. }
    destruct (IH _ _ K1 H) as (K2 & M & N). split; [exact K2|]. split.
    + intros d. rewrite M, E. cbn. split; [intros [[X|[->|[]]]|X]; auto|intros [X|[->|X]]; auto].
    + rewrite N. cbn [map]. pose proof (add_conns_conns W order [AConn c] n) as Q. rewrite A in Q. cbn [fst] in Q. rewrite Q.
      assert (G : dmem (w_label W c) (n_conns n) = false).
      { unfold add_conns in A. cbn [add_conns_loop] in A. destruct (dmem (w_label W c) (n_conns n)); [discriminate|reflexivity]. }
      cbn [add_conns_loop]. rewrite G. cbn [fst n_with_conns n_conns]. apply dmem_false in G.
      assert (D : forall (d : dict nat) k v, dget k d = None -> dset k v d = d ++ [(k, v)]).
      { clear. induction d as [|[j w] d IHd]; intros k v Z; cbn [dset dget] in *; [reflexivity|]. destruct (String.eqb k j); [discriminate|]. cbn. now rewrite IHd. }
      rewrite D by exact G. now rewrite <- app_assoc.
Qed.

Lemma add_each_mirrored W order cs : set_order order -> forall n n', conns_ok W n -> comps_ok W n -> mirrored W n ->
  add_each W order cs n = (n', None) -> mirrored W n' /\ comps_ok W n'.
Proof.
  intros O. induction cs as [|c cs IH]; intros n n' K P M H; cbn [add_each] in H; [injection H as <-; auto|].
  destruct (add_conns W order [AConn c] n) as [n1 [e|]] eqn:A; [discriminate|].
  assert (K1 : conns_ok W n1).
  { pose proof (run_op_conns_ok W order (fun x => x) (Add [AConn c]) n) as R. cbn [run_op] in R. rewrite A in R. apply R; [split; reflexivity|exact K]. }
  assert (P1 : comps_ok W n1).
  { pose proof (run_op_comps_ok W order (fun x => x) (Add [AConn c]) n) as R. cbn [run_op] in R. rewrite A in R. apply R; [split; reflexivity|exact K|exact P]. }
  apply (IH n1 n' K1 P1); [|exact H]. exact (add_conns_mirrored W order [AConn c] n n1 O K P M A).
Qed.

Lemma in_flat subs c : In c (flat_map (map snd) subs) <-> in_subsystem subs c.
Proof.
  unfold in_subsystem. rewrite in_flat_map. split.
  - intros (s & S & I). apply in_map_iff in I. destruct I as ([k d] & E & I). cbn in E. subst. exists s, k. auto.
  - intros (s & k & S & I). exists s. split; [exact S|]. apply in_map_iff. exists (k, c). auto.
Qed.

Lemma subsystem_added W order check ops subs n' : check_frame check ->
  let n := history W order check ops empty_net in
  add_subsys W order subs n = (n', None) ->
  (forall c, has_conn n' c <-> has_conn n c \/ in_subsystem subs c) /\
  forall c d, has_conn n' c -> has_conn n' d -> w_label W c = w_label W d -> c = d.
Proof.
  intros F n H. subst n. rewrite subsys_each in H.
  assert (K : conns_ok W (history W order check ops empty_net)) by (apply history_conns_ok; [exact F|apply empty_conns_ok]).
  destruct (add_each_conns _ _ _ _ _ K H) as (K' & M & _). split.
  - intros c. now rewrite M, in_flat.
  - intros c d (l & C) (m & D) E. pose proof (proj2 K' _ _ C) as C'. pose proof (proj2 K' _ _ D) as D'.
    assert (l = m) by congruence. subst m. pose proof (In_dget _ _ _ (proj1 K') C) as X. pose proof (In_dget _ _ _ (proj1 K') D) as Y. congruence.
Qed.

Lemma subsystem_components W order check ops subs n' : set_order order -> check_frame check -> clean W order check ops empty_net ->
  add_subsys W order subs (history W order check ops empty_net) = (n', None) -> forall k, has_comp n' k <-> attached W n' k.
Proof.
  intros O F C H. rewrite subsys_each in H. pose proof (history_mirrored W order check ops O F C) as M.
  destruct (empty_mirrored W) as (E1 & E2).
  assert (K : conns_ok W (history W order check ops empty_net)) by (apply history_conns_ok; [exact F|apply empty_conns_ok]).
  assert (P : comps_ok W (history W order check ops empty_net)) by (apply history_comps_ok; [exact F|apply empty_conns_ok|exact E1]).
  apply (add_each_mirrored W order _ O _ _ K P M H).
Qed.

(** The same connections added in one call give the same table of connections. *)
Lemma subsystem_as_connections W order subs n n' n'' : conns_ok W n ->
  add_subsys W order subs n = (n', None) ->
  add_conns W order (flat_map (map (fun e => AConn (snd e))) subs) n = (n'', None) -> n_conns n' = n_conns n''.
Proof.
  intros K H G. rewrite subsys_each in H. destruct (add_each_conns _ _ _ _ _ K H) as (_ & _ & ->).
  pose proof (add_conns_conns W order (flat_map (map (fun e => AConn (snd e))) subs) n) as Q. rewrite G in Q. cbn [fst] in Q. rewrite Q.
  assert (R : snd (add_conns_loop W (flat_map (map (fun e : string * nat => AConn (snd e))) subs) n) = None).
  { unfold add_conns in G. destruct (add_conns_loop W _ n) as [m [e|]]; [discriminate|reflexivity]. }
  assert (A : flat_map (map (fun e : string * nat => AConn (snd e))) subs = map AConn (flat_map (map snd) subs)).
  { clear. induction subs as [|s subs IH]; cbn; [reflexivity|]. rewrite IH, map_app, map_map. reflexivity. }
  rewrite A in *. clear A. clear - R. revert n R. generalize (flat_map (map snd) subs). induction l as [|c l IH]; intros n R; cbn [map add_conns_loop] in *.
  - cbn. now rewrite app_nil_r.
  - destruct (dmem (w_label W c) (n_conns n)) eqn:G; [discriminate|]. rewrite <- IH by exact R. cbn [n_with_conns n_conns].
    assert (D : forall (d : dict nat) k v, dget k d = None -> dset k v d = d ++ [(k, v)]).
    { clear. induction d as [|[j w] d IHd]; intros k v Z; cbn [dset dget] in *; [reflexivity|]. destruct (String.eqb k j); [discriminate|]. cbn. now rewrite IHd. }
    apply dmem_false in G. rewrite D by exact G. now rewrite <- app_assoc.
Qed.

(* ---- what fails ---- *)
Lemma comma_in_subsystem : exists s part, subsystem_label (LStr s) = Ok s /\ component_label (LStr (s ++ part)%string) = Err ValueError
  /\ part_of "," s.
Proof. exists "cycle,1", "_pump". split; [reflexivity|]. split; [reflexivity|]. exists "cycle", "1". reflexivity. Qed.

Lemma default_label_clash : exists s o t i s' o' t' i', component_label (LStr s) = Ok s /\ component_label (LStr t) = Ok t /\
  component_label (LStr s') = Ok s' /\ component_label (LStr t') = Ok t' /\ In o ["out1"; "out2"] /\ In o' ["out1"; "out2"] /\ In i ["in1"] /\ In i' ["in1"] /\
  (s, t) <> (s', t') /\ default_label s o t i = default_label s' o' t' i'.
Proof.
  exists "a", "out1", "b:out1_c", "in1", "a:out1_b", "out1", "c", "in1".
  refine (conj eq_refl (conj eq_refl (conj eq_refl (conj eq_refl _)))). cbn. repeat split; auto. intros H; inversion H.
Qed.
