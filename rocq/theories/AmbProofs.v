(** Lemmas about ambient temperatures. *)
From Coq Require Import Lqa.
From Verif Require Import Base NetUnitsModel UnitsProofs AmbModel AmbSpec.
Open Scope list_scope.

Lemma iterate_used : forall incs a t, In t (fst (iterate incs a)) -> t = a_SI a.
Proof.
  induction incs as [|i incs IH]; intros a t H; cbn [iterate] in H.
  - cbn in H. destruct H as [H|[]]. congruence.
  - destruct (iterate incs (amb_update i a)) as [used b] eqn:E. cbn [fst In] in H. destruct H as [H|H]; [congruence|].
    specialize (IH (amb_update i a) t). rewrite E in IH. rewrite (IH H). unfold amb_update. destruct (a_var a); reflexivity.
Qed.
Lemma iterate_length : forall incs a, length (fst (iterate incs a)) = S (length incs).
Proof.
  induction incs as [|i incs IH]; intros a; [reflexivity|]. cbn [iterate]. specialize (IH (amb_update i a)).
  destruct (iterate incs (amb_update i a)) as [used b]. cbn [fst length] in *. rewrite IH. reflexivity.
Qed.
Lemma iterate_fixed : forall incs a, a_var a = false -> snd (iterate incs a) = a.
Proof.
  induction incs as [|i incs IH]; intros a H; [reflexivity|]. cbn [iterate]. unfold amb_update. rewrite H.
  specialize (IH a H). destruct (iterate incs a). cbn [snd] in *. exact IH.
Qed.

Definition good (x : Q) (g : plant) : Prop := units_valid (g_net g) /\ a_var (g_amb g) = false /\ a_val (g_amb g) = x.
Lemma calculate_good : forall incs x g used g', good x g -> calculate incs g = Ok (used, g') -> good x g'.
Proof.
  intros incs x g used g' (U & V & W) H. unfold calculate, amb_preprocess in H.
  destruct (get_unit "T" (g_net g)) as [u|]; [|discriminate H]. cbn [rbind] in H. destruct (convert_to_SI _ _ _) as [t|]; [|discriminate H]. cbn [rmap] in H.
  match type of H with context [iterate incs ?b] => pose proof (iterate_fixed incs b V) as F; destruct (iterate incs b) as [us b'] end.
  cbn [snd] in F. injection H as _ <-. subst b'. split; [exact U|split; [exact V|exact W]].
Qed.
Lemma run_good : forall l x g, never_variable l -> good x g -> good (last_given l x) (fold_left act l g).
Proof.
  induction l as [|s l IH]; intros x g N G; [exact G|]. cbn [fold_left last_given].
  assert (N' : never_variable l) by (intros I; apply N; right; exact I).
  destruct G as (U & V & W). destruct s as [kw|v|incs].
  - apply IH; [exact N'|]. split; [apply nu_set_attr_valid, U|split; [exact V|exact W]].
  - destruct v as [y| |].
    + apply IH; [exact N'|]. split; [exact U|split; reflexivity].
    + exfalso. apply N. left. reflexivity.
    + apply IH; [exact N'|]. split; [exact U|split; [reflexivity|exact W]].
  - apply IH; [exact N'|]. cbn [act]. destruct (calculate incs g) as [[used g']|] eqn:C; [|split; [exact U|split; [exact V|exact W]]].
    exact (calculate_good incs x g used g' (conj U (conj V W)) C).
Qed.

Lemma ambient_read : forall l incs, never_variable l -> exists u used g',
  dget "T" (nu_unit (g_net (session l))) = Some u /\ calculate incs (session l) = Ok (used, g') /\
  length used = S (length incs) /\ (forall t, In t used -> convert_to_SI "T" (last_given l 1) u = Ok t) /\
  a_val (g_amb g') = last_given l 1.
Proof.
  intros l incs N. assert (G : good (last_given l 1) (session l)).
  { apply run_good; [exact N|]. split; [apply nu_defaults_valid|split; reflexivity]. }
  pose proof (proj2 (proj2 G)) as W. destruct (proj1 G "T"%string) as (u & D & K); [cbn; tauto|].
  pose proof (proj2 (to_SI_ok_iff "T" (last_given l 1) u) K) as C0. destruct (convert_to_SI "T" (last_given l 1) u) as [t|] eqn:C; [clear C0|discriminate C0].
  assert (P : amb_preprocess (g_net (session l)) (g_amb (session l)) = Ok {| a_val := a_val (g_amb (session l)); a_SI := t; a_set := a_set (g_amb (session l)); a_var := a_var (g_amb (session l)) |}).
  { unfold amb_preprocess, get_unit. rewrite D. cbn [rbind]. rewrite W, C. reflexivity. }
  pose (a := {| a_val := a_val (g_amb (session l)); a_SI := t; a_set := a_set (g_amb (session l)); a_var := a_var (g_amb (session l)) |}).
  fold a in P. pose proof (iterate_used incs a) as U. pose proof (iterate_length incs a) as Ln.
  assert (E : calculate incs (session l) = Ok (fst (iterate incs a), {| g_net := g_net (session l); g_amb := snd (iterate incs a) |})).
  { unfold calculate. rewrite P. cbn [rmap]. destruct (iterate incs a). reflexivity. }
  exists u, (fst (iterate incs a)), {| g_net := g_net (session l); g_amb := snd (iterate incs a) |}.
  split; [exact D|split; [exact E|split; [exact Ln|split]]].
  - intros s I. rewrite (U s I). exact C.
  - exact (proj2 (proj2 (calculate_good incs _ (session l) _ _ G E))).
Qed.

Lemma same_in_units : forall l l' incs incs' used used' g g' a b, never_variable l -> never_variable l' ->
  calculate incs (session l) = Ok (used, g) -> calculate incs' (session l') = Ok (used', g') ->
  (forall u u' s s', dget "T" (nu_unit (g_net (session l))) = Some u -> dget "T" (nu_unit (g_net (session l'))) = Some u' ->
     convert_to_SI "T" (last_given l 1) u = Ok s -> convert_to_SI "T" (last_given l' 1) u' = Ok s' -> (s == s')%Q) ->
  In a used -> In b used' -> (a == b)%Q.
Proof.
  intros l l' incs incs' used used' g g' a b N N' C C' H A B.
  destruct (ambient_read l incs N) as (u & v & h & D & E & _ & F & _). rewrite E in C. injection C as <- <-.
  destruct (ambient_read l' incs' N') as (u' & v' & h' & D' & E' & _ & F' & _). rewrite E' in C'. injection C' as <- <-.
  exact (H u u' a b D D' (F a A) (F' b B)).
Qed.

Lemma variable_constant : forall g incs used g', calculate incs g = Ok (used, g') -> forall a b, In a used -> In b used -> a = b.
Proof.
  intros g incs used g' H a b A B. unfold calculate in H. destruct (amb_preprocess _ _) as [x|]; [|discriminate H]. cbn [rmap] in H.
  pose proof (iterate_used incs x) as U. destruct (iterate incs x) as [us y]. injection H as -> _. cbn [fst] in U.
  rewrite (U a A), (U b B). reflexivity.
Qed.
Lemma variable_unused : exists l incs used g', calculate incs (session l) = Ok (used, g') /\ a_var (g_amb g') = true /\
  (a_val (g_amb g') == 25)%Q /\ forall t, In t used -> t = (27315 # 100) + 20.
Proof.
  exists [Settings {| kw_unit := [("T", "C")]; kw_range := []; kw_iter := None |}; SetTamb (ANum 20); SetTamb AVar]%string, [5%Q]. 
  eexists. eexists. split; [vm_compute; reflexivity|]. split; [reflexivity|]. split; [reflexivity|]. intros t H. cbn in H. destruct H as [<-|[<-|[]]]; vm_compute; reflexivity.
Qed.
