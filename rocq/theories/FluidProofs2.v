(** Lemmas: engines of the fluids of a branch. *)
From Verif Require Import MassModel MassProofs FluidModel FluidSpec FluidProofs FluidWitness.
Open Scope nat_scope.
Open Scope list_scope.

(* ---- collection ---- *)
Definition gathered {V} (get : fcont -> dict V) (s : fstate) (c : nat) (f : string) (e : V) : Prop :=
  In f (fset s c) /\ dget f (get (cont_of s c)) = Some e.

Lemma collect_inner {V} (d : dict V) f : forall l acc,
  dget f (fold_left (fun acc f => match dget f d with Some e => dset f e acc | None => acc end) l acc) =
  if smem f l then match dget f d with Some e => Some e | None => dget f acc end else dget f acc.
Proof.
  induction l as [|g l IH]; intros acc; cbn [fold_left smem existsb]; [reflexivity|].
  rewrite IH. unfold smem. cbn [existsb]. destruct (existsb (String.eqb f) l) eqn:E; [rewrite Bool.orb_true_r|rewrite Bool.orb_false_r].
  - destruct (dget f d) eqn:D; [reflexivity|]. destruct (dget g d) eqn:G; [|reflexivity].
    apply dget_dset_neq. intros ->. congruence.
  - destruct (String.eqb f g) eqn:F.
    + apply String.eqb_eq in F; subst. destruct (dget g d); [apply dget_dset_eq|reflexivity].
    + apply String.eqb_neq in F. destruct (dget g d); [now apply dget_dset_neq|reflexivity].
Qed.

Lemma collect_fold {V} (get : fcont -> dict V) s f : forall conns acc,
  let d := fold_left (fun acc c =>
    fold_left (fun acc f => match dget f (get (cont_of s c)) with Some e => dset f e acc | None => acc end) (fc_set (cont_of s c)) acc) conns acc in
  (forall e, dget f d = Some e -> (exists c, In c conns /\ gathered get s c f e) \/ dget f acc = Some e) /\
  (dget f d = None -> dget f acc = None /\ forall c e, In c conns -> ~ gathered get s c f e).
Proof.
  induction conns as [|c conns IH]; intros acc; cbv zeta; cbn [fold_left]; [split; [auto|intros H; split; [auto|intros c e []]]|].
  specialize (IH (fold_left (fun acc f => match dget f (get (cont_of s c)) with Some e => dset f e acc | None => acc end) (fc_set (cont_of s c)) acc)).
  cbv zeta in IH. destruct IH as (A & B). rewrite collect_inner in A, B. split.
  - intros e H. destruct (A e H) as [(d & D1 & D2)|D]; [left; exists d; split; [right; exact D1|exact D2]|].
    destruct (smem f (fc_set (cont_of s c))) eqn:M; [|auto]. destruct (dget f (get (cont_of s c))) eqn:G; [|auto].
    left. exists c. split; [left; auto|]. split; [now apply smem_In|congruence].
  - intros H. destruct (B H) as (B1 & B2). destruct (smem f (fc_set (cont_of s c))) eqn:M.
    + destruct (dget f (get (cont_of s c))) eqn:G; [discriminate|]. split; [exact B1|]. intros d e [<-|D] (X & Y); [congruence|exact (B2 d e D (conj X Y))].
    + split; [exact B1|]. intros d e [<-|D] (X & Y); [|exact (B2 d e D (conj X Y))]. apply smem_In in X. unfold fset in X. congruence.
Qed.

Lemma over_dict {V} (l : dict V) f : NoDup (keys l) -> forall acc,
  dget f (fold_left (fun acc fe => dset (fst fe) (snd fe) acc) l acc) = match dget f l with Some e => Some e | None => dget f acc end.
Proof.
  induction l as [|[g e] l IH]; intros ND acc; cbn [fold_left fst snd]; [reflexivity|]. inversion ND as [|? ? N1 N2]; subst.
  rewrite IH by exact N2. cbn [dget]. destruct (String.eqb f g) eqn:E.
  - apply String.eqb_eq in E; subst. assert (Z : dget g l = None) by (apply dget_None_notin; exact N1). rewrite Z. apply dget_dset_eq.
  - apply String.eqb_neq in E. destruct (dget f l); [reflexivity|]. now apply dget_dset_neq.
Qed.

Lemma collect_nodup {V} (get : fcont -> dict V) conns s : NoDup (keys (collect get conns s)).
Proof.
  unfold collect. assert (Z : forall l acc, NoDup (keys acc) -> NoDup (keys (fold_left (fun acc c =>
    fold_left (fun acc f => match dget f (get (cont_of s c)) with Some e => dset f e acc | None => acc end) (fc_set (cont_of s c)) acc) l acc))).
  { induction l as [|c l IH]; intros acc N; cbn [fold_left]; [exact N|]. apply IH. revert acc N.
    induction (fc_set (cont_of s c)) as [|f fs IHf]; intros acc N; cbn [fold_left]; [exact N|]. apply IHf.
    destruct (dget f (get (cont_of s c))); [now apply NoDup_keys_dset|exact N]. }
  apply Z. constructor.
Qed.

(* ---- wrappers of one connection ---- *)
Lemma create_wrapper_at f : forall l x,
  let x' := fold_left (fun x f =>
    if dmem f (fc_wrap x) then x
    else
      let engine := if dmem f (fc_engine x) then fc_engine x else dset f "CoolPropWrapper"%string (fc_engine x) in
      let back := if dmem f (fc_back x) then fc_back x else dset f None (fc_back x) in
      {| fc_val := fc_val x; fc_val0 := fc_val0 x; fc_set := fc_set x; fc_var := fc_var x;
         fc_engine := engine; fc_back := back;
         fc_wrap := dset f (match dget f engine with Some e => e | None => ""%string end,
                            match dget f back with Some b => b | None => None end) (fc_wrap x) |}) l x in
  match dget f (fc_wrap x) with
  | Some w => dget f (fc_wrap x') = Some w
  | None => In f l -> dget f (fc_wrap x') = Some (match dget f (fc_engine x) with Some e => e | None => "CoolPropWrapper"%string end,
                                                   match dget f (fc_back x) with Some b => b | None => None end)
  end.
Proof.
  induction l as [|g l IH]; intros x; cbv zeta; cbn [fold_left].
  - destruct (dget f (fc_wrap x)); [reflexivity|intros []].
  - cbv zeta in IH. destruct (dmem g (fc_wrap x)) eqn:M.
    + specialize (IH x). destruct (dget f (fc_wrap x)) eqn:W; [exact IH|]. intros [<-|I]; [|auto].
      apply dmem_In in M. apply dget_None_notin in W. contradiction.
    + match goal with |- context [fold_left _ l ?y] => specialize (IH y) end. cbn [fc_wrap fc_engine fc_back] in IH.
      destruct (string_dec f g) as [->|N].
      * rewrite dget_dset_eq in IH. assert (W : dget g (fc_wrap x) = None) by (unfold dmem in M; destruct (dget g (fc_wrap x)); [discriminate|reflexivity]).
        rewrite W. intros _. rewrite IH. f_equal. f_equal.
        -- unfold dmem. destruct (dget g (fc_engine x)) eqn:E; [now rewrite E|]. now rewrite dget_dset_eq.
        -- unfold dmem. destruct (dget g (fc_back x)) eqn:E; [now rewrite E|]. now rewrite dget_dset_eq.
      * rewrite dget_dset_neq in IH by exact N. destruct (dget f (fc_wrap x)); [exact IH|].
        intros [<-|I]; [congruence|]. rewrite (IH I). f_equal. f_equal.
        -- destruct (dmem g (fc_engine x)); [reflexivity|]. now rewrite dget_dset_neq.
        -- destruct (dmem g (fc_back x)); [reflexivity|]. now rewrite dget_dset_neq.
Qed.

Lemma create_wrapper_spec f d x :
  match dget f (fc_wrap x) with
  | Some w => dget f (fc_wrap (create_wrapper d x)) = Some w
  | None => In f (keys d) -> dget f (fc_wrap (create_wrapper d x)) = Some (match dget f (fc_engine x) with Some e => e | None => "CoolPropWrapper"%string end,
                                                   match dget f (fc_back x) with Some b => b | None => None end)
  end.
Proof. exact (create_wrapper_at f (keys d) x). Qed.

(* ---- the branch ---- *)
Section Branch.
Variables (rule : string) (pot : list string) (engines : dict string) (backs : dict (option string)).
Hypothesis PN : pot <> [].
Hypothesis NE : NoDup (keys engines).
Local Notation step := (propagate_one rule pot engines backs).

Lemma wrappers_fold conns : forall l s, incl l conns -> NoDup l ->
  (forall c d, In c conns -> In d conns -> fs_of s c = fs_of s d -> c = d) ->
  (forall c, In c conns -> NoDup (keys (frac s c)) /\ incl (fset s c) (keys (frac s c))) ->
  let s' := fold_left step l s in
  (forall c f w, In c conns -> wrapper_of s c f = Some w -> wrapper_of s' c f = Some w) /\
  (forall c, In c conns -> ~ In c l -> cont_of s' c = cont_of s c) /\
  (forall c f, In c l -> In f pot -> wrapper_of s c f = None -> exists b,
     wrapper_of s' c f = Some (match dget f engines with Some e => e | None =>
        match dget f (fc_engine (cont_of s c)) with Some e => e | None => "CoolPropWrapper"%string end end, b)).
Proof.
  induction l as [|c l IH]; intros s IC NL OW OK; cbv zeta; cbn [fold_left].
  - split; [auto|]. split; [auto|]. intros c f [].
  - inversion NL as [|? ? N1 N2]; subst.
    assert (Hc : In c conns) by (apply IC; now left).
    destruct (propagate_fold rule pot engines backs PN conns [c] s) as (B1 & _ & _ & B4 & B5 & B6 & _).
    { intros x [<-|[]]; exact Hc. } { exact OK. }
    cbn [fold_left] in *. set (s1 := step s c) in *.
    assert (OTHER : forall x, In x conns -> x <> c -> cont_of s1 x = cont_of s x).
    { intros x Hx D. unfold cont_of. rewrite B1. unfold s1, propagate_one. cbn. apply fupd_neq.
      intros E. apply D. apply OW; auto. }
    assert (OK1 : forall x, In x conns -> NoDup (keys (frac s1 x)) /\ incl (fset s1 x) (keys (frac s1 x))).
    { intros x Hx. destruct (B5 x Hx) as (X1 & X2 & _). split; [exact X1|]. intros f F. apply X2.
      apply (OK x Hx). unfold fset, cont_of in *. rewrite B1 in F. destruct (B4 (fs_of s x)) as (_ & _ & Z & _). congruence. }
    assert (OW1 : forall x y, In x conns -> In y conns -> fs_of s1 x = fs_of s1 y -> x = y) by (rewrite B1; exact OW).
    assert (IC1 : incl l conns) by (intros x Hx; apply IC; now right).
    destruct (IH s1 IC1 N2 OW1 OK1) as (C1 & C2 & C3).
    cbv zeta in C1, C2, C3.
    assert (OWN : forall f, match wrapper_of s c f with
       | Some w => wrapper_of s1 c f = Some w
       | None => In f pot -> exists b, wrapper_of s1 c f = Some (match dget f engines with Some e => e | None =>
            match dget f (fc_engine (cont_of s c)) with Some e => e | None => "CoolPropWrapper"%string end end, b) end).
    { intros f. unfold wrapper_of. unfold cont_of at 2 3. rewrite B1. unfold s1, propagate_one. cbn [fs_cont]. rewrite fupd_eq.
      match goal with |- context [create_wrapper ?d ?x] => pose proof (create_wrapper_spec f d x) as W end.
      cbn [fc_wrap fc_engine fc_back] in W. destruct (dget f (fc_wrap (cont_of s c))); [exact W|].
      intros P. destruct (start_ok pot (cont_of s c) (frac s c) PN (proj1 (OK c Hc))) as (_ & _ & _ & _ & A5 & _). cbv zeta in A5.
      rewrite (over_dict engines f NE) in W. eexists. rewrite W; [|apply A5; [apply (OK c Hc)|exact P]].
      destruct (dget f engines); reflexivity. }
    split; [|split].
    + intros x f w Hx W. apply C1; [exact Hx|]. destruct (Nat.eq_dec x c) as [->|D].
      * specialize (OWN f). rewrite W in OWN. exact OWN.
      * unfold wrapper_of in *. now rewrite OTHER.
    + intros x Hx D. rewrite C2; [apply OTHER; [exact Hx|intros ->; apply D; now left]|exact Hx|intros X; apply D; now right].
    + intros x f [<-|Hx] P W.
      * specialize (OWN f). rewrite W in OWN. destruct (OWN P) as (b & E). exists b. apply C1; auto.
      * assert (Hx' : In x conns) by (apply IC; now right). assert (D : x <> c) by (intros ->; contradiction).
        destruct (C3 x f Hx P) as (b & E); [unfold wrapper_of in *; rewrite OTHER; auto|]. exists b. rewrite E. now rewrite OTHER.
Qed.
End Branch.

Lemma engines_used conns s s' : sound_conns s conns -> own_fluid s conns -> propagate conns s = (s', None) ->
  forall c f, In c conns ->
  (forall w, wrapper_of s c f = Some w -> wrapper_of s' c f = Some w) /\
  (wrapper_of s c f = None -> (exists d, In d conns /\ In f (keys (frac s d))) ->
     (forall e, (exists d, In d conns /\ engine_given s d f e) -> (forall d e', In d conns -> engine_given s d f e' -> e' = e) ->
        exists b, wrapper_of s' c f = Some (e, b)) /\
     ((forall d e, In d conns -> ~ engine_given s d f e) -> dget f (fc_engine (cont_of s c)) = None ->
        exists b, wrapper_of s' c f = Some ("CoolPropWrapper"%string, b))).
Proof.
  intros (NC & OK) (OW & _) H c f Hc. unfold propagate in H. set (rs := rules conns s) in *.
  assert (RS : match potential conns s with
      | [] => (s, Some TESPyNetworkError)
      | pot => (fold_left (propagate_one (match rs with r :: _ => r | [] => "ideal-cond"%string end) pot
                  (collect fc_engine conns s) (collect fc_back conns s)) conns s, None) end = (s', None)).
  { destruct rs as [|r [|r2 l]]; [exact H|exact H|discriminate]. }
  clear H. set (rule := match rs with r :: _ => r | [] => "ideal-cond"%string end) in *.
  set (pot := potential conns s) in *.
  assert (PN : pot <> []) by (intros E; rewrite E in RS; discriminate).
  assert (H1 : fold_left (propagate_one rule pot (collect fc_engine conns s) (collect fc_back conns s)) conns s = s').
  { destruct pot; [congruence|]. now apply (f_equal fst) in RS. }
  assert (PI : forall f, (exists d, In d conns /\ In f (keys (frac s d))) -> In f pot).
  { intros g (d & A & B). unfold pot. rewrite potential_In. exists d. auto. }
  destruct (wrappers_fold rule pot (collect fc_engine conns s) (collect fc_back conns s) PN (collect_nodup _ _ _) conns conns s (incl_refl _) NC OW) as (A & _ & B).
  { intros d Hd. split; now apply (OK d Hd). }
  cbv zeta in A, B. rewrite H1 in A, B. clear H1 RS.
  split; [intros w W; apply A; auto|]. intros W P. destruct (B c f Hc (PI f P) W) as (b & E).
  destruct (collect_fold fc_engine s f conns []) as (C & D). cbv zeta in C, D. fold (collect fc_engine conns s) in C, D. split.
  - intros e (d & D1 & D2) AGREE. exists b. rewrite E. destruct (dget f (collect fc_engine conns s)) as [e'|] eqn:G.
    + destruct (C e' eq_refl) as [(x & X1 & X2)|X]; [|discriminate]. now rewrite (AGREE x e' X1 X2).
    + exfalso. destruct (D eq_refl) as (_ & Z). exact (Z d e D1 D2).
  - intros NONE OWN. exists b. rewrite E, OWN. destruct (dget f (collect fc_engine conns s)) as [e'|] eqn:G; [|reflexivity].
    destruct (C e' eq_refl) as [(x & X1 & X2)|X]; [|discriminate]. exfalso. exact (NONE x e' X1 X2).
Qed.

(** Two connections of a branch with different engines of the same fluid *)
Definition w_engines := set_engines 1 [("water", "CoolPropWrapper")]%string (set_fluid 1 "water" (Some 1%Q)
  (set_engines 0 [("water", "IAPWSWrapper")]%string (set_fluid 0 "water" (Some 1%Q) (new_conns 9)))).
Lemma engines_conflict : exists s conns s' c f e w b, sound_conns s conns /\ own_fluid s conns /\ propagate conns s = (s', None) /\
  In c conns /\ wrapper_of s c f = None /\ engine_given s c f e /\ wrapper_of s' c f = Some (w, b) /\ w <> e.
Proof.
  exists w_engines, [0; 1], (fst (propagate [0; 1] w_engines)), 0, "water"%string, "IAPWSWrapper"%string, "CoolPropWrapper"%string, None.
  split; [sound|]. split; [owned|]. split; [apply ok_pair; vm_compute; reflexivity|]. split; [cbn; auto|].
  split; [reflexivity|]. split; [split; [cbn; auto|reflexivity]|]. split; [vm_compute; reflexivity|discriminate].
Qed.

(** An engine given where the fraction is a starting value only *)
Definition w_start_engine := set_engines 1 [("water", "IAPWSWrapper")]%string (set_fluid 0 "water" (Some 1%Q) (new_conns 9)).
Lemma engines_not_propagated : exists s conns s' c d f e w b, sound_conns s conns /\ own_fluid s conns /\ propagate conns s = (s', None) /\
  In c conns /\ In d conns /\ dget f (fc_engine (cont_of s d)) = Some e /\ (forall x e', In x conns -> dget f (fc_engine (cont_of s x)) = Some e' -> e' = e) /\
  wrapper_of s c f = None /\ wrapper_of s' d f = Some (e, None) /\ wrapper_of s' c f = Some (w, b) /\ w <> e.
Proof.
  exists w_start_engine, [0; 1], (fst (propagate [0; 1] w_start_engine)), 0, 1, "water"%string, "IAPWSWrapper"%string, "CoolPropWrapper"%string, None.
  split; [sound|]. split; [owned|]. split; [apply ok_pair; vm_compute; reflexivity|]. split; [cbn; auto|]. split; [cbn; auto|].
  split; [reflexivity|]. split; [intros x e' [<-|[<-|[]]] E; vm_compute in E; congruence|].
  split; [reflexivity|]. split; [vm_compute; reflexivity|]. split; [vm_compute; reflexivity|discriminate].
Qed.
