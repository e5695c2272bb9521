(** Lemmas on dictionaries, containers and components for export and import. *)
From Coq Require Import QArith.
From Verif Require Import Base UnitsModel NetUnitsModel UnitsProofs IoModel IoSpec.
Open Scope string_scope.
Open Scope list_scope.

(* ------------------------------------------------------------- dictionaries *)
Definition updates {V} (l : list (string * V)) (d : dict V) : dict V := fold_left (fun d e => dset (fst e) (snd e) d) l d.

Lemma build_updates l : build l = updates l [].
Proof. reflexivity. Qed.

Lemma updates_none {V} (l : list (string * V)) d k : (forall v, ~ In (k, v) l) -> dget k (updates l d) = dget k d.
Proof.
  revert d; induction l as [|[k' v'] l IH]; intros d H; cbn; [reflexivity|].
  unfold updates in IH. rewrite IH.
  - apply dget_dset_neq. intros ->. apply (H v'). now left.
  - intros v Hv. apply (H v). now right.
Qed.

Lemma updates_get {V} (l : list (string * V)) d k v :
  In (k, v) l -> (forall w, In (k, w) l -> w = v) -> dget k (updates l d) = Some v.
Proof.
  revert d; induction l as [|[k' v'] l IH]; intros d Hi Hu; [destruct Hi|]. cbn.
  destruct (in_dec string_dec k (map fst l)) as [H|H].
  - apply in_map_iff in H. destruct H as ([k2 w] & E & Hw). cbn in E; subst k2.
    assert (w = v) by (apply Hu; now right). subst w.
    apply IH; [exact Hw|]. intros w Hw'. apply Hu. now right.
  - destruct Hi as [E|Hi]; [inversion E; subst|exfalso; apply H, in_map_iff; now exists (k, v)].
    change (dget k (updates l (dset k v d)) = Some v).
    rewrite updates_none; [apply dget_dset_eq|]. intros w Hw. apply H, in_map_iff. now exists (k, w).
Qed.

Lemma updates_nodup {V} (l : list (string * V)) k : NoDup (keys l) -> dget k (updates l []) = dget k l.
Proof.
  intros N. destruct (dget k l) as [v|] eqn:E.
  - apply updates_get; [now apply dget_In|]. intros w Hw. apply In_dget in Hw; [congruence|exact N].
  - rewrite updates_none; [reflexivity|]. intros v Hv.
    apply dget_None_notin in E. apply E. apply in_map_iff. now exists (k, v).
Qed.

Lemma In_dset {V} k (v : V) d e : In e (dset k v d) -> e = (k, v) \/ In e d.
Proof.
  induction d as [|[k' v'] d IH]; cbn; [intros [<-|[]]; auto|].
  destruct (String.eqb k k') eqn:E; cbn.
  - apply String.eqb_eq in E; subst. intros [<-|H]; auto.
  - intros [<-|H]; auto. destruct (IH H); auto.
Qed.

Lemma In_updates {V} (l : list (string * V)) d e : In e (updates l d) -> In e l \/ In e d.
Proof.
  revert d; induction l as [|[k v] l IH]; intros d; cbn; [auto|].
  intros H. destruct (IH _ H) as [K|K]; [auto|]. destruct (In_dset _ _ _ _ K); subst; auto.
Qed.

Lemma NoDup_updates {V} (l : list (string * V)) d : NoDup (keys d) -> NoDup (keys (updates l d)).
Proof.
  revert d; induction l as [|[k v] l IH]; intros d H; cbn; [exact H|]. apply IH. now apply NoDup_keys_dset.
Qed.

Definition key_add (ks : list string) (k : string) : list string := if smem k ks then ks else ks ++ [k].

Lemma keys_dset_eq {V} k (v : V) d : keys (dset k v d) = key_add (keys d) k.
Proof.
  unfold key_add. induction d as [|[k' v'] d IH]; cbn; [reflexivity|].
  destruct (String.eqb k k') eqn:E; cbn; [reflexivity|].
  unfold keys in IH. rewrite IH. unfold smem. destruct (existsb (String.eqb k) (map fst d)); reflexivity.
Qed.

Lemma keys_updates {V} (l : list (string * V)) d : keys (updates l d) = fold_left key_add (map fst l) (keys d).
Proof.
  revert d; induction l as [|[k v] l IH]; intros d; cbn; [reflexivity|].
  change (keys (updates l (dset k v d)) = fold_left key_add (map fst l) (key_add (keys d) k)).
  now rewrite IH, keys_dset_eq.
Qed.

Lemma key_add_nodup ks acc : NoDup (acc ++ ks) -> fold_left key_add ks acc = acc ++ ks.
Proof.
  revert acc; induction ks as [|k ks IH]; intros acc H; cbn; [now rewrite app_nil_r|].
  unfold key_add at 2. destruct (smem k acc) eqn:E.
  - apply smem_In in E. apply NoDup_remove_2 in H. exfalso. apply H, in_or_app. auto.
  - rewrite IH; rewrite <- app_assoc; [reflexivity|exact H].
Qed.

Lemma updates_id {V} (l : dict V) : NoDup (keys l) -> keys (updates l []) = keys l.
Proof. intros H. rewrite keys_updates. now rewrite key_add_nodup. Qed.

Lemma dmem_dget {V} k (d : dict V) : dmem k d = true <-> exists v, dget k d = Some v.
Proof. unfold dmem. destruct (dget k d) as [v|]; split; intros H; try discriminate; eauto. destruct H; discriminate. Qed.

Lemma dget_keys {V} k (d : dict V) : In k (keys d) -> exists v, dget k d = Some v.
Proof. intros H. apply dmem_dget. now apply dmem_In. Qed.

Lemma rmapM_total {A B} (f : A -> res B) l : (forall a, In a l -> exists b, f a = Ok b) -> exists l', rmapM f l = Ok l'.
Proof.
  induction l as [|a l IH]; intros H; cbn; [eauto|].
  destruct (H a) as [b E]; [now left|]. rewrite E. cbn.
  destruct IH as [l' E']; [intros; apply H; now right|]. rewrite E'. cbn. eauto.
Qed.

Lemma rmapM_In {A B} (f : A -> res B) l l' b : rmapM f l = Ok l' -> In b l' -> exists a, In a l /\ f a = Ok b.
Proof.
  intros H. apply rmapM_Forall2 in H. induction H; intros I; [destruct I|].
  destruct I as [<-|I]; [eexists; split; [now left|eassumption]|].
  destruct (IHForall2 I) as (a & ? & ?). exists a. split; [now right|assumption].
Qed.

Lemma rmapM_In' {A B} (f : A -> res B) l l' a : rmapM f l = Ok l' -> In a l -> exists b, In b l' /\ f a = Ok b.
Proof.
  intros H. apply rmapM_Forall2 in H. induction H; intros I; [destruct I|].
  destruct I as [<-|I]; [eexists; split; [now left|eassumption]|].
  destruct (IHForall2 I) as (b & ? & ?). exists b. split; [now right|assumption].
Qed.

(** maps that keep the labels *)
Lemma rmapM_keys {A B} (f : string * A -> res (string * B)) l l' :
  rmapM f l = Ok l' -> (forall e e', f e = Ok e' -> fst e' = fst e) -> map fst l' = map fst l.
Proof.
  intros H K. apply rmapM_Forall2 in H. induction H; cbn; [reflexivity|]. f_equal; auto.
Qed.

Definition labelled {A B} (g : A -> res B) (e : string * A) : res (string * B) := rmap (fun x => (fst e, x)) (g (snd e)).

Lemma labelled_get {A B} (g : A -> res B) l l' k :
  rmapM (labelled g) l = Ok l' ->
  match dget k l, dget k l' with
  | Some a, Some b => g a = Ok b
  | None, None => True
  | _, _ => False
  end.
Proof.
  intros H. apply rmapM_Forall2 in H. induction H as [|[k1 a] [k2 b] l l' E H IH]; cbn; [exact Logic.I|].
  unfold labelled in E. cbn in E. destruct (g a) as [b'|] eqn:G; cbn in E; [|discriminate]. inversion E; subst.
  destruct (String.eqb k k2); [exact G|exact IH].
Qed.

(* --------------------------------------------------------------- containers *)
Lemma jsonable_dict d : jsonable (VDict d) = true <-> forall k v, In (k, v) d -> jsonable v = true.
Proof.
  cbn. rewrite forallb_forall. split.
  - intros H k v Hi. exact (H (k, v) Hi).
  - intros H [k v] Hi. exact (H k v Hi).
Qed.

Lemma jsonable_numbers l : jsonable (numbers l) = true.
Proof. unfold numbers. cbn. induction l; cbn; auto. Qed.

Lemma set_attrs_spec d c :
  NoDup (keys d) -> (forall k, In k (keys d) -> dmem k (c_attrs c) = true) ->
  exists c', set_attrs d c = Ok c' /\ c_kind c' = c_kind c /\
    forall k, dget k (c_attrs c') = match dget k d with Some v => Some v | None => dget k (c_attrs c) end.
Proof.
  intros N H. unfold set_attrs.
  assert (G : forall a, (forall k, In k (keys d) -> dmem k a = true) ->
    exists a', fold_left (fun (r : res (dict value)) e => rbind r (fun a => if dmem (fst e) a then Ok (dset (fst e) (snd e) a) else Err KeyError)) d (Ok a) = Ok a' /\
      forall k, dget k a' = match dget k d with Some v => Some v | None => dget k a end).
  { clear H c. induction d as [|[k v] d IH]; intros a H; cbn; [eauto|].
    rewrite (H k) by now left. inversion N as [|? ? Nk N']; subst.
    destruct (IH N' (dset k v a)) as (a' & E & D).
    { intros k' Hk. apply dmem_In. apply keys_dset. right. apply dmem_In. apply H. now right. }
    exists a'. split; [exact E|]. intros k'. rewrite D.
    destruct (String.eqb k' k) eqn:X; [apply String.eqb_eq in X; subst k'|].
    - replace (dget k d) with (@None value); [apply dget_dset_eq|]. symmetry. now apply dget_None_notin.
    - apply String.eqb_neq in X. rewrite dget_dset_neq by congruence. reflexivity. }
  destruct (G (c_attrs c) H) as (a' & E & D). rewrite E. cbn. eexists; split; [reflexivity|]. split; [reflexivity|exact D].
Qed.

Lemma pick_spec ks c : (forall k, In k ks -> writes k c) ->
  exists d, pick ks c = Ok d /\ keys d = ks /\ jsonable (VDict d) = true /\
    forall k, dget k d = if smem k ks then dget k (c_attrs c) else None.
Proof.
  induction ks as [|k ks IH]; intros H; cbn; [exists []; auto|].
  destruct (H k) as (v & E & J); [now left|]. unfold attr. rewrite E. cbn.
  destruct IH as (d & E' & K & J' & D); [intros; apply H; now right|].
  unfold pick, attr in E'. rewrite E'. cbn. eexists; split; [reflexivity|].
  split; [cbn; f_equal; exact K|]. split.
  - cbn [jsonable forallb snd] in *. now rewrite J.
  - intros k'. cbn. destruct (String.eqb k' k) eqn:X; cbn; [apply String.eqb_eq in X; subst; auto|apply D].
Qed.

Lemma floats_numbers l : floats (numbers l) = Ok l.
Proof. unfold floats, numbers. induction l as [|a l IH]; cbn; [reflexivity|]. now rewrite IH. Qed.

Lemma floats_table l : rmapM floats (map numbers l) = Ok l.
Proof. induction l as [|a l IH]; [reflexivity|]. cbn [map rmapM]. now rewrite floats_numbers, IH. Qed.

Lemma make_line_back x y e d : length x = length y -> char_dict (VLine x y e) = Ok d -> make_line d = Ok (VLine x y e) /\ jsonable d = true.
Proof.
  intros L E. inversion E; subst d. split.
  - cbn -[floats numbers]. rewrite !floats_numbers. cbn. now rewrite L, Nat.eqb_refl.
  - cbn -[numbers]. now rewrite !jsonable_numbers.
Qed.

Lemma make_map_back x y z n d : length x = length y -> length y = length z -> (forall row, In row (y ++ z) -> length row = n) ->
  char_dict (VMap x y z) = Ok d -> make_map d = Ok (VMap x y z) /\ jsonable d = true.
Proof.
  intros L1 L2 Hn E. inversion E; subst d. split.
  - cbn -[floats numbers]. rewrite floats_numbers, !floats_table. cbn. rewrite L1, L2, !Nat.eqb_refl. cbn.
    replace (rectangular y z) with true; [reflexivity|]. symmetry. unfold rectangular. apply forallb_forall.
    intros row Hr. apply Nat.eqb_eq. rewrite (Hn row Hr).
    destruct y as [|r y]; cbn; [|symmetry; apply Hn; now left].
    destruct z; [destruct Hr|discriminate L2].
  - cbn -[numbers]. rewrite jsonable_numbers.
    assert (T : forall t, forallb jsonable (map numbers t) = true).
    { intros t. apply forallb_forall. intros v Hv. apply in_map_iff in Hv. destruct Hv as (r & <- & _). apply jsonable_numbers. }
    now rewrite !T.
Qed.

(** A container of a component: writing succeeds, reading into a new one gives the data. *)
Lemma kept_of_attrs fresh c d ks :
  alike c fresh -> keys d = ks -> NoDup ks -> incl ks (user_data (c_kind c)) ->
  (forall k, In k ks -> dget k (c_attrs c) <> None) ->
  (forall k, In k ks -> dget k d = dget k (c_attrs c)) ->
  (forall k, In k (user_data (c_kind c)) -> ~ In k ks -> same_attr k c fresh) ->
  exists c', set_attrs d fresh = Ok c' /\ kept_param fresh c c'.
Proof.
  intros [A1 A2] K N I P D R.
  destruct (set_attrs_spec d fresh) as (c' & E & Kc & Dc).
  { now rewrite K. }
  { intros k Hk. rewrite K in Hk. unfold dmem. destruct (dget k (c_attrs fresh)) eqn:F; [reflexivity|].
    exfalso. apply (P k Hk). now apply A2. }
  exists c'. split; [exact E|]. split; [congruence|]. unfold same_attr. split.
  - intros k Hk. rewrite Dc. destruct (in_dec string_dec k ks) as [Hi|Hi].
    + rewrite (D k Hi). destruct (dget k (c_attrs c)) eqn:X; [reflexivity|]. exfalso. now apply (P k Hi).
    + replace (dget k d) with (@None value); [now apply R|]. symmetry. apply dget_None_notin. now rewrite K.
  - intros k Hk. rewrite Dc. replace (dget k d) with (@None value); [reflexivity|].
    symmetry. apply dget_None_notin. rewrite K. intros X. now apply Hk, I.
Qed.

Ltac nodup := repeat (constructor; [cbn; intuition congruence|]); constructor.

Lemma param_back fresh c :
  alike c fresh -> good_param c -> (dget "char_func" (c_attrs fresh) = None \/ dget "char_func" (c_attrs fresh) = Some VNone) ->
  exists d c', serialize c = Ok d /\ jsonable (VDict d) = true /\ read_param fresh (VDict d) = Ok c' /\ kept_param fresh c c'.
Proof.
  intros A G F. unfold good_param, serialize in *. destruct (c_kind c) eqn:Kc; try contradiction.
  - (* KCp *)
    destruct (pick_spec _ _ G) as (d & E & K & J & D). cbn [user_data] in *.
    assert (A' := A); destruct A' as [A1 A2].
    destruct (kept_of_attrs fresh c d _ A K) as (c' & S & P).
    { nodup. } { rewrite Kc. apply incl_refl. }
    { intros k Hk. destruct (G k Hk) as (v & X & _). congruence. }
    { intros k Hk. rewrite D. apply smem_In in Hk. now rewrite Hk. }
    { rewrite Kc. intros k H1 H2. now destruct H2. }
    exists d, c'. split; [exact E|]. split; [exact J|]. split; [|exact P].
    unfold read_param. cbn [mapping rbind]. rewrite D. cbn [smem existsb]. rewrite <- A1, Kc. cbn. exact S.
  - (* KCC *)
    destruct G as [G C]. destruct (pick_spec _ _ G) as (d & E & K & J & D).
    assert (A' := A); destruct A' as [A1 A2].
    destruct C as [C|(x & y & e & C & L)].
    + destruct (kept_of_attrs fresh c d _ A K) as (c' & S & P).
      { nodup. } { rewrite Kc. cbn. intros k Hk. cbn in *. tauto. }
      { intros k Hk. destruct (G k Hk) as (v & X & _). congruence. }
      { intros k Hk. rewrite D. apply smem_In in Hk. now rewrite Hk. }
      { rewrite Kc. intros k H1 H2. cbn in H1, H2. destruct H1 as [<-|H1]; [|tauto]. unfold same_attr. rewrite C.
        destruct F as [F|F]; [|now rewrite F]. apply A2 in F. congruence. }
      exists d, c'. unfold char_part, attr. rewrite C. cbn [rbind]. rewrite E. cbn [rmap app].
      split; [reflexivity|]. split; [exact J|]. split; [|exact P].
      unfold read_param. cbn [mapping rbind]. rewrite D. cbn [smem existsb String.eqb]. rewrite <- A1, Kc. cbn. exact S.
    + destruct (char_dict (VLine x y e)) as [ch|] eqn:CE; [|discriminate CE].
      destruct (make_line_back _ _ _ _ L CE) as [M Jc].
      set (d2 := ("char_func", VLine x y e) :: d).
      destruct (kept_of_attrs fresh c d2 ["char_func"; "is_set"; "param"; "char_params"] A) as (c' & S & P).
      { cbn. f_equal. exact K. } { nodup. } { rewrite Kc. apply incl_refl. }
      { intros k [<-|Hk]; [congruence|]. destruct (G k Hk) as (v & X & _). congruence. }
      { intros k [<-|Hk]; [cbn; congruence|]. cbn.
        destruct (String.eqb k "char_func") eqn:X; [apply String.eqb_eq in X; subst; congruence|].
        rewrite D. apply smem_In in Hk. now rewrite Hk. }
      { rewrite Kc. intros k H1 H2. now destruct H2. }
      exists (("char_func", ch) :: d), c'. unfold char_part, attr. rewrite C. cbn [rbind]. rewrite CE. cbn [rmap rbind]. rewrite E. cbn [rmap app].
      split; [reflexivity|]. split; [cbn [jsonable forallb snd] in *; now rewrite Jc|]. split; [|exact P].
      unfold read_param. cbn [mapping rbind dget String.eqb Ascii.eqb Bool.eqb]. rewrite <- A1, Kc. cbn. rewrite M. cbn. exact S.
  - (* KCM *)
    destruct G as [G C]. destruct (pick_spec _ _ G) as (d & E & K & J & D).
    assert (A' := A); destruct A' as [A1 A2].
    destruct C as [C|(x & y & z & n & C & L1 & L2 & Ln)].
    + destruct (kept_of_attrs fresh c d _ A K) as (c' & S & P).
      { nodup. } { rewrite Kc. cbn. intros k Hk. cbn in *. tauto. }
      { intros k Hk. destruct (G k Hk) as (v & X & _). congruence. }
      { intros k Hk. rewrite D. apply smem_In in Hk. now rewrite Hk. }
      { rewrite Kc. intros k H1 H2. cbn in H1, H2. destruct H1 as [<-|H1]; [|tauto]. unfold same_attr. rewrite C.
        destruct F as [F|F]; [|now rewrite F]. apply A2 in F. congruence. }
      exists d, c'. unfold char_part, attr. rewrite C. cbn [rbind]. rewrite E. cbn [rmap app].
      split; [reflexivity|]. split; [exact J|]. split; [|exact P].
      unfold read_param. cbn [mapping rbind]. rewrite D. cbn [smem existsb String.eqb]. rewrite <- A1, Kc. cbn. exact S.
    + destruct (char_dict (VMap x y z)) as [ch|] eqn:CE; [|discriminate CE].
      destruct (make_map_back _ _ _ _ _ L1 L2 Ln CE) as [M Jc].
      set (d2 := ("char_func", VMap x y z) :: d).
      destruct (kept_of_attrs fresh c d2 ["char_func"; "is_set"; "param"] A) as (c' & S & P).
      { cbn. f_equal. exact K. } { nodup. } { rewrite Kc. apply incl_refl. }
      { intros k [<-|Hk]; [congruence|]. destruct (G k Hk) as (v & X & _). congruence. }
      { intros k [<-|Hk]; [cbn; congruence|]. cbn.
        destruct (String.eqb k "char_func") eqn:X; [apply String.eqb_eq in X; subst; congruence|].
        rewrite D. apply smem_In in Hk. now rewrite Hk. }
      { rewrite Kc. intros k H1 H2. now destruct H2. }
      exists (("char_func", ch) :: d), c'. unfold char_part, attr. rewrite C. cbn [rbind]. rewrite CE. cbn [rmap rbind]. rewrite E. cbn [rmap app].
      split; [reflexivity|]. split; [cbn [jsonable forallb snd] in *; now rewrite Jc|]. split; [|exact P].
      unfold read_param. cbn [mapping rbind dget String.eqb Ascii.eqb Bool.eqb]. rewrite <- A1, Kc. cbn. rewrite M. cbn. exact S.
  - (* KGroup *)
    assert (A' := A); destruct A' as [A1 A2].
    destruct (kept_of_attrs fresh c [] [] A eq_refl) as (c' & S & P).
    { constructor. } { intros k []. } { intros k []. } { intros k []. }
    { rewrite Kc. intros k []. }
    exists [], c'. split; [reflexivity|]. split; [reflexivity|]. split; [|exact P].
    unfold read_param. cbn. rewrite <- A1, Kc. exact S.
  - (* KSimple *)
    destruct (pick_spec _ _ G) as (d & E & K & J & D). cbn [user_data] in *.
    assert (A' := A); destruct A' as [A1 A2].
    destruct (kept_of_attrs fresh c d _ A K) as (c' & S & P).
    { nodup. } { rewrite Kc. apply incl_refl. }
    { intros k Hk. destruct (G k Hk) as (v & X & _). congruence. }
    { intros k Hk. rewrite D. apply smem_In in Hk. now rewrite Hk. }
    { rewrite Kc. intros k H1 H2. now destruct H2. }
    exists d, c'. split; [exact E|]. split; [exact J|]. split; [|exact P].
    unfold read_param. cbn [mapping rbind]. rewrite D. cbn [smem existsb]. rewrite <- A1, Kc. cbn. exact S.
Qed.
