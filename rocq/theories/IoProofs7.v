(** Proofs about files that are accepted. *)
From Coq Require Import QArith.
From Verif Require Import Base UnitsModel NetUnitsModel IoModel IoSpec2 IoProofs.
Open Scope string_scope.
Open Scope list_scope.

Lemma rbind_ok {A B} (r : res A) (f : A -> res B) b : rbind r f = Ok b -> exists a, r = Ok a /\ f a = Ok b.
Proof. destruct r; cbn; [eauto | discriminate]. Qed.
Lemma rmap_ok {A B} (f : A -> B) (r : res A) b : rmap f r = Ok b -> exists a, r = Ok a /\ b = f a.
Proof. destruct r; cbn; [intro E; injection E as <-; eauto | discriminate]. Qed.
Lemma in_keys {V} k (d : dict V) : In k (keys d) <-> exists v, dget k d = Some v.
Proof.
  split; [apply dget_keys |]. intros (v & D). apply dget_In in D. apply in_map_iff. exists (k, v). auto.
Qed.
Lemma keys_dset_known {V} k (v : V) d : In k (keys d) -> keys (dset k v d) = keys d.
Proof. intro I. rewrite keys_dset_eq. unfold key_add. apply smem_In in I. now rewrite I. Qed.
Lemma fold_stuck {A E} (f : A -> E -> res A) l e : fold_left (fun (r : res A) x => rbind r (fun a => f a x)) l (Err e) = Err e.
Proof. induction l; cbn; auto. Qed.

(* ---------------------------------------------------------------------- writing *)

Lemma jsonable_json : forall v, jsonable v = true -> json v.
Proof.
  fix IH 1. intros [| b | x | s | l | d | l | x y e | x y z | c f d | s] H; try discriminate H; constructor.
  - cbn in H. induction l as [| a l IHl]; [intros _ [] |]. cbn in H. apply andb_prop in H as (Ha & Hl).
    intros x [<- | I]; [exact (IH a Ha) | exact (IHl Hl x I)].
  - cbn in H. induction d as [| [k0 a] d IHd]; [intros _ _ [] |]. cbn in H. apply andb_prop in H as (Ha & Hd).
    intros k x [E | I]; [injection E as _ <-; exact (IH a Ha) | exact (IHd Hd k x I)].
Qed.
Lemma dump_json d d' : dump d = Ok d' -> d' = d /\ json (VDict d).
Proof. unfold dump. destruct (jsonable (VDict d)) eqn:J; [| discriminate]. intro E. injection E as <-. split; [reflexivity | now apply jsonable_json]. Qed.
Lemma comps_json cs old new cls f : comps_data cs old = Ok new -> dget cls new = Some f -> json (VDict f) \/ dget cls old = Some f.
Proof.
  unfold comps_data. revert old. induction (classes cs) as [| c l IH]; intros old E D; cbn [fold_left rbind] in E.
  - injection E as <-. now right.
  - destruct (class_data cs c) as [d | e] eqn:C; cbn [rmap] in E.
    + destruct (IH _ E D) as [J | J]; [now left |]. destruct (String.eqb_spec cls c) as [-> | N].
      * rewrite dget_dset_eq in J. injection J as <-. left. unfold class_data in C. apply rbind_ok in C as (x & _ & C). apply dump_json in C as (-> & C). exact C.
      * rewrite dget_dset_neq in J by congruence. now right.
    + exfalso. clear - E. induction l; cbn in E; [discriminate | auto].
Qed.
Lemma export_json : forall n d d', export n d = Ok d' ->
  (exists c, d_conns d' = Some c /\ json (VDict c) /\ forall l, In l (keys c) <-> In l (keys (t_conns n)))
  /\ (forall cls f, dget cls (d_comps d') = Some f -> json (VDict f) \/ dget cls (d_comps d) = Some f)
  /\ (forall b, d_busses d' = Some b -> json (VDict b) \/ t_busses n = [] /\ d_busses d = Some b).
Proof.
  unfold export. intros n d d' E. apply rbind_ok in E as (u & _ & E). apply rbind_ok in E as (c & EC & E). apply rbind_ok in E as (p & EP & E).
  apply rmap_ok in E as (b & EB & ->). cbn. split; [| split].
  - exists c. split; [reflexivity |]. unfold conns_data in EC. apply rbind_ok in EC as (l & EL & EC). apply dump_json in EC as (-> & J). split; [exact J |].
    intro x. rewrite build_updates, keys_updates. change (fold_left key_add (map fst l) (keys (@nil (string * value)))) with (fold_left key_add (map fst l) []).
    assert (G : forall acc, In x (fold_left key_add (map fst l) acc) <-> In x acc \/ In x (map fst l)).
    { clear. induction (map fst l) as [| y q IH]; intro acc; cbn; [tauto |]. rewrite IH. unfold key_add. destruct (smem y acc) eqn:S.
      - apply smem_In in S. split; [tauto |]. intros [A | [<- | B]]; auto.
      - rewrite in_app_iff. cbn. tauto. }
    rewrite G. cbn [In]. assert (KL : keys l = keys (t_conns n)).
    { apply (rmapM_keys (fun e : string * conn => rmap (fun d => (fst e, VDict d)) (conn_data (snd e)))); [exact EL |].
      intros [k y] z. cbn. intro F. apply rmap_ok in F as (w & _ & ->). reflexivity. }
    rewrite <- KL. unfold keys. tauto.
  - intros cls f D. exact (comps_json _ _ _ _ _ EP D).
  - intros bb ->. unfold busses_data in EB. destruct (t_busses n) as [| e bs]; [injection EB as <-; now right |]. left.
    apply rbind_ok in EB as (l & _ & EB). apply rmap_ok in EB as (d0 & ED & EB). injection EB as ->. now apply dump_json in ED as (-> & J).
Qed.

(* ---------------------------------------------------------------------- reading *)

Lemma set_attrs_ok d c c' : set_attrs d c = Ok c' -> c_kind c' = c_kind c /\ keys (c_attrs c') = keys (c_attrs c)
  /\ (forall k, In k (keys d) -> In k (keys (c_attrs c)))
  /\ (NoDup (keys d) -> forall k, dget k (c_attrs c') = match dget k d with Some v => Some v | None => dget k (c_attrs c) end).
Proof.
  unfold set_attrs. intro E. apply rmap_ok in E as (a & E & ->). cbn. split; [reflexivity |]. revert E. generalize (c_attrs c) as a0.
  induction d as [| [k v] d IH]; intros a0 E; cbn [fold_left rbind fst snd] in E.
  - injection E as <-. split; [reflexivity |]. split; [intros k [] | reflexivity].
  - destruct (dmem k a0) eqn:M; [| rewrite fold_stuck in E; discriminate E]. apply dmem_In in M. destruct (IH _ E) as (K & IN & G).
    rewrite (keys_dset_known k v a0 M) in K, IN. split; [exact K |]. split.
    + intros x [<- | I]; [exact M | now apply IN].
    + intros ND x. inversion ND as [| ? ? NI ND2]; subst. rewrite (G ND2). cbn [dget]. destruct (String.eqb_spec x k) as [-> | N].
      * apply dget_None_notin in NI. unfold keys in *. rewrite NI. apply dget_dset_eq.
      * rewrite dget_dset_neq by congruence. reflexivity.
Qed.
Lemma make_line_ok v w : make_line v = Ok w -> exists x y e, w = VLine x y e /\ length x = length y.
Proof.
  unfold make_line. intro E. apply rbind_ok in E as (d & _ & E). destruct (only _ d); [| discriminate E].
  apply rbind_ok in E as (x & _ & E). apply rbind_ok in E as (y & _ & E). destruct (arg "extrapolate" d (VBool false)); try discriminate E.
  destruct (Nat.eqb_spec (length x) (length y)) as [L |]; [| discriminate E]. injection E as <-. eauto 6.
Qed.
Lemma read_param_ok c d c' : read_param c (VDict d) = Ok c' -> c_kind c' = c_kind c /\ keys (c_attrs c') = keys (c_attrs c) /\ read_from d c'.
Proof.
  unfold read_param. cbn [mapping rbind]. intro E. apply rbind_ok in E as (d1 & E1 & E). apply rbind_ok in E as (d2 & E2 & E).
  destruct (set_attrs_ok d2 c c' E) as (K & KK & IN & G).
  assert (D1 : keys d1 = keys d /\ (forall k, k <> "char_func" -> dget k d1 = dget k d)
    /\ (c_kind c = KCC -> In "char_func" (keys d) -> exists x y e, dget "char_func" d1 = Some (VLine x y e) /\ length x = length y)).
  { destruct (dget "char_func" d) as [f |] eqn:F.
    - assert (I : In "char_func" (keys d)) by (apply in_keys; eauto).
      destruct (c_kind c) eqn:KC; try (injection E1 as <-; split; [reflexivity |]; split; [reflexivity | discriminate]).
      + apply rmap_ok in E1 as (w & W & ->). split; [now apply keys_dset_known |]. split; [intros k N; rewrite dget_dset_neq by congruence; reflexivity |].
        intros _ _. rewrite dget_dset_eq. apply make_line_ok in W as (x & y & e & -> & L). eauto 6.
      + apply rmap_ok in E1 as (w & W & ->). split; [now apply keys_dset_known |]. split; [intros k N; rewrite dget_dset_neq by congruence; reflexivity |]. discriminate.
    - injection E1 as <-. split; [reflexivity |]. split; [reflexivity |]. intros _ I. apply in_keys in I as (v & I). congruence. }
  destruct D1 as (K1 & G1 & L1).
  assert (D2 : (forall k, In k (keys d1) -> In k (keys d2)) /\ (NoDup (keys d1) -> NoDup (keys d2)) /\ (forall k, k <> "val0" -> dget k d2 = dget k d1)
    /\ (c_kind c = KProp -> exists x, dget "val" d1 = Some x /\ dget "val0" d2 = Some x)).
  { destruct (c_kind c) eqn:KC; try (injection E2 as <-; split; [auto |]; split; [auto |]; split; [auto | discriminate]).
    destruct (dget "val" d1) as [x |] eqn:V; [| discriminate E2]. injection E2 as <-. split; [intros k I; apply keys_dset; now right |].
    split; [apply NoDup_keys_dset |]. split; [intros k N; rewrite dget_dset_neq by congruence; reflexivity |].
    intros _. exists x. split; [reflexivity | apply dget_dset_eq]. }
  destruct D2 as (K2 & N2 & G2 & V2).
  split; [exact K |]. split; [exact KK |]. split; [| split; [| split]].
  - intros k I. rewrite KK. apply IN, K2. now rewrite K1.
  - intros ND k v D N M. rewrite (G (N2 ltac:(rewrite K1; exact ND))). rewrite (G2 k M), (G1 k N), D. reflexivity.
  - intros KC ND I. rewrite K in KC. destruct (L1 KC I) as (x & y & e & D & L). exists x, y, e. split; [| exact L].
    rewrite (G (N2 ltac:(rewrite K1; exact ND))), (G2 "char_func" ltac:(discriminate)), D. reflexivity.
  - intros KC ND. rewrite K in KC. destruct (V2 KC) as (x & D & V). exists x. split; [rewrite <- D; symmetry; now apply G1 |].
    rewrite (G (N2 ltac:(rewrite K1; exact ND))), V. reflexivity.
Qed.
Lemma strings_ok v l : strings v = Ok l -> v = VList (map VStr l).
Proof.
  destruct v as [| | | | vs | | | | | |]; try discriminate. unfold strings. intro E. f_equal. revert l E.
  induction vs as [| a vs IH]; intros l E; cbn in E; [injection E as <-; reflexivity |].
  destruct a; try discriminate E. cbn in E. destruct (rmapM _ vs) as [q |] eqn:Q; [| discriminate E]. cbn in E. injection E as <-. cbn. f_equal. now apply IH.
Qed.
Lemma check_attr_ok listed k v : check_attr listed k v = Ok tt ->
  (k = "design" \/ k = "offdesign" -> exists l, v = VList (map VStr l) /\ forall s, In s l -> In s listed)
  /\ (k = "printout" \/ k = "local_design" \/ k = "local_offdesign" \/ k = "char_warnings" -> exists b, v = VBool b).
Proof.
  unfold check_attr. intro E. split.
  - intro H. assert (S : smem k ["design"; "offdesign"] = true) by (destruct H; subst; reflexivity). rewrite S in E.
    apply rbind_ok in E as (l & EL & E). apply strings_ok in EL. exists l. split; [exact EL |]. destruct (forallb _ l) eqn:F; [| discriminate E].
    rewrite forallb_forall in F. intros s I. apply smem_In. now apply F.
  - intro H. assert (S : smem k ["design"; "offdesign"] = false) by (destruct H as [-> | [-> | [-> | ->]]]; reflexivity).
    assert (T : smem k ["printout"; "local_design"; "local_offdesign"; "char_warnings"] = true) by (destruct H as [-> | [-> | [-> | ->]]]; reflexivity).
    rewrite S, T in E. destruct v; try discriminate E. eauto.
Qed.
Lemma apply_arg_ok read o k v o' : apply_arg read o k v = Ok o' -> (forall c v c', read c v = Ok c' -> c_kind c' = c_kind c) ->
  o_listed o' = o_listed o /\ keys (o_params o') = keys (o_params o) /\ keys (o_attrs o') = keys (o_attrs o)
  /\ (In k (keys (o_params o)) \/ In k (keys (o_attrs o))) /\ (valid_attrs o -> valid_attrs o')
  /\ (forall p, p <> k -> dget p (o_params o') = dget p (o_params o))
  /\ (forall c, dget k (o_params o) = Some c -> exists c', read c v = Ok c' /\ dget k (o_params o') = Some c').
Proof.
  unfold apply_arg. intros E _. destruct (dget k (o_params o)) as [c |] eqn:D.
  - apply rmap_ok in E as (c' & R & ->). cbn. assert (I : In k (keys (o_params o))) by (apply in_keys; eauto).
    split; [reflexivity |]. split; [now apply keys_dset_known |]. split; [reflexivity |]. split; [now left |]. split; [auto |]. split.
    + intros p N. rewrite dget_dset_neq by congruence. reflexivity.
    + intros c0 E0. injection E0 as <-. exists c'. split; [exact R | apply dget_dset_eq].
  - destruct (dmem k (o_attrs o)) eqn:M; [| discriminate E]. apply dmem_In in M. apply rmap_ok in E as ([] & C & ->). cbn.
    split; [reflexivity |]. split; [reflexivity |]. split; [now apply keys_dset_known |]. split; [now right |]. split.
    + intros V x y DX. cbn in DX. destruct (String.eqb_spec x k) as [-> | N].
      * rewrite dget_dset_eq in DX. injection DX as <-. exact (check_attr_ok _ _ _ C).
      * rewrite dget_dset_neq in DX by congruence. exact (V x y DX).
    + split; [auto | discriminate].
Qed.
Lemma apply_args_ok read l : (forall c v c', read c v = Ok c' -> c_kind c' = c_kind c) -> forall o o', apply_args read l o = Ok o' ->
  o_listed o' = o_listed o /\ keys (o_params o') = keys (o_params o) /\ keys (o_attrs o') = keys (o_attrs o)
  /\ known_entries l o' /\ (valid_attrs o -> valid_attrs o')
  /\ (forall p, ~ In p (keys l) -> dget p (o_params o') = dget p (o_params o))
  /\ (NoDup (keys l) -> forall p v c', dget p l = Some v -> dget p (o_params o') = Some c' -> exists c, read c v = Ok c').
Proof.
  intro RK. induction l as [| [k v] l IH]; intros o o' E; unfold apply_args in E; cbn [fold_left rbind fst snd] in E.
  - injection E as <-. do 3 (split; [reflexivity |]). split; [intros k [] |]. split; [auto |]. split; [auto |]. discriminate.
  - destruct (apply_arg read o k v) as [o1 |] eqn:A; [| rewrite fold_stuck in E; discriminate E].
    destruct (apply_arg_ok read o k v o1 A RK) as (L1 & P1 & A1 & I1 & V1 & G1 & R1).
    destruct (IH o1 o' E) as (L & P & AA & KN & V & G & R). split; [congruence |]. split; [congruence |]. split; [congruence |]. split.
    { intros x [<- | I]; [cbn; rewrite P, AA, P1, A1; exact I1 | now apply KN]. }
    split; [auto |]. split. { intros p N. cbn in N. rewrite G by tauto. apply G1. intros ->. tauto. }
    intros ND p w c' D D'. inversion ND as [| ? ? NI ND2]; subst. cbn [dget] in D. destruct (String.eqb_spec p k) as [-> | N].
    + injection D as <-. rewrite G in D' by exact NI. destruct (dget k (o_params o)) as [c |] eqn:DO.
      * destruct (R1 c eq_refl) as (c2 & RC & D2). exists c. congruence.
      * exfalso. assert (IK : In k (keys (o_params o1))) by (apply in_keys; eauto). rewrite P1 in IK. apply in_keys in IK as (z & IK). congruence.
    + exact (R ND2 p w c' D D').
Qed.
Lemma read_param_kind c v c' : read_param c v = Ok c' -> c_kind c' = c_kind c.
Proof.
  unfold read_param. intro E. apply rbind_ok in E as (d & _ & E). apply rbind_ok in E as (d1 & _ & E). apply rbind_ok in E as (d2 & _ & E). now apply set_attrs_ok in E as (K & _).
Qed.
Lemma read_data_kind c v c' : read_data c v = Ok c' -> c_kind c' = c_kind c.
Proof. unfold read_data. intro E. apply rbind_ok in E as (d & _ & E). now apply set_attrs_ok in E as (K & _). Qed.

(* --------------------------------------------------------------------- components *)

Lemma components_ok reg files cs : load_comps reg files = Ok cs -> forall l cls o, dget l cs = Some (cls, o) -> from_file reg files l cls o.
Proof.
  unfold load_comps. intro E.
  assert (G : forall fs acc, (forall f, In f fs -> In f files) -> (forall l cls o, dget l acc = Some (cls, o) -> from_file reg files l cls o) ->
    fold_left (fun r f => rbind r (fun cs => match dget (fst f) reg with
      | None => Ok cs
      | Some k => rmap (fun new => fold_left (fun cs e => dset (fst e) (snd e) cs) new cs) (construct_components (fst f) k (snd f))
      end)) fs (Ok acc) = Ok cs -> forall l cls o, dget l cs = Some (cls, o) -> from_file reg files l cls o).
  2:{ apply (G files []); auto. discriminate. }
  clear E. induction fs as [| [cls file] fs IH]; intros acc IN H E; cbn [fold_left rbind fst snd] in E.
  - injection E as <-. exact H.
  - destruct (dget cls reg) as [k |] eqn:K; [| apply (IH acc); auto; intros f I; apply IN; now right].
    destruct (construct_components cls k file) as [new |] eqn:C; cbn [rmap] in E.
    2:{ exfalso. clear - E. induction fs; cbn in E; [discriminate | auto]. }
    refine (IH _ (fun f I => IN f (or_intror I)) _ E). clear E IH.
    assert (N : forall l c o, In (l, (c, o)) new -> from_file reg files l c o).
    { intros l c o I. unfold construct_components in C. destruct (rmapM_In _ _ _ _ C I) as ([l0 v] & I0 & F). cbn [fst snd] in F.
      apply rbind_ok in F as (d & M & F). apply rmap_ok in F as (o0 & A & F). injection F as -> -> ->. destruct v; try discriminate M. injection M as ->.
      destruct (apply_args_ok read_param d read_param_kind _ _ A) as (L & P & AA & KN & V & _ & R).
      exists k, file, d. split; [exact K |]. split; [apply IN; now left |]. split; [exact I0 |]. do 5 (split; [assumption |]).
      intros ND p dd cc D D'. destruct (R ND p (VDict dd) cc D D') as (c0 & RP). now apply read_param_ok in RP as (_ & _ & RF). }
    clear C. revert acc H. induction new as [| [l0 [c0 o0]] new IHn]; intros acc H; cbn [fold_left fst snd]; [exact H |].
    apply IHn; [intros l c o I; apply N; now right |]. intros l c o D. destruct (String.eqb_spec l l0) as [-> | NE].
    + rewrite dget_dset_eq in D. injection D as <- <-. apply N. now left.
    + rewrite dget_dset_neq in D by congruence. exact (H l c o D).
Qed.

(* -------------------------------------------------------------------- connections *)

Lemma make_ends_ok reg comps d s si t ti : make_ends reg comps d = Ok (s, si, t, ti) -> s <> t
  /\ (exists cls o k, dget s comps = Some (cls, o) /\ dget cls reg = Some k /\ In si (connectors (k_out k) o))
  /\ (exists cls o k, dget t comps = Some (cls, o) /\ dget cls reg = Some k /\ In ti (connectors (k_in k) o)).
Proof.
  unfold make_ends. intro E. apply rbind_ok in E as (s0 & _ & E). apply rbind_ok in E as (si0 & _ & E). apply rbind_ok in E as (t0 & _ & E). apply rbind_ok in E as (ti0 & _ & E).
  destruct (dget s0 comps) as [[ks os] |] eqn:S; [| discriminate E]. destruct (dget t0 comps) as [[kt ot] |] eqn:T; [| discriminate E].
  destruct (dget ks reg) as [a |] eqn:A; [| discriminate E]. destruct (dget kt reg) as [b |] eqn:B; [| discriminate E].
  destruct (String.eqb_spec s0 t0) as [| N]; [discriminate E |].
  destruct (smem si0 (connectors (k_out a) os)) eqn:SI; [| discriminate E]. destruct (smem ti0 (connectors (k_in b) ot)) eqn:TI; [| discriminate E].
  cbn in E. injection E as <- <- <- <-. apply smem_In in SI, TI. split; [exact N |]. split; eauto 8.
Qed.
Definition no_reference (o : obj) : Prop := forall p r x f d, dget p (o_params o) = Some r -> dget "ref" (c_attrs r) <> Some (VRef x f d).
Lemma new_conn_refs : no_reference new_conn.
Proof.
  intros p r x f d D. cbn [new_conn o_params new_data dget] in D.
  repeat (match type of D with context [String.eqb ?a ?b] => destruct (String.eqb a b) end; [injection D as <-; cbn; discriminate |]). discriminate D.
Qed.

(** Containers that are not references have no attribute of that name *)
Definition sound (labels : list string) (o : obj) : Prop :=
  o_listed o = o_listed new_conn /\ keys (o_params o) = keys new_data /\ valid_attrs o
  /\ forall p r, dget p (o_params o) = Some r -> (has_ref p = false -> ~ In "ref" (keys (c_attrs r)))
     /\ forall x f d, dget "ref" (c_attrs r) = Some (VRef x f d) -> In x labels.
Lemma new_conn_sound labels : sound labels new_conn.
Proof.
  split; [reflexivity |]. split; [reflexivity |]. split.
  - intros k v D. cbn [new_conn o_attrs dget] in D.
    repeat (match type of D with context [String.eqb ?a ?b] => destruct (String.eqb_spec a b) as [-> |] end;
      [injection D as <-; split; intros; try (eexists; reflexivity); try (exists []; split; [reflexivity | intros s []]);
       exfalso; intuition discriminate |]). discriminate D.
  - intros p r D. split; [| intros x f d R; exfalso; exact (new_conn_refs p r x f d D R)].
    cbn [new_conn o_params new_data dget] in D.
    repeat (match type of D with context [String.eqb ?a ?b] => destruct (String.eqb_spec a b) as [-> |] end;
      [injection D as <-; cbn; intuition discriminate |]). discriminate D.
Qed.
Lemma apply_data_sound labels o k v o' : apply_arg read_data o k v = Ok o' -> has_ref k = false -> sound labels o -> sound labels o'.
Proof.
  intros E H (L & P & V & R). destruct (apply_arg_ok read_data o k v o' E read_data_kind) as (L1 & P1 & A1 & I1 & V1 & G1 & R1).
  split; [congruence |]. split; [congruence |]. split; [auto |]. intros p r D. destruct (String.eqb_spec p k) as [-> | N].
  - assert (IK : In k (keys (o_params o'))) by (apply in_keys; eauto). rewrite P1 in IK. apply in_keys in IK as (c & DC).
    destruct (R1 c DC) as (c' & RC & DC'). assert (c' = r) as -> by congruence. unfold read_data in RC. apply rbind_ok in RC as (d & _ & RC).
    apply set_attrs_ok in RC as (_ & KC & _). destruct (R k c DC) as (NR & _). specialize (NR H). rewrite KC. split; [auto |].
    intros x f d0 DR. exfalso. apply NR. rewrite <- KC. apply in_keys. eauto.
  - rewrite G1 in D by exact N. now apply R.
Qed.
Lemma fold_data_sound labels d args : (forall k, In k args -> has_ref k = false) -> forall o o',
  fold_left (fun r k => rbind r (fun o => match dget k d with Some x => apply_arg read_data o k x | None => Err KeyError end)) args (Ok o) = Ok o' ->
  sound labels o -> sound labels o'.
Proof.
  induction args as [| k args IH]; intros H o o' E So; cbn [fold_left rbind] in E; [injection E as <-; exact So |].
  destruct (dget k d) as [x |].
  - destruct (apply_arg read_data o k x) as [o1 |] eqn:A.
    + apply (IH (fun q I => H q (or_intror I)) o1 o' E). apply (apply_data_sound labels o k x o1 A); [apply H; now left | exact So].
    + exfalso. clear - E. induction args; cbn in E; [discriminate | auto].
  - exfalso. clear - E. induction args; cbn in E; [discriminate | auto].
Qed.
Lemma fluid_refs usable engines v c c' : read_fluid usable engines v c = Ok c' -> ~ In "ref" (keys (c_attrs c)) -> ~ In "ref" (keys (c_attrs c')).
Proof.
  unfold read_fluid. intros E N. apply rbind_ok in E as (d & _ & E). apply rbind_ok in E as (e & _ & E). apply rbind_ok in E as (c1 & S & E).
  apply set_attrs_ok in S as (_ & K & _). rewrite <- K in N. unfold default_engines in E.
  destruct (dget "val" (c_attrs c1)) as [[] |]; try discriminate E. destruct (dget "engine" (c_attrs c1)) as [[] |]; try discriminate E.
  destruct (dget "back_end" (c_attrs c1)) as [[] |]; try discriminate E. apply rmap_ok in E as (eb & _ & ->). cbn.
  intro I. apply keys_dset in I as [I | I]; [discriminate I |]. apply keys_dset in I as [I | I]; [discriminate I |]. contradiction.
Qed.
Lemma construct_conn_ok usable reg engines comps labels args v c : construct_conn usable reg engines comps args v = Ok c ->
  (forall k, In k args -> has_ref k = false) -> joined reg comps c /\ sound labels (n_obj c).
Proof.
  unfold construct_conn. intros E H. apply rbind_ok in E as (d & _ & E). apply rbind_ok in E as ([[[s si] t] ti] & EN & E). apply rbind_ok in E as (o & F & E).
  apply make_ends_ok in EN as (N & A & B). pose proof (fold_data_sound labels d args H _ _ F (new_conn_sound labels)) as So.
  destruct (dget "fluid" d) as [f |]; [| discriminate E]. destruct (dget "fluid" (o_params o)) as [cf |] eqn:DF; [| discriminate E].
  apply rmap_ok in E as (c' & RF & ->). cbn. split; [split; [exact N | split; assumption] |].
  destruct So as (L & P & V & R). split; [exact L |]. split; [cbn [n_obj o_params]; rewrite keys_dset_known; [exact P | apply in_keys; eauto] |]. split; [exact V |].
  intros p r D. cbn in D. destruct (String.eqb_spec p "fluid") as [-> | NE].
  - rewrite dget_dset_eq in D. injection D as <-. destruct (R "fluid" cf DF) as (NR & _). pose proof (fluid_refs _ _ _ _ _ RF (NR eq_refl)) as X.
    split; [auto |]. intros x g d0 DR. exfalso. apply X. apply in_keys. eauto.
  - rewrite dget_dset_neq in D by congruence. now apply R.
Qed.
Lemma read_ref_ok reg comps labels k v c c' : read_ref labels k v c = Ok c' -> has_ref k = true -> joined reg comps c /\ sound labels (n_obj c) -> joined reg comps c' /\ sound labels (n_obj c').
Proof.
  unfold read_ref. intros E HR (J & So). apply rbind_ok in E as (d & _ & E). destruct d as [| e0 d0]; [injection E as <-; auto |]. set (d := e0 :: d0) in *.
  apply rbind_ok in E as (l & _ & E). destruct (smem l labels) eqn:SL; [| discriminate E]. apply smem_In in SL.
  destruct (dget "factor" d) as [[| | [qf |] | | | | | | | |] |]; try discriminate E;
    destruct (dget "delta" d) as [[| | [qx |] | | | | | | | |] |]; try discriminate E; destruct (dget k (o_params (n_obj c))) as [r |] eqn:DR; try discriminate E.
  apply rmap_ok in E as (r' & S & ->). cbn. split; [exact J |]. destruct So as (L & P & V & R). split; [exact L |].
  split; [cbn [n_obj o_params]; rewrite keys_dset_known; [exact P | apply in_keys; eauto] |]. split; [exact V |]. intros p q D. cbn in D.
  destruct (String.eqb_spec p k) as [-> | N].
  - rewrite dget_dset_eq in D. injection D as <-. split; [congruence |]. apply set_attrs_ok in S as (_ & _ & _ & G).
    intros y g z DY. rewrite G in DY by (repeat constructor; cbn; intuition discriminate). cbn in DY. injection DY as <- _ _. exact SL.
  - rewrite dget_dset_neq in D by congruence. now apply R.
Qed.
Lemma connections_ok usable reg engines comps data cs : construct_connections usable reg engines comps data = Ok cs ->
  keys cs = keys data /\ cs <> [] /\ forall l c, In (l, c) cs -> joined reg comps c /\ sound (keys data) (n_obj c).
Proof.
  unfold construct_connections. intro E. destruct data as [| [l0 first] data0]; [discriminate E |]. set (data := (l0, first) :: data0) in *.
  apply rbind_ok in E as (fd & _ & E). apply rbind_ok in E as (cs0 & E0 & E).
  assert (K0 : keys cs0 = keys data).
  { apply (rmapM_keys _ _ _ E0). intros e e' F. apply rmap_ok in F as (x & _ & ->). reflexivity. }
  assert (K1 : keys cs = keys cs0).
  { apply (rmapM_keys _ _ _ E). intros e e' F. apply rbind_ok in F as (d & _ & F). apply rmap_ok in F as (x & _ & ->). reflexivity. }
  split; [congruence |]. split; [intros ->; rewrite K0 in K1; discriminate K1 |].
  intros l c I. destruct (rmapM_In _ _ _ _ E I) as ([l1 c1] & I1 & F). cbn [fst snd] in F. apply rbind_ok in F as (d & _ & F).
  apply rmap_ok in F as (c2 & F & X). injection X as -> ->.
  assert (S1 : joined reg comps c1 /\ sound (keys data) (n_obj c1)).
  { destruct (rmapM_In _ _ _ _ E0 I1) as (e & _ & F1). apply rmap_ok in F1 as (c3 & F1 & X). injection X as _ ->.
    apply (construct_conn_ok usable reg engines comps (keys data) (arglist fd) (snd e)); [exact F1 |].
    intros k Ik. unfold arglist in Ik. apply filter_In in Ik as (_ & Ik). apply andb_prop in Ik as (_ & Ik). now apply negb_true_iff in Ik. }
  assert (HR : forall k, In k (arglist_ref fd) -> has_ref k = true) by (intros k Ik; unfold arglist_ref in Ik; now apply filter_In in Ik as (_ & Ik)).
  revert F S1 HR. generalize c1. clear. induction (arglist_ref fd) as [| k ks IH]; intros c1 F S1 HR; cbn [fold_left rbind] in F; [injection F as <-; exact S1 |].
  destruct (dget k d) as [v |].
  - destruct (read_ref (keys data) k v c1) as [c3 |] eqn:A.
    + apply (IH c3 F); [| intros q Iq; apply HR; now right]. apply (read_ref_ok reg comps (keys data) k v c1 c3 A); [apply HR; now left | exact S1].
    + exfalso. clear - F. induction ks; cbn in F; [discriminate | auto].
  - exfalso. clear - F. induction ks; cbn in F; [discriminate | auto].
Qed.

(* ------------------------------------------------------------------------- network *)

Lemma add_comps_ok comps cs : (forall l x, dget l (add_comps comps cs) = Some x -> dget l comps = Some x)
  /\ forall e, In e cs -> forall l x, l = n_source (snd e) \/ l = n_target (snd e) -> dget l comps = Some x -> dget l (add_comps comps cs) = Some x.
Proof.
  unfold add_comps. set (ls := flat_map _ cs).
  assert (G : forall q acc, (forall l x, dget l acc = Some x -> dget l comps = Some x) ->
    let t := fold_left (fun t l => match dget l comps with Some c => if dmem l t then t else dset l c t | None => t end) q acc in
    (forall l x, dget l t = Some x -> dget l comps = Some x)
    /\ (forall l x, dget l acc = Some x -> dget l t = Some x)
    /\ forall l x, In l q -> dget l comps = Some x -> dget l t = Some x).
  { induction q as [| k q IH]; intros acc H; cbn [fold_left]; [split; [exact H |]; split; [auto | intros l x []] |].
    set (acc' := match dget k comps with Some c => _ | None => acc end).
    assert (H' : (forall l x, dget l acc' = Some x -> dget l comps = Some x) /\ (forall l x, dget l acc = Some x -> dget l acc' = Some x)
               /\ forall x, dget k comps = Some x -> dget k acc' = Some x).
    { subst acc'. destruct (dget k comps) as [c |] eqn:D; [| split; [exact H |]; split; [auto | discriminate]].
      destruct (dmem k acc) eqn:M.
      - split; [exact H |]. split; [auto |]. intros x E. apply dmem_dget in M as (y & M). rewrite M. apply H in M. congruence.
      - split; [| split].
        + intros l x E. destruct (String.eqb_spec l k) as [-> | N]; [rewrite dget_dset_eq in E; congruence | rewrite dget_dset_neq in E by congruence; now apply H].
        + intros l x E. destruct (String.eqb_spec l k) as [-> | N]; [unfold dmem in M; rewrite E in M; discriminate M | rewrite dget_dset_neq by congruence; exact E].
        + intros x E. rewrite dget_dset_eq. congruence. }
    destruct H' as (A & B & C). destruct (IH acc' A) as (A2 & B2 & C2). split; [exact A2 |]. split; [auto |].
    intros l x [<- | I] E; [apply B2, C, E | now apply C2]. }
  destruct (G ls [] ltac:(discriminate)) as (A & _ & C). split; [exact A |]. intros e I l x Hl D. apply C; [| exact D].
  subst ls. apply in_flat_map. exists e. split; [exact I |]. destruct Hl as [-> | ->]; cbn; auto.
Qed.
Lemma row_ok comps l v w : read_row comps l v = Ok w -> valid_row w /\ In l (keys comps).
Proof.
  unfold read_row. intro E. apply rbind_ok in E as (d & _ & E). destruct (dget "char" d) as [ch |]; [| discriminate E].
  apply rbind_ok in E as (line & ML & E). destruct (dmem l comps) eqn:M; [| discriminate E]. apply dmem_In in M.
  destruct (dget "param" d) as [p |]; [| discriminate E]. destruct (dget "base" d) as [b |]; [| destruct p; discriminate E].
  apply make_line_ok in ML. 
  assert (X : exists s, b = VStr s /\ In s ["bus"; "component"] /\ w = {| w_param := p; w_Pref := VNum None; w_char := line; w_base := b |}).
  { destruct p; try discriminate E; destruct b as [| | | sb | | | | | | |]; try discriminate E;
      (destruct (smem sb ["bus"; "component"]) eqn:S; [| discriminate E]); injection E as <-; exists sb; apply smem_In in S; auto. }
  destruct X as (s & -> & S & ->). split; [| exact M]. split; [| exact ML]. cbn. destruct S as [<- | [<- | []]]; auto.
Qed.
Lemma load_ok : forall usable reg engines d n, load usable reg engines d = Ok n ->
  (forall l cls o, dget l (t_comps n) = Some (cls, o) -> from_file reg (d_comps d) l cls o)
  /\ t_conns n <> []
  /\ (forall l c, In (l, c) (t_conns n) -> joined reg (t_comps n) c /\ valid_attrs (n_obj c)
       /\ keys (o_params (n_obj c)) = keys new_data /\ references_in (keys (t_conns n)) c)
  /\ (forall lb b l w, In (lb, b) (t_busses n) -> In (l, w) (b_rows b) ->
       valid_row w /\ exists cls o, from_file reg (d_comps d) l cls o).
Proof.
  unfold load. intros usable reg engines d n E. apply rbind_ok in E as (comps & EC & E). destruct (d_net d) as [kw |]; [| discriminate E].
  destruct (d_conns d) as [data |]; [| discriminate E]. apply rbind_ok in E as (u & _ & E). apply rbind_ok in E as (cs & ES & E).
  apply rmap_ok in E as (bs & EB & ->). cbn. pose proof (components_ok reg (d_comps d) comps EC) as CO.
  destruct (connections_ok _ _ _ _ _ _ ES) as (K & NE & SO). destruct (add_comps_ok comps cs) as (AC1 & AC2).
  split; [intros l cls o D; apply CO; now apply AC1 |]. split; [exact NE |]. split.
  - intros l c I. destruct (SO l c I) as ((N & (c1 & o1 & k1 & S1 & S2 & S3) & (c2 & o2 & k2 & T1 & T2 & T3)) & (L & P & V & R)).
    split; [| split; [exact V |]; split; [exact P |]].
    + split; [exact N |]. split; [exists c1, o1, k1 | exists c2, o2, k2]; (split; [| auto]).
      * apply (AC2 (l, c) I); auto.
      * apply (AC2 (l, c) I); auto.
    + intros p r x f dd D DR. change (In x (keys cs)). rewrite K. destruct (R p r D) as (_ & X). exact (X x f dd DR).
  - intros lb b l w Ib Iw. unfold load_busses in EB. destruct (d_busses d) as [bd |]; [| injection EB as <-; destruct Ib].
    destruct (rmapM_In _ _ _ _ EB Ib) as (e & _ & F). apply rmap_ok in F as (b0 & F & X). injection X as _ ->.
    unfold construct_bus in F. apply rbind_ok in F as (dd & _ & F). apply rbind_ok in F as (P & _ & F). apply rmap_ok in F as (rows & F & ->). cbn in Iw.
    destruct (rmapM_In _ _ _ _ F Iw) as (e2 & _ & F2). apply rmap_ok in F2 as (w2 & F2 & X). injection X as -> ->. apply row_ok in F2 as (VR & IK).
    split; [exact VR |]. apply in_keys in IK as ([cls o] & IK). exists cls, o. now apply CO.
Qed.
