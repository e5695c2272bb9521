(** Proofs: load of engines, accepted fluids, ranges of outlet fractions, columns. *)
From Coq Require Import QArith Qabs Lqa.
From Verif Require Import Base CharModel CombModel CombSpec CombProofs CombProofs2.
Open Scope Q_scope.

Lemma load_val : forall e P,
  match e_design e with
  | None => load e P = Ok 1
  | Some d => (~ d == 0 -> exists x, load e P = Ok x /\ x * d == P)
              /\ (d == 0 -> load e P = Err ZeroDivisionError)
  end.
Proof.
  intros e P. unfold load, qdiv. destruct (e_design e) as [d |]; [| reflexivity]. split.
  - intros N. destruct (Qeq_bool d 0) eqn:Z; [apply Qeq_bool_iff in Z; contradiction |].
    exists (P / d). split; [reflexivity |]. field. exact N.
  - intros Z. apply Qeq_bool_iff in Z. rewrite Z. reflexivity.
Qed.

Lemma energy_columns_mass : forall is_var p, In (VM p) (energy_columns is_var) <-> is_var (VM p) = true.
Proof.
  intros is_var p. unfold energy_columns. rewrite filter_In. split; [tauto |].
  intros H. split; [| exact H]. destruct p; cbn; tauto.
Qed.

Lemma alias_in_list_In : forall aliases f l, alias_in_list aliases f l = true <-> known_in aliases f l.
Proof.
  intros aliases f l. unfold alias_in_list, known_in. rewrite existsb_exists.
  split; intros (a & A & B); exists a; (split; [exact A |]); apply smem_In; exact B.
Qed.

Lemma setup_ok : forall aliases all fuels, setup_names aliases all = Ok fuels ->
  NoDup fuels /\ fuels <> []
  /\ (forall f, In f fuels <-> In f all /\ known_in aliases f combustion_gases)
  /\ forall f, In f ["O2"; "CO2"; "H2O"; "N2"]%string -> known_in aliases f all.
Proof.
  intros aliases all fuels H. unfold setup_names in H.
  destruct (nodup string_dec (filter (fun f => alias_in_list aliases f combustion_gases) all)) as [| g r] eqn:F;
    [discriminate H |].
  destruct (forallb (fun f => alias_in_list aliases f all) ["O2"; "CO2"; "H2O"; "N2"]%string) eqn:A; [| discriminate H].
  injection H as <-. rewrite <- F. repeat apply conj.
  - apply NoDup_nodup.
  - rewrite F. discriminate.
  - intros f. rewrite nodup_In, filter_In, alias_in_list_In. reflexivity.
  - intros f I. rewrite forallb_forall in A. apply alias_in_list_In. exact (A f I).
Qed.
Lemma setup_err : forall aliases all,
  (forall f, In f all -> ~ known_in aliases f combustion_gases)
  \/ (exists f, In f ["O2"; "CO2"; "H2O"; "N2"]%string /\ ~ known_in aliases f all) ->
  setup_names aliases all = Err TESPyComponentError.
Proof.
  intros aliases all H. destruct (setup_names aliases all) as [fuels | e] eqn:N.
  - exfalso. apply setup_ok in N. destruct N as (_ & NE & F & O). destruct H as [H | (f & I & H)].
    + destruct fuels as [| g r]; [apply NE; reflexivity |].
      destruct (proj1 (F g) (or_introl eq_refl)) as (A & B). exact (H g A B).
    + exact (H (O f I)).
  - unfold setup_names in N. destruct (nodup _ _); [congruence |]. destruct (forallb _ _); congruence.
Qed.
Lemma setup_total : forall aliases all f,
  In f all -> known_in aliases f combustion_gases ->
  (forall g, In g ["O2"; "CO2"; "H2O"; "N2"]%string -> known_in aliases g all) ->
  exists fuels, setup_names aliases all = Ok fuels.
Proof.
  intros aliases all f I K O. unfold setup_names.
  assert (A : forallb (fun f => alias_in_list aliases f all) ["O2"; "CO2"; "H2O"; "N2"]%string = true).
  { apply forallb_forall. intros g G. apply alias_in_list_In. exact (O g G). }
  rewrite A. destruct (nodup string_dec (filter (fun f => alias_in_list aliases f combustion_gases) all)) eqn:F.
  - exfalso. assert (X : In f []).
    { rewrite <- F. apply nodup_In, filter_In. split; [exact I |]. apply alias_in_list_In. exact K. }
    exact X.
  - eexists; reflexivity.
Qed.

Lemma clip_range : forall hi hi' lo lo' v, lo <= lo' -> lo' <= hi -> lo <= hi' -> hi' <= hi ->
  lo <= clip hi hi' lo lo' v <= hi /\ (lo <= v <= hi -> clip hi hi' lo lo' v = v).
Proof.
  intros hi hi' lo lo' v A B D E. unfold clip, qlt.
  destruct (Qle_bool v hi) eqn:X; cbn [negb].
  - apply Qle_bool_iff in X. destruct (Qle_bool lo v) eqn:Y; cbn [negb].
    + apply Qle_bool_iff in Y. split; [split; assumption | reflexivity].
    + split; [split; assumption |]. intros (L & _). apply Qle_bool_iff in L. congruence.
  - assert (Y : Qle_bool lo hi' = true) by (apply Qle_bool_iff; exact D). rewrite Y. cbn [negb].
    split; [split; assumption |]. intros (_ & L). apply Qle_bool_iff in L. congruence.
Qed.

Lemma check_fraction_plausible : forall fuels i1 i2 o m f v v',
  dget f (k_x o) = Some v -> check_fraction fuels i1 i2 o m f = Ok v' ->
  plausible fuels i1 i2 m f v' /\ (plausible fuels i1 i2 m f v -> v' = v).
Proof.
  intros fuels i1 i2 o m f v v' V H. unfold check_fraction, fget in H. rewrite V in H. cbn [rbind] in H.
  unfold plausible. 
  destruct (String.eqb f "O2").
  { injection H as <-. apply clip_range; lra. }
  destruct (String.eqb f "CO2").
  { injection H as <-. apply clip_range; lra. }
  destruct (String.eqb f "H2O").
  { injection H as <-. apply clip_range; lra. }
  destruct (smem f fuels).
  { injection H as <-. unfold qlt. destruct (Qle_bool v 0) eqn:Z; cbn [negb].
    - split; [apply Qle_bool_iff; exact Z | reflexivity].
    - split; [lra |]. intros L. apply Qle_bool_iff in L. congruence. }
  destruct (dget f (k_x i1)) as [x1 |] eqn:X1; cbn [rbind] in H; [| discriminate H].
  destruct (dget f (k_x i2)) as [x2 |] eqn:X2; cbn [rbind] in H; [| discriminate H].
  unfold qdiv in H. destruct (Qeq_bool m 0) eqn:Z; cbn [rbind] in H; [discriminate H |].
  assert (N : ~ m == 0) by (apply Qeq_bool_neq; exact Z).
  assert (E : (0 + x1 * k_m i1 + x2 * k_m i2) / m == (x1 * k_m i1 + x2 * k_m i2) / m) by (field; exact N).
  remember ((0 + x1 * k_m i1 + x2 * k_m i2) / m) as q eqn:Eq. clear Eq.
  unfold qlt in H. destruct (Qle_bool (Qabs (v - q)) (3#100)) eqn:L; cbn [negb] in H; injection H as <-.
  - split; [| reflexivity]. exists x1, x2. split; [reflexivity | split; [reflexivity |]].
    apply Qle_bool_iff in L. rewrite <- E. exact L.
  - split.
    + exists x1, x2. split; [reflexivity | split; [reflexivity |]].
      assert (Y : q - (x1 * k_m i1 + x2 * k_m i2) / m == 0) by lra.
      rewrite Y. cbn. lra.
    + intros (y1 & y2 & Y1 & Y2 & L'). injection Y1 as <-. injection Y2 as <-.
      rewrite <- E in L'. apply Qle_bool_iff in L'. congruence.
Qed.

Lemma check_fractions_plausible : forall fuels i1 i2 m vars o o',
  NoDup vars -> check_fractions fuels i1 i2 o m vars = Ok o' ->
  forall f v, In f vars -> dget f (k_x o) = Some v ->
  exists v', dget f (k_x o') = Some v' /\ plausible fuels i1 i2 m f v'
    /\ (plausible fuels i1 i2 m f v -> v' = v).
Proof.
  intros fuels i1 i2 m. induction vars as [| g vars IH]; intros o o' D H f v I V; [destruct I |].
  apply NoDup_cons_iff in D. destruct D as (Ng & D).
  cbn [check_fractions] in H.
  destruct (check_fraction fuels i1 i2 o m g) as [w |] eqn:W; cbn [rbind] in H; [| discriminate H].
  destruct (string_dec f g) as [-> | Nf].
  - destruct (check_fraction_plausible _ _ _ _ _ _ _ _ V W) as (A & B).
    exists w. split; [| split; assumption].
    destruct (check_fractions_spec _ _ _ _ _ _ _ H) as (_ & _ & _ & _ & G).
    rewrite (G g Ng). cbn [set_kx k_x]. apply dget_dset_eq.
  - destruct I as [X | I]; [congruence |].
    apply (IH _ _ D H f v I). cbn [set_kx k_x]. rewrite dget_dset_neq by exact Nf. exact V.
Qed.
