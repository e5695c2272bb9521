(** Units and the whole network for export and import. *)
From Coq Require Import QArith.
From Verif Require Import Base UnitsModel NetUnitsModel UnitsProofs IoModel IoSpec IoProofs IoProofs2 IoProofs3 IoProofs4 IoProofs5.
Open Scope string_scope.
Open Scope list_scope.

Lemma set_units_ok kw : forall ps s,
  (forall p u, In p ps -> dget p (kw_unit kw) = Some u -> unit_known p u = Some true) ->
  snd (set_units ps kw s) = None /\ nu_range_SI (fst (set_units ps kw s)) = nu_range_SI s /\ nu_iter (fst (set_units ps kw s)) = nu_iter s.
Proof.
  induction ps as [|q ps IH]; intros s H; cbn [set_units]; [auto|].
  destruct (dget q (kw_unit kw)) as [u|] eqn:E; [|apply IH; intros; eapply H; [now right|eassumption]].
  rewrite (H q u (or_introl eq_refl) E).
  edestruct IH as (A & B & C); [intros p u' Hp; apply H; now right|]. split; [exact A|]. split; [rewrite B|rewrite C]; reflexivity.
Qed.

Lemma conv_list (f : Q -> res Q) l : (forall v, is_ok (f v) = true) -> exists l', rmapM f l = Ok l' /\ length l' = length l.
Proof.
  intros H. induction l as [|a l IH]; cbn; [eauto|]. specialize (H a). destruct (f a); [|discriminate]. cbn.
  destruct IH as (l' & -> & L). cbn. eexists; split; [reflexivity|]. cbn. now rewrite L.
Qed.

Lemma set_ranges_ok kw : forall ps s, units_valid s -> (forall p, In p ps -> In p fpd_keys) ->
  (forall p g, In p ps -> dget p (kw_range kw) = Some g -> exists a b, g = Some [a; b]) ->
  (forall p, In p range_props -> dmem p (nu_range_SI s) = true) ->
  snd (set_ranges ps kw s) = None /\ nu_iter (fst (set_ranges ps kw s)) = nu_iter s /\
  (forall p, In p range_props -> dmem p (nu_range_SI (fst (set_ranges ps kw s))) = true).
Proof.
  induction ps as [|q ps IH]; intros s V K G D; cbn [set_ranges]; [auto|].
  destruct (dget q (kw_range kw)) as [g|] eqn:E.
  - destruct (G q g (or_introl eq_refl) E) as (a & b & ->).
    destruct (V q (K q (or_introl eq_refl))) as (u & Eu & Ku). unfold get_unit at 1 2 3. rewrite Eu. cbn [rbind].
    destruct (conv_list (fun v => convert_to_SI q v u) [a; b]) as (l' & El & Ll); [intros v; now apply to_SI_ok_iff|].
    rewrite El. rewrite Ll. cbn [length Nat.ltb Nat.leb].
    edestruct IH as (A & B & C); [| | | |split; [exact A|split; [rewrite B; reflexivity|exact C]]].
    + exact V.
    + intros p Hp. apply K. now right.
    + intros p g Hp. apply G. now right.
    + intros p Hp. cbn [nu_range_SI]. specialize (D p Hp). unfold dmem in *. destruct (string_dec p q) as [->|X]; [now rewrite dget_dset_eq|].
      now rewrite dget_dset_neq by congruence.
  - apply IH; auto. { intros p Hp. apply K. now right. } intros p g Hp. apply G. now right.
Qed.

Lemma update_ranges_ok : forall ps s, units_valid s -> (forall p, In p ps -> In p fpd_keys) ->
  (forall p, In p ps -> dmem p (nu_range_SI s) = true) ->
  snd (update_ranges ps s) = None /\ nu_iter (fst (update_ranges ps s)) = nu_iter s.
Proof.
  induction ps as [|q ps IH]; intros s V K D; cbn [update_ranges]; [auto|].
  pose proof (D q (or_introl eq_refl)) as Dq. apply dmem_dget in Dq. destruct Dq as [l El]. rewrite El.
  destruct (V q (K q (or_introl eq_refl))) as (u & Eu & Ku). unfold get_unit at 1 2. rewrite Eu. cbn [rbind].
  destruct (conv_list (fun v => convert_from_SI q v u) l) as (l' & E2 & _); [intros v; now apply from_SI_ok_iff|].
  rewrite E2. edestruct IH as (A & B); [| | |split; [exact A|rewrite B; reflexivity]].
  - exact V.
  - intros p Hp. apply K. now right.
  - intros p Hp. cbn [nu_range_SI]. apply D. now right.
Qed.

Lemma units_back s : good_units s -> exists kw s', net_data s = Ok kw /\ load_net kw = Ok s' /\ kept_units s s'.
Proof.
  intros [GU GR].
  set (fu := fun p => match dget p (nu_unit s) with Some u => Ok (p, u) | None => Err AttributeError end).
  set (fr := fun p => match dget p (nu_range s) with Some r => Ok (p, Some r) | None => Err AttributeError end).
  set (up := ["m"; "p"; "h"; "T"; "x"; "v"; "s"]).
  assert (KV : forall {A} (f : string -> res (string * A)) (g : string -> option A) ps l,
     (forall p, f p = match g p with Some u => Ok (p, u) | None => Err AttributeError end) -> rmapM f ps = Ok l ->
     forall p, dget p l = if smem p ps then g p else None).
  { intros A f g ps l Hf H. apply rmapM_Forall2 in H. induction H as [|q [q2 a] ps l X Y IH]; intros p; cbn; [reflexivity|].
    rewrite Hf in X. destruct (g q) as [a'|] eqn:Gq; [|discriminate]. inversion X; subst.
    destruct (String.eqb p q2) eqn:Z; [apply String.eqb_eq in Z; subst; cbn; now rewrite Gq|]. apply IH. }
  destruct (rmapM_total fu up) as [us Eus].
  { intros p Hp. destruct (GU p Hp) as (u & E & _). unfold fu. rewrite E. eauto. }
  destruct (rmapM_total fr ["m"; "p"; "h"]) as [rs Ers].
  { intros p Hp. destruct (GR p Hp) as (a & b & E). unfold fr. rewrite E. eauto. }
  pose proof (KV _ fu (fun p => dget p (nu_unit s)) up us (fun p => eq_refl) Eus) as Du.
  assert (Dr : forall p, dget p rs = if smem p ["m"; "p"; "h"] then option_map Some (dget p (nu_range s)) else None).
  { apply (KV _ fr (fun p => option_map Some (dget p (nu_range s))) _ _); [|exact Ers]. intros p. unfold fr. destruct (dget p (nu_range s)); reflexivity. }
  set (kw := {| kw_unit := us; kw_range := rs; kw_iter := None |}).
  assert (Uk : forall p u, In p fpd_keys -> dget p (kw_unit kw) = Some u -> unit_known p u = Some true).
  { intros p u _ E. cbn in E. rewrite Du in E. destruct (smem p up) eqn:M; [|discriminate]. apply smem_In in M.
    destruct (GU p M) as (u' & E' & K). congruence. }
  assert (Inc : forall p, In p range_props -> In p fpd_keys) by (intros p Hp; cbn in *; intuition).
  destruct (set_units_ok kw fpd_keys nu_defaults Uk) as (A1 & A2 & A3).
  pose proof (set_units_valid fpd_keys kw nu_defaults nu_defaults_valid) as V1.
  destruct (set_units fpd_keys kw nu_defaults) as [s1 e1] eqn:E1. cbn [fst snd] in *. subst e1.
  destruct (set_ranges_ok kw range_props s1 V1 Inc) as (B1 & B2 & B3).
  { intros p g Hp E. cbn in E. rewrite Dr in E. destruct (smem p ["m"; "p"; "h"]) eqn:M; [|discriminate].
    apply smem_In in M. destruct (GR p M) as (a & b & Er). rewrite Er in E. inversion E. eauto. }
  { intros p Hp. rewrite A2. cbn in Hp. destruct Hp as [<-|[<-|[<-|[]]]]; reflexivity. }
  pose proof (set_ranges_unit range_props kw s1) as U2.
  destruct (set_ranges range_props kw s1) as [s2 e2] eqn:E2. cbn [fst snd] in *. subst e2.
  assert (V2 : units_valid s2) by (unfold units_valid in *; rewrite U2; exact V1).
  destruct (update_ranges_ok range_props s2 V2 Inc B3) as (C1 & C2).
  destruct (update_ranges range_props s2) as [s3 e3] eqn:E3. cbn [fst snd] in *. subst e3.
  assert (S : exists s', nu_set_attr kw nu_defaults = (s', None)).
  { unfold nu_set_attr. rewrite E1, E2, E3. unfold set_iter. cbn [kw kw_iter]. rewrite C2, B2, A3. cbn. eauto. }
  destruct S as [s' Es]. exists kw, s'. split; [|split].
  - unfold net_data. fold up. change (rmapM (fun p => match dget p (nu_unit s) with Some u => Ok (p, u) | None => Err AttributeError end) up) with (rmapM fu up).
    rewrite Eus. cbn [rbind]. change (rmapM (fun p => match dget p (nu_range s) with Some r => Ok (p, Some r) | None => Err AttributeError end) ["m"; "p"; "h"]) with (rmapM fr ["m"; "p"; "h"]).
    rewrite Ers. reflexivity.
  - unfold load_net. now rewrite Es.
  - split.
    + intros p Hp. destruct (GU p Hp) as (u & E & _). pose proof (nu_set_attr_spec _ _ _ Es) as (H & _).
      assert (Hf : In p fpd_keys) by (clear - Hp; cbn in *; intuition).
      specialize (H p Hf). cbn [kw kw_unit] in H. rewrite Du in H. assert (M : smem p up = true) by now apply smem_In.
      rewrite M, E in H. rewrite E. exact (proj1 H).
    + intros p Hp. destruct (GR p Hp) as (a & b & E). exists [a; b].
      destruct (nu_set_attr_typed_range kw nu_defaults s' p [a; b] Es Hp) as (r' & Er & F).
      { cbn [kw kw_range]. rewrite Dr. assert (M : smem p ["m"; "p"; "h"] = true) by now apply smem_In. now rewrite M, E. }
      exists r'. split; [exact E|]. split; [exact Er|].
      clear - F. induction F; constructor; [symmetry; assumption|assumption].
Qed.

Theorem export_import usable reg engines n d : good_net usable reg engines n -> clean reg n d ->
  exists d' n', export n d = Ok d' /\ load usable reg engines d' = Ok n' /\ kept_net reg n n'.
Proof.
  intros (GU & Nc & Ncs & Nb & Ne & Gc & Gcs & Gb) (Nd & Cd & Bd).
  destruct (units_back _ GU) as (kw & s' & Eu & Lu & Ku).
  destruct (comps_back reg (t_comps n) Nc (fun l cls o H => proj1 (Gc l cls o H)) (d_comps d) Nd Cd) as (files & comps' & Ec & Lc & Hc).
  destruct (conns_back usable engines reg (t_comps n) comps' Hc (t_conns n) Ncs Ne Gcs) as (data & cs' & Ed & Ld & Kk & Kc).
  destruct (busses_back reg (t_comps n) comps' Hc (t_busses n) (d_busses d) Nb Bd Gb) as (file & bs' & Eb & Lb & Kb & Kbb).
  assert (Ha := add_comps_back reg (t_comps n) comps' Hc (t_conns n) Ncs cs' Kk Kc).
  assert (Hu : forall l x, dget l (t_comps n) = Some x -> exists y, In y (t_conns n) /\ (n_source (snd y) = l \/ n_target (snd y) = l)).
  { intros l [cls o] E. apply dget_In in E. exact (proj2 (Gc l cls o E)). }
  exists {| d_net := Some kw; d_conns := Some data; d_comps := files; d_busses := file |}.
  exists {| t_units := s'; t_comps := add_comps comps' cs'; t_conns := cs'; t_busses := bs'; t_udes := [] |}.
  split; [unfold export; rewrite Eu; cbn [rbind]; rewrite Ed; cbn [rbind]; rewrite Ec; cbn [rbind]; rewrite Eb; reflexivity|]. split.
  - unfold load. cbn [d_comps d_net d_conns d_busses]. rewrite Lc. cbn [rbind]. rewrite Lu. cbn [rbind]. rewrite Ld. cbn [rbind]. rewrite Lb. reflexivity.
  - unfold kept_net. cbn [t_units t_comps t_conns t_busses]. split; [exact Ku|]. split.
    + intros l. rewrite (Ha Hu). specialize (Hc l). destruct (dget l (t_comps n)) as [[cls o]|], (dget l comps') as [[cls' o']|]; auto.
      destruct Hc as (E & k & R & _ & K). split; [exact E|]. exists k. auto.
    + split; [exact Kk|]. split; [exact Kc|]. split; [exact Kb|exact Kbb].
Qed.

(** No mass fraction can be set on a connection that was read. *)
Lemma set_fluid_never usable reg engines n d d' n' l c' f x : good_net usable reg engines n -> clean reg n d ->
  export n d = Ok d' -> load usable reg engines d' = Ok n' -> dget l (t_conns n') = Some c' -> specify_fluid f x (n_obj c') = Err AttributeError.
Proof.
  intros G C E L Hc. destruct (export_import usable reg engines n d G C) as (d1 & n1 & E1 & L1 & K).
  rewrite E in E1. inversion E1; subst d1. rewrite L in L1. inversion L1; subst n1.
  destruct K as (_ & _ & Kk & Kc & _). destruct (dget l (t_conns n)) as [c|] eqn:Hl.
  2:{ apply dget_None_notin in Hl. rewrite <- Kk in Hl. apply dget_None_notin in Hl. congruence. }
  destruct (Kc l c c' Hl Hc) as (_ & _ & _ & _ & _ & Kd).
  destruct G as (_ & _ & _ & _ & _ & _ & Gc & _). pose proof (Gc l c (dget_In _ _ _ Hl)) as (_ & _ & Gk & Gd & _).
  specialize (Kd "fluid"). unfold specify_fluid.
  destruct (dget "fluid" (o_params (n_obj c))) as [y|] eqn:Hy.
  2:{ apply dget_None_notin in Hy. rewrite Gk in Hy. exfalso. apply Hy. vm_compute. auto 20. }
  destruct (dget "fluid" (o_params (n_obj c'))) as [y'|]; [|destruct Kd].
  destruct (Gd "fluid" y composition Hy eq_refl) as ((Kd1 & _) & _). destruct Kd as [K1 K2]. rewrite Kd1 in K2. cbn [c_kind composition] in K2.
  destruct K2 as (Sv & (s & _ & S2) & (v & _ & _ & _ & _ & V & _)). unfold same_attr in Sv. rewrite <- Sv, V, S2. reflexivity.
Qed.

(** Setting a mass fraction: value and mark of that fluid, everything else stays. *)
Lemma set_fluid_means : forall f x o o', specify_fluid f x o = Ok o' ->
  exists c c' v v' s s', dget "fluid" (o_params o) = Some c /\ dget "fluid" (o_params o') = Some c'
    /\ dget "val" (c_attrs c) = Some (VDict v) /\ dget "val" (c_attrs c') = Some (VDict v')
    /\ dget "is_set" (c_attrs c) = Some (VSet s) /\ dget "is_set" (c_attrs c') = Some (VSet s')
    /\ dget f v' = Some (VNum (Some x)) /\ (forall g, g <> f -> dget g v' = dget g v)
    /\ (forall g, In g s' <-> In g s \/ g = f) /\ (NoDup s -> NoDup s')
    /\ (forall k, k <> "val"%string -> k <> "is_set"%string -> dget k (c_attrs c') = dget k (c_attrs c))
    /\ (forall k, k <> "fluid"%string -> dget k (o_params o') = dget k (o_params o)).
Proof.
  intros f x o o' E. unfold specify_fluid in E. destruct (dget "fluid" (o_params o)) as [c|] eqn:F; [|discriminate].
  destruct (dget "val" (c_attrs c)) as [[]|] eqn:V; try discriminate. destruct (dget "is_set" (c_attrs c)) as [[]|] eqn:S; try discriminate.
  injection E as <-. cbn [o_params]. do 6 eexists. rewrite dget_dset_eq. split; [reflexivity|]. split; [reflexivity|]. cbn [c_attrs].
  split; [exact V|]. split; [rewrite dget_dset_neq by discriminate; apply dget_dset_eq|]. split; [exact S|]. split; [apply dget_dset_eq|].
  split; [apply dget_dset_eq|]. split; [intros g N; now apply dget_dset_neq|].
  match goal with |- context [smem f ?l] => destruct (smem f l) eqn:M; rename l into s end.
  - apply smem_In in M. repeat split; auto; intros; try (intuition; subst; auto); rewrite ?dget_dset_neq by assumption; auto.
  - assert (NI : ~ In f s) by (intros I; apply smem_In in I; congruence).
    split; [intros g; rewrite in_app_iff; cbn; intuition|]. split.
    { intros ND. clear - ND NI. induction ND as [|a l A ND IH]; cbn; [repeat constructor; intros []|]. constructor; [|apply IH; intros I; apply NI; right; exact I].
      rewrite in_app_iff. intros [I|[->|[]]]; [contradiction|]. apply NI. left. reflexivity. }
    repeat split; intros; rewrite ?dget_dset_neq by assumption; auto.
Qed.
(** An attribute a container does not have is a KeyError, nothing else is. *)
Lemma attr_error : forall c k e, attr c k = Err e <-> e = KeyError /\ dget k (c_attrs c) = None.
Proof. intros c k e. unfold attr. destruct (dget k (c_attrs c)); split; intros H; [discriminate|destruct H; discriminate|injection H as <-; auto|destruct H as [-> _]; reflexivity]. Qed.
