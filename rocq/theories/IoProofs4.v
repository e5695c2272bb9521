(** Connections for export and import. *)
From Coq Require Import QArith.
From Verif Require Import Base UnitsModel NetUnitsModel UnitsProofs IoModel IoSpec IoProofs IoProofs2 IoProofs3.
Open Scope string_scope.
Open Scope list_scope.

Definition heads : list string := ["source"; "target"; "source_id"; "target_id"].
Definition all_keys : list string := fold_left key_add (heads ++ conn_keys ++ keys new_data) [].
Definition args : list string :=
  ["design_path"; "design"; "offdesign"; "local_design"; "printout"; "mixing_rule";
   "m"; "p"; "h"; "vol"; "s"; "fluid_balance"; "T"; "v"; "x"; "Td_bp"; "state"].
Definition refs : list string := ["m_ref"; "p_ref"; "h_ref"; "T_ref"; "v_ref"].

Lemma args_eq fd : keys fd = all_keys -> arglist fd = args.
Proof. intros H. unfold arglist. rewrite H. vm_compute. reflexivity. Qed.

Lemma refs_eq fd : keys fd = all_keys -> arglist_ref fd = refs.
Proof. intros H. unfold arglist_ref. rewrite H. vm_compute. reflexivity. Qed.

(* --------------------------------------------------------------- containers *)
Lemma plain_back x f : alike x f -> (c_kind x = KProp \/ c_kind x = KSimple) ->
  (forall k, In k (user_data (c_kind x)) -> writes k x) ->
  exists d x', serialize x = Ok d /\ jsonable (VDict d) = true /\ read_data f (VDict d) = Ok x' /\ kept_data x x'.
Proof.
  intros A K W. destruct (pick_spec _ _ W) as (d & E & Kd & J & D).
  assert (Se : serialize x = Ok d).
  { unfold serialize. destruct K as [K|K]; rewrite K in *; exact E. }
  destruct (kept_of_attrs f x d _ A Kd) as (x' & S & P).
  { destruct K as [K|K]; rewrite K; cbn; nodup. } { apply incl_refl. }
  { intros k Hk. destruct (W k Hk) as (v & X & _). congruence. }
  { intros k Hk. rewrite D. apply smem_In in Hk. now rewrite Hk. }
  { intros k H1 H2. now destruct H2. }
  exists d, x'. split; [exact Se|]. split; [exact J|]. split; [exact S|].
  destruct P as (P1 & P2 & _). split; [exact P1|]. destruct K as [K|K]; rewrite K in *; exact P2.
Qed.

Lemma engines_out e : rmapM (fun x : string * value => rmap (fun y => (fst x, y)) (engine_name (snd x))) (map (fun x => (fst x, VEngine (snd x))) e)
  = Ok (map (fun x => (fst x, VStr (snd x))) e).
Proof. induction e as [|[f n] e IH]; cbn; [reflexivity|]. cbn in IH. now rewrite IH. Qed.

Lemma engines_in engines e : (forall f n, In (f, n) e -> In n engines) ->
  rmapM (fun x : string * value => rmap (fun y => (fst x, y)) (read_engine engines (snd x))) (map (fun x => (fst x, VStr (snd x))) e)
  = Ok (map (fun x => (fst x, VEngine (snd x))) e).
Proof.
  induction e as [|[f n] e IH]; intros H; cbn; [reflexivity|].
  assert (Hn : smem n engines = true) by (apply smem_In; apply (H f); now left). rewrite Hn. cbn.
  cbn in IH. rewrite IH; [reflexivity|]. intros f2 n2 Hi. apply (H f2). now right.
Qed.

Lemma map_same b : rmapM (fun x : string * value => rmap (fun y => (fst x, y)) (Ok (snd x))) b = Ok b.
Proof. induction b as [|[f v] b IH]; cbn; [reflexivity|]. cbn in IH. now rewrite IH. Qed.

Lemma dget_map {A B} (g : A -> B) (e : dict A) k : dget k (map (fun x => (fst x, g (snd x))) e) = option_map g (dget k e).
Proof. induction e as [|[f n] e IH]; cbn; [reflexivity|]. destruct (String.eqb k f); auto. Qed.

Lemma defaults_fold usable fs : forall e b,
  (forall f x, dget f e = Some x -> exists n, x = VEngine n) -> NoDup fs ->
  (forall f, In f fs -> usable (match dget f e with Some (VEngine n) => n | _ => "CoolPropWrapper" end) f (match dget f b with Some x => x | None => VNone end) = None) ->
  exists e' b', fold_left (fun r f => rbind r (fun eb : dict value * dict value =>
     let e := if dmem f (fst eb) then fst eb else dset f (VEngine "CoolPropWrapper") (fst eb) in
     let b := if dmem f (snd eb) then snd eb else dset f VNone (snd eb) in
     match dget f e, dget f b with
     | Some (VEngine n), Some x => match usable n f x with None => Ok (e, b) | Some x => Err x end
     | _, _ => Err TypeError
     end)) fs (Ok (e, b)) = Ok (e', b') /\
   forall f, dget f e' = match dget f e with Some x => Some x | None => if smem f fs then Some (VEngine "CoolPropWrapper") else None end /\
             dget f b' = match dget f b with Some x => Some x | None => if smem f fs then Some VNone else None end.
Proof.
  induction fs as [|f fs IH]; intros e b En N U.
  - exists e, b. split; [reflexivity|]. intros f. cbn. destruct (dget f e), (dget f b); auto.
  - inversion N as [|? ? Nf N']; subst. cbn [fold_left rbind fst snd].
    set (e1 := if dmem f e then e else dset f (VEngine "CoolPropWrapper") e).
    set (b1 := if dmem f b then b else dset f VNone b).
    assert (E1 : forall g, dget g e1 = if String.eqb g f then Some (match dget f e with Some x => x | None => VEngine "CoolPropWrapper" end) else dget g e).
    { intros g. unfold e1, dmem. destruct (String.eqb g f) eqn:X; [apply String.eqb_eq in X; subst g|apply String.eqb_neq in X].
      - destruct (dget f e) as [x|] eqn:Y; [exact Y|apply dget_dset_eq].
      - destruct (dget f e); [reflexivity|]. now rewrite dget_dset_neq by congruence. }
    assert (B1 : forall g, dget g b1 = if String.eqb g f then Some (match dget f b with Some x => x | None => VNone end) else dget g b).
    { intros g. unfold b1, dmem. destruct (String.eqb g f) eqn:X; [apply String.eqb_eq in X; subst g|apply String.eqb_neq in X].
      - destruct (dget f b) as [x|] eqn:Y; [exact Y|apply dget_dset_eq].
      - destruct (dget f b); [reflexivity|]. now rewrite dget_dset_neq by congruence. }
    assert (Step : match dget f e1, dget f b1 with
     | Some (VEngine n), Some x => match usable n f x with None => Ok (e1, b1) | Some x => Err x end
     | _, _ => Err TypeError end = Ok (e1, b1)).
    { rewrite E1, B1, String.eqb_refl. pose proof (U f (or_introl eq_refl)) as Uf.
      destruct (dget f e) as [x|] eqn:Y.
      - destruct (En f x Y) as [n ->]. now rewrite Uf.
      - now rewrite Uf. }
    cbv zeta. rewrite Step.
    destruct (IH e1 b1) as (e' & b' & E & D).
    { intros g x Hg. rewrite E1 in Hg. destruct (String.eqb g f); [|eauto]. inversion Hg; subst.
      destruct (dget f e) as [y|] eqn:Y; eauto. }
    { exact N'. }
    { intros g Hg. rewrite E1, B1. destruct (String.eqb g f) eqn:X; [apply String.eqb_eq in X; subst; contradiction|].
      apply U. now right. }
    exists e', b'. split; [exact E|]. intros g. destruct (D g) as [D1 D2]. rewrite D1, D2, E1, B1.
    cbn [smem existsb]. destruct (String.eqb g f) eqn:X.
    + apply String.eqb_eq in X; subst g. cbn [orb]. destruct (dget f e), (dget f b); auto.
    + cbn [orb]. auto.
Qed.

Lemma fluid_back usable engines x : alike x composition -> c_kind x = KFlu -> good_fluid usable engines x ->
  exists d x', serialize x = Ok d /\ jsonable (VDict d) = true /\ read_fluid usable engines (VDict d) composition = Ok x' /\ kept_data x x'.
Proof.
  intros A K (v & s & e & b & Ev & Es & Ee & Eb & Nv & Jv & Jb & En & Us).
  set (eS := map (fun x => (fst x, VStr (snd x))) e). set (eE := map (fun x => (fst x, VEngine (snd x))) e) in *.
  set (d := [("val", VDict v); ("is_set", VList (map VStr s)); ("engine", VDict eS); ("back_end", VDict b)]).
  assert (Se : serialize x = Ok d).
  { unfold serialize, attr. rewrite K, Ev, Es, Ee, Eb. cbn [rbind as_list map_dict]. unfold eE. rewrite engines_out. cbn [rmap].
    pose proof (map_same b) as M. cbn in M. cbn. rewrite M. reflexivity. }
  assert (Js : forallb jsonable (map VStr s) = true) by (clear; induction s; cbn; auto).
  assert (Je : jsonable (VDict eS) = true).
  { apply jsonable_dict. intros k w Hi. apply in_map_iff in Hi. destruct Hi as ([a c] & E & _). inversion E. reflexivity. }
  set (d2 := [("val", VDict v); ("is_set", VList (map VStr s)); ("engine", VDict eE); ("back_end", VDict b)]).
  destruct (set_attrs_spec d2 composition) as (c1 & E1 & K1 & D1).
  { cbn. nodup. } { intros k Hk. cbn in Hk. repeat (destruct Hk as [<-|Hk]; [reflexivity|]). destruct Hk. }
  destruct (defaults_fold usable (keys v) eE b) as (e' & b' & Ef & Df).
  { intros f w Hf. unfold eE in Hf. rewrite dget_map in Hf. destruct (dget f e); inversion Hf. eauto. }
  { exact Nv. }
  { intros f Hf. unfold eE. rewrite dget_map. specialize (Us f Hf). destruct (dget f e); exact Us. }
  exists d, {| c_kind := c_kind c1; c_attrs := dset "back_end" (VDict b') (dset "engine" (VDict e') (c_attrs c1)) |}.
  split; [exact Se|]. split.
  { unfold d. cbn [jsonable forallb snd] in *. rewrite Jv, Js, Je, Jb. reflexivity. }
  split.
  - unfold read_fluid. cbn [mapping rbind d dget String.eqb Ascii.eqb Bool.eqb map_dict]. unfold eS. rewrite (engines_in engines e En). cbn [rmap rbind].
    change (dset "engine" (VDict (map (fun x0 : string * string => (fst x0, VEngine (snd x0))) e)) d) with d2. rewrite E1. cbn [rbind].
    assert (G1 : dget "val" (c_attrs c1) = Some (VDict v)) by (rewrite D1; reflexivity).
    assert (G2 : dget "engine" (c_attrs c1) = Some (VDict eE)) by (rewrite D1; reflexivity).
    assert (G3 : dget "back_end" (c_attrs c1) = Some (VDict b)) by (rewrite D1; reflexivity).
    unfold default_engines. rewrite G1, G2, G3. 
    match goal with |- rmap ?g ?F = _ => transitivity (rmap g (Ok (e', b'))); [apply (f_equal (rmap g)); exact Ef|reflexivity] end.
  - split; [cbn; rewrite K1; cbn; congruence|]. rewrite K. unfold kept_fluid, same_attr. cbn [c_attrs]. split; [|split].
    + rewrite !dget_dset_neq by discriminate. rewrite D1, Ev. reflexivity.
    + exists s. split; [exact Es|]. rewrite !dget_dset_neq by discriminate. rewrite D1. reflexivity.
    + exists v, eE, e', b, b'. split; [exact Ev|]. split; [exact Ee|].
      split; [rewrite dget_dset_neq by discriminate; apply dget_dset_eq|]. split; [exact Eb|]. split; [apply dget_dset_eq|].
      intros f. destruct (Df f) as [X1 X2]. rewrite X1, X2.
      replace (dmem f v) with (smem f (keys v)); [auto|].
      destruct (dmem f v) eqn:M; [apply smem_In, dmem_In; exact M|].
      destruct (smem f (keys v)) eqn:Y; [|reflexivity]. apply smem_In, dmem_In in Y. congruence.
Qed.

(** writing a reference, and what reading it does to the container *)
Definition ref_done (labels : list string) (v : value) (x : container) : Prop :=
  forall k c, dget k (o_params (n_obj c)) = Some referenced ->
  exists r ps, read_ref labels k v c = Ok {| n_source := n_source c; n_sid := n_sid c; n_target := n_target c; n_tid := n_tid c;
      n_obj := {| o_attrs := o_attrs (n_obj c); o_params := ps; o_listed := o_listed (n_obj c) |} |} /\
    kept_data x r /\ forall k', dget k' ps = if String.eqb k' k then Some r else dget k' (o_params (n_obj c)).

Lemma ref_back labels x : alike x referenced -> c_kind x = KRef -> good_ref labels x ->
  exists d, serialize x = Ok d /\ jsonable (VDict d) = true /\ ref_done labels (VDict d) x.
Proof.
  intros A K (W1 & W2 & [R|(l & f & dl & R & Hl)]).
  - exists []. unfold serialize, attr. rewrite K, R. split; [reflexivity|]. split; [reflexivity|].
    intros k c Hc. exists referenced, (o_params (n_obj c)). split; [|split].
    + unfold read_ref. cbn. destruct c as [? ? ? ? [? ? ?]]. reflexivity.
    + split; [cbn; congruence|]. rewrite K. split; [unfold same_attr; now rewrite R|]. intros X; congruence.
    + intros k'. destruct (String.eqb k' k) eqn:X; [apply String.eqb_eq in X; subst; exact Hc|reflexivity].
  - destruct (pick_spec ["is_set"; "unit"] x) as (d & E & Kd & J & D).
    { intros k [<-|[<-|[]]]; assumption. }
    exists (d ++ [("conn", VStr l); ("factor", VNum (Some f)); ("delta", VNum (Some dl))]).
    split; [unfold serialize, attr; rewrite K, R; cbn [rbind]; now rewrite E|]. split.
    { apply jsonable_dict. intros k v Hi. apply in_app_iff in Hi. destruct Hi as [Hi|Hi]; [exact (proj1 (jsonable_dict d) J k v Hi)|].
      destruct Hi as [Hi|[Hi|[Hi|[]]]]; inversion Hi; reflexivity. }
    intros k c Hc.
    exists {| c_kind := KRef; c_attrs := [("ref", VRef l f dl); ("is_set", VBool true); ("unit", VNone)] |}.
    exists (dset k {| c_kind := KRef; c_attrs := [("ref", VRef l f dl); ("is_set", VBool true); ("unit", VNone)] |} (o_params (n_obj c))).
    split; [|split].
    + unfold read_ref. cbn [mapping rbind].
      destruct d as [|e0 d0] eqn:Ed; [discriminate Kd|]. rewrite <- Ed in *. clear Ed e0 d0.
      assert (Q : forall k2, smem k2 ["is_set"; "unit"] = false -> dget k2 (d ++ [("conn", VStr l); ("factor", VNum (Some f)); ("delta", VNum (Some dl))]) =
        dget k2 [("conn", VStr l); ("factor", VNum (Some f)); ("delta", VNum (Some dl))]).
      { intros k2 H2. rewrite dget_app, D, H2. reflexivity. }
      destruct (d ++ [("conn", VStr l); ("factor", VNum (Some f)); ("delta", VNum (Some dl))]) as [|e1 d1] eqn:Ed.
      { destruct d; discriminate Ed. }
      unfold str. rewrite (Q "conn" eq_refl), (Q "factor" eq_refl), (Q "delta" eq_refl). cbn [dget String.eqb Ascii.eqb Bool.eqb rbind].
      assert (Hs : smem l labels = true) by now apply smem_In. rewrite Hs, Hc. reflexivity.
    + split; [cbn; congruence|]. rewrite K. split; [unfold same_attr; rewrite R; reflexivity|].
      intros _ X. unfold same_attr. rewrite X. reflexivity.
    + intros k'. destruct (String.eqb k' k) eqn:X; [apply String.eqb_eq in X; subst; apply dget_dset_eq|].
      apply String.eqb_neq in X. now apply dget_dset_neq.
Qed.

(* -------------------------------------------------------------- connections *)
Definition plain_keys : list string := ["m"; "p"; "h"; "vol"; "s"; "fluid_balance"; "T"; "v"; "x"; "Td_bp"; "state"].

Lemma plain_kinds p : In p plain_keys -> exists f, dget p new_data = Some f /\ (c_kind f = KProp \/ c_kind f = KSimple).
Proof. intros H. cbn in H. repeat (destruct H as [<-|H]; [eexists; split; [reflexivity|cbn; auto]|]). destruct H. Qed.

Lemma ref_kinds p : In p refs -> dget p new_data = Some referenced.
Proof. intros H. cbn in H. repeat (destruct H as [<-|H]; [reflexivity|]). destruct H. Qed.

Lemma new_keys p : In p (keys new_data) <-> In p plain_keys \/ p = "fluid" \/ In p refs.
Proof. cbn. intuition. Qed.

Lemma not_both k : In k heads -> In k conn_keys -> False.
Proof. cbn. intros H1 H2. intuition congruence. Qed.
Lemma not_both2 k : In k (keys new_data) -> In k heads \/ In k conn_keys -> False.
Proof.
  intros H1 H2. assert (X : forallb (fun k => negb (smem k (heads ++ conn_keys))) (keys new_data) = true) by reflexivity.
  rewrite forallb_forall in X. specialize (X k H1). apply negb_true_iff in X.
  assert (Y : smem k (heads ++ conn_keys) = true) by (apply smem_In, in_app_iff; exact H2). congruence.
Qed.
Lemma conn_keys_attrs k : In k conn_keys <-> In k conn_attrs.
Proof. cbn. intuition. Qed.

Section C.
Variable usable : string -> string -> value -> option pyerr.
Variables engines labels : list string.
Variable reg : dict class.
Variables comps comps' : dict (string * obj).
Hypothesis Hcomps : forall l, match dget l comps, dget l comps' with
  | Some (cls, o), Some (cls', o') => cls' = cls /\ exists k, dget cls reg = Some k /\ good_comp k l o /\ kept_comp k l o o'
  | None, None => True
  | _, _ => False
  end.

Lemma container_out c p x : good_conn usable engines labels reg comps c -> dget p (o_params (n_obj c)) = Some x ->
  exists d, serialize x = Ok d /\ jsonable (VDict d) = true.
Proof.
  intros (_ & _ & K & P & _) E.
  assert (Hp : In p (keys new_data)) by (rewrite <- K; apply dmem_In; unfold dmem; now rewrite E).
  apply new_keys in Hp. destruct Hp as [Hp|[->|Hp]].
  - destruct (plain_kinds p Hp) as (f & Ef & Kf). destruct (P p x f E Ef) as [A G]. assert (Ka := proj1 A).
    unfold good_data in G. destruct (plain_back x f A) as (d & x' & S & J & _); [destruct Kf; [left|right]; congruence| |eauto].
    destruct Kf as [Kf|Kf]; rewrite Ka, Kf in *; exact G.
  - destruct (P "fluid" x composition E eq_refl) as [A G]. assert (Ka := proj1 A). cbn in Ka. unfold good_data in G. rewrite Ka in G.
    destruct (fluid_back usable engines x A Ka G) as (d & x' & S & J & _). eauto.
  - destruct (P p x referenced E (ref_kinds p Hp)) as [A G]. assert (Ka := proj1 A). cbn in Ka. unfold good_data in G. rewrite Ka in G.
    destruct (ref_back labels x A Ka G) as (d & S & J & _). eauto.
Qed.

Lemma conn_data_ok c : good_conn usable engines labels reg comps c ->
  exists d, conn_data c = Ok d /\ jsonable (VDict d) = true /\ keys d = all_keys /\
    dget "source" d = Some (VStr (n_source c)) /\ dget "source_id" d = Some (VStr (n_sid c)) /\
    dget "target" d = Some (VStr (n_target c)) /\ dget "target_id" d = Some (VStr (n_tid c)) /\
    (forall a, In a conn_attrs -> dget a d = dget a (o_attrs (n_obj c))) /\
    (forall p x, dget p (o_params (n_obj c)) = Some x -> exists e, serialize x = Ok e /\ dget p d = Some (VDict e)).
Proof.
  intros G. assert (G0 := G). destruct G as (_ & _ & K & P & At).
  assert (Np : NoDup (keys (o_params (n_obj c)))) by (rewrite K; cbn; nodup).
  destruct (pick_attrs_spec conn_keys (n_obj c)) as (a & Ea & Ka & Ga).
  { intros x Hx. apply conn_keys_attrs in Hx. destruct (At x Hx) as (v & E & (J & _)). eauto. }
  destruct (pick_params_spec (n_obj c)) as (q & Eq & Kq & Gq & Dq).
  { intros p x Hi. apply In_dget in Hi; [|exact Np]. destruct (container_out c p x G0 Hi) as (d & E & _). eauto. }
  set (h := [("source", VStr (n_source c)); ("target", VStr (n_target c)); ("source_id", VStr (n_sid c)); ("target_id", VStr (n_tid c))]).
  assert (Hh : forall k v, In (k, v) h -> In k heads).
  { intros k v Hi. change heads with (map fst h). apply in_map_iff. now exists (k, v). }
  assert (Ha : forall k v, In (k, v) a -> In k conn_keys).
  { intros k v Hi. rewrite <- Ka. apply in_map_iff. now exists (k, v). }
  assert (Hq : forall k v, In (k, v) q -> In k (keys new_data)).
  { intros k v Hi. rewrite <- K, <- Kq. apply in_map_iff. now exists (k, v). }
  assert (Hd : forall k v, In (k, v) h -> dget k (build (h ++ a ++ q)) = Some v).
  { intros k v Hi. apply updates_get; [apply in_app_iff; now left|]. intros w Hw. rewrite !in_app_iff in Hw. destruct Hw as [Hw|[Hw|Hw]].
    - assert (Nh : NoDup (keys h)) by (cbn; nodup). apply In_dget in Hw; [|exact Nh]. apply In_dget in Hi; [|exact Nh]. congruence.
    - exfalso. exact (not_both k (Hh k v Hi) (Ha k w Hw)).
    - exfalso. exact (not_both2 k (Hq k w Hw) (or_introl (Hh k v Hi))). }
  exists (build (h ++ a ++ q)). split; [unfold conn_data; rewrite Ea; cbn [rbind]; rewrite Eq; reflexivity|]. split.
  { apply jsonable_dict. intros k v Hi. destruct (In_updates _ _ _ Hi) as [X|[]]. rewrite !in_app_iff in X. destruct X as [X|[X|X]].
    - cbn in X. destruct X as [X|[X|[X|[X|[]]]]]; inversion X; reflexivity.
    - exact (proj2 (Ga k v X)).
    - destruct (Gq k v X) as (x & e & Hx & Sx & ->). apply In_dget in Hx; [|exact Np].
      destruct (container_out c k x G0 Hx) as (e2 & S2 & J). rewrite Sx in S2; inversion S2; subst. exact J. }
  split.
  { rewrite build_updates, keys_updates, !map_app, Ka, Kq, K. reflexivity. }
  split; [apply Hd; cbn; tauto|]. split; [apply Hd; cbn; tauto|]. split; [apply Hd; cbn; tauto|]. split; [apply Hd; cbn; tauto|]. split.
  - intros x Hx. destruct (At x Hx) as (v & E & _). rewrite E. apply conn_keys_attrs in Hx.
    assert (Hv : In (x, v) a).
    { rewrite <- Ka in Hx. apply in_map_iff in Hx. destruct Hx as ([y w] & Y & Hw). cbn in Y; subst y.
      destruct (Ga x w Hw) as [X _]. rewrite E in X; inversion X; subst. exact Hw. }
    assert (Hx' := Ha x v Hv).
    apply updates_get; [rewrite !in_app_iff; auto|]. intros w Hw. rewrite !in_app_iff in Hw. destruct Hw as [Hw|[Hw|Hw]].
    + exfalso. exact (not_both x (Hh x w Hw) Hx').
    + destruct (Ga x w Hw) as [X _]. congruence.
    + exfalso. exact (not_both2 x (Hq x w Hw) (or_intror Hx')).
  - intros p x E. specialize (Dq p). rewrite E in Dq. destruct (dget p q) as [v|] eqn:Y; [|contradiction].
    destruct Dq as (e & S & ->). exists e. split; [exact S|]. pose proof (dget_In _ _ _ Y) as Hi.
    apply updates_get; [rewrite !in_app_iff; auto|]. intros w Hw. rewrite !in_app_iff in Hw. destruct Hw as [Hw|[Hw|Hw]].
    + exfalso. exact (not_both2 p (Hq p _ Hi) (or_introl (Hh p w Hw))).
    + exfalso. exact (not_both2 p (Hq p _ Hi) (or_intror (Ha p w Hw))).
    + destruct (Gq p w Hw) as (x2 & e2 & Hx & S2 & ->). apply In_dget in Hx; [|exact Np]. congruence.
Qed.

Lemma ends_ok c d : good_conn usable engines labels reg comps c ->
  dget "source" d = Some (VStr (n_source c)) -> dget "source_id" d = Some (VStr (n_sid c)) ->
  dget "target" d = Some (VStr (n_target c)) -> dget "target_id" d = Some (VStr (n_tid c)) ->
  make_ends reg comps' d = Ok (n_source c, n_sid c, n_target c, n_tid c).
Proof.
  intros ((ks & os & a & kt & ot & b & E1 & R1 & C1 & E2 & R2 & C2) & Ne & _) D1 D2 D3 D4.
  unfold make_ends, str. rewrite D1, D2, D3, D4. cbn [rbind].
  pose proof (Hcomps (n_source c)) as H1. pose proof (Hcomps (n_target c)) as H2. rewrite E1 in H1. rewrite E2 in H2.
  destruct (dget (n_source c) comps') as [[ks' os']|]; [|contradiction]. destruct (dget (n_target c) comps') as [[kt' ot']|]; [|contradiction].
  destruct H1 as (-> & a2 & Ra & Ga & Ka). destruct H2 as (-> & b2 & Rb & Gb & Kb).
  rewrite Ra in R1; inversion R1; subst a2. rewrite Rb in R2; inversion R2; subst b2. rewrite Ra, Rb.
  destruct (String.eqb (n_source c) (n_target c)) eqn:X; [apply String.eqb_eq in X; contradiction|].
  rewrite (connectors_back a _ os os' (k_out a) Ga Ka) by (cbn; auto).
  rewrite (connectors_back b _ ot ot' (k_in b) Gb Kb) by (cbn; auto).
  apply smem_In in C1. apply smem_In in C2. rewrite C1, C2. reflexivity.
Qed.

Lemma fold_args read d ks : (forall k, In k ks -> exists v, dget k d = Some v) -> forall r,
  fold_left (fun r k => rbind r (fun o => match dget k d with Some x => apply_arg read o k x | None => Err KeyError end)) ks r =
  fold_left (fun r e => rbind r (fun o => apply_arg read o (fst e) (snd e))) (map (fun k => (k, match dget k d with Some v => v | None => VNone end)) ks) r.
Proof.
  induction ks as [|k ks IH]; intros H r; [reflexivity|]. cbn [fold_left map fst snd].
  destruct (H k (or_introl eq_refl)) as [v E]. rewrite E. rewrite IH; [reflexivity|]. intros k' Hk. apply H. now right.
Qed.

Lemma refs_fold d : forall ks c (orig : string -> option container),
  NoDup ks ->
  (forall k, In k ks -> dget k (o_params (n_obj c)) = Some referenced /\
     exists v x, dget k d = Some v /\ orig k = Some x /\ ref_done labels v x) ->
  exists c', fold_left (fun r k => rbind r (fun c => match dget k d with Some v => read_ref labels k v c | None => Err KeyError end)) ks (Ok c) = Ok c' /\
    n_source c' = n_source c /\ n_sid c' = n_sid c /\ n_target c' = n_target c /\ n_tid c' = n_tid c /\
    o_attrs (n_obj c') = o_attrs (n_obj c) /\
    forall k, if smem k ks then exists x x', orig k = Some x /\ dget k (o_params (n_obj c')) = Some x' /\ kept_data x x'
              else dget k (o_params (n_obj c')) = dget k (o_params (n_obj c)).
Proof.
  induction ks as [|k ks IH]; intros c orig N H.
  - exists c. repeat split; reflexivity.
  - inversion N as [|? ? Nk N']; subst. destruct (H k (or_introl eq_refl)) as (Hr & v & x & Ev & Eo & Rd).
    cbn [fold_left rbind]. rewrite Ev. destruct (Rd k c Hr) as (r & ps & E & Kd & Dp). rewrite E.
    match goal with |- context [fold_left _ ks (Ok ?z)] => set (c1 := z) end.
    destruct (IH c1 orig N') as (c' & E' & S1 & S2 & S3 & S4 & S5 & D).
    { intros k2 H2. destruct (H k2 (or_intror H2)) as (Hr2 & Rest). split; [|exact Rest].
      cbn. rewrite Dp. destruct (String.eqb k2 k) eqn:X; [apply String.eqb_eq in X; subst; contradiction|exact Hr2]. }
    exists c'. split; [exact E'|]. split; [exact S1|]. split; [exact S2|]. split; [exact S3|]. split; [exact S4|]. split; [exact S5|].
    intros k2. specialize (D k2). cbn [smem existsb] in *. fold (smem k2 ks) in *. destruct (String.eqb k2 k) eqn:X.
    + apply String.eqb_eq in X; subst k2. cbn [orb].
      assert (Y : smem k ks = false) by (destruct (smem k ks) eqn:Z; [apply smem_In in Z; contradiction|reflexivity]).
      rewrite Y in D. cbn in D. rewrite Dp, String.eqb_refl in D. exists x, r. auto.
    + cbn [orb]. destruct (smem k2 ks); [exact D|]. cbn in D. rewrite Dp, X in D. exact D.
Qed.

Lemma conn_back c : good_conn usable engines labels reg comps c ->
  exists d c1 c2, conn_data c = Ok d /\ jsonable (VDict d) = true /\ keys d = all_keys /\
    construct_conn usable reg engines comps' args (VDict d) = Ok c1 /\
    fold_left (fun r k => rbind r (fun c => match dget k d with Some v => read_ref labels k v c | None => Err KeyError end)) refs (Ok c1) = Ok c2 /\
    kept_conn c c2.
Proof.
  intros G. destruct (conn_data_ok c G) as (d & Ed & J & Kd & D1 & D2 & D3 & D4 & Da & Dp).
  pose proof (ends_ok c d G D1 D2 D3 D4) as En.
  destruct G as (_ & _ & K & P & At).
  assert (Pk : forall p, In p (keys new_data) -> exists x, dget p (o_params (n_obj c)) = Some x).
  { intros p Hp. rewrite <- K in Hp. now apply dget_keys. }
  assert (Pl : forall p, In p plain_keys -> exists x f e x', dget p (o_params (n_obj c)) = Some x /\ dget p new_data = Some f /\
     dget p d = Some (VDict e) /\ read_data f (VDict e) = Ok x' /\ kept_data x x').
  { intros p Hp. destruct (plain_kinds p Hp) as (f & Ef & Kf). destruct (Pk p) as [x Ex]; [apply new_keys; auto|].
    destruct (P p x f Ex Ef) as [A Gd]. assert (Ka := proj1 A). unfold good_data in Gd.
    destruct (plain_back x f A) as (e & x' & S & _ & R & Kx).
    { destruct Kf; [left|right]; congruence. } { destruct Kf as [Kf|Kf]; rewrite Ka, Kf in *; exact Gd. }
    destruct (Dp p x Ex) as (e2 & S2 & De). rewrite S in S2; inversion S2; subst e2. exists x, f, e, x'. auto. }
  assert (Ar : forall k, In k args <-> In k conn_attrs \/ In k plain_keys) by (intros k; cbn; tauto).
  assert (Ex : forall k, In k args -> exists v, dget k d = Some v).
  { intros k Hk. apply Ar in Hk. destruct Hk as [Hk|Hk].
    - rewrite (Da k Hk). destruct (At k Hk) as (v & E & _). eauto.
    - destruct (Pl k Hk) as (x & f & e & x' & _ & _ & E & _). eauto. }
  set (al := map (fun k => (k, match dget k d with Some v => v | None => VNone end)) args).
  assert (Al : forall k, dget k al = if smem k args then dget k d else None).
  { assert (Q : forall ks, (forall k, In k ks -> exists v, dget k d = Some v) -> forall k,
      dget k (map (fun k => (k, match dget k d with Some v => v | None => VNone end)) ks) = if smem k ks then dget k d else None).
    { induction ks as [|z ks IH]; intros Hz k; cbn; [reflexivity|]. destruct (String.eqb k z) eqn:X; cbn.
      - apply String.eqb_eq in X; subst. destruct (Hz z (or_introl eq_refl)) as [v ->]. reflexivity.
      - apply IH. intros k2 H2. apply Hz. now right. }
    exact (Q args Ex). }
  assert (Na : NoDup (map fst al)) by (unfold al; rewrite map_map; cbn; nodup).
  destruct (apply_args_spec read_data al new_conn Na) as (o1 & E1 & L1 & O1).
  { intros [k v] Hi. unfold step_ok. cbn [fst snd]. apply In_dget in Hi; [|exact Na]. rewrite Al in Hi.
    destruct (smem k args) eqn:M; [|discriminate]. apply smem_In, Ar in M. destruct M as [M|M].
    - assert (X : dget k (o_params new_conn) = None /\ dmem k (o_attrs new_conn) = true).
      { clear - M. cbn in M. repeat (destruct M as [<-|M]; [split; reflexivity|]). destruct M. }
      destruct X as [-> X2]. split; [exact X2|]. destruct (At k M) as (w & Ew & Gw). rewrite (Da k M), Ew in Hi. inversion Hi; subst.
      now apply good_attr_check.
    - destruct (Pl k M) as (x & f & e & x' & _ & Ef & De & R & _). cbn [o_params new_conn]. rewrite Ef.
      rewrite De in Hi; inversion Hi; subst. eauto. }
  assert (Fl : dget "fluid" (o_params o1) = Some composition).
  { specialize (O1 "fluid"). rewrite Al in O1. exact (proj1 O1). }
  destruct (Pk "fluid") as [xf Exf]; [apply new_keys; auto|].
  destruct (P "fluid" xf composition Exf eq_refl) as [Af Gf]. assert (Kf := proj1 Af). cbn in Kf. unfold good_data in Gf. rewrite Kf in Gf.
  destruct (fluid_back usable engines xf Af Kf Gf) as (ef & xf' & Sf & _ & Rf & Kxf).
  destruct (Dp "fluid" xf Exf) as (ef2 & Sf2 & Def). rewrite Sf in Sf2; inversion Sf2; subst ef2.
  set (c1 := {| n_source := n_source c; n_sid := n_sid c; n_target := n_target c; n_tid := n_tid c;
    n_obj := {| o_attrs := o_attrs o1; o_params := dset "fluid" xf' (o_params o1); o_listed := o_listed o1 |} |}).
  assert (C1 : construct_conn usable reg engines comps' args (VDict d) = Ok c1).
  { unfold construct_conn. cbn [mapping rbind]. rewrite En. cbn [rbind]. rewrite (fold_args read_data d args Ex). fold al.
    unfold apply_args in E1. rewrite E1. cbn [rbind]. rewrite Def, Fl, Rf. reflexivity. }
  assert (Dc1 : forall p, p <> "fluid" -> dget p (o_params (n_obj c1)) = dget p (o_params o1)).
  { intros p Hp. cbn. now apply dget_dset_neq. }
  destruct (refs_fold d refs c1 (fun k => dget k (o_params (n_obj c)))) as (c2 & E2 & S1 & S2 & S3 & S4 & S5 & D).
  { cbn. nodup. }
  { intros k Hk. split.
    - rewrite Dc1 by (intros ->; cbn in Hk; intuition congruence).
      specialize (O1 k). rewrite Al in O1.
      assert (M : smem k args = false) by (clear - Hk; cbn in Hk; repeat (destruct Hk as [<-|Hk]; [reflexivity|]); destruct Hk).
      rewrite M in O1. rewrite (proj1 O1). exact (ref_kinds k Hk).
    - destruct (Pk k) as [x Exx]; [apply new_keys; auto|]. destruct (P k x referenced Exx (ref_kinds k Hk)) as [A Gr].
      assert (Ka := proj1 A). cbn in Ka. unfold good_data in Gr. rewrite Ka in Gr.
      destruct (ref_back labels x A Ka Gr) as (e & Se & _ & Rd). destruct (Dp k x Exx) as (e2 & Se2 & De).
      rewrite Se in Se2; inversion Se2; subst. exists (VDict e2), x. auto. }
  exists d, c1, c2. split; [exact Ed|]. split; [exact J|]. split; [exact Kd|]. split; [exact C1|]. split; [exact E2|].
  split; [exact S1|]. split; [exact S2|]. split; [exact S3|]. split; [exact S4|]. split.
  - intros a Ha. rewrite S5. cbn [c1 n_obj o_attrs]. specialize (O1 a). rewrite Al in O1.
    assert (M : smem a args = true) by (apply smem_In, Ar; auto). rewrite M, (Da a Ha) in O1. destruct (At a Ha) as (v & Ev & _). rewrite Ev in *.
    assert (X : dget a (o_params new_conn) = None).
    { clear - Ha. cbn in Ha. repeat (destruct Ha as [<-|Ha]; [reflexivity|]). destruct Ha. }
    rewrite X in O1. exact (proj2 O1).
  - intros p. specialize (D p). destruct (smem p refs) eqn:Mr.
    + destruct D as (x & x' & -> & -> & Kd2). exact Kd2.
    + rewrite D. destruct (string_dec p "fluid") as [->|Nf].
      * rewrite Exf. cbn [c1 n_obj o_params]. rewrite dget_dset_eq. exact Kxf.
      * rewrite (Dc1 p Nf). specialize (O1 p). rewrite Al in O1. destruct (smem p plain_keys) eqn:Mp.
        -- apply smem_In in Mp. assert (Ma : smem p args = true) by (apply smem_In, Ar; auto). rewrite Ma in O1.
           destruct (Pl p Mp) as (x & f & e & x' & Exx & Ef & De & R & Kx). rewrite De in O1. cbn [o_params new_conn] in O1. rewrite Ef in O1.
           destruct O1 as (x2 & R2 & -> & _). rewrite R in R2; inversion R2; subst. rewrite Exx. exact Kx.
        -- assert (X : ~ In p (keys new_data)).
           { rewrite new_keys. intros [X|[X|X]]; [apply smem_In in X; congruence|contradiction|apply smem_In in X; congruence]. }
           assert (Y : dget p new_data = None) by now apply dget_None_notin.
           assert (Z : dget p (o_params (n_obj c)) = None) by (apply dget_None_notin; now rewrite K).
           rewrite Z. cbn [o_params new_conn] in O1. rewrite Y in O1.
           destruct (smem p args); [destruct (dget p d)|]; destruct O1 as [-> _]; exact Logic.I.
Qed.
End C.
