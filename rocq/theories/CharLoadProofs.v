(** Proofs about default and custom characteristics. *)
From Coq Require Import String List Bool QArith Lqa Lia.
From Verif Require Import Base CharModel CharLoadModel CharLoadSpec.
Import ListNotations.
Open Scope string_scope.

Lemma look3_entry : forall A (t : table A) c p n a, look3 t c p n = Ok a <-> entry t c p n a.
Proof.
  intros A t c p n a. unfold look3, look, entry. split.
  - destruct (dget c t) as [t1|] eqn:E1; cbn; [|discriminate].
    destruct (dget p t1) as [t2|] eqn:E2; cbn; [|discriminate].
    destruct (dget n t2) as [b|] eqn:E3; [|discriminate]. intros H; inversion H; subst. now exists t1, t2.
  - intros (t1 & t2 & -> & E2 & E3). cbn. rewrite E2. cbn. now rewrite E3.
Qed.
Lemma look3_none : forall A (t : table A) c p n, no_entry t c p n -> look3 t c p n = Err KeyError.
Proof.
  intros A t c p n H. destruct (look3 t c p n) as [a|e] eqn:E; [elim (H a); now apply look3_entry|].
  unfold look3, look in E. destruct (dget c t) as [t1|]; cbn in E; [|congruence].
  destruct (dget p t1) as [t2|]; cbn in E; [|congruence]. destruct (dget n t2); [discriminate|congruence].
Qed.

Lemma installed_given : forall lines maps component parameter k c,
  install lines maps component parameter k (Some c) = Ok c.
Proof. reflexivity. Qed.

Lemma installed_default : forall lines maps component parameter d, entry lines component parameter "DEFAULT" d -> fits d ->
  install lines maps component parameter KLine None = Ok (CLine {| cl_x := ld_x d; cl_y := ld_y d; cl_extrapolate := false |}).
Proof.
  intros lines maps component parameter d H F. unfold install, load_default_char.
  apply look3_entry in H. rewrite H. cbn [rbind]. unfold CharLine_new. unfold fits in F. rewrite F, Nat.eqb_refl. reflexivity.
Qed.

Lemma installed_unit : forall lines maps component parameter, no_entry lines component parameter "DEFAULT" ->
  install lines maps component parameter KLine None = Ok (CLine unit_line).
Proof.
  intros lines maps component parameter H. unfold install, load_default_char. now rewrite (look3_none _ _ _ _ _ H).
Qed.

Lemma unit_is_one : forall x, exists v, evaluate1 (CLine unit_line) x = Ok v /\ (v == 1)%Q.
Proof.
  intros x. cbn [evaluate1]. unfold cl_evaluate, unit_line. cbn [cl_x cl_y cl_extrapolate searchsorted].
  destruct (Qle_bool x 0) eqn:E0; [exists 1%Q; split; reflexivity|].
  destruct (Qle_bool x 1) eqn:E1.
  - cbn. eexists. split; [reflexivity|]. field.
  - exists 1%Q. split; reflexivity.
Qed.

Lemma rmapM_ok {A B} : forall (f : A -> res B) l, Forall (fun a => exists b, f a = Ok b) l ->
  exists bs, rmapM f l = Ok bs /\ Forall2 (fun a b => f a = Ok b) l bs.
Proof.
  intros f l H. induction H as [|a l (b & Hb) _ (bs & IH & F)]; cbn.
  - exists []. split; [reflexivity|constructor].
  - rewrite Hb. cbn. rewrite IH. exists (b :: bs). split; [reflexivity|]. now constructor.
Qed.

Lemma entry_dec : forall A (t : table A) c p n, (exists a, entry t c p n a) \/ no_entry t c p n.
Proof.
  intros A t c p n. destruct (look3 t c p n) as [a|e] eqn:E.
  - left. exists a. now apply look3_entry.
  - right. intros a H. apply look3_entry in H. congruence.
Qed.

Lemma all_installed : forall lines maps component ps, all_fit lines -> only_lines ps ->
  exists cs, install_all lines maps component ps = Ok cs
    /\ map fst cs = map (fun p => fst (fst p)) ps
    /\ Forall2 (fun p kc => 
         (forall c, snd p = Some c -> snd kc = c)
         /\ (snd p = None -> forall d, entry lines component (fst (fst p)) "DEFAULT" d ->
             snd kc = CLine {| cl_x := ld_x d; cl_y := ld_y d; cl_extrapolate := false |})
         /\ (snd p = None -> no_entry lines component (fst (fst p)) "DEFAULT" ->
             forall x, exists v, evaluate1 (snd kc) x = Ok v /\ (v == 1)%Q)) ps cs.
Proof.
  intros lines maps component ps HF HL. unfold install_all.
  destruct (rmapM_ok (fun p : string * ckind * option characteristic => rmap (fun c => (fst (fst p), c))
     (install lines maps component (fst (fst p)) (snd (fst p)) (snd p))) ps) as (cs & E & F).
  - eapply Forall_impl; [|exact HL]. intros [[nm k] cur] [Hk _]. cbn in *. subst k.
    destruct cur as [c|]; [now eexists|].
    destruct (entry_dec _ lines component nm "DEFAULT") as [(d & Hd)|Hn].
    + rewrite (installed_default _ _ _ _ _ Hd (HF _ _ _ _ Hd)). now eexists.
    + rewrite installed_unit by exact Hn. now eexists.
  - exists cs. rewrite E. split; [reflexivity|]. clear E.
    assert (HL' := HL). revert HL'. unfold only_lines. intros HL'. split.
    + clear HL HL'. induction F as [|[[nm k] cur] [n c] ps cs H F IH]; [reflexivity|]. cbn in *. f_equal; [|exact IH].
      destruct (install lines maps component nm k cur); inversion H; reflexivity.
    + clear HL. induction F as [|[[nm k] cur] [n c] ps cs H F IH]; [constructor|].
      inversion HL' as [|x y [Hk _] HL'']; subst. cbn in Hk. subst k. constructor; [|now apply IH].
      cbn [fst snd] in *. split; [|split].
      * intros c0 ->. cbn in H. now inversion H.
      * intros -> d Hd. rewrite (installed_default _ _ _ _ _ Hd (HF _ _ _ _ Hd)) in H. cbn in H. now inversion H.
      * intros -> Hn x. rewrite installed_unit in H by exact Hn. cbn in H. inversion H; subst. apply unit_is_one.
Qed.

Lemma custom_found : forall lines maps name d, dget name lines = Some d -> fits d ->
  load_custom_char (Some lines) maps name KLine = inl (CLine {| cl_x := ld_x d; cl_y := ld_y d; cl_extrapolate := false |}).
Proof.
  intros lines maps name d H F. unfold load_custom_char, look. rewrite H. cbn [rbind]. unfold CharLine_new.
  unfold fits in F. rewrite F, Nat.eqb_refl. reflexivity.
Qed.
Lemma custom_missing_file : forall lines maps name k,
  load_custom_char lines maps name k = inr NoFile <-> match k with KLine => lines = None | KMap => maps = None end.
Proof.
  intros lines maps name k. unfold load_custom_char. destruct k.
  - destruct lines as [d|]; [|split; reflexivity]. destruct (rbind _ _); split; discriminate.
  - destruct maps as [d|]; [|split; reflexivity]. destruct (rbind _ _); split; discriminate.
Qed.
Lemma custom_missing_name : forall lines maps name, dget name lines = None ->
  load_custom_char (Some lines) maps name KLine = inr (Other KeyError).
Proof. intros lines maps name H. unfold load_custom_char, look. now rewrite H. Qed.

(** *** Where it fails *)

Lemma map_without_default : exists lines maps component parameter c,
  install lines maps component parameter KMap None = Ok c /\ forall x y, evaluate2 c x y = Err AttributeError.
Proof. exists [], [], "my compressor", "char_map_pr". eexists. split; [reflexivity|]. reflexivity. Qed.

Lemma map_never_usable : forall lines maps component parameter, no_entry maps component parameter "DEFAULT" ->
  exists c, install lines maps component parameter KMap None = Ok c /\ forall x y, evaluate2 c x y = Err AttributeError.
Proof.
  intros lines maps component parameter H. unfold install, load_default_char. rewrite (look3_none _ _ _ _ _ H). cbn [rbind].
  eexists. split; reflexivity.
Qed.

Definition has_default (cls parameter : string) : bool :=
  match component_of cls with
  | Some c => match dget c shipped_lines with Some ps => smem parameter ps | None => false end
  | None => false
  end.

Lemma subclass_without_default : 
  has_default "Turbine" "eta_s_char" = true /\ has_default "SteamTurbine" "eta_s_char" = false
  /\ has_default "HeatExchanger" "kA_char1" = true /\ has_default "MovingBoundaryHeatExchanger" "kA_char1" = false
  /\ has_default "SimpleHeatExchanger" "kA_char" = true /\ has_default "SolarCollector" "kA_char" = false
  /\ has_default "ParabolicTrough" "kA_char" = false
  /\ has_default "Condenser" "kA_char1" = true /\ has_default "Desuperheater" "kA_char2" = true /\ has_default "Pipe" "kA_char" = true.
Proof. repeat split. Qed.

Lemma subclass_line_differs : exists lines maps parent child parameter d x v,
  entry lines parent parameter "DEFAULT" d /\ fits d
  /\ no_entry lines child parameter "DEFAULT"
  /\ evaluate1 (CLine {| cl_x := ld_x d; cl_y := ld_y d; cl_extrapolate := false |}) x = Ok v /\ ~ (v == 1)%Q
  /\ component_of "Turbine" = Some parent /\ component_of "SteamTurbine" = Some child
  /\ exists c w, install lines maps child parameter KLine None = Ok c /\ evaluate1 c x = Ok w /\ (w == 1)%Q.
Proof.
  exists [("turbine", [("eta_s_char", [("DEFAULT", {| ld_x := [0; 3 # 10; 7 # 10]%Q; ld_y := [95 # 100; 98 # 100; 99 # 100]%Q |})])])].
  exists [], "turbine", "steam turbine", "eta_s_char". eexists. exists 0%Q. eexists.
  split; [eexists; eexists; repeat split; reflexivity|]. split; [reflexivity|].
  split. { intros a (t1 & t2 & H & _). discriminate. }
  split; [reflexivity|]. split; [discriminate|]. split; [reflexivity|]. split; [reflexivity|].
  eexists. eexists. split; [reflexivity|]. split; reflexivity.
Qed.
