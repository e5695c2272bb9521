(** A network with a heat exchanger, a splitter and a bus, written and read. *)
From Coq Require Import QArith.
From Verif Require Import Base UnitsModel NetUnitsModel UnitsProofs IoModel IoSpec IoProofs IoProofs2.
Open Scope string_scope.
Open Scope list_scope.

Definition w_attrs (l : string) : dict value :=
  [("design", VList []); ("offdesign", VList []); ("local_design", VBool false); ("local_offdesign", VBool false);
   ("design_path", VNone); ("printout", VBool true); ("fkt_group", VStr l); ("char_warnings", VBool true)].
Definition w_new (ps : dict container) (l : string) : obj := {| o_attrs := w_attrs l; o_params := ps; o_listed := keys ps |}.
Definition w_cp (v : Q) (s : bool) : container :=
  {| c_kind := KCp; c_attrs := [("val", VNum (Some v)); ("val_SI", VNum (Some 0)); ("is_set", VBool s); ("d", VNum (Some (1#10000)));
       ("min_val", VNum (Some (-1000))); ("max_val", VNum (Some 1000)); ("is_var", VBool false); ("design", VNum None)] |}.
Definition w_cc (f : value) (s : bool) : container :=
  {| c_kind := KCC; c_attrs := [("char_func", f); ("is_set", VBool s); ("param", VStr "m"); ("char_params", VDict [("type", VStr "rel")])] |}.
Definition w_cm (f : value) (s : bool) : container :=
  {| c_kind := KCM; c_attrs := [("char_func", f); ("is_set", VBool s); ("param", VNone)] |}.
Definition w_group (s : bool) : container := {| c_kind := KGroup; c_attrs := [("is_set", VBool s); ("elements", VList [VStr "kA_char1"])] |}.
Definition w_num (x : option Q) (s : bool) : container := {| c_kind := KSimple; c_attrs := [("val", VNum x); ("is_set", VBool s)] |}.
Definition w_hx (q : container) (c1 c2 g : container) : dict container := [("Q", q); ("kA_char1", c1); ("map", c2); ("kA_char", g)].
Definition w_names (v : value) : list string :=
  match v with VNum (Some q) => firstn (Z.to_nat (Qnum q)) ["out1"; "out2"; "out3"; "out4"] | _ => [] end.
Definition w_reg : dict class :=
  [("Source", {| k_new := w_new []; k_in := Fixed []; k_out := Fixed ["out1"] |});
   ("Sink", {| k_new := w_new []; k_in := Fixed ["in1"]; k_out := Fixed [] |});
   ("HeatExchanger", {| k_new := w_new (w_hx (w_cp 1 false) (w_cc VNone false) (w_cm VNone false) (w_group false)); k_in := Fixed ["in1"]; k_out := Fixed ["out1"] |});
   ("Splitter", {| k_new := w_new [("num_out", w_num None false)]; k_in := Fixed ["in1"]; k_out := Counted "num_out" w_names ["out1"; "out2"] |})].

Definition w_line : value := VLine [0; 1; 2] [0; 1; 3#2] false.
Definition w_map : value := VMap [0; 1] [[1; 2]; [1; 2]] [[3; 4]; [5; 6]].
Definition w_hx_obj : obj :=
  {| o_attrs := dset "design" (VList [VStr "Q"]) (dset "local_design" (VBool true) (w_attrs "hx"));
     o_params := w_hx (w_cp (-5) true) (w_cc w_line true) (w_cm w_map false) (w_group true); o_listed := ["Q"; "kA_char1"; "map"; "kA_char"] |}.
Definition w_split_obj : obj := {| o_attrs := w_attrs "sp"; o_params := [("num_out", w_num (Some 3) true)]; o_listed := ["num_out"] |}.
Definition w_comps : dict (string * obj) :=
  [("src", ("Source", w_new [] "src")); ("hx", ("HeatExchanger", w_hx_obj)); ("sp", ("Splitter", w_split_obj));
   ("s1", ("Sink", w_new [] "s1")); ("s2", ("Sink", w_new [] "s2")); ("s3", ("Sink", w_new [] "s3"))].

Definition w_set (x : Q) (v : bool) : container :=
  {| c_kind := KProp; c_attrs := [("design", VNum None); ("val", VNum (Some x)); ("val0", VNum None); ("val_SI", VNum (Some x));
       ("unit", VStr "bar"); ("is_set", VBool true); ("is_var", VBool v)] |}.
Definition w_fluid : container :=
  {| c_kind := KFlu; c_attrs := [("val", VDict [("water", VNum (Some (3#4))); ("N2", VNum (Some (1#4)))]); ("val0", VDict [("water", VNum (Some (1#2)))]);
       ("is_set", VSet ["water"; "N2"]); ("design", VDict []); ("wrapper", VDict []); ("back_end", VDict [("water", VStr "IF97")]);
       ("engine", VDict [("water", VEngine "IAPWSWrapper")]); ("is_var", VSet [])] |}.
Definition w_ref (s : bool) : container := {| c_kind := KRef; c_attrs := [("ref", VRef "c1" (1#3) 2); ("is_set", VBool s); ("unit", VNone)] |}.
Definition w_conn (s si t ti : string) (loc : bool) (ps : dict container) : conn :=
  {| n_source := s; n_sid := si; n_target := t; n_tid := ti;
     n_obj := {| o_attrs := dset "local_offdesign" (VBool loc) (dset "design" (VList [VStr "p"]) (o_attrs new_conn));
                 o_params := fold_left (fun d e => dset (fst e) (snd e) d) ps new_data; o_listed := o_listed new_conn |} |}.
Definition w_conns : dict conn :=
  [("c1", w_conn "src" "out1" "hx" "in1" true [("m", w_set 6 false); ("p", w_set 10 false); ("fluid", w_fluid)]);
   ("c2", w_conn "hx" "out1" "sp" "in1" false []);
   ("c3", w_conn "sp" "out1" "s1" "in1" false [("m_ref", w_ref true); ("T_ref", w_ref false)]);
   ("c4", w_conn "sp" "out2" "s2" "in1" false []);
   ("c5", w_conn "sp" "out3" "s3" "in1" false [])].
Definition w_bus (l : string) : bus :=
  {| b_P := w_num (Some (-5)) true; b_rows := [(l, {| w_param := VStr "Q"; w_Pref := VNum (Some 7); w_char := w_line; w_base := VStr "bus" |})]; b_print := VBool false |}.
Definition w_kw : nukw := {| kw_unit := [("T", "C"); ("p", "bar"); ("vol", "l / kg"); ("Td_bp", "C")]; kw_range := [("p", Some [1; 20])]; kw_iter := Some (Some false) |}.
Definition w_units : netunits := fst (nu_set_attr w_kw nu_defaults).
Definition w_net : net := {| t_units := w_units; t_comps := w_comps; t_conns := w_conns; t_busses := [("heat", w_bus "hx")]; t_udes := ["my ude"] |}.
Definition w_usable (e f : string) (b : value) : option pyerr := None.
Definition w_engines : list string := ["CoolPropWrapper"; "IAPWSWrapper"].

Lemma alike_keys c f : c_kind c = c_kind f -> keys (c_attrs c) = keys (c_attrs f) -> alike c f.
Proof. intros K E. split; [exact K|]. intros k. rewrite !dget_None_notin, E. reflexivity. Qed.

Ltac each H := repeat (destruct H as [H|H]; [first [match type of H with _ = ?k => is_var k; subst k end | inversion H; subst; clear H]|]); [..|destruct H].
Ltac writes_tac := match goal with |- writes _ _ => eexists; split; [reflexivity|reflexivity] end.
Ltac pcase p := repeat match goal with |- context [String.eqb p ?s] => let X := fresh in destruct (String.eqb p s) eqn:X end.

Lemma w_attr_ok l a : In a comp_attrs -> exists v, dget a (w_attrs l) = Some v /\ good_attr [] a v.
Proof.
  intros H. cbn in H. each H; (eexists; split; [reflexivity|]);
    (split; [reflexivity|split; intros X; [try (exists []; split; [reflexivity|intros ? []]); cbn in X; intuition congruence|try (eexists; reflexivity); cbn in X; intuition congruence]]).
Qed.

Lemma good_attr_more l l' a v : (forall s, In s l -> In s l') -> good_attr l a v -> good_attr l' a v.
Proof.
  intros H (A & B & C). split; [exact A|]. split; [|exact C]. intros X. destruct (B X) as (x & -> & Hx). exists x. split; [reflexivity|]. auto.
Qed.

Lemma w_mem l a : In a comp_attrs -> dmem a (w_attrs l) = true.
Proof. intros H. destruct (w_attr_ok l a H) as (v & E & _). unfold dmem. now rewrite E. Qed.

Lemma w_good_plain k l : k_new k = w_new [] -> (exists a, k_in k = Fixed a) -> (exists b, k_out k = Fixed b) -> good_comp k l (w_new [] l).
Proof.
  intros E [a Ha] [b Hb]. unfold good_comp. rewrite E. split; [constructor|]. split; [intros p []|]. split.
  - intros x Hx. split; [now apply w_mem|]. destruct (w_attr_ok l x Hx) as (v & Ev & G). eauto.
  - split; [intros p; exact Logic.I|]. intros q [<-|[<-|[]]]; rewrite ?Ha, ?Hb; exact Logic.I.
Qed.

Lemma w_good_comps l cls o : In (l, (cls, o)) w_comps -> exists k, dget cls w_reg = Some k /\ good_comp k l o.
Proof.
  intros H. cbn [w_comps In] in H. each H.
  - eexists; split; [reflexivity|]. apply w_good_plain; [reflexivity|eexists; reflexivity|eexists; reflexivity].
  - eexists; split; [reflexivity|]. unfold good_comp. split; [cbn; nodup|]. split; [intros p Hp X; cbn in Hp, X; intuition congruence|]. split.
    + intros x Hx. split; [now apply w_mem|]. cbn in Hx. each Hx; (eexists; split; [reflexivity|]); (split; [reflexivity|split]);
        intros X; try (exists ["Q"]; split; [reflexivity|intros s [<-|[]]; now left]); try (exists []; split; [reflexivity|intros s []]);
        try (eexists; reflexivity); cbn in X; intuition congruence.
    + split.
      * intros p. cbn [dget w_hx w_hx_obj o_params k_new w_new]. pcase p; [..|exact Logic.I];
          (split; [apply alike_keys; reflexivity|split; [|cbn; auto]]); unfold good_param; cbn [c_kind w_cp w_cc w_cm w_group user_data].
        -- intros k Hk. cbn in Hk. each Hk; writes_tac.
        -- split; [intros k Hk; cbn in Hk; each Hk; writes_tac|]. right. do 3 eexists. split; reflexivity.
        -- split; [intros k Hk; cbn in Hk; each Hk; writes_tac|]. right. do 3 eexists. exists 2%nat. split; [reflexivity|]. split; [reflexivity|]. split; [reflexivity|].
           intros row Hr. cbn in Hr. each Hr; reflexivity.
        -- exact Logic.I.
      * intros q [<-|[<-|[]]]; exact Logic.I.
  - eexists; split; [reflexivity|]. unfold good_comp. split; [cbn; nodup|]. split; [intros p Hp X; cbn in Hp, X; intuition congruence|]. split.
    + intros x Hx. split; [now apply w_mem|]. destruct (w_attr_ok "sp" x Hx) as (v & Ev & G). exists v. split; [exact Ev|].
      apply (good_attr_more [] _ _ _ (fun s (H : In s []) => match H with end) G).
    + split.
      * intros p. cbn [dget w_split_obj o_params k_new w_new]. pcase p; [|exact Logic.I].
        split; [apply alike_keys; reflexivity|split; [|cbn; auto]]. unfold good_param; cbn [c_kind w_num user_data].
        intros k Hk. cbn in Hk. each Hk; writes_tac.
      * intros q [<-|[<-|[]]]; [exact Logic.I|]. eexists. split; reflexivity.
  - eexists; split; [reflexivity|]. apply w_good_plain; [reflexivity|eexists; reflexivity|eexists; reflexivity].
  - eexists; split; [reflexivity|]. apply w_good_plain; [reflexivity|eexists; reflexivity|eexists; reflexivity].
  - eexists; split; [reflexivity|]. apply w_good_plain; [reflexivity|eexists; reflexivity|eexists; reflexivity].
Qed.

Lemma w_good_conns l c : In (l, c) w_conns -> good_conn w_usable w_engines (keys w_conns) w_reg w_comps c.
Proof.
  intros H. cbn [w_conns In] in H. each H;
    (split; [do 6 eexists; split; [reflexivity|split; [reflexivity|split; [vm_compute; auto 6|split; [reflexivity|split; [reflexivity|vm_compute; auto 6]]]]]|]);
    (split; [discriminate|]); (split; [reflexivity|]); split.
  all: try (intros a Ha; cbn in Ha; each Ha; (eexists; split; [reflexivity|]); (split; [reflexivity|split]); intros X;
        try (exists ["p"]; split; [reflexivity|intros s [<-|[]]; vm_compute; auto 20]); try (exists []; split; [reflexivity|intros s []]);
        try (eexists; reflexivity); cbn in X; intuition congruence).
  all: intros p x f Ex Ef; cbn [w_conn n_obj o_params] in Ex;
    pose proof (dget_In _ _ _ Ef) as Hp; cbn [new_data In] in Hp; each Hp; vm_compute in Ex; inversion Ex; subst x; clear Ex;
    (split; [apply alike_keys; reflexivity|]); unfold good_data; cbn [c_kind user_data].
  all: try (intros k Hk; cbn in Hk; each Hk; writes_tac).
  all: try (split; [writes_tac|split; [writes_tac|]]; first [left; reflexivity | right; do 3 eexists; split; [reflexivity|vm_compute; auto 20]]).
  - exists [("water", VNum (Some (3#4))); ("N2", VNum (Some (1#4)))], ["water"; "N2"], [("water", "IAPWSWrapper")], [("water", VStr "IF97")].
    split; [reflexivity|]. split; [reflexivity|]. split; [reflexivity|]. split; [reflexivity|]. split; [cbn; nodup|]. split; [reflexivity|]. split; [reflexivity|].
    split; [intros g n Hg; cbn in Hg; each Hg; vm_compute; auto 20|]. reflexivity.
  - exists [], [], [], []. split; [reflexivity|]. split; [reflexivity|]. split; [reflexivity|]. split; [reflexivity|]. split; [constructor|]. split; [reflexivity|].
    split; [reflexivity|]. split; [intros g n []|intros g []].
  - exists [], [], [], []. split; [reflexivity|]. split; [reflexivity|]. split; [reflexivity|]. split; [reflexivity|]. split; [constructor|]. split; [reflexivity|].
    split; [reflexivity|]. split; [intros g n []|intros g []].
  - exists [], [], [], []. split; [reflexivity|]. split; [reflexivity|]. split; [reflexivity|]. split; [reflexivity|]. split; [constructor|]. split; [reflexivity|].
    split; [reflexivity|]. split; [intros g n []|intros g []].
  - exists [], [], [], []. split; [reflexivity|]. split; [reflexivity|]. split; [reflexivity|]. split; [reflexivity|]. split; [constructor|]. split; [reflexivity|].
    split; [reflexivity|]. split; [intros g n []|intros g []].
Qed.

Lemma w_good : good_net w_usable w_reg w_engines w_net.
Proof.
  split; [|split; [cbn; nodup|split; [cbn; nodup|split; [cbn; nodup|split; [discriminate|split; [|split]]]]]].
  - split.
    + intros p Hp. cbn in Hp. each Hp; (eexists; split; vm_compute; reflexivity).
    + intros p Hp. cbn in Hp. each Hp; (do 2 eexists; vm_compute; reflexivity).
  - intros l cls o H. split; [exact (w_good_comps l cls o H)|]. cbn [w_net t_comps w_comps In] in H. each H; cbn [w_net t_conns w_conns].
    1,2: eexists; split; [left; reflexivity|cbn; auto].
    + eexists; split; [right; left; reflexivity|cbn; auto].
    + eexists; split; [right; right; left; reflexivity|cbn; auto].
    + eexists; split; [right; right; right; left; reflexivity|cbn; auto].
    + eexists; split; [right; right; right; right; left; reflexivity|cbn; auto].
  - exact w_good_conns.
  - intros l b [H|[]]. inversion H; subst. split; [reflexivity|]. split; [writes_tac|]. split; [writes_tac|]. split; [cbn; nodup|].
    intros l w [X|[]]. inversion X; subst. split; [discriminate|]. split; [reflexivity|]. split; [right; eexists; reflexivity|]. split; [left; reflexivity|].
    do 3 eexists. split; reflexivity.
Qed.

Lemma clean_empty reg n : clean reg n no_dir.
Proof. split; [constructor|]. split; [intros cls []|]. right. reflexivity. Qed.

(** What is written from [w_net] into an empty directory, and what is read from it. *)
Definition w_dir : dir := match export w_net no_dir with Ok d => d | Err _ => no_dir end.
Definition w_none : net := {| t_units := nu_defaults; t_comps := []; t_conns := []; t_busses := []; t_udes := [] |}.
Definition w_back : net := match load w_usable w_reg w_engines w_dir with Ok n => n | Err _ => w_none end.
Lemma w_export : export w_net no_dir = Ok w_dir.
Proof. vm_compute. reflexivity. Qed.
Lemma w_load : load w_usable w_reg w_engines w_dir = Ok w_back.
Proof. vm_compute. reflexivity. Qed.

(** The networks of C120 and C121: [w_net] with one part replaced. *)
Definition with_comps (cs : dict (string * obj)) (n : net) : net :=
  {| t_units := t_units n; t_comps := cs; t_conns := t_conns n; t_busses := t_busses n; t_udes := t_udes n |}.
Definition with_conns (cs : dict conn) (n : net) : net :=
  {| t_units := t_units n; t_comps := t_comps n; t_conns := cs; t_busses := t_busses n; t_udes := t_udes n |}.
Definition with_busses (bs : dict bus) (n : net) : net :=
  {| t_units := t_units n; t_comps := t_comps n; t_conns := t_conns n; t_busses := bs; t_udes := t_udes n |}.
(** A heat exchanger whose map is a line, as the default of component.py 383. *)
Definition w_line_for_map : obj :=
  {| o_attrs := o_attrs w_hx_obj; o_params := w_hx (w_cp (-5) true) (w_cc w_line true) (w_cm w_line false) (w_group true); o_listed := o_listed w_hx_obj |}.
(** Two components, one of them labelled P, and a bus on it. *)
Definition w_P : net :=
  {| t_units := w_units; t_udes := [];
     t_comps := [("src", ("Source", w_new [] "src")); ("P", ("HeatExchanger", w_new (w_hx (w_cp 1 false) (w_cc VNone false) (w_cm VNone false) (w_group false)) "P"));
                 ("s1", ("Sink", w_new [] "s1"))];
     t_conns := [("c1", w_conn "src" "out1" "P" "in1" false []); ("c2", w_conn "P" "out1" "s1" "in1" false [])];
     t_busses := [("power", w_bus "P")] |}.
(** A heat exchanger with the label of the splitter of [w_net]. *)
Definition w_relabel : net :=
  {| t_units := w_units; t_udes := [];
     t_comps := [("src", ("Source", w_new [] "src")); ("sp", ("HeatExchanger", w_new (o_params w_hx_obj) "sp")); ("s1", ("Sink", w_new [] "s1"))];
     t_conns := [("c1", w_conn "src" "out1" "sp" "in1" false []); ("c2", w_conn "sp" "out1" "s1" "in1" false [])];
     t_busses := [("heat", w_bus "sp")] |}.
(** Files with other entries and what reading them gives *)
Definition with_conn (g : dict value -> dict value) (d : dir) : dir :=
  {| d_net := d_net d; d_comps := d_comps d; d_busses := d_busses d;
     d_conns := option_map (map (fun e => (fst e, match snd e with VDict x => VDict (g x) | v => v end))) (d_conns d) |}.
Definition with_comp (g : dict value -> dict value) (d : dir) : dir :=
  {| d_net := d_net d; d_conns := d_conns d; d_busses := d_busses d;
     d_comps := map (fun f => (fst f, map (fun e => (fst e, match snd e with VDict x => VDict (g x) | v => v end)) (snd f))) (d_comps d) |}.
Definition outcome (d : dir) : option pyerr := match load w_usable w_reg w_engines d with Ok _ => None | Err e => Some e end.
