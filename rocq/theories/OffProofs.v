(** Lemmas about characteristics in equations and about the checks. *)
From Coq Require Import Lqa Sorting.Sorted.
From Verif Require Import CharModel CharSpec CharProofs CharMapProofs OffModel OffSpec OffData.
Open Scope Q_scope.

(* ---- expressions ---- *)
Lemma at_port_ok l i p : nth_error l i = Some p -> at_port l i = Ok p.
Proof. unfold at_port. now intros ->. Qed.

(** What the expressions are: the value of the quantity, or its ratio to design. *)
Lemma expr_absolute vol inl outl param c i o : ctype c <> "rel"%string -> nth_error inl (cin c) = Some i -> nth_error outl (cout c) = Some o ->
  (param = "m"%string -> get_char_expr vol inl outl param c = Ok (Some (om i))) /\
  (param = "m_out"%string -> get_char_expr vol inl outl param c = Ok (Some (om o))) /\
  (param = "v"%string -> get_char_expr vol inl outl param c = Ok (Some (om i * vol (op i) (oh i)))) /\
  (param = "pr"%string -> get_char_expr vol inl outl param c = Ok (Some (op o / op i))).
Proof.
  intros T I0 O0. apply String.eqb_neq in T. apply at_port_ok in I0, O0.
  split; [|split; [|split]]; intros ->; unfold get_char_expr; rewrite T; cbn; rewrite ?I0, ?O0; cbn; rewrite ?I0; reflexivity.
Qed.
Lemma expr_relative vol inl outl param c i o : ctype c = "rel"%string -> nth_error inl (cin c) = Some i -> nth_error outl (cout c) = Some o ->
  proper i -> proper o ->
  (param = "m"%string -> exists x, get_char_expr vol inl outl param c = Ok (Some x) /\ x * omd i == om i) /\
  (param = "m_out"%string -> exists x, get_char_expr vol inl outl param c = Ok (Some x) /\ x * omd o == om o) /\
  (param = "v"%string -> exists x, get_char_expr vol inl outl param c = Ok (Some x) /\ x * ovd i == om i * vol (op i) (oh i)) /\
  (param = "pr"%string -> exists x, get_char_expr vol inl outl param c = Ok (Some x) /\ x * (opd o / opd i) == op o / op i).
Proof.
  intros T I0 O0 (A1 & A2 & A3 & A4) (B1 & B2 & B3 & B4). apply at_port_ok in I0, O0.
  split; [|split; [|split]]; intros ->; unfold get_char_expr; rewrite T; cbn; rewrite ?I0, ?O0; cbn; rewrite ?I0; cbn; eexists; (split; [reflexivity|]); field; auto.
Qed.
Lemma expr_design vol inl outl param c i o : ctype c = "rel"%string -> nth_error inl (cin c) = Some i -> nth_error outl (cout c) = Some o ->
  proper i -> proper o -> at_design vol i -> at_design vol o -> known param ->
  exists x, get_char_expr vol inl outl param c = Ok (Some x) /\ x == 1.
Proof.
  intros T I0 O0 PI PO (D1 & D2 & D3) (F1 & F2 & F3) K. destruct (expr_relative vol inl outl param c i o T I0 O0 PI PO) as (R1 & R2 & R3 & R4).
  destruct PI as (A1 & A2 & A3 & A4), PO as (B1 & B2 & B3 & B4).
  assert (CAN : forall x a b, ~ a == 0 -> x * a == b -> b == a -> x == 1).
  { intros x a b Z E1 E2. rewrite E2 in E1. setoid_replace x with (x * a / a) by (field; exact Z). rewrite E1. field. exact Z. }
  destruct K as [<-|[<-|[<-|[<-|[]]]]].
  - destruct (R1 eq_refl) as (x & X & E). exists x. split; [exact X|]. apply (CAN x (omd i) (om i)); [exact A1|exact E|exact D1].
  - destruct (R2 eq_refl) as (x & X & E). exists x. split; [exact X|]. apply (CAN x (omd o) (om o)); [exact B1|exact E|exact F1].
  - destruct (R3 eq_refl) as (x & X & E). exists x. split; [exact X|]. apply (CAN x (ovd i) (om i * vol (op i) (oh i))); [exact A3|exact E|exact D3].
  - destruct (R4 eq_refl) as (x & X & E). exists x. split; [exact X|]. rewrite F2, D2 in E.
    apply (CAN x (opd o / opd i) (opd o / opd i)); [|exact E|reflexivity].
    intros Z. apply B2. setoid_replace (opd o) with (opd o / opd i * opd i) by (field; exact A2). rewrite Z. ring.
Qed.
Lemma expr_unknown_rel vol inl outl param c : ctype c = "rel"%string -> ~ known param -> get_char_expr vol inl outl param c = Err ValueError.
Proof.
  intros T K. unfold get_char_expr. rewrite T. cbn [String.eqb Ascii.eqb Bool.eqb].
  assert (N : forall s, In s ["m"; "m_out"; "v"; "pr"]%string -> String.eqb param s = false).
  { intros s S0. apply String.eqb_neq. intros ->. now apply K. }
  rewrite !N by (cbn; auto). reflexivity.
Qed.
Lemma expr_unknown_abs vol inl outl param c : ctype c <> "rel"%string -> ~ known param -> get_char_expr vol inl outl param c = Ok None.
Proof.
  intros T K. apply String.eqb_neq in T. unfold get_char_expr. rewrite T.
  assert (N : forall s, In s ["m"; "m_out"; "v"; "pr"]%string -> String.eqb param s = false).
  { intros s S0. apply String.eqb_neq. intros ->. now apply K. }
  rewrite !N by (cbn; auto). reflexivity.
Qed.

Lemma checked_nonzero x : ~ x == 0 -> checked (Some x) = Ok x.
Proof. intros N. unfold checked. cbn [as_num]. destruct (Qeq_bool x 0) eqn:E; [apply Qeq_bool_iff in E; contradiction|reflexivity]. Qed.
Lemma checked_zero x : x == 0 -> checked (Some x) = Err ValueError.
Proof. intros N. unfold checked. cbn [as_num]. now rewrite (proj2 (Qeq_bool_iff x 0) N). Qed.

(* ---- efficiencies ---- *)
(** Off design: the efficiency is the design efficiency times the value of the line. *)
Lemma turbine_off vol isen inl outl i o eta_d c x f : nth_error inl 0 = Some i -> nth_error outl 0 = Some o ->
  get_char_expr vol inl outl (ch_param c) default_params = Ok (Some x) -> ~ x == 0 -> cl_evaluate (ch c) x = Ok f ->
  exists r, turbine_eta_s_char vol isen inl outl eta_d c = Ok r /\ (r == 0 <-> oh i - oh o == eta_d * f * (oh i - isen (op i) (oh i) (op o))).
Proof.
  intros I0 O0 E N F. unfold turbine_eta_s_char. rewrite E. cbn [rbind]. rewrite (checked_nonzero x N). cbn [rbind].
  rewrite (at_port_ok _ _ _ I0), (at_port_ok _ _ _ O0). cbn [rbind]. rewrite F. eexists. split; [reflexivity|]. split; intros H; lra.
Qed.
Lemma pump_off vol isen inl outl i o eta_d c x f : nth_error inl 0 = Some i -> nth_error outl 0 = Some o ->
  get_char_expr vol inl outl (ch_param c) (ch_params c) = Ok (Some x) -> ~ x == 0 -> cl_evaluate (ch c) x = Ok f ->
  exists r, pump_eta_s_char vol isen inl outl eta_d c = Ok r /\ (r == 0 <-> (oh o - oh i) * (eta_d * f) == isen (op i) (oh i) (op o) - oh i).
Proof.
  intros I0 O0 E N F. unfold pump_eta_s_char. rewrite E. cbn [rbind]. rewrite (checked_nonzero x N). cbn [rbind].
  rewrite (at_port_ok _ _ _ I0), (at_port_ok _ _ _ O0). cbn [rbind]. rewrite F. eexists. split; [reflexivity|]. split; intros H; lra.
Qed.
(** In design: the same as the equation of a fixed efficiency. *)
Lemma turbine_design vol isen inl outl i o eta_d c : nth_error inl 0 = Some i -> nth_error outl 0 = Some o -> proper i -> proper o -> at_design vol i -> at_design vol o ->
  known (ch_param c) -> passes (ch c) ->
  exists r, turbine_eta_s_char vol isen inl outl eta_d c = Ok r /\ r == turbine_eta_s isen i o eta_d.
Proof.
  intros I0 O0 PI PO DI DO K P. destruct (expr_design vol inl outl (ch_param c) default_params i o eq_refl I0 O0 PI PO DI DO K) as (x & X & E).
  destruct (P x E) as (f & F & F1). unfold turbine_eta_s_char. rewrite X. cbn [rbind]. rewrite checked_nonzero by lra. cbn [rbind].
  rewrite (at_port_ok _ _ _ I0), (at_port_ok _ _ _ O0). cbn [rbind]. rewrite F. eexists. split; [reflexivity|]. unfold turbine_eta_s. rewrite F1. ring.
Qed.
Lemma pump_design vol isen inl outl i o a b eta_d c : nth_error inl 0 = Some i -> nth_error outl 0 = Some o ->
  ctype (ch_params c) = "rel"%string -> nth_error inl (cin (ch_params c)) = Some a -> nth_error outl (cout (ch_params c)) = Some b ->
  proper a -> proper b -> at_design vol a -> at_design vol b -> known (ch_param c) -> passes (ch c) ->
  exists r, pump_eta_s_char vol isen inl outl eta_d c = Ok r /\ r == pump_eta_s isen i o eta_d.
Proof.
  intros I0 O0 T A0 B0 PI PO DI DO K P. destruct (expr_design vol inl outl (ch_param c) (ch_params c) a b T A0 B0 PI PO DI DO K) as (x & X & E).
  destruct (P x E) as (f & F & F1). unfold pump_eta_s_char. rewrite X. cbn [rbind]. rewrite checked_nonzero by lra. cbn [rbind].
  rewrite (at_port_ok _ _ _ I0), (at_port_ok _ _ _ O0). cbn [rbind]. rewrite F. eexists. split; [reflexivity|]. unfold pump_eta_s. rewrite F1. ring.
Qed.

(* ---- heat transfer ---- *)
Lemma fdiv_ok a b : ~ b == 0 -> fdiv a b = Ok (a / b).
Proof. intros N. unfold fdiv. destruct (Qeq_bool b 0) eqn:E; [apply Qeq_bool_iff in E; contradiction|reflexivity]. Qed.
Lemma factor_spec f1 f2 : 0 < f1 -> 0 < f2 -> exists k, kA_factor f1 f2 = Ok k /\ 0 < k /\ 2 / k == 1 / f1 + 1 / f2.
Proof.
  intros A B. unfold kA_factor. rewrite (fdiv_ok 1 f1) by lra. cbn [rbind]. rewrite (fdiv_ok 1 f2) by lra. cbn [rbind].
  assert (P : forall x, 0 < x -> 0 < 1 / x). { intros x X. apply Qlt_shift_div_l; lra. }
  pose proof (P f1 A). pose proof (P f2 B). rewrite fdiv_ok by lra. eexists. split; [reflexivity|]. split; [apply Qlt_shift_div_l; lra|].
  setoid_replace (2 / (2 / (1 / f1 + 1 / f2))) with (1 / f1 + 1 / f2); [reflexivity|].
  set (u := 1 / f1 + 1 / f2) in *. assert (0 < u) by (unfold u; lra). field. lra.
Qed.
Lemma factor_between f1 f2 k lo hi : 0 < lo -> within lo hi f1 -> within lo hi f2 -> kA_factor f1 f2 = Ok k -> within lo hi k.
Proof.
  intros L (A1 & A2) (B1 & B2) H. destruct (factor_spec f1 f2) as (k' & E & K & S0); [lra|lra|]. rewrite E in H. injection H as <-.
  assert (M : 2 * (f1 * f2) == k' * (f1 + f2)).
  { assert (2 / k' * (k' * f1 * f2) == (1 / f1 + 1 / f2) * (k' * f1 * f2)) by now rewrite S0. setoid_replace (2 / k' * (k' * f1 * f2)) with (2 * (f1 * f2)) in H by (field; lra).
    rewrite H. field. split; lra. }
  assert (S1 : 0 < f1 + f2) by lra. split.
  - apply (Qmult_le_r _ _ _ S1). rewrite <- M. assert (lo * f1 <= f2 * f1) by (apply Qmult_le_compat_r; lra). assert (lo * f2 <= f1 * f2) by (apply Qmult_le_compat_r; lra). lra.
  - apply (Qmult_le_r _ _ _ S1). rewrite <- M. assert (f2 * f1 <= hi * f1) by (apply Qmult_le_compat_r; lra). assert (f1 * f2 <= hi * f2) by (apply Qmult_le_compat_r; lra). lra.
Qed.
Lemma factor_one f1 f2 : f1 == 1 -> f2 == 1 -> exists k, kA_factor f1 f2 = Ok k /\ k == 1.
Proof.
  intros A B. destruct (factor_spec f1 f2) as (k & E & K & S0); [lra|lra|]. exists k. split; [exact E|].
  destruct (factor_between f1 f2 k 1 1); [lra|split; lra|split; lra|exact E|]. lra.
Qed.
Lemma factor_simple f : kA_factor_simple f = kA_factor 1 f.
Proof. unfold kA_factor_simple, kA_factor. cbn [fdiv Qeq_bool]. reflexivity. Qed.

Lemma kA_design vol inl outl i o a1 b1 a2 b2 kA_d td c1 c2 : nth_error inl 0 = Some i -> nth_error outl 0 = Some o ->
  ctype (ch_params c1) = "rel"%string -> nth_error inl (cin (ch_params c1)) = Some a1 -> nth_error outl (cout (ch_params c1)) = Some b1 ->
  ctype (ch_params c2) = "rel"%string -> nth_error inl (cin (ch_params c2)) = Some a2 -> nth_error outl (cout (ch_params c2)) = Some b2 ->
  (forall p, In p [a1; b1; a2; b2] -> proper p /\ at_design vol p) -> known (ch_param c1) -> known (ch_param c2) -> passes (ch c1) -> passes (ch c2) ->
  exists r, kA_char_func vol inl outl kA_d td c1 c2 = Ok r /\ r == kA_func i o kA_d td.
Proof.
  intros I0 O0 T1 A1 B1 T2 A2 B2 PD K1 K2 P1 P2.
  destruct (expr_design vol inl outl (ch_param c1) (ch_params c1) a1 b1 T1 A1 B1) as (x1 & X1 & E1); try (apply PD; cbn; auto); [exact K1|].
  destruct (expr_design vol inl outl (ch_param c2) (ch_params c2) a2 b2 T2 A2 B2) as (x2 & X2 & E2); try (apply PD; cbn; auto 10); [exact K2|].
  destruct (P1 x1 E1) as (f1 & F1 & G1). destruct (P2 x2 E2) as (f2 & F2 & G2). destruct (factor_one f1 f2 G1 G2) as (k & K & KE).
  unfold kA_char_func. rewrite X1. cbn [rbind]. rewrite X2. cbn [rbind as_num]. rewrite F1. cbn [rbind]. rewrite F2. cbn [rbind]. rewrite K. cbn [rbind].
  rewrite (at_port_ok _ _ _ I0), (at_port_ok _ _ _ O0). cbn [rbind]. eexists. split; [reflexivity|]. unfold kA_func. rewrite KE. ring.
Qed.
Lemma kA_simple_design vol inl outl i o a b kA_d td c : nth_error inl 0 = Some i -> nth_error outl 0 = Some o ->
  ctype (ch_params c) = "rel"%string -> nth_error inl (cin (ch_params c)) = Some a -> nth_error outl (cout (ch_params c)) = Some b ->
  proper a -> proper b -> at_design vol a -> at_design vol b -> known (ch_param c) -> passes (ch c) ->
  exists r, kA_char_group_func vol inl outl kA_d td c = Ok r /\ r == kA_func i o kA_d td.
Proof.
  intros I0 O0 T A0 B0 PI PO DI DO K P. destruct (expr_design vol inl outl (ch_param c) (ch_params c) a b T A0 B0 PI PO DI DO K) as (x & X & E).
  destruct (P x E) as (f & F & F1). destruct (factor_one 1 f) as (k & KK & KE); [lra|exact F1|].
  unfold kA_char_group_func. rewrite X. cbn [rbind]. rewrite (at_port_ok _ _ _ I0), (at_port_ok _ _ _ O0). cbn [rbind as_num]. rewrite F. cbn [rbind].
  rewrite factor_simple, KK. cbn [rbind]. eexists. split; [reflexivity|]. unfold kA_func. rewrite KE. ring.
Qed.

(* ---- lines of the package ---- *)
Lemma increasing_dec_ok l : (fix go l := match l with a :: (b :: _) as t => negb (Qle_bool b a) && go t | _ => true end) l = true -> increasing l.
Proof.
  intros H. unfold increasing. apply Sorted_StronglySorted; [intros a b c; apply Qlt_trans|]. induction l as [|a l IH]; [constructor|].
  destruct l as [|b l]; [repeat constructor|]. apply andb_prop in H. destruct H as (H1 & H2). constructor; [now apply IH|]. constructor.
  apply Qle_bool_false. now apply negb_true_iff.
Qed.
Lemma line_passes P : increasing (map fst P) -> (exists p, In p P /\ fst p == 1 /\ snd p == 1) -> passes (pts_line P false).
Proof. intros I0 (p & A & B & C) x X. destruct (eval_node P p x I0 A) as (v & E & V); [lra|]. exists v. split; [exact E|lra]. Qed.

Definition good_line (P : list (Q * Q)) : Prop := P <> [] /\ increasing (map fst P) /\ (exists p, In p P /\ fst p == 1 /\ snd p == 1).
Ltac find_one := match goal with |- exists p, In p ?l /\ _ => match eval vm_compute in (find (fun p : Q * Q => Qeq_bool (fst p) 1) l) with Some ?p => exists p end end;
  split; [vm_compute; tauto|split; vm_compute; reflexivity].
Lemma lines_good P : In P (efficiency_lines ++ transfer_lines) -> good_line P.
Proof.
  intros H. unfold efficiency_lines, transfer_lines in H. cbn [app] in H.
  repeat (destruct H as [<-|H]; [split; [discriminate|]; split; [apply increasing_dec_ok; vm_compute; reflexivity|find_one]|]). destruct H.
Qed.
Lemma lines_pass P : In P (efficiency_lines ++ transfer_lines) -> passes (pts_line P false).
Proof. intros H. apply lines_good in H. apply line_passes; apply H. Qed.
Lemma transfer_positive P p : In P transfer_lines -> In p P -> 1 # 100 <= snd p.
Proof.
  assert (H : forallb (fun P : list (Q * Q) => forallb (fun p => Qle_bool (1 # 100) (snd p)) P) transfer_lines = true) by (vm_compute; reflexivity).
  rewrite forallb_forall in H. intros A B. specialize (H P A). rewrite forallb_forall in H. apply Qle_bool_iff. now apply H.
Qed.
Lemma transfer_value P x : In P transfer_lines -> exists f, cl_evaluate (pts_line P false) x = Ok f /\ 0 < f.
Proof.
  intros H. destruct (lines_good P) as (NE & I0 & _); [apply in_app_iff; now right|]. destruct (eval_total P x NE I0) as (v & V). exists v. split; [exact V|].
  assert (EX : exists hi, forall p, In p P -> snd p <= hi).
  { clear -H. clear H. induction P as [|q P IH]; [exists 0; intros p []|]. destruct IH as (h & IH). destruct (Qlt_le_dec (snd q) h) as [L|L].
    - exists h. intros p [<-|Y]; [lra|auto].
    - exists (snd q). intros p [<-|Y]; [lra|]. specialize (IH p Y). lra. }
  destruct EX as (hi & HI). assert (1 # 100 <= v <= hi); [|lra].
  apply (eval_bounds P x v (1 # 100) hi I0); [|exact V]. intros p Y. split; [now apply (transfer_positive P)|auto].
Qed.
(** With the lines of the package the heat transfer equations are defined in every state. *)
Lemma kA_defined vol inl outl i o kA_d td c1 c2 P1 P2 : nth_error inl 0 = Some i -> nth_error outl 0 = Some o -> In P1 transfer_lines -> In P2 transfer_lines ->
  ch c1 = pts_line P1 false -> ch c2 = pts_line P2 false ->
  (exists e1, get_char_expr vol inl outl (ch_param c1) (ch_params c1) = Ok e1) -> (exists e2, get_char_expr vol inl outl (ch_param c2) (ch_params c2) = Ok e2) ->
  exists r, kA_char_func vol inl outl kA_d td c1 c2 = Ok r.
Proof.
  intros I0 O0 L1 L2 C1 C2 (e1 & E1) (e2 & E2). unfold kA_char_func. rewrite E1. cbn [rbind]. rewrite E2. cbn [rbind]. rewrite C1, C2.
  destruct (transfer_value P1 (as_num e1) L1) as (f1 & F1 & G1). destruct (transfer_value P2 (as_num e2) L2) as (f2 & F2 & G2). rewrite F1. cbn [rbind]. rewrite F2. cbn [rbind].
  destruct (factor_spec f1 f2 G1 G2) as (k & K & _). rewrite K. cbn [rbind]. rewrite (at_port_ok _ _ _ I0), (at_port_ok _ _ _ O0). cbn [rbind]. eauto.
Qed.
