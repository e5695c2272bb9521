(** Proofs about the thermal input row, the engine, the setup and the checks. *)
From Coq Require Import QArith Qabs Lqa Permutation.
From Verif Require Import Base CharModel CombModel CombSpec CombProofs.
Open Scope Q_scope.

(* ------------------------------------------------------- thermal input row *)

Lemma frac_dset : forall d f g v, frac (dset f v d) g = if String.eqb g f then v else frac d g.
Proof.
  intros d f g v. unfold frac. destruct (String.eqb_spec g f) as [-> | N].
  - rewrite dget_dset_eq. reflexivity.
  - rewrite dget_dset_neq by exact N. reflexivity.
Qed.
Lemma dget_dset_present : forall (d : dict Q) f g v, dget g d <> None -> dget g (dset f v d) <> None.
Proof.
  intros d f g v H. destruct (String.eqb_spec g f) as [-> | N].
  - rewrite dget_dset_eq. discriminate.
  - rewrite dget_dset_neq by exact N. exact H.
Qed.

Lemma stream_at_set : forall ch p q s, stream_at (set_stream ch p s) q =
  match p, q with In1, In1 | In2, In2 | Out, Out => s | _, _ => stream_at ch q end.
Proof. intros ch [| |] [| |] s; reflexivity. Qed.

Lemma complete_shift : forall ch fl v d, complete ch fl -> complete (shift ch v d) fl.
Proof.
  intros ch fl v d C. destruct C as [A1 A2 A3 A4 A5 A6 A7].
  assert (Fu : c_fuels (shift ch v d) = c_fuels ch) by (destruct v as [[| |] | [| |] f]; reflexivity).
  assert (Ma : c_M (shift ch v d) = c_M ch) by (destruct v as [[| |] | [| |] f]; reflexivity).
  constructor; rewrite ?Fu, ?Ma; try assumption.
  intros f s F S.
  assert (X1 := A6 f (c_in1 ch) F (or_introl eq_refl)).
  assert (X2 := A6 f (c_in2 ch) F (or_intror (or_introl eq_refl))).
  assert (X3 := A6 f (c_out ch) F (or_intror (or_intror (or_introl eq_refl)))).
  destruct v as [[| |] | [| |] g]; cbn [shift set_stream c_in1 c_in2 c_out stream_at] in S;
    destruct S as [<- | [<- | [<- | []]]]; cbn [s_x]; try assumption;
    apply dget_dset_present; assumption.
Qed.

Definition psign (p : port) : Q := match p with Out => -(1) | _ => 1 end.
Definition dflow (ch : chamber) (v : var) (d : Q) (f : string) : Q :=
  match v with
  | VM p => d * frac (s_x (stream_at ch p)) f
  | VX p g => if String.eqb f g then s_m (stream_at ch p) * d else 0
  end.
Definition vport (v : var) : port := match v with VM p => p | VX p _ => p end.

Lemma net_shift : forall ch v d f,
  flow (c_in1 (shift ch v d)) f + flow (c_in2 (shift ch v d)) f - flow (c_out (shift ch v d)) f
  == flow (c_in1 ch) f + flow (c_in2 ch) f - flow (c_out ch) f + psign (vport v) * dflow ch v d f.
Proof.
  intros ch [[| |] | [| |] g] d f; cbn [shift set_stream c_in1 c_in2 c_out stream_at vport psign dflow];
    unfold flow; cbn [s_m s_x]; rewrite ?frac_dset; try ring;
    destruct (String.eqb_spec f g) as [-> |]; ring.
Qed.

Lemma ti_shift : forall ch fl v d, complete ch fl ->
  exists t t', calc_ti ch = Ok t /\ calc_ti (shift ch v d) = Ok t'
    /\ t' == t + psign (vport v) * sum_over (c_fuels ch) (fun f => dflow ch v d (f_name f) * f_LHV f).
Proof.
  intros ch fl v d C.
  destruct (ti_value ch fl C) as (t & E & V).
  destruct (ti_value (shift ch v d) fl (complete_shift ch fl v d C)) as (t' & E' & V').
  exists t, t'. split; [exact E | split; [exact E' |]]. rewrite V', V.
  assert (Fu : c_fuels (shift ch v d) = c_fuels ch) by (destruct v as [[| |] | [| |] f]; reflexivity).
  rewrite Fu, <- sum_scale, <- sum_plus. apply sum_ext. intros f F. rewrite net_shift. ring.
Qed.

Lemma lhv_sum_ok : forall s fs, (forall f, In f fs -> dget (f_name f) (s_x s) <> None) ->
  exists t, lhv_sum s fs = Ok t /\ t == sum_over fs (fun f => frac (s_x s) (f_name f) * f_LHV f).
Proof.
  intros s. induction fs as [| f fs IH]; intro H; cbn [lhv_sum].
  - exists 0. split; reflexivity.
  - rewrite (fget_frac _ _ (H f (or_introl eq_refl))). cbn [rbind].
    destruct (IH (fun x X => H x (or_intror X))) as (t & E & V). rewrite E. cbn [rbind].
    eexists. split; [reflexivity |]. unfold sum_over in *. cbn [map qsum]. rewrite V. reflexivity.
Qed.

Lemma row_app : forall v a b, row v (a ++ b)%list =
  fold_left (fun (acc : Q) (wv : var * Q) => if var_eqb v (fst wv) then snd wv else acc) b (row v a).
Proof. intros. unfold row. apply fold_left_app. Qed.
Lemma row_none : forall v l acc, (forall w x, In (w, x) l -> var_eqb v w = false) ->
  fold_left (fun (acc : Q) (wv : var * Q) => if var_eqb v (fst wv) then snd wv else acc) l acc = acc.
Proof.
  intros v. induction l as [| [w x] l IH]; intros acc H; [reflexivity |]. cbn [fold_left fst snd].
  rewrite (H w x (or_introl eq_refl)). apply IH. intros w' x' I. apply (H w' x'). right. exact I.
Qed.
Lemma var_eqb_port : forall v w, vport v <> vport w -> var_eqb v w = false.
Proof. intros [[| |] | [| |] f] [[| |] | [| |] g] H; cbn in *; try reflexivity; congruence. Qed.
Lemma var_eqb_refl : forall v, var_eqb v v = true.
Proof. intros [[| |] | [| |] f]; cbn; try reflexivity; apply String.eqb_refl. Qed.

Lemma ti_port_vars : forall ch iv s p l, ti_port ch iv s p = Ok l ->
  forall w x, In (w, x) l -> vport w = p.
Proof.
  intros ch iv s p l H w x I. unfold ti_port in H.
  destruct (iv (VM p)).
  - destruct (lhv_sum (stream_at ch p) (c_fuels ch)) as [t |]; cbn [rmap rbind] in H; [| discriminate H].
    injection H as <-. destruct I as [I | I]; [injection I as <- <-; reflexivity |].
    apply in_map_iff in I. destruct I as (f & E & _). injection E as <- <-. reflexivity.
  - cbn [rbind] in H. injection H as <-. cbn [app] in I.
    apply in_map_iff in I. destruct I as (f & E & _). injection E as <- <-. reflexivity.
Qed.

Lemma fold_fuel : forall p s (m : Q) (iv : var -> bool) fs g acc, NoDup (map f_name fs) -> iv (VX p g) = true ->
  fold_left (fun (acc : Q) (wv : var * Q) => if var_eqb (VX p g) (fst wv) then snd wv else acc)
    (map (fun f => (VX p (f_name f), s * m * f_LHV f)) (filter (fun f => iv (VX p (f_name f))) fs)) acc
  = match find (fun x => String.eqb g (f_name x)) fs with
    | Some f => s * m * f_LHV f
    | None => acc end.
Proof.
  intros p s m iv. induction fs as [| f fs IH]; intros g acc N V; [reflexivity |].
  cbn [map] in N. apply NoDup_cons_iff in N. destruct N as [NI N]. cbn [find].
  destruct (String.eqb_spec g (f_name f)) as [-> | D].
  - cbn [filter]. rewrite V. cbn [map fold_left fst snd]. rewrite var_eqb_refl.
    apply row_none. intros w x I. apply in_map_iff in I. destruct I as (h & E & I). injection E as <- <-.
    apply filter_In in I. destruct I as [I _].
    assert (X : f_name f <> f_name h) by (intro X; apply NI; rewrite X; apply in_map; exact I).
    cbn [var_eqb]. destruct p; apply String.eqb_neq; exact X.
  - cbn [filter]. destruct (iv (VX p (f_name f))); [| apply IH; assumption].
    cbn [map fold_left fst snd].
    assert (W : var_eqb (VX p g) (VX p (f_name f)) = false)
      by (cbn [var_eqb]; destruct p; apply String.eqb_neq; exact D).
    rewrite W. apply IH; assumption.
Qed.

Lemma port_present : forall ch fl p f, complete ch fl -> In f (c_fuels ch) ->
  dget (f_name f) (s_x (stream_at ch p)) <> None.
Proof.
  intros ch fl p f C F. apply (fl_present _ _ C).
  - apply (fl_fuels _ _ C). apply in_map. exact F.
  - destruct p; cbn; tauto.
Qed.

Lemma ti_port_row : forall ch fl iv s v, complete ch fl -> iv v = true ->
  exists l, ti_port ch iv s (vport v) = Ok l
    /\ forall acc, exists x, fold_left (fun (acc : Q) (wv : var * Q) => if var_eqb v (fst wv) then snd wv else acc) l acc = x
      /\ match v with
         | VM p => x == s * sum_over (c_fuels ch) (fun f => frac (s_x (stream_at ch p)) (f_name f) * f_LHV f)
         | VX p g => x = match find_fuel ch g with
                         | Some f => s * s_m (stream_at ch p) * f_LHV f | None => acc end
         end.
Proof.
  intros ch fl iv s v C V. unfold ti_port.
  destruct (lhv_sum_ok (stream_at ch (vport v)) (c_fuels ch)) as (t & E & QT).
  { intros f F. apply (port_present ch fl _ f C F). }
  rewrite E. destruct v as [p | p g]; cbn [vport] in *.
  - rewrite V. cbn [rmap rbind]. eexists. split; [reflexivity |]. intro acc. eexists.
    split; [reflexivity |]. cbn [app fold_left fst snd]. rewrite var_eqb_refl.
    rewrite row_none; [rewrite QT; reflexivity |].
    intros w x I. apply in_map_iff in I. destruct I as (f & X & _). injection X as <- <-. reflexivity.
  - destruct (iv (VM p)); cbn [rmap rbind]; (eexists; split; [reflexivity |]); intro acc;
      eexists; (split; [reflexivity |]); cbn [app fold_left fst snd];
      try (replace (var_eqb (VX p g) (VM p)) with false by reflexivity);
      (rewrite fold_fuel; [reflexivity | apply (fl_names _ _ C) | exact V]).
Qed.

Lemma ti_port_ok : forall ch fl iv s p, complete ch fl -> exists l, ti_port ch iv s p = Ok l.
Proof.
  intros ch fl iv s p C. unfold ti_port.
  destruct (lhv_sum_ok (stream_at ch p) (c_fuels ch)) as (t & E & _).
  { intros f F. apply (port_present ch fl _ f C F). }
  rewrite E. destruct (iv (VM p)); cbn [rmap rbind]; eexists; reflexivity.
Qed.

Lemma sum_find : forall (fs : list fuel) g k, NoDup (map f_name fs) ->
  sum_over fs (fun f => (if String.eqb (f_name f) g then k else 0) * f_LHV f)
  == match find (fun x => String.eqb g (f_name x)) fs with Some f => k * f_LHV f | None => 0 end.
Proof.
  intros fs g k. unfold sum_over. induction fs as [| f fs IH]; intro N; [reflexivity |].
  cbn [map] in N. apply NoDup_cons_iff in N. destruct N as [NI N]. cbn [map qsum find].
  rewrite (String.eqb_sym g (f_name f)).
  destruct (String.eqb_spec (f_name f) g) as [<- | D].
  - assert (Z : qsum (map (fun f0 => (if String.eqb (f_name f0) (f_name f) then k else 0) * f_LHV f0) fs) == 0).
    { apply (sum_zero _ fs (fun f0 => (if String.eqb (f_name f0) (f_name f) then k else 0) * f_LHV f0)).
      intros h I. destruct (String.eqb_spec (f_name h) (f_name f)) as [X | X]; [| ring].
      exfalso. apply NI. rewrite <- X. apply in_map. exact I. }
    rewrite Z. ring.
  - rewrite (IH N). ring.
Qed.

Lemma ti_row_exact : forall ch fl iv v ti, complete ch fl -> iv v = true ->
  exists l r, ti_deriv ch iv = Ok l /\ ti_func ch ti = Ok r
    /\ forall d, exists r', ti_func (shift ch v d) ti = Ok r' /\ r' == r + row v l * d.
Proof.
  intros ch fl iv v ti C V. unfold ti_deriv, ti_func.
  destruct (ti_port_ok ch fl iv (-1) In1 C) as (l1 & E1).
  destruct (ti_port_ok ch fl iv (-1) In2 C) as (l2 & E2).
  destruct (ti_port_ok ch fl iv 1 Out C) as (l3 & E3).
  rewrite E1, E2, E3. cbn [rbind].
  destruct (ti_shift ch fl v 0 C) as (t & _ & T & _ & _). rewrite T. cbn [rmap].
  eexists. eexists. split; [reflexivity | split; [reflexivity |]]. intro d.
  destruct (ti_shift ch fl v d C) as (t1 & t' & T1 & T' & W). rewrite T in T1. injection T1 as <-.
  rewrite T'. cbn [rmap]. eexists. split; [reflexivity |].
  assert (RV : row v (l1 ++ l2 ++ l3)%list * d
     == - psign (vport v) * sum_over (c_fuels ch) (fun f => dflow ch v d (f_name f) * f_LHV f)).
  { rewrite row_app, fold_left_app.
    assert (N1 : vport v <> In1 -> forall acc, fold_left (fun (acc : Q) (wv : var * Q) => if var_eqb v (fst wv) then snd wv else acc) l1 acc = acc).
    { intros D acc. apply row_none. intros w x I. apply var_eqb_port.
      rewrite (ti_port_vars ch iv _ _ l1 E1 w x I). exact D. }
    assert (N2 : vport v <> In2 -> forall acc, fold_left (fun (acc : Q) (wv : var * Q) => if var_eqb v (fst wv) then snd wv else acc) l2 acc = acc).
    { intros D acc. apply row_none. intros w x I. apply var_eqb_port.
      rewrite (ti_port_vars ch iv _ _ l2 E2 w x I). exact D. }
    assert (N3 : vport v <> Out -> forall acc, fold_left (fun (acc : Q) (wv : var * Q) => if var_eqb v (fst wv) then snd wv else acc) l3 acc = acc).
    { intros D acc. apply row_none. intros w x I. apply var_eqb_port.
      rewrite (ti_port_vars ch iv _ _ l3 E3 w x I). exact D. }
    assert (G : forall s l, ti_port ch iv s (vport v) = Ok l -> s == - psign (vport v) ->
       fold_left (fun (acc : Q) (wv : var * Q) => if var_eqb v (fst wv) then snd wv else acc) l 0 * d
       == - psign (vport v) * sum_over (c_fuels ch) (fun f => dflow ch v d (f_name f) * f_LHV f)).
    { intros s l E QS. destruct (ti_port_row ch fl iv s v C V) as (l' & E' & H).
      rewrite E in E'. injection E' as <-. destruct (H 0) as (x & X & Y). rewrite X.
      destruct v as [p | p g]; cbn [dflow vport] in *.
      - rewrite Y, QS.
        rewrite (sum_ext _ (c_fuels ch) (fun f => d * frac (s_x (stream_at ch p)) (f_name f) * f_LHV f)
                   (fun f => d * (frac (s_x (stream_at ch p)) (f_name f) * f_LHV f))) by (intros; ring).
        rewrite sum_scale. ring.
      - rewrite (sum_find (c_fuels ch) g (s_m (stream_at ch p) * d) (fl_names _ _ C)).
        rewrite Y. unfold find_fuel. destruct (find _ (c_fuels ch)); [rewrite QS; ring | ring]. }
    unfold row. destruct (vport v) eqn:VP.
    - rewrite N3, N2 by congruence. apply (G (-1) l1 E1). cbn. reflexivity.
    - rewrite N3, N1 by congruence. apply (G (-1) l2 E2). cbn. reflexivity.
    - rewrite N1, N2 by congruence. apply (G 1 l3 E3). cbn. reflexivity. }
  rewrite RV, W. ring.
Qed.

(* ------------------------------------------------------------------ engine *)

Lemma engine_shares : forall e ti flue x t q1 q2 ql,
  load e (e_P e) = Ok x -> cl_evaluate (e_tiP e) x = Ok t -> ~ t == 0 ->
  cl_evaluate (e_Q1c e) x = Ok q1 -> cl_evaluate (e_Q2c e) x = Ok q2 -> cl_evaluate (e_Qlc e) x = Ok ql ->
  (exists r, tiP_char_func e ti = Ok r /\ r == 0) ->
  (exists r, Q1_char_func e ti = Ok r /\ r == 0) ->
  (exists r, Q2_char_func e ti = Ok r /\ r == 0) ->
  (exists r, Qloss_char_func e ti = Ok r /\ r == 0) ->
  engine_energy e flue ti == 0 ->
  e_P e == - ti / t
  /\ e_m1 e * (e_ho1 e - e_hi1 e) == ti * q1 / t
  /\ e_m2 e * (e_ho2 e - e_hi2 e) == ti * q2 / t
  /\ e_Qloss e == - ti * ql / t
  /\ - flue == ti * (1 - (1 + q1 + q2 + ql) / t).
Proof.
  intros e ti flue x t q1 q2 ql X T N Q1 Q2 QL (r1 & R1 & Z1) (r2 & R2 & Z2) (r3 & R3 & Z3) (r4 & R4 & Z4) EB.
  unfold tiP_char_func in R1. rewrite X in R1. cbn [rbind] in R1. rewrite T in R1. cbn [rbind] in R1.
  unfold Q1_char_func, Q_char_func in R2. rewrite X in R2. cbn [rbind] in R2. rewrite Q1, T in R2. cbn [rbind] in R2.
  unfold Q2_char_func, Q_char_func in R3. rewrite X in R3. cbn [rbind] in R3. rewrite Q2, T in R3. cbn [rbind] in R3.
  unfold Qloss_char_func in R4. rewrite X in R4. cbn [rbind] in R4. rewrite QL, T in R4. cbn [rbind] in R4.
  injection R1 as <-. injection R2 as <-. injection R3 as <-. injection R4 as <-.
  assert (D : forall a b, a * t == b -> a == b / t) by (intros a b <-; field; exact N).
  assert (A1 : e_P e == - ti / t) by (apply D; lra).
  assert (A2 : e_m1 e * (e_ho1 e - e_hi1 e) == ti * q1 / t) by (apply D; lra).
  assert (A3 : e_m2 e * (e_ho2 e - e_hi2 e) == ti * q2 / t) by (apply D; lra).
  assert (A4 : e_Qloss e == - ti * ql / t) by (apply D; lra).
  split; [exact A1 | split; [exact A2 | split; [exact A3 | split; [exact A4 |]]]].
  unfold engine_energy in EB.
  assert (FL : - flue == ti - e_m1 e * (e_ho1 e - e_hi1 e) - e_m2 e * (e_ho2 e - e_hi2 e) + (e_P e + e_Qloss e)) by lra.
  rewrite FL, A1, A2, A3, A4. field. exact N.
Qed.

(** reported values: with a power that satisfies its equation *)
Lemma engine_reported : forall e ti x t ql,
  e_design e = None \/ e_P e = - ti / t ->
  load e (e_P e) = Ok x -> cl_evaluate (e_tiP e) x = Ok t -> ~ t == 0 ->
  cl_evaluate (e_Qlc e) x = Ok ql ->
  (exists r, tiP_char_func e ti = Ok r /\ r == 0) ->
  (exists r, Qloss_char_func e ti = Ok r /\ r == 0) ->
  exists Q1 Q2 P Ql, engine_report e ti = Ok (Q1, Q2, P, Ql)
    /\ Q1 == - (e_m1 e * (e_ho1 e - e_hi1 e)) /\ Q2 == - (e_m2 e * (e_ho2 e - e_hi2 e))
    /\ P == e_P e /\ Ql == e_Qloss e.
Proof.
  intros e ti x t ql DP X T N QL (r1 & R1 & Z1) (r4 & R4 & Z4).
  unfold tiP_char_func in R1. rewrite X in R1. cbn [rbind] in R1. rewrite T in R1. cbn [rbind] in R1.
  unfold Qloss_char_func in R4. rewrite X in R4. cbn [rbind] in R4. rewrite QL, T in R4. cbn [rbind] in R4.
  injection R1 as <-. injection R4 as <-.
  unfold engine_report, calc_P. rewrite X. cbn [rbind]. rewrite T. cbn [rbind]. rewrite (qdiv_ok _ _ N). cbn [rbind].
  unfold calc_Qloss.
  assert (LD : load e (- ti / t) = Ok x).
  { destruct DP as [D | D]; [unfold load in *; rewrite D in *; exact X | rewrite <- D; exact X]. }
  rewrite LD. cbn [rbind]. rewrite QL. cbn [rbind]. rewrite T. cbn [rbind]. rewrite (qdiv_ok _ _ N). cbn [rbind].
  do 4 eexists. split; [reflexivity |].
  assert (D : forall a b, a * t == b -> b / t == a) by (intros a b <-; field; exact N).
  split; [ring | split; [ring | split]]; apply D; lra.
Qed.

Lemma diabatic_reported : forall href ch fl h1 h2 ho eta, complete ch fl ->
  (exists r, energy_func href ch h1 h2 ho eta = Ok r /\ r == 0) ->
  forall ti, calc_ti ch = Ok ti -> ~ ti == 0 ->
  exists eta' q, diabatic_report href ch h1 h2 ho = Ok (eta', q)
    /\ eta' == eta /\ q == - (1 - eta) * ti.
Proof.
  intros href ch fl h1 h2 ho eta C (r & R & Z) ti T N.
  unfold energy_func in R. unfold diabatic_report. rewrite T in R |- *. cbn [rbind] in R |- *.
  injection R as <-. rewrite (qdiv_ok _ _ N). cbn [rbind]. do 2 eexists. split; [reflexivity |].
  set (B := 0 + _ + _ - _) in *.
  assert (E : - B / ti == eta).
  { assert (X : - B == eta * ti) by lra. rewrite X. field. exact N. }
  split; [exact E |]. rewrite E. reflexivity.
Qed.

(* ------------------------------------------------------------------- setup *)

Lemma smem_In : forall a l, smem a l = true <-> In a l.
Proof.
  intros a l. unfold smem. rewrite existsb_exists. split.
  - intros (x & I & E). apply String.eqb_eq in E. subst. exact I.
  - intro I. exists a. split; [exact I | apply String.eqb_refl].
Qed.

Lemma lhv_defined : forall aliases all_fluids fuels f C H M,
  setup_names aliases all_fluids = Ok fuels -> In f fuels -> ~ M == 0 ->
  exists k hf v, In (k, hf) hf_table /\ In k (aliases f) /\ calc_lhv aliases C H M f = Ok v
    /\ v * M == 1000 * (hf - (H / 2 * -(241826#1000) + C * -(39351#100))).
Proof.
  intros aliases all_fluids fuels f C H M S I N. unfold setup_names in S.
  assert (A : alias_in_list aliases f combustion_gases = true).
  { destruct (nodup _ _) eqn:E in S; [discriminate S |]. destruct (forallb _ _) in S; [| discriminate S].
    injection S as <-. rewrite <- E in I. apply nodup_In in I. apply filter_In in I. apply I. }
  unfold alias_in_list in A. apply existsb_exists in A. destruct A as (a & AI & AM). apply smem_In in AM.
  unfold calc_lhv.
  assert (T : exists hf, In (a, hf) hf_table).
  { unfold combustion_gases in AM. cbn [In] in AM. unfold hf_table. cbn [In].
    destruct AM as [<- | [<- | [<- | [<- | [<- | [<- | []]]]]]]; eexists; tauto. }
  destruct T as (h0 & T).
  destruct (filter (fun kv => smem (fst kv) (aliases f)) hf_table) as [| [k hf] l] eqn:F.
  - exfalso. assert (X : In (a, h0) (filter (fun kv => smem (fst kv) (aliases f)) hf_table)).
    { apply filter_In. split; [exact T |]. cbn [fst]. apply smem_In. exact AI. }
    rewrite F in X. destruct X.
  - assert (X : In (k, hf) (filter (fun kv => smem (fst kv) (aliases f)) hf_table)) by (rewrite F; left; reflexivity).
    apply filter_In in X. destruct X as [X1 X2]. cbn [fst] in X2. apply smem_In in X2.
    rewrite (qdiv_ok _ _ N). cbn [rmap]. exists k, hf. eexists. split; [exact X1 | split; [exact X2 | split; [reflexivity |]]].
    field. exact N.
Qed.

(* ------------------------------------------------------------ value checks *)

Lemma fget_present : forall d f v, fget d f = Ok v -> dget f d = Some v.
Proof. intros d f v H. unfold fget in H. destruct (dget f d); congruence. Qed.

Lemma keys_same : forall (d : dict Q) f v, dget f d <> None -> keys (dset f v d) = keys d.
Proof.
  intros d f v. induction d as [| [k w] d IH]; cbn [dget dset]; intro H; [contradiction |].
  destruct (String.eqb f k) eqn:E; [reflexivity |]. cbn [keys map fst]. unfold keys in IH. rewrite (IH H). reflexivity.
Qed.

Lemma total_sum : forall d acc, NoDup (keys d) ->
  fold_left (fun a kv => a + snd kv) d acc == acc + sum_over (keys d) (frac d).
Proof.
  induction d as [| [k w] d IH]; intros acc N; cbn [fold_left keys map fst].
  - unfold sum_over. cbn. ring.
  - cbn [keys map fst] in N. apply NoDup_cons_iff in N. destruct N as [NI N].
    rewrite (IH _ N). unfold sum_over. cbn [map qsum snd].
    assert (E1 : frac ((k, w) :: d) k = w) by (unfold frac; cbn [dget]; rewrite String.eqb_refl; reflexivity).
    rewrite E1.
    assert (E2 : sum_over (keys d) (frac ((k, w) :: d)) == sum_over (keys d) (frac d)).
    { apply sum_ext. intros g G. unfold frac. cbn [dget]. destruct (String.eqb_spec g k) as [-> |]; [contradiction | reflexivity]. }
    unfold sum_over in E2. fold (keys d). rewrite E2. ring.
Qed.

Lemma normalise_spec : forall t vars d d', NoDup vars -> normalise t vars d = Ok d' ->
  keys d' = keys d /\ (vars <> [] -> ~ t == 0)
  /\ forall g, frac d' g == if in_dec string_dec g vars then frac d g / t else frac d g.
Proof.
  intros t. induction vars as [| f vars IH]; intros d d' N H; cbn [normalise] in H.
  - injection H as <-. split; [reflexivity | split; [congruence |]]. intro g. cbn. reflexivity.
  - apply NoDup_cons_iff in N. destruct N as [NI N].
    destruct (fget d f) as [v |] eqn:F; cbn [rbind] in H; [| discriminate H].
    unfold qdiv in H. destruct (Qeq_bool t 0) eqn:Z; cbn [rbind] in H; [discriminate H |].
    assert (NT : ~ t == 0) by (intro X; apply Qeq_bool_iff in X; congruence).
    destruct (IH _ _ N H) as (K & _ & G). apply fget_present in F.
    split; [rewrite K; apply keys_same; congruence | split; [intros _; exact NT |]].
    intro g. rewrite (G g). rewrite frac_dset.
    destruct (String.eqb_spec g f) as [-> | D].
    + destruct (in_dec string_dec f vars) as [I | I]; [contradiction |].
      destruct (in_dec string_dec f (f :: vars)) as [I' | I']; [| exfalso; apply I'; left; reflexivity].
      unfold frac. rewrite F. reflexivity.
    + destruct (in_dec string_dec g vars) as [I | I];
        destruct (in_dec string_dec g (f :: vars)) as [I' | I']; cbn [In] in I'; try tauto; try reflexivity.
      exfalso. destruct I' as [X | X]; [congruence | contradiction].
Qed.

Definition same_flags (a b : port_state) : Prop :=
  k_m_var a = k_m_var b /\ k_x_var a = k_x_var b /\ k_h_var a = k_h_var b /\ k_good a = k_good b.

Lemma check_fractions_spec : forall fuels i1 i2 m vars o o',
  check_fractions fuels i1 i2 o m vars = Ok o' ->
  same_flags o' o /\ k_m o' = k_m o /\ k_h o' = k_h o /\ keys (k_x o') = keys (k_x o)
  /\ forall g, ~ In g vars -> dget g (k_x o') = dget g (k_x o).
Proof.
  intros fuels i1 i2 m. induction vars as [| f vars IH]; intros o o' H; cbn [check_fractions] in H.
  - injection H as <-. repeat split; reflexivity.
  - destruct (check_fraction fuels i1 i2 o m f) as [v |] eqn:V; cbn [rbind] in H; [| discriminate H].
    destruct (IH _ _ H) as ((A1 & A2 & A3 & A4) & B & D & K & G).
    assert (P : dget f (k_x o) <> None).
    { unfold check_fraction in V. unfold fget in V. destruct (dget f (k_x o)); [discriminate | discriminate V]. }
    split; [repeat split; assumption | split; [exact B | split; [exact D | split]]].
    + rewrite K. apply keys_same. exact P.
    + intros g N. cbn [In] in N. rewrite G by tauto. cbn [set_kx k_x]. apply dget_dset_neq. intro; subst; tauto.
Qed.

Lemma normalise_frame : forall t vars d d', normalise t vars d = Ok d' ->
  forall g, ~ In g vars -> dget g d' = dget g d.
Proof.
  intros t. induction vars as [| f vars IH]; intros d d' H g N; cbn [normalise] in H.
  - injection H as <-. reflexivity.
  - destruct (fget d f) as [v |]; cbn [rbind] in H; [| discriminate H].
    destruct (qdiv v t) as [q |]; cbn [rbind] in H; [| discriminate H].
    cbn [In] in N. rewrite (IH _ _ H g) by tauto. apply dget_dset_neq. intro; subst; tauto.
Qed.

Definition port_frame (p p' : port_state) : Prop :=
  same_flags p' p
  /\ (k_m_var p = false -> k_m p' = k_m p)
  /\ (k_h_var p = false -> k_h p' = k_h p)
  /\ (forall f, ~ In f (k_x_var p) -> dget f (k_x p') = dget f (k_x p)).

Lemma frame_refl : forall p, port_frame p p.
Proof. intro p. repeat split; reflexivity. Qed.
Lemma fix_inlet_frame : forall p, port_frame p (fix_inlet p).
Proof.
  intro p. unfold fix_inlet. destruct (qlt (k_m p) 0); [| apply frame_refl].
  destruct (k_m_var p) eqn:E; cbn [andb]; [| apply frame_refl].
  repeat split; cbn [set_km k_m k_h k_x]; congruence.
Qed.
Lemma frame_trans : forall a b c, port_frame a b -> port_frame b c -> port_frame a c.
Proof.
  intros a b c ((A1 & A2 & A3 & A4) & B1 & B2 & B3) ((C1 & C2 & C3 & C4) & D1 & D2 & D3).
  split; [repeat split; congruence |]. split; [| split].
  - intro H. rewrite D1 by congruence. apply B1. exact H.
  - intro H. rewrite D2 by congruence. apply B2. exact H.
  - intros f H. rewrite D3 by congruence. apply B3. exact H.
Qed.
Lemma frame_km : forall p m, k_m_var p = true -> port_frame p (set_km p m).
Proof. intros p m H. repeat split; cbn [set_km k_m k_h k_x]; congruence. Qed.

Lemma scan_found : forall fuels st w p found fi air,
  scan_inlet fuels st w p = Ok (found, fi, air) -> found = true ->
  k_m_var p = true /\ fi = Some w /\ k_good p = false.
Proof.
  intros fuels [[f0 fi0] air0] w p found fi air H F. unfold scan_inlet in H.
  destruct (k_good p); [injection H as <- <- <-; discriminate F |].
  destruct (fuel_fraction fuels (k_x p)) as [x |]; cbn [rbind] in H; [| discriminate H].
  destruct (qlt (3#4) x); destruct (k_m_var p); cbn [andb] in H; injection H as <- <- <-;
    first [discriminate F | repeat split; reflexivity].
Qed.

Definition out_adjust (o : port_state) : port_state :=
  let o := if qlt (k_m o) 0 && k_m_var o then set_km o 10 else o in
  if negb (k_good o) then if qlt (k_h o) 750000 && k_h_var o then set_kh o 1000000 else o else o.
Lemma out_adjust_frame : forall o, port_frame o (out_adjust o) /\ k_x (out_adjust o) = k_x o.
Proof.
  intro o. unfold out_adjust.
  destruct (qlt (k_m o) 0); destruct (k_m_var o) eqn:E; cbn [andb];
  destruct (k_good o) eqn:G; cbn [set_km k_good negb k_h k_h_var]; rewrite ?G; cbn [negb];
  destruct (qlt (k_h o) 750000); destruct (k_h_var o) eqn:HV; cbn [andb];
  (split; [repeat split; cbn [set_km set_kh k_m k_h k_x k_m_var k_x_var k_h_var k_good]; congruence | reflexivity]).
Qed.

Lemma check_shape : forall fuels lamb ls i1 i2 o i1' i2' o',
  convergence_check fuels lamb ls i1 i2 o = Ok (i1', i2', o') ->
  exists o1 x, check_fractions fuels (fix_inlet i1) (fix_inlet i2) o
       (0 + k_m (fix_inlet i1) + k_m (fix_inlet i2)) (k_x_var o) = Ok o1
    /\ normalise (total (k_x o1)) (k_x_var o1) (k_x o1) = Ok x
    /\ o' = out_adjust (set_kx o1 x)
    /\ port_frame i1 i1' /\ port_frame i2 i2'.
Proof.
  intros fuels lamb ls i1 i2 o i1' i2' o' H. unfold convergence_check in H.
  set (a := fix_inlet i1) in *. set (b := fix_inlet i2) in *.
  assert (FA : port_frame i1 a) by apply fix_inlet_frame.
  assert (FB : port_frame i2 b) by apply fix_inlet_frame. clearbody a b.
  destruct (check_fractions fuels a b o (0 + k_m a + k_m b) (k_x_var o)) as [o1 |] eqn:E1; cbn [rbind] in H; [| discriminate H].
  destruct (normalise (total (k_x o1)) (k_x_var o1) (k_x o1)) as [x |] eqn:E2; cbn [rbind] in H; [| discriminate H].
  exists o1, x. split; [reflexivity | split; [exact E2 |]].
  cbv zeta in H. fold (out_adjust (set_kx o1 x)) in H.
  destruct (qlt lamb 2 && negb ls).
  - destruct (scan_inlet fuels (false, None, None) false a) as [st |] eqn:S1; cbn [rbind] in H; [| discriminate H].
    destruct (scan_inlet fuels st true b) as [[[found fi] air] |] eqn:S2; cbn [rbind] in H; [| discriminate H].
    destruct found eqn:FO.
    + destruct (scan_found _ _ _ _ _ _ _ S2 eq_refl) as (V & -> & _).
      destruct air as [q |]; [| discriminate H]. injection H as <- <- <-.
      split; [reflexivity | split; [exact FA |]]. eapply frame_trans; [exact FB |]. apply frame_km. exact V.
    + injection H as <- <- <-. split; [reflexivity | split; assumption].
  - injection H as <- <- <-. split; [reflexivity | split; assumption].
Qed.

Lemma check_frame : forall fuels lamb ls i1 i2 o i1' i2' o',
  convergence_check fuels lamb ls i1 i2 o = Ok (i1', i2', o') ->
  port_frame i1 i1' /\ port_frame i2 i2' /\ port_frame o o'.
Proof.
  intros fuels lamb ls i1 i2 o i1' i2' o' H.
  destruct (check_shape _ _ _ _ _ _ _ _ _ H) as (o1 & x & E1 & E2 & -> & F1 & F2).
  split; [exact F1 | split; [exact F2 |]].
  destruct (check_fractions_spec _ _ _ _ _ _ _ E1) as ((A1 & A2 & A3 & A4) & B & D & K & G).
  eapply frame_trans; [| apply out_adjust_frame].
  assert (PF : port_frame o (set_kx o1 x)).
  { split; [repeat split; assumption |]. split; [intros _; exact B | split; [intros _; exact D |]].
    intros f N. cbn [set_kx k_x]. rewrite (normalise_frame _ _ _ _ E2) by (rewrite A2; exact N). apply G. exact N. }
  exact PF.
Qed.

Lemma check_normalised : forall fuels lamb ls i1 i2 o i1' i2' o',
  convergence_check fuels lamb ls i1 i2 o = Ok (i1', i2', o') ->
  NoDup (keys (k_x o)) -> NoDup (k_x_var o) -> incl (keys (k_x o)) (k_x_var o) -> k_x o <> [] ->
  total (k_x o') == 1.
Proof.
  intros fuels lamb ls i1 i2 o i1' i2' o' H N NV I NE.
  destruct (check_shape _ _ _ _ _ _ _ _ _ H) as (o1 & x & E1 & E2 & -> & _ & _).
  rewrite (proj2 (out_adjust_frame (set_kx o1 x))). cbn [set_kx k_x].
  destruct (check_fractions_spec _ _ _ _ _ _ _ E1) as ((A1 & A2 & A3 & A4) & B & D & K & G).
  rewrite A2 in E2. destruct (normalise_spec _ _ _ _ NV E2) as (K2 & NT & FR).
  assert (NZ : ~ total (k_x o1) == 0).
  { apply NT. intro Z. apply NE. destruct (k_x o) as [| [k v] l]; [reflexivity |].
    exfalso. rewrite Z in I. apply (I k). left. reflexivity. }
  unfold total at 1. rewrite total_sum by (rewrite K2, K; exact N).
  rewrite (sum_ext _ (keys x) (frac x) (fun g => (1 / total (k_x o1)) * frac (k_x o1) g)).
  - rewrite sum_scale, K2.
    assert (TS : total (k_x o1) == sum_over (keys (k_x o1)) (frac (k_x o1))).
    { unfold total. rewrite total_sum by (rewrite K; exact N). ring. }
    rewrite <- TS. field. exact NZ.
  - intros g GI. rewrite (FR g). destruct (in_dec string_dec g (k_x_var o)) as [X | X]; [field; exact NZ |].
    exfalso. apply X. apply I. rewrite <- K, <- K2. exact GI.
Qed.

Lemma fractions_err : forall fuels a b m vars o,
  check_fractions fuels a b o m vars <> Err UnboundLocalError.
Proof.
  intros fuels a b m. induction vars as [| f l IH]; intros o E1; cbn [check_fractions] in E1; [discriminate E1 |].
  destruct (check_fraction fuels a b o m f) as [v | e] eqn:V; cbn [rbind] in E1; [exact (IH _ E1) |].
  injection E1 as ->. unfold check_fraction in V. unfold fget in V.
  destruct (dget f (k_x o)); cbn [rbind] in V; [| discriminate V].
  destruct (String.eqb f "O2"); [discriminate V |]. destruct (String.eqb f "CO2"); [discriminate V |].
  destruct (String.eqb f "H2O"); [discriminate V |]. destruct (smem f fuels); [discriminate V |].
  destruct (dget f (k_x a)); cbn [rbind] in V; [| discriminate V].
  destruct (dget f (k_x b)); cbn [rbind] in V; [| discriminate V].
  unfold qdiv in V. destruct (Qeq_bool m 0); discriminate V.
Qed.
Lemma normalise_err : forall t vars d, normalise t vars d <> Err UnboundLocalError.
Proof.
  intros t. induction vars as [| f l IH]; intros d E2; cbn [normalise] in E2; [discriminate E2 |].
  unfold fget in E2. destruct (dget f d) as [v |]; cbn [rbind] in E2; [| discriminate E2].
  unfold qdiv in E2. destruct (Qeq_bool t 0); cbn [rbind] in E2; [discriminate E2 |]. exact (IH _ E2).
Qed.
Lemma fuel_fraction_err : forall fuels d, fuel_fraction fuels d <> Err UnboundLocalError.
Proof.
  intros fuels d. induction fuels as [| f l IH]; intro FF; cbn [fuel_fraction] in FF; [discriminate FF |].
  unfold fget in FF. destruct (dget f d); cbn [rbind] in FF; [| discriminate FF].
  destruct (fuel_fraction l d); cbn [rbind] in FF; [discriminate FF |]. injection FF as ->. apply IH. reflexivity.
Qed.

Lemma no_unbound : forall fuels lamb ls i1 i2 o x,
  k_good i1 = false -> fuel_fraction fuels (k_x i1) = Ok x -> x < 3 # 4 ->
  convergence_check fuels lamb ls i1 i2 o <> Err UnboundLocalError.
Proof.
  intros fuels lamb ls i1 i2 o x G F L H. unfold convergence_check in H.
  destruct (fix_inlet_frame i1) as ((A1 & A2 & A3 & A4) & _ & _ & _).
  assert (KX : k_x (fix_inlet i1) = k_x i1) by (unfold fix_inlet; destruct (qlt (k_m i1) 0 && k_m_var i1); reflexivity).
  set (a := fix_inlet i1) in *. set (b := fix_inlet i2) in *. clearbody a b.
  destruct (check_fractions fuels a b o (0 + k_m a + k_m b) (k_x_var o)) as [o1 | e1] eqn:E1; cbn [rbind] in H.
  2:{ injection H as ->. exact (fractions_err _ _ _ _ _ _ E1). }
  destruct (normalise (total (k_x o1)) (k_x_var o1) (k_x o1)) as [y | e2] eqn:E2; cbn [rbind] in H.
  2:{ injection H as ->. exact (normalise_err _ _ _ E2). }
  cbv zeta in H. destruct (qlt lamb 2 && negb ls); [| discriminate H].
  assert (Q1 : qlt (3#4) x = false) by (apply qlt_false; lra).
  assert (Q2 : qlt x (3#4) = true) by (apply qlt_true; exact L).
  assert (S1 : scan_inlet fuels (false, None, None) false a = Ok (false, None, Some (k_m a))).
  { unfold scan_inlet. rewrite A4, G, KX, F. cbn [rbind]. rewrite Q1, Q2. reflexivity. }
  rewrite S1 in H. cbn [rbind] in H.
  destruct (scan_inlet fuels (false, None, Some (k_m a)) true b) as [[[found fi] air] | e3] eqn:S2; cbn [rbind] in H.
  - destruct found; [| discriminate H].
    destruct (scan_found _ _ _ _ _ _ _ S2 eq_refl) as (V & -> & GB).
    assert (AI : air <> None).
    { unfold scan_inlet in S2. rewrite GB in S2.
      destruct (fuel_fraction fuels (k_x b)) as [z |]; cbn [rbind] in S2; [| discriminate S2].
      destruct (qlt (3#4) z && k_m_var b); destruct (qlt z (3#4)); congruence. }
    destruct air; [discriminate H | contradiction].
  - injection H as ->. unfold scan_inlet in S2. destruct (k_good b); [discriminate S2 |].
    destruct (fuel_fraction fuels (k_x b)) as [z | e4] eqn:FF; cbn [rbind] in S2.
    + destruct (qlt (3#4) z && k_m_var b); discriminate S2.
    + injection S2 as ->. exact (fuel_fraction_err _ _ FF).
Qed.

(* ----------------------------------------------------------------- no errors *)

Lemma stoichiometry_defined : forall ch fl f, complete ch fl -> In f fl ->
  ~ oxygen_needed ch == 0 ->
  (forall g, In g (c_fuels ch) -> ~ f_H g / 4 + f_C g == 0) ->
  exists r l, stoichiometry ch f = Ok (r, l).
Proof.
  intros ch fl f C F N H. unfold stoichiometry.
  destruct (fuel_sums_ok ch fl C (c_fuels ch) (incl_refl _) 0 0) as (a & b & E & A & B). rewrite E. cbn [rbind].
  destruct (fuel_moles_ok ch fl C "O2" (o2_in ch fl C)) as (n & E2 & QN). rewrite E2. cbn [rbind].
  assert (NS : ~ a / 4 + b == 0).
  { intro X. apply N. rewrite (needed_split ch). unfold NH, NC. rewrite <- X, A, B. field. }
  rewrite (qdiv_ok n _ NS).
  rewrite (fget_stream ch fl C f _ F (in1_in ch)), (fget_stream ch fl C f _ F (in2_in ch)),
    (fget_stream ch fl C f _ F (out_in ch)). cbn [rbind].
  assert (L : exists lam, (if c_lamb_set ch then Ok (c_lamb ch) else Ok (n / (a / 4 + b))) = Ok lam)
    by (destruct (c_lamb_set ch); eexists; reflexivity).
  destruct L as (lam & ->). cbn [rbind].
  destruct (String.eqb_spec f "CO2") as [-> |].
  { rewrite (fget_M ch fl C _ F). cbn [rbind]. do 2 eexists. reflexivity. }
  destruct (String.eqb_spec f "H2O") as [-> |].
  { rewrite (fget_M ch fl C _ F). cbn [rbind]. do 2 eexists. reflexivity. }
  destruct (String.eqb_spec f "O2") as [-> |].
  { rewrite (fget_M ch fl C _ F). cbn [rbind]. destruct (qlt lam 1) eqn:Q; cbn [rbind]; [do 2 eexists; reflexivity |].
    apply qlt_false in Q. rewrite qdiv_ok by lra. cbn [rbind]. do 2 eexists. reflexivity. }
  destruct (find_fuel ch f) as [g |] eqn:G; [| do 2 eexists; reflexivity].
  destruct (fuel_moles_ok ch fl C f F) as (nf & E3 & _). rewrite E3. cbn [rbind].
  rewrite (fget_M ch fl C _ F).
  destruct (qlt lam 1); cbn [rbind]; [| do 2 eexists; reflexivity].
  rewrite qdiv_ok; [cbn [rbind]; do 2 eexists; reflexivity |].
  apply H. unfold find_fuel in G. apply find_some in G. apply G.
Qed.

Lemma hf_bound : forall k hf, In (k, hf) hf_table -> -(39351#100) <= hf.
Proof.
  intros k hf H. unfold hf_table in H. cbn [In] in H.
  repeat (destruct H as [H | H]; [injection H as _ <-; unfold Qle; cbn; lia |]). destruct H.
Qed.
Lemma lhv_positive : forall aliases all_fluids fuels f C H M v,
  setup_names aliases all_fluids = Ok fuels -> In f fuels -> 0 < M -> 1 <= C -> 0 < H ->
  calc_lhv aliases C H M f = Ok v -> 0 < v.
Proof.
  intros aliases all_fluids fuels f C H M v S I M0 C1 H0 V.
  destruct (lhv_defined aliases all_fluids fuels f C H M S I) as (k & hf & w & T & _ & W & E); [lra |].
  rewrite V in W. injection W as <-. pose proof (hf_bound k hf T) as B.
  assert (P : 0 < v * M).
  { rewrite E. assert (X : H / 2 == H * (1#2)) by field. rewrite X. lra. }
  destruct (Qlt_le_dec 0 v) as [G | G]; [exact G |]. exfalso.
  assert (Y : v * M <= 0).
  { setoid_replace 0 with (0 * M) by ring. apply Qmult_le_compat_r; lra. }
  lra.
Qed.

Lemma lean_mass_normalised : forall ch fl aC aH aO wC wH wO, complete ch fl -> chemistry ch aC aH aO ->
  (forall f, In f ("CO2" :: "H2O" :: "O2" :: map f_name (c_fuels ch))%string ->
     frac (c_M ch) f == wC * aC f + wH * aH f + wO * aO f) ->
  reactions_hold ch fl -> air_ratio_consistent ch ->
  0 < oxygen_needed ch -> oxygen_needed ch <= moles_in ch "O2" ->
  sum_over fl (flow (c_out ch)) == sum_over fl (flow (c_in1 ch)) + sum_over fl (flow (c_in2 ch))
  /\ (sum_over fl (frac (s_x (c_in1 ch))) == 1 -> sum_over fl (frac (s_x (c_in2 ch))) == 1 ->
      mass_flow_func ch == 0 -> ~ s_m (c_out ch) == 0 ->
      sum_over fl (frac (s_x (c_out ch))) == 1).
Proof.
  intros ch fl aC aH aO wC wH wO C K W R A P L.
  pose proof (lean_mass ch fl C aC aH aO wC wH wO K W R A P L) as E. unfold mass_total in E.
  split; [exact E |]. intros N1 N2 M NZ.
  pose proof (mass_total_value fl) as V. unfold mass_total in V.
  rewrite !V, N1, N2 in E. unfold mass_flow_func in M.
  assert (X : s_m (c_out ch) * sum_over fl (frac (s_x (c_out ch))) == s_m (c_out ch) * 1) by lra.
  apply (Qmult_inj_l _ _ (s_m (c_out ch)) NZ). exact X.
Qed.

Lemma check_frame_ports : forall fuels lamb ls i1 i2 o i1' i2' o',
  convergence_check fuels lamb ls i1 i2 o = Ok (i1', i2', o') ->
  forall p p', In (p, p') [(i1, i1'); (i2, i2'); (o, o')] ->
  (k_m_var p' = k_m_var p /\ k_x_var p' = k_x_var p /\ k_h_var p' = k_h_var p /\ k_good p' = k_good p)
  /\ (k_m_var p = false -> k_m p' = k_m p)
  /\ (k_h_var p = false -> k_h p' = k_h p)
  /\ (forall f, ~ In f (k_x_var p) -> dget f (k_x p') = dget f (k_x p)).
Proof.
  intros fuels lamb ls i1 i2 o i1' i2' o' H p p' I.
  destruct (check_frame _ _ _ _ _ _ _ _ _ H) as (A & B & C).
  destruct I as [I | [I | [I | []]]]; injection I as <- <-; assumption.
Qed.
