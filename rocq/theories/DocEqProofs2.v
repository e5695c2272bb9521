(** Printed equations of combustion chambers, engines, characteristics and busses. *)
From Coq Require Import QArith Qabs Lqa List String Bool.
From Verif Require Import Base CharModel CombModel DocEqModel.
From Verif Require OffModel BusModel.
Import ListNotations.
Open Scope Q_scope.

Lemma zq a b : a == b -> (0 == a <-> b == 0).
Proof. intros H. split; intros; lra. Qed.

(** What a chamber uses of a fuel, as printed *)
Definition fuel_term (ch : chamber) (f : fuel) (t : Q) : Prop :=
  exists x1 x2 xo, fget (s_x (c_in1 ch)) (f_name f) = Ok x1 /\ fget (s_x (c_in2 ch)) (f_name f) = Ok x2
    /\ fget (s_x (c_out ch)) (f_name f) = Ok xo
    /\ t = d_fuel (f_LHV f) (s_m (c_in1 ch)) x1 (s_m (c_in2 ch)) x2 (s_m (c_out ch)) xo.

Lemma ti_terms : forall ch fs terms ti0 r,
  Forall2 (fuel_term ch) fs terms -> ti_loop ch fs ti0 = Ok r -> r == ti0 + qsum terms.
Proof.
  intros ch fs terms ti0 r F. revert ti0 r. induction F as [|f t fs ts H F IH]; intros ti0 r E.
  - injection E as <-. cbn. lra.
  - destruct H as (x1 & x2 & xo & A & B & C & ->). cbn in E. rewrite A, B, C in E. cbn in E. apply IH in E.
    rewrite E. unfold d_fuel, qsum. cbn. ring.
Qed.
Lemma ti_printed : forall ch ti terms r,
  Forall2 (fuel_term ch) (c_fuels ch) terms -> ti_func ch ti = Ok r -> (d_ti ti terms <-> r == 0).
Proof.
  intros ch ti terms r F E. unfold ti_func, calc_ti in E. destruct (ti_loop ch (c_fuels ch) 0) as [t|] eqn:T; [|discriminate].
  injection E as <-. apply (ti_terms _ _ _ _ _ F) in T. apply zq. rewrite T. ring.
Qed.
Lemma energy_printed : forall href ch h1 h2 ho eta terms r,
  Forall2 (fuel_term ch) (c_fuels ch) terms -> energy_func href ch h1 h2 ho eta = Ok r ->
  (d_comb_energy (s_m (c_in1 ch)) (h1 - href (s_x (c_in1 ch))) (s_m (c_in2 ch)) (h2 - href (s_x (c_in2 ch)))
                 (s_m (c_out ch)) (ho - href (s_x (c_out ch))) eta terms <-> r == 0).
Proof.
  intros href ch h1 h2 ho eta terms r F E. unfold energy_func, calc_ti in E. destruct (ti_loop ch (c_fuels ch) 0) as [t|] eqn:T; [|discriminate].
  injection E as <-. apply (ti_terms _ _ _ _ _ F) in T. apply zq. rewrite T. unfold qsum. cbn. ring.
Qed.
Lemma mass_printed : forall ch, d_comb_mass (s_m (c_in1 ch)) (s_m (c_in2 ch)) (s_m (c_out ch)) <-> mass_flow_func ch == 0.
Proof. intros. apply zq. unfold mass_flow_func. ring. Qed.

(** Mass flow of a fluid at the inlets minus at the outlet, molar mass *)
Definition delta (ch : chamber) (f : string) (dm M : Q) : Prop :=
  exists x1 x2 xo, fget (s_x (c_in1 ch)) f = Ok x1 /\ fget (s_x (c_in2 ch)) f = Ok x2 /\ fget (s_x (c_out ch)) f = Ok xo
    /\ fget (c_M ch) f = Ok M
    /\ dm == s_m (c_in1 ch) * x1 + s_m (c_in2 ch) * x2 - s_m (c_out ch) * xo.
(** The printed equation of a fluid; [nH], [nC]: hydrogen and carbon, [nf]: this fuel *)
Definition d_stoich (ch : chamber) (f : string) (dm M nH nC : Q) (nf : Q) : Prop :=
  if String.eqb f "CO2" then d_co2 dm nC M
  else if String.eqb f "H2O" then d_h2o dm nH M
  else if String.eqb f "O2" then d_o2 dm nH nC M
  else if existsb (fun x => String.eqb f (f_name x)) (c_fuels ch) then d_fuel_eq dm nf M
  else d_other dm.

Lemma find_existsb (l : list fuel) f : (exists x, find (fun x => String.eqb f (f_name x)) l = Some x) /\ existsb (fun x => String.eqb f (f_name x)) l = true
  \/ find (fun x => String.eqb f (f_name x)) l = None /\ existsb (fun x => String.eqb f (f_name x)) l = false.
Proof.
  induction l as [|a l IH]; cbn; [auto|]. destruct (String.eqb f (f_name a)); cbn; [left; eauto|exact IH].
Qed.

Lemma stoich_printed : forall ch f dm M nH nC nf l r l',
  fuel_sums ch (c_fuels ch) 0 0 = Ok (nH, nC) -> fuel_moles ch f = Ok nf -> delta ch f dm M ->
  calc_lambda ch = Ok l -> 1 <= l -> (c_lamb_set ch = true -> c_lamb ch == l) ->
  stoichiometry ch f = Ok (r, l') ->
  (d_stoich ch f dm M nH nC nf <-> r == 0).
Proof.
  intros ch f dm M nH nC nf l r l' FS FM (x1 & x2 & xo & X1 & X2 & X3 & XM & D) CL L1 LS E.
  unfold calc_lambda in CL. rewrite FS in CL. cbn in CL. destruct (fuel_moles ch "O2") as [nox|] eqn:FO; [|discriminate]. cbn in CL.
  unfold qdiv in CL. destruct (Qeq_bool (nH / 4 + nC) 0) eqn:Z; [discriminate|]. injection CL as <-.
  apply Qeq_bool_neq in Z.
  assert (NL : nox == nox / (nH / 4 + nC) * (nH / 4 + nC)) by (unfold Qdiv at 1; rewrite <- Qmult_assoc, (Qmult_comm (/ _)), Qmult_inv_r by exact Z; ring).
  set (l := nox / (nH / 4 + nC)) in *.
  unfold stoichiometry in E. rewrite FS in E. cbn [rbind] in E. rewrite FO in E. cbn [rbind] in E. cbv zeta in E.
  assert (LL : exists lam, (if c_lamb_set ch then Ok (c_lamb ch) else qdiv nox (nH / 4 + nC)) = Ok lam /\ lam == l).
  { destruct (c_lamb_set ch) eqn:S; [exists (c_lamb ch); auto|]. unfold qdiv. destruct (Qeq_bool (nH / 4 + nC) 0) eqn:Z'; [apply Qeq_bool_eq in Z'; contradiction|]. exists l. split; [reflexivity|lra]. }
  destruct LL as (lam & LE & LQ). rewrite LE in E. cbn [rbind] in E.
  assert (RI : qlt lam 1 = false). { unfold qlt. apply negb_false_iff. apply Qle_bool_iff. lra. }
  rewrite RI in E. rewrite X1, X2, X3 in E. cbn [rbind] in E.
  assert (FIN : forall d, r = d + x1 * s_m (c_in1 ch) + x2 * s_m (c_in2 ch) - xo * s_m (c_out ch) -> r == d + dm) by (intros d ->; rewrite D; ring).
  unfold d_stoich.
  destruct (String.eqb f "CO2") eqn:E1.
  { apply String.eqb_eq in E1. subst f. rewrite XM in E. cbn [rbind] in E. injection E as E _. symmetry in E. apply FIN in E. apply zq. rewrite E. ring. }
  destruct (String.eqb f "H2O") eqn:E2.
  { apply String.eqb_eq in E2. subst f. rewrite XM in E. cbn [rbind] in E. injection E as E _. symmetry in E. apply FIN in E. apply zq. rewrite E. field. }
  destruct (String.eqb f "O2") eqn:E3.
  { apply String.eqb_eq in E3. subst f. rewrite XM in E. cbn [rbind] in E. unfold qdiv in E.
    destruct (Qeq_bool lam 0) eqn:ZL; [apply Qeq_bool_eq in ZL; lra|]. apply Qeq_bool_neq in ZL. cbn [rbind] in E. injection E as E _. symmetry in E. apply FIN in E. apply zq. rewrite E.
    assert (Y : - nox / lam == - (nH / 4 + nC)). { assert (YN : nox == lam * (nH / 4 + nC)) by (rewrite LQ; exact NL). rewrite YN. field. exact ZL. }
    rewrite Y. ring. }
  destruct (find_existsb (c_fuels ch) f) as [((x & FF) & EX)|(FF & EX)]; unfold find_fuel in E; rewrite FF in E; rewrite EX.
  - rewrite FM in E. cbn [rbind] in E. rewrite XM in E. cbn [rbind] in E. injection E as E _. symmetry in E. apply FIN in E. apply zq. rewrite E. ring.
  - cbn [rbind] in E. injection E as E _. symmetry in E. apply FIN in E. apply zq. rewrite E. ring.
Qed.

(* engine *)
Lemma engine_energy_printed : forall e flue ti,
  d_engine_energy (flue + ti) (- e_m1 e * (e_ho1 e - e_hi1 e)) (- e_m2 e * (e_ho2 e - e_hi2 e)) (e_P e) (e_Qloss e)
  <-> engine_energy e flue ti == 0.
Proof. intros. apply zq. unfold engine_energy. ring. Qed.
Lemma engine_chars : forall e ti x ft,
  load e (e_P e) = Ok x -> cl_evaluate (e_tiP e) x = Ok ft ->
  (forall r, tiP_char_func e ti = Ok r -> (d_tiP (e_P e) ft ti <-> r == 0))
  /\ (forall fq r, cl_evaluate (e_Q1c e) x = Ok fq -> Q1_char_func e ti = Ok r ->
      (d_Q_char ti fq (e_m1 e) (e_hi1 e) (e_ho1 e) ft <-> r == 0))
  /\ (forall fq r, cl_evaluate (e_Q2c e) x = Ok fq -> Q2_char_func e ti = Ok r ->
      (d_Q_char ti fq (e_m2 e) (e_hi2 e) (e_ho2 e) ft <-> r == 0))
  /\ (forall fq r, cl_evaluate (e_Qlc e) x = Ok fq -> Qloss_char_func e ti = Ok r ->
      (d_Qloss_char ti fq (e_Qloss e) ft <-> r == 0)).
Proof.
  intros e ti x ft L T. split; [|split; [|split]].
  - intros r E. unfold tiP_char_func in E. rewrite L in E. cbn in E. rewrite T in E. injection E as <-. apply zq. ring.
  - intros fq r F E. unfold Q1_char_func, Q_char_func in E. rewrite L in E. cbn in E. rewrite F in E. cbn in E. rewrite T in E. injection E as <-. apply zq. ring.
  - intros fq r F E. unfold Q2_char_func, Q_char_func in E. rewrite L in E. cbn in E. rewrite F in E. cbn in E. rewrite T in E. injection E as <-. apply zq. ring.
  - intros fq r F E. unfold Qloss_char_func in E. rewrite L in E. cbn in E. rewrite F in E. cbn in E. rewrite T in E. injection E as <-. apply zq. ring.
Qed.

(* characteristics *)
Definition param_no (s : string) : nat :=
  if String.eqb s "m" then 0 else if String.eqb s "m_out" then 1 else if String.eqb s "v" then 2 else if String.eqb s "pr" then 3 else 4.
Lemma expr_printed : forall vol inl outl param c i o x,
  nth_error inl (OffModel.cin c) = Some i -> nth_error outl (OffModel.cout c) = Some o ->
  d_expr (String.eqb (OffModel.ctype c) "rel") (OffModel.om i) (OffModel.omd i) (OffModel.om o) (OffModel.omd o)
    (OffModel.om i * vol (OffModel.op i) (OffModel.oh i)) (OffModel.ovd i) (OffModel.op i) (OffModel.opd i)
    (OffModel.op o) (OffModel.opd o) (param_no param) = Some x ->
  exists y, OffModel.get_char_expr vol inl outl param c = Ok (Some y) /\ y == x.
Proof.
  intros vol inl outl param c i o x I O. unfold OffModel.get_char_expr, OffModel.at_port, param_no. rewrite I, O.
  destruct (String.eqb (OffModel.ctype c) "rel"); destruct (String.eqb param "m"); [cbn; intros [= <-]; eexists; split; [reflexivity|lra]| |cbn; intros [= <-]; eexists; split; [reflexivity|lra]|];
  (destruct (String.eqb param "m_out"); [cbn; intros [= <-]; eexists; split; [reflexivity|lra]|]);
  (destruct (String.eqb param "v"); [cbn; intros [= <-]; eexists; split; [reflexivity|lra]|]);
  (destruct (String.eqb param "pr"); [cbn; intros [= <-]; eexists; split; [reflexivity|]|cbn; discriminate]).
  - rewrite (Qmult_comm (OffModel.op i)). lra.
  - lra.
Qed.
Lemma chars_printed : forall (vol : Q -> Q -> Q) (isentropic : Q -> Q -> Q -> Q) inl outl i o c x f,
  nth_error inl 0 = Some i -> nth_error outl 0 = Some o ->
  OffModel.get_char_expr vol inl outl (OffModel.ch_param c) (OffModel.ch_params c) = Ok (Some x) ->
  cl_evaluate (OffModel.ch c) x = Ok f ->
  (forall eta r, OffModel.pump_eta_s_char vol isentropic inl outl eta c = Ok r ->
     (d_pump_char (OffModel.oh i) (OffModel.oh o) (isentropic (OffModel.op i) (OffModel.oh i) (OffModel.op o)) eta f <-> r == 0))
  /\ (forall r, OffModel.flow_char_func vol inl outl c = Ok r -> (d_flow_char (OffModel.op i) (OffModel.op o) f <-> r == 0))
  /\ (forall r, OffModel.dp_char_func vol inl outl c = Ok r -> (d_dp_char (OffModel.op i) (OffModel.op o) f <-> r == 0))
  /\ (forall kA td r, OffModel.kA_char_group_func vol inl outl kA td c = Ok r ->
     (d_simple_kA_char (OffModel.om i) (OffModel.oh i) (OffModel.oh o) kA f td <-> r == 0)).
Proof.
  intros vol isentropic inl outl i o c x f I O X F. split; [|split; [|split]].
  - intros eta r E. unfold OffModel.pump_eta_s_char in E. rewrite X in E. cbn [rbind] in E. unfold OffModel.checked in E. cbn [OffModel.as_num] in E.
    destruct (Qeq_bool x 0); [discriminate|]. cbn [rbind] in E. unfold OffModel.at_port in E. rewrite I, O in E. cbn [rbind] in E. rewrite F in E. injection E as <-. apply zq. ring.
  - intros r E. unfold OffModel.flow_char_func in E. rewrite X in E. cbn [rbind OffModel.as_num] in E. unfold OffModel.at_port in E. rewrite I, O in E. cbn [rbind] in E. rewrite F in E. injection E as <-. apply zq. ring.
  - intros r E. unfold OffModel.dp_char_func in E. rewrite X in E. cbn [rbind] in E. unfold OffModel.checked in E. cbn [OffModel.as_num] in E.
    destruct (Qeq_bool x 0); [discriminate|]. cbn [rbind] in E. unfold OffModel.at_port in E. rewrite I, O in E. cbn [rbind] in E. rewrite F in E. injection E as <-. apply zq. ring.
  - intros kA td r E. unfold OffModel.kA_char_group_func in E. rewrite X in E. cbn [rbind OffModel.as_num] in E. unfold OffModel.at_port in E. rewrite I, O in E. cbn [rbind] in E. rewrite F in E. cbn [rbind] in E.
    unfold OffModel.kA_factor_simple, OffModel.fdiv in E. destruct (Qeq_bool f 0); [discriminate|]. cbn [rbind] in E. destruct (Qeq_bool (1 + 1 / f) 0); [discriminate|]. cbn [rbind] in E. injection E as <-. apply zq. ring.
Qed.
Lemma turbine_char_printed : forall (vol : Q -> Q -> Q) (isentropic : Q -> Q -> Q -> Q) inl outl i o c x f eta r,
  nth_error inl 0 = Some i -> nth_error outl 0 = Some o ->
  OffModel.get_char_expr vol inl outl (OffModel.ch_param c) OffModel.default_params = Ok (Some x) ->
  cl_evaluate (OffModel.ch c) x = Ok f ->
  OffModel.turbine_eta_s_char vol isentropic inl outl eta c = Ok r ->
  (d_turbine_char (OffModel.oh i) (OffModel.oh o) (isentropic (OffModel.op i) (OffModel.oh i) (OffModel.op o)) eta f <-> r == 0).
Proof.
  intros vol isentropic inl outl i o c x f eta r I O X F E. unfold OffModel.turbine_eta_s_char in E. rewrite X in E. cbn [rbind] in E. unfold OffModel.checked in E. cbn [OffModel.as_num] in E.
  destruct (Qeq_bool x 0); [discriminate|]. cbn [rbind] in E. unfold OffModel.at_port in E. rewrite I, O in E. cbn [rbind] in E. rewrite F in E. injection E as <-. apply zq. ring.
Qed.
Lemma kA_char_printed : forall (vol : Q -> Q -> Q) inl outl i o c1 c2 x1 x2 f1 f2 kA td r,
  nth_error inl 0 = Some i -> nth_error outl 0 = Some o ->
  OffModel.get_char_expr vol inl outl (OffModel.ch_param c1) (OffModel.ch_params c1) = Ok (Some x1) ->
  OffModel.get_char_expr vol inl outl (OffModel.ch_param c2) (OffModel.ch_params c2) = Ok (Some x2) ->
  cl_evaluate (OffModel.ch c1) x1 = Ok f1 -> cl_evaluate (OffModel.ch c2) x2 = Ok f2 ->
  OffModel.kA_char_func vol inl outl kA td c1 c2 = Ok r ->
  (d_kA_char (OffModel.om i) (OffModel.oh i) (OffModel.oh o) kA f1 f2 td <-> r == 0).
Proof.
  intros vol inl outl i o c1 c2 x1 x2 f1 f2 kA td r I O X1 X2 F1 F2 E. unfold OffModel.kA_char_func in E. rewrite X1 in E. cbn [rbind OffModel.as_num] in E. rewrite X2 in E. cbn [rbind OffModel.as_num] in E.
  rewrite F1 in E. cbn [rbind] in E. rewrite F2 in E. cbn [rbind] in E. unfold OffModel.kA_factor, OffModel.fdiv in E.
  destruct (Qeq_bool f1 0); [discriminate|]. cbn [rbind] in E. destruct (Qeq_bool f2 0); [discriminate|]. cbn [rbind] in E. destruct (Qeq_bool (1 / f1 + 1 / f2) 0); [discriminate|]. cbn [rbind] in E.
  unfold OffModel.at_port in E. rewrite I, O in E. cbn [rbind] in E. injection E as <-. apply zq. ring.
Qed.

(* busses *)
Lemma bus_printed : forall c e v, bus_func_doc c e = Ok v -> v == BusModel.bus_func c e.
Proof.
  intros c e v. destruct c as [[] m hi ho|m1 hi1 ho1 m2 hi2 ho2|m hi ho|]; cbn; intros E; try discriminate; injection E as <-; unfold d_bus_flow, d_bus_engine, BusModel.flow_val; ring.
Qed.
Lemma bus_value_printed : forall b e v eta,
  BusModel.calc_bus_value b e = Ok v -> BusModel.calc_bus_efficiency b e = Ok eta ->
  v == d_bus_value (match BusModel.b_base b with BusModel.BaseBus => true | _ => false end) (BusModel.bus_func (BusModel.b_comp b) e) eta.
Proof.
  intros b e v eta. unfold BusModel.calc_bus_value, BusModel.calc_bus_efficiency. destruct (BusModel.calc_bus_expr b e) as [x|]; cbn [rbind]; [|discriminate].
  intros E F. rewrite F in E. cbn [rbind] in E. destruct (BusModel.b_base b); unfold d_bus_value.
  - injection E as <-. lra.
  - unfold BusModel.qdiv in E. destruct (Qeq_bool eta 0); [discriminate|]. injection E as <-. lra.
Qed.
Lemma bus_rows_sum : forall isv col st rows e vs, Forall2 (fun b v => BusModel.calc_bus_value b e = Ok v) rows vs ->
  forall acc j r j', BusModel.solve_rows isv col st rows e acc j = (r, j', None) -> r == acc - qsum vs.
Proof.
  intros isv col st rows e vs F. induction F as [|b v rows vs H F IH]; intros acc j r j' E; cbn in E.
  - injection E as <- _. cbn. lra.
  - rewrite H in E. destruct (BusModel.bus_deriv isv col st b e j) as [j1 [x|]]; [discriminate|]. apply IH in E. rewrite E. cbn. unfold qsum. lra.
Qed.
(** The value of a component on a bus as printed: its expression and its efficiency *)
Definition printed_value (e : BusModel.env) (b : BusModel.brow) (v : Q) : Prop :=
  exists E eta, bus_func_doc (BusModel.b_comp b) e = Ok E /\ BusModel.calc_bus_efficiency b e = Ok eta
    /\ v = d_bus_value (match BusModel.b_base b with BusModel.BaseBus => true | _ => false end) E eta.
Lemma rows_printed : forall isv col st rows e vs, Forall2 (printed_value e) rows vs ->
  forall acc j r j', BusModel.solve_rows isv col st rows e acc j = (r, j', None) -> r == acc - qsum vs.
Proof.
  intros isv col st rows e vs F. induction F as [|b v rows vs H F IH]; intros acc j r j' E; cbn in E.
  - injection E as <- _. cbn. lra.
  - destruct (BusModel.calc_bus_value b e) as [u|] eqn:U; [|discriminate].
    destruct (BusModel.bus_deriv isv col st b e j) as [j1 [x|]]; [discriminate|]. apply IH in E. rewrite E.
    destruct H as (E0 & eta & A & B & ->). rewrite (bus_value_printed _ _ _ _ U B). apply bus_printed in A.
    cbn [qsum fold_right]. unfold qsum. cbn [fold_right]. unfold d_bus_value. destruct (BusModel.b_base b); rewrite A; lra.
Qed.
Lemma bus_equation_printed : forall isv col st n P rows e j vs r j' j'',
  Forall2 (printed_value e) rows vs -> BusModel.solve_bus isv col st n P rows e j = (Ok (r, j'), j'') ->
  (d_bus_sum P vs <-> r == 0).
Proof.
  intros isv col st n P rows e j vs r j' j'' F E. unfold BusModel.solve_bus, BusModel.bus_solve in E.
  destruct (BusModel.solve_rows isv col st rows e P j) as [[r0 j0] [x|]] eqn:S; [discriminate|].
  destruct (forallb _ j0); [|discriminate]. injection E as <- _ _. apply zq. rewrite (rows_printed _ _ _ _ _ _ F _ _ _ _ S). lra.
Qed.

(* the report of busses *)
Lemma document_bus_ok : forall include rows e, rows <> [] -> Forall (fun b => BusModel.b_comp b <> BusModel.CNone) rows ->
  exists l, document_bus include rows e = Ok l /\ Forall2 (fun b v => v == BusModel.bus_func (BusModel.b_comp b) e) rows l.
Proof.
  intros include rows e N F.
  assert (X : exists l, rmapM (fun b => bus_func_doc (BusModel.b_comp b) e) rows = Ok l /\ Forall2 (fun b v => v == BusModel.bus_func (BusModel.b_comp b) e) rows l).
  { clear N. induction F as [|b rows H F (l & IH & FL)]; [exists []; split; [reflexivity|constructor]|].
    destruct (bus_func_doc (BusModel.b_comp b) e) as [v|] eqn:B.
    - exists (v :: l). cbn. rewrite B. cbn. rewrite IH. cbn. split; [reflexivity|]. constructor; [now apply bus_printed|exact FL].
    - exfalso. apply H. destruct (BusModel.b_comp b) as [[]| | |]; cbn in B; try discriminate. reflexivity. }
  destruct X as (l & X & FL). exists l. unfold document_bus. rewrite X. cbn. destruct rows; [contradiction|]. auto.
Qed.
Lemma document_bus_none : forall include rows e, Exists (fun b => BusModel.b_comp b = BusModel.CNone) rows ->
  document_bus include rows e = Err AttributeError.
Proof.
  intros include rows e H. unfold document_bus.
  assert (X : rmapM (fun b => bus_func_doc (BusModel.b_comp b) e) rows = Err AttributeError).
  { induction H as [b rows E|b rows H IH]; cbn.
    - rewrite E. reflexivity.
    - rewrite IH. destruct (bus_func_doc (BusModel.b_comp b) e) as [v|x] eqn:B; cbn; [reflexivity|].
      destruct (BusModel.b_comp b) as [[]| | |]; cbn in B; try discriminate. injection B as <-. reflexivity. }
  rewrite X. reflexivity.
Qed.
Lemma document_bus_empty : forall e, document_bus true [] e = Err KeyError /\ document_bus false [] e = Ok [].
Proof. intros. split; reflexivity. Qed.

(* air ratio; rich combustion *)
Definition d_M : dict Q := [("CH4", 16); ("O2", 32); ("CO2", 44); ("H2O", 18)]%string.
(** methane, [air] mass flow of oxygen, complete or not *)
Definition d_ch (air : Q) (xo : dict Q) (mo l : Q) : chamber :=
  {| c_in1 := {| s_m := air; s_x := [("CH4", 0); ("O2", 1); ("CO2", 0); ("H2O", 0)]%string |};
     c_in2 := {| s_m := 16; s_x := [("CH4", 1); ("O2", 0); ("CO2", 0); ("H2O", 0)]%string |};
     c_out := {| s_m := mo; s_x := xo |};
     c_fuels := [{| f_name := "CH4"; f_C := 1; f_H := 4; f_LHV := 50 |}]; c_M := d_M;
     c_lamb_set := false; c_lamb := l |}.
Lemma lambda_false : exists ch f n o, c_fuels ch = [f] /\ fuel_moles ch (f_name f) = Ok n /\ fuel_moles ch "O2" = Ok o
  /\ 0 < n /\ 0 < o /\ (exists r, lambda_func ch = Ok r /\ r == 0) /\ ~ d_lambda n o (f_C f) (f_H f) (c_lamb ch).
Proof.
  exists (d_ch 128 [] 144 2), {| f_name := "CH4"; f_C := 1; f_H := 4; f_LHV := 50 |}, (0 + (128 * 0 / 16) + 16 * 1 / 16), (0 + (128 * 1 / 32) + 16 * 0 / 32).
  repeat split; try reflexivity.
  - eexists. split; [vm_compute; reflexivity|reflexivity].
  - unfold d_lambda, c_lamb, d_ch. cbn [f_C f_H]. intros H. compute in H. discriminate.
Qed.
(** With one fuel: printed and solved agree where the molar flows of fuel and oxygen do *)
Lemma lambda_equal_flows : forall ch f n o r, c_fuels ch = [f] -> fuel_moles ch (f_name f) = Ok n -> fuel_moles ch "O2" = Ok o ->
  0 < n -> o == n -> lambda_func ch = Ok r -> (d_lambda n o (f_C f) (f_H f) (c_lamb ch) <-> r == 0).
Proof.
  intros ch f n o r F N O P E L. unfold lambda_func, calc_lambda in L. rewrite F, O in L. unfold fuel_moles in N.
  cbn [fuel_sums] in L. destruct (amount ch (c_in1 ch) (f_name f)) as [a|]; [|discriminate]. cbn [rbind] in N, L.
  destruct (amount ch (c_in2 ch) (f_name f)) as [b|]; [|discriminate]. cbn [rbind] in N, L. injection N as N.
  unfold qdiv in L.
  set (st := (0 + a * f_H f + b * f_H f) / 4 + (0 + a * f_C f + b * f_C f)) in *.
  destruct (Qeq_bool st 0) eqn:Z; [discriminate|]. apply Qeq_bool_neq in Z. cbn in L. injection L as <-.
  assert (S : st == n * (f_C f + (1#4) * f_H f)) by (unfold st; rewrite <- N; field).
  assert (NZ : ~ n == 0) by lra.
  apply zq. rewrite S, E. reflexivity.
Qed.
Lemma rich_false : exists ch f dm M nH nC nf, fuel_sums ch (c_fuels ch) 0 0 = Ok (nH, nC) /\ fuel_moles ch f = Ok nf
  /\ delta ch f dm M /\ (exists r l, stoichiometry ch f = Ok (r, l) /\ r == 0) /\ ~ d_stoich ch f dm M nH nC nf.
Proof.
  pose (xo := [("CH4", 1); ("O2", 0); ("CO2", 0); ("H2O", 0)]%string : dict Q).
  exists (d_ch 32 xo 48 0), "CO2"%string, 0, 44, (0 + 32 * 0 / 16 * 4 + 16 * 1 / 16 * 4), (0 + 32 * 0 / 16 * 1 + 16 * 1 / 16 * 1), (0 + 32 * 0 / 44 + 16 * 0 / 44).
  split; [reflexivity|]. split; [reflexivity|]. split.
  { exists 0, 0, 0. repeat split. }
  split.
  - eexists _, _. split; [vm_compute; reflexivity|reflexivity].
  - unfold d_stoich. cbn [String.eqb Ascii.eqb Bool.eqb]. intros H. compute in H. discriminate.
Qed.
(** A pump and a fuel cell on a bus with efficiency 9/10 *)
Definition w_row (c : BusModel.bcomp) : BusModel.brow :=
  {| BusModel.b_comp := c; BusModel.b_base := BusModel.BaseComponent; BusModel.b_char := BusModel.char_of_number (9 # 10); BusModel.b_pref := None |}.
Definition w_state (k : nat) : Q := match k with 2%nat => 5 | _ => 2 end.
Lemma component_false : exists rows e vs,
  Forall2 (fun b v => BusModel.calc_bus_value b e = Ok v) rows vs /\ Exists (fun v => ~ v == 0) vs
  /\ document_bus true rows e = Err AttributeError.
Proof.
  exists [w_row (BusModel.CFlow false 0 1 2); w_row BusModel.CNone], w_state. eexists. split; [|split].
  - constructor; [vm_compute; reflexivity|]. constructor; [vm_compute; reflexivity|]. constructor.
  - apply Exists_cons_hd. discriminate.
  - reflexivity.
Qed.
