(** Lemmas about the checks after a calculation, and witnesses. *)
From Coq Require Import Lqa Sorting.Sorted.
From Verif Require Import CharModel CharSpec CharProofs CharMapProofs OffModel OffSpec OffData OffProofs.
Open Scope Q_scope.

(* ---- unknown parameters, zero flow, char_params ---- *)
Lemma unknown_rejected vol isen inl outl eta_d c : ~ known (ch_param c) ->
  turbine_eta_s_char vol isen inl outl eta_d c = Err ValueError /\
  pump_eta_s_char vol isen inl outl eta_d c = Err ValueError /\
  dp_char_func vol inl outl c = Err ValueError.
Proof.
  intros K. split; [|split].
  - unfold turbine_eta_s_char. rewrite (expr_unknown_rel vol inl outl (ch_param c) default_params eq_refl K). reflexivity.
  - unfold pump_eta_s_char. destruct (string_dec (ctype (ch_params c)) "rel") as [T|T];
      [rewrite (expr_unknown_rel vol _ _ _ _ T K)|rewrite (expr_unknown_abs vol _ _ _ _ T K)]; reflexivity.
  - unfold dp_char_func. destruct (string_dec (ctype (ch_params c)) "rel") as [T|T];
      [rewrite (expr_unknown_rel vol _ _ _ _ T K)|rewrite (expr_unknown_abs vol _ _ _ _ T K)]; reflexivity.
Qed.
(** The pump of component.py with the default char_params of flow_char (pump.py 187). *)
Definition w_port : port := {| om := 2; op := 100; oh := 10; omd := 4; opd := 100; ovd := 8 |}.
Definition w_out : port := {| om := 2; op := 80; oh := 4; omd := 4; opd := 80; ovd := 8 |}.
Definition w_line : charline := pts_line [(0, 5); (1, 10); (2, 20)] false.
Definition abs_params : cparams := {| ctype := "abs"; cin := 0; cout := 0 |}.
Lemma unknown_flow : exists vol inl outl c r, ~ known (ch_param c) /\ flow_char_func vol inl outl c = Ok r.
Proof.
  exists (fun _ _ => 1), [w_port], [w_out], {| ch := w_line; ch_param := "volume"; ch_params := abs_params |}. eexists.
  split; [cbn; intuition discriminate|vm_compute; reflexivity].
Qed.
Lemma zero_rejected : exists vol isen inl outl eta_d c x f, known (ch_param c) /\ get_char_expr vol inl outl (ch_param c) (ch_params c) = Ok (Some x) /\
  cl_evaluate (ch c) x = Ok f /\ pump_eta_s_char vol isen inl outl eta_d c = Err ValueError.
Proof.
  exists (fun _ _ => 1), (fun _ _ _ => 6), [{| om := 0; op := 80; oh := 4; omd := 4; opd := 80; ovd := 8 |}], [w_port], (8 # 10), {| ch := w_line; ch_param := "m"; ch_params := default_params |}.
  do 2 eexists. split; [cbn; auto|]. split; [vm_compute; reflexivity|]. split; [vm_compute; reflexivity|]. vm_compute. reflexivity.
Qed.
(** A turbine whose characteristic is given over the absolute mass flow. *)
Lemma turbine_params : exists vol isen inl outl i o eta_d c x f r, nth_error inl 0 = Some i /\ nth_error outl 0 = Some o /\
  get_char_expr vol inl outl (ch_param c) (ch_params c) = Ok (Some x) /\ ~ x == 0 /\ cl_evaluate (ch c) x = Ok f /\
  turbine_eta_s_char vol isen inl outl eta_d c = Ok r /\
  oh i - oh o == eta_d * f * (oh i - isen (op i) (oh i) (op o)) /\ ~ r == 0.
Proof.
  exists (fun _ _ => 1), (fun _ _ _ => 3), [w_port], [{| om := 2; op := 80; oh := 3; omd := 4; opd := 80; ovd := 8 |}], w_port, {| om := 2; op := 80; oh := 3; omd := 4; opd := 80; ovd := 8 |}, (1 # 20), {| ch := w_line; ch_param := "m"; ch_params := abs_params |}.
  do 3 eexists. split; [reflexivity|]. split; [reflexivity|]. split; [vm_compute; reflexivity|]. split; [vm_compute; discriminate|]. split; [vm_compute; reflexivity|].
  split; [vm_compute; reflexivity|]. split; vm_compute; [reflexivity|discriminate].
Qed.
Lemma zero_division : exists vol inl outl kA_d td c1 c2, CharLine_new (cl_x (ch c1)) (cl_y (ch c1)) false = Ok (ch c1) /\ increasing (cl_x (ch c1)) /\
  (forall v, In v (cl_y (ch c1)) -> 0 <= v) /\ ch c2 = ch c1 /\ kA_char_func vol inl outl kA_d td c1 c2 = Err ZeroDivisionError.
Proof.
  set (c := {| ch := pts_line [(0, 0); (1, 1)] false; ch_param := "m"; ch_params := default_params |}).
  exists (fun _ _ => 1), [{| om := 0; op := 80; oh := 4; omd := 4; opd := 80; ovd := 8 |}], [w_port], 5, 10, c, c.
  split; [reflexivity|]. split; [apply increasing_dec_ok; reflexivity|]. split; [intros v [<-|[<-|[]]]; discriminate|]. split; [reflexivity|vm_compute; reflexivity].
Qed.

(* ---- limits of parameters ---- *)
Definition prop_out (d : pdata) : Prop := match d with PProp (Some v) lo hi => hi + ERR < v \/ v < lo - ERR | _ => False end.
Lemma In_app_res (w w' : list warning) a : In a (w ++ w')%list <-> In a w \/ In a w'.
Proof. apply in_app_iff. Qed.
Lemma line_domain_kind c x ws p : line_domain c x = Ok ws -> ~ In (Above p) ws /\ ~ In (Below p) ws.
Proof.
  unfold line_domain. destruct (pyidx (cl_x c) (-1)) as [hi|e]; [|discriminate]. cbn [rbind]. destruct (negb (Qle_bool x hi)).
  { intros H. injection H as <-. split; intros [H|[]]; discriminate. }
  destruct (pyidx (cl_x c) 0) as [lo|e]; [|discriminate]. cbn [rbind]. destruct (negb (Qle_bool lo x)); [|intros H; injection H as <-; split; intros []].
  destruct (pyidx (cl_x c) 1) as [m|e]; [|discriminate]. intros H. injection H as <-. split; intros [H|[]]; discriminate.
Qed.
Lemma check_char_kind vol inl outl c ws p : check_char vol inl outl c = Ok ws -> ~ In (Above p) ws /\ ~ In (Below p) ws.
Proof. unfold check_char. destruct (get_char_expr vol inl outl (ch_param c) (ch_params c)) as [e|e]; [|discriminate]. cbn [rbind]. apply line_domain_kind. Qed.
Lemma check_group_kind vol inl outl ps p : forall es ws, check_group vol inl outl ps es = Ok ws -> ~ In (Above p) ws /\ ~ In (Below p) ws.
Proof.
  induction es as [|e es IH]; intros ws H; cbn [check_group] in H; [injection H as <-; split; intros []|].
  destruct (rbind (get_char ps e) (check_char vol inl outl)) as [w|] eqn:C; [|discriminate]. cbn [rbind] in H. destruct (check_group vol inl outl ps es) as [w'|] eqn:G; [|discriminate].
  cbn [rmap] in H. injection H as <-. destruct (IH w' eq_refl) as (I1 & I2). destruct (get_char ps e) as [c|]; [|discriminate]. cbn [rbind] in C. destruct (check_char_kind _ _ _ _ _ p C) as (J1 & J2).
  split; intros X; apply in_app_iff in X; tauto.
Qed.
Lemma check_one_kind vol inl outl ps q d ws p : check_one vol inl outl ps q d = Ok ws ->
  (In (Above p) ws <-> p = q /\ exists v lo hi, d = PProp (Some v) lo hi /\ hi + ERR < v) /\
  (In (Below p) ws <-> p = q /\ exists v lo hi, d = PProp (Some v) lo hi /\ v < lo - ERR /\ v <= hi + ERR).
Proof.
  assert (NONE : forall ws, ~ In (Above p) ws /\ ~ In (Below p) ws -> (forall v lo hi, d = PProp (Some v) lo hi -> v <= hi + ERR /\ lo - ERR <= v) ->
    (In (Above p) ws <-> p = q /\ exists v lo hi, d = PProp (Some v) lo hi /\ hi + ERR < v) /\
    (In (Below p) ws <-> p = q /\ exists v lo hi, d = PProp (Some v) lo hi /\ v < lo - ERR /\ v <= hi + ERR)).
  { intros w (N1 & N2) F. split; (split; [tauto|]); [intros (-> & v & lo & hi & D & X)|intros (-> & v & lo & hi & D & X & _)]; destruct (F v lo hi D); exfalso; lra. }
  destruct d as [[v|] lo hi|b c|b es|]; cbn [check_one]; intros H.
  - destruct (Qle_bool v (hi + ERR)) eqn:A; cbn [negb] in H.
    + apply Qle_bool_iff in A. destruct (Qle_bool (lo - ERR) v) eqn:B; cbn [negb] in H; injection H as <-.
      * apply Qle_bool_iff in B. apply NONE; [split; intros []|]. intros v' lo' hi' D. injection D as <- <- <-. auto.
      * apply Qle_bool_false in B. split.
        -- split; [intros [X|[]]; discriminate|]. intros (_ & v' & lo' & hi' & D & X). injection D as <- <- <-. exfalso. lra.
        -- split; [intros [X|[]]; injection X as <-; split; [reflexivity|]; exists v, lo, hi; auto|]. intros (-> & _). now left.
    + apply Qle_bool_false in A. injection H as <-. split.
      * split; [intros [X|[]]; injection X as <-; split; [reflexivity|]; exists v, lo, hi; auto|]. intros (-> & _). now left.
      * split; [intros [X|[]]; discriminate|]. intros (_ & v' & lo' & hi' & D & X & Y). injection D as <- <- <-. exfalso. lra.
  - injection H as <-. apply NONE; [split; intros []|]. intros; discriminate.
  - apply NONE; [|intros; discriminate]. destruct b; [exact (check_char_kind _ _ _ _ _ p H)|injection H as <-; split; intros []].
  - apply NONE; [|intros; discriminate]. destruct b; [exact (check_group_kind _ _ _ _ p _ _ H)|injection H as <-; split; intros []].
  - injection H as <-. apply NONE; [split; intros []|]. intros; discriminate.
Qed.
Lemma check_all_kind vol inl outl ps p : forall l ws, check_all vol inl outl ps l = Ok ws ->
  (In (Above p) ws <-> exists v lo hi, In (p, PProp (Some v) lo hi) l /\ hi + ERR < v) /\
  (In (Below p) ws <-> exists v lo hi, In (p, PProp (Some v) lo hi) l /\ v < lo - ERR /\ v <= hi + ERR).
Proof.
  induction l as [|(q, d) l IH]; intros ws H; cbn [check_all] in H.
  { injection H as <-. split; (split; [intros []|intros (v & lo & hi & [] & _)]). }
  destruct (check_one vol inl outl ps q d) as [w|] eqn:C; [|discriminate]. cbn [rbind] in H. destruct (check_all vol inl outl ps l) as [w'|] eqn:A; [|discriminate].
  cbn [rmap] in H. injection H as <-. destruct (IH w' eq_refl) as (I1 & I2). destruct (check_one_kind _ _ _ _ _ _ _ p C) as (J1 & J2). rewrite !in_app_iff, I1, I2, J1, J2. split; split.
  - intros [(-> & v & lo & hi & -> & X)|(v & lo & hi & X & Y)]; exists v, lo, hi; (split; [|assumption]); [now left|now right].
  - intros (v & lo & hi & [X|X] & Y); [left; injection X as -> ->; split; [reflexivity|]; exists v, lo, hi; auto|right; exists v, lo, hi; auto].
  - intros [(-> & v & lo & hi & -> & X)|(v & lo & hi & X & Y)]; exists v, lo, hi; (split; [|assumption]); [now left|now right].
  - intros (v & lo & hi & [X|X] & Y); [left; injection X as -> ->; split; [reflexivity|]; exists v, lo, hi; auto|right; exists v, lo, hi; auto].
Qed.
(** A value outside of its limits, and only such a value, is reported. *)
Lemma bounds_reported vol inl outl ps ws p : check_parameter_bounds vol inl outl ps = Ok ws ->
  (forall v lo hi, In (p, PProp (Some v) lo hi) ps -> lo <= hi) ->
  (In (Above p) ws <-> exists v lo hi, In (p, PProp (Some v) lo hi) ps /\ hi + ERR < v) /\
  (In (Below p) ws <-> exists v lo hi, In (p, PProp (Some v) lo hi) ps /\ v < lo - ERR).
Proof.
  intros H L. destruct (check_all_kind _ _ _ _ p _ _ H) as (A & B). split; [exact A|]. rewrite B. split; intros (v & lo & hi & X & Y); exists v, lo, hi; (split; [exact X|]); [tauto|].
  split; [exact Y|]. specialize (L _ _ _ X). assert (0 < ERR) by reflexivity. lra.
Qed.
(** Components without characteristics in use are always checked to the end. *)
Lemma bounds_total vol inl outl ps : (forall p d, In (p, d) ps -> match d with PChar s _ | PGroup s _ => s = false | _ => True end) ->
  exists ws, check_parameter_bounds vol inl outl ps = Ok ws.
Proof.
  unfold check_parameter_bounds. intros H. enough (G : forall l, incl l ps -> exists ws, check_all vol inl outl ps l = Ok ws) by apply (G ps), incl_refl.
  induction l as [|(q, d) l IH]; intros IN; cbn [check_all]; [eauto|]. destruct IH as (w' & W'); [intros x X; apply IN; now right|].
  specialize (H q d (IN _ (or_introl eq_refl))). assert (O : exists w, check_one vol inl outl ps q d = Ok w).
  { destruct d as [[v|] lo hi|b c|b es|]; cbn [check_one]; try (rewrite H); eauto. destruct (negb (Qle_bool v (hi + ERR))); [eauto|]. destruct (negb (Qle_bool (lo - ERR) v)); eauto. }
  destruct O as (w & O). rewrite O. cbn [rbind]. rewrite W'. cbn [rmap]. eauto.
Qed.

(* ---- ranges of lines ---- *)
Lemma last_idx {A} (l : list A) a : nth_error l (length l - 1) = Some a -> l <> [] -> pyidx l (-1) = Ok a.
Proof.
  intros H N. change (-1)%Z with (- Z.of_nat 1)%Z. apply pyidx_neg; [lia|destruct l; [congruence|cbn; lia]|exact H].
Qed.
Lemma line_range c x lo hi : cl_x c <> [] -> ends_of (cl_x c) lo hi ->
  (within lo hi x -> line_domain c x = Ok []) /\
  (hi < x -> line_domain c x = Ok [RangeAbove hi]) /\
  (lo <= hi -> x < lo -> (2 <= length (cl_x c))%nat -> exists m, line_domain c x = Ok [RangeBelow m] /\ In m (cl_x c)).
Proof.
  intros NE (E1 & E2). apply (last_idx (cl_x c) hi) in E2; [|exact NE]. pose proof (pyidx_nat (cl_x c) 0 lo E1) as F. change (Z.of_nat 0) with 0%Z in F.
  unfold line_domain. rewrite E2, F. cbn [rbind]. split; [|split].
  - intros (A & B). apply Qle_bool_iff in A, B. rewrite B, A. reflexivity.
  - intros A. apply Qle_bool_false in A. rewrite A. reflexivity.
  - intros LH A L. assert (B : Qle_bool x hi = true) by (apply Qle_bool_iff; lra). apply Qle_bool_false in A. rewrite B, A. cbn [negb].
    destruct (nth_error (cl_x c) 1) as [m|] eqn:M; [|apply nth_error_None in M; lia]. pose proof (pyidx_nat _ 1 m M) as G. change (Z.of_nat 1) with 1%Z in G. rewrite G. cbn [rmap].
    exists m. split; [reflexivity|]. eapply nth_error_In; eauto.
Qed.
Lemma line_message : exists c x lo hi m, increasing (cl_x c) /\ ends_of (cl_x c) lo hi /\ x < lo /\ line_domain c x = Ok [RangeBelow m] /\ ~ m == lo.
Proof.
  exists (pts_line [(1, 5); (2, 10); (3, 20)] false), 0, 1, 3, 2. split; [apply increasing_dec_ok; reflexivity|]. split; [split; reflexivity|]. split; [reflexivity|]. split; [vm_compute; reflexivity|discriminate].
Qed.
Lemma line_single : exists c x f, CharLine_new (cl_x c) (cl_y c) false = Ok c /\ cl_evaluate c x = Ok f /\ line_domain c x = Err IndexError.
Proof. exists (pts_line [(1, 5)] false), 0. eexists. split; [reflexivity|]. split; vm_compute; reflexivity. Qed.

(* ---- ranges of maps ---- *)
Lemma row_eq f a b : f == 1 -> length a = length b -> Forall2 Qeq (zipq (fun a b => a + f * (b - a)) a b) b.
Proof.
  intros F. revert b. induction a as [|x a IH]; intros [|y b] L; try discriminate; cbn [zipq]; constructor; [rewrite F; ring|]. apply IH. now injection L.
Qed.
Lemma ends_domain ya y lo hi : increasing ya -> ya <> [] -> ends_of ya lo hi -> (map_domain_y y (Some ya) = Ok [] <-> within lo hi y).
Proof.
  intros I0 NE (E1 & E2). pose proof (last_idx ya hi E2 NE) as G2. pose proof (pyidx_nat ya 0 lo E1) as G1. change (Z.of_nat 0) with 0%Z in G1.
  unfold map_domain_y. rewrite G2, G1. cbn [rbind].
  assert (LN : (0 < length ya)%nat) by (destruct ya; [congruence|cbn; lia]).
  assert (LH : lo <= hi). { apply (increasing_nth_le ya 0 (length ya - 1) lo hi I0 E1 E2). lia. }
  destruct (Nat.eqb_spec (searchsorted ya y) (length ya)) as [A|A]; cbn [andb].
  - assert (hi < y) by (apply (searchsorted_below ya y (length ya - 1) hi E2); lia).
    assert (B : Qeq_bool y hi = false). { destruct (Qeq_bool y hi) eqn:B; [apply Qeq_bool_iff in B; lra|reflexivity]. } rewrite B. cbn [negb]. split; [discriminate|]. intros (_ & X). lra.
  - assert (YH : y <= hi).
    { destruct (Qlt_le_dec hi y) as [L|L]; [|exact L]. exfalso. pose proof (searchsorted_le_length ya y). assert (SL : (searchsorted ya y < length ya)%nat) by lia.
      destruct (nth_error ya (searchsorted ya y)) as [a|] eqn:Na; [|apply nth_error_None in Na; lia]. apply searchsorted_at in Na as AX.
      assert (a <= hi) by (apply (increasing_nth_le ya (searchsorted ya y) (length ya - 1) a hi I0 Na E2); lia). lra. }
    destruct (Nat.eqb_spec (searchsorted ya y) 0) as [Z|Z]; cbn [andb].
    + assert (YL : y <= lo). { apply (searchsorted_at ya y). rewrite Z. exact E1. }
      destruct (Qeq_bool y lo) eqn:B; cbn [negb]; (split; [|]).
      * intros _. apply Qeq_bool_iff in B. split; lra.
      * reflexivity.
      * discriminate.
      * intros (X & _). exfalso. apply Qeq_bool_neq in B. apply B. lra.
    + split; [|reflexivity]. intros _. split; [|exact YH]. assert (lo < y) by (apply (searchsorted_below ya y 0 lo E1); lia). lra.
Qed.

Lemma domain_x c x lo hi : cm_ok c -> (2 <= length (cm_x c))%nat -> ends_of (cm_x c) lo hi ->
  exists w a, map_domain_x c x = Ok (w, Some a) /\ (w = [] <-> within lo hi x) /\ (within lo hi x -> exists l, a = Fresh l) /\
    exists ya za, speedline c x ya za /\ Forall2 Qeq (deref (cm_y c) a) ya.
Proof.
  intros OK L2 (E1 & E2). pose proof OK as [Hne Hx Hy Hz (n & Hn & Wy & Wz) HR]. unfold map_domain_x.
  pose proof (last_idx (cm_x c) hi E2 Hne) as G2. pose proof (pyidx_nat (cm_x c) 0 lo E1) as G1. change (Z.of_nat 0) with 0%Z in G1. rewrite G2, G1. cbn [rbind].
  assert (LH : lo < hi) by (apply (increasing_nth (cm_x c) 0 (length (cm_x c) - 1) lo hi Hx E1 E2); lia).
  pose proof (searchsorted_le_length (cm_x c) x) as SL. remember (searchsorted (cm_x c) x) as k eqn:Ek.
  destruct (nth_error_lt (cm_y c) 0) as (y0 & Hy0); [lia|]. destruct (nth_error_lt (cm_z c) 0) as (z0 & Hz0); [lia|].
  destruct (nth_error_lt (cm_y c) (length (cm_x c) - 1)) as (yn & Hyn); [lia|]. destruct (nth_error_lt (cm_z c) (length (cm_x c) - 1)) as (zn & Hzn); [lia|].
  destruct (Nat.eqb_spec k (length (cm_x c))) as [A|A]; cbn [andb].
  - assert (XH : hi < x) by (apply (searchsorted_below (cm_x c) x (length (cm_x c) - 1) hi E2); lia).
    assert (B : Qeq_bool x hi = false). { destruct (Qeq_bool x hi) eqn:B; [apply Qeq_bool_iff in B; lra|reflexivity]. } rewrite B. cbn [negb].
    exists [RangeAbove hi], (View (k - 1)). split; [reflexivity|]. split; [split; [discriminate|intros (_ & X); lra]|]. split; [intros (_ & X); lra|].
    exists yn, zn. split; [eapply sl_above; eauto|]. cbn [deref]. rewrite A, (nth_error_nth _ _ _ Hyn). apply Forall2_Qeq_refl.
  - assert (XH : x <= hi).
    { destruct (Qlt_le_dec hi x) as [L|L]; [|exact L]. exfalso. destruct (nth_error_lt (cm_x c) k) as (a & Na); [lia|]. assert (x <= a) by (apply (searchsorted_at (cm_x c) x); rewrite <- Ek; exact Na).
      assert (a <= hi) by (apply (increasing_nth_le (cm_x c) k (length (cm_x c) - 1) a hi Hx Na E2); lia). lra. }
    destruct (Nat.eqb_spec k 0) as [Z|Z]; cbn [andb].
    + assert (XL : x <= lo). { apply (searchsorted_at (cm_x c) x). rewrite <- Ek, Z. exact E1. }
      destruct (Qeq_bool x lo) eqn:B; cbn [negb].
      * apply Qeq_bool_iff in B. rewrite Z. change (Z.of_nat 0 - 1)%Z with (-1)%Z. change (Z.of_nat 0) with 0%Z. rewrite G2, G1. cbn [rbind].
        assert (Hyn' : nth_error (cm_y c) (length (cm_y c) - 1) = Some yn) by (rewrite Hy; exact Hyn).
        rewrite (last_idx (cm_y c) yn Hyn') by (intros Q0; rewrite Q0 in Hy; cbn in Hy; lia). cbn [rbind].
        pose proof (pyidx_nat (cm_y c) 0 y0 Hy0) as G3. change (Z.of_nat 0) with 0%Z in G3. rewrite G3. cbn [rbind].
        destruct (Qeq_bool (lo - hi) 0) eqn:D; [apply Qeq_bool_iff in D; lra|].
        do 2 eexists. split; [reflexivity|]. split; [split; [intros _; split; lra|reflexivity]|]. split; [eauto|].
        exists y0, z0. split; [eapply sl_below; eauto|]. cbn [deref]. apply row_eq; [rewrite B; field; lra|].
        rewrite (Wy yn) by (eapply nth_error_In; eauto). rewrite (Wy y0) by (eapply nth_error_In; eauto). reflexivity.
      * apply Qeq_bool_neq in B. exists [RangeBelow lo], (View 0). split; [reflexivity|]. assert (NW : ~ within lo hi x) by (intros (X & _); apply B; lra).
        split; [split; [discriminate|tauto]|]. split; [tauto|]. exists y0, z0. split; [eapply sl_below; eauto|]. cbn [deref]. rewrite (nth_error_nth _ _ _ Hy0). apply Forall2_Qeq_refl.
    + destruct k as [|i]; [lia|]. destruct (nth_error_lt (cm_x c) i) as (x0 & Hx0); [lia|]. destruct (nth_error_lt (cm_x c) (S i)) as (x1 & Hx1); [lia|].
      destruct (nth_error_lt (cm_y c) i) as (ya & Hya); [lia|]. destruct (nth_error_lt (cm_y c) (S i)) as (yb & Hyb); [lia|].
      destruct (nth_error_lt (cm_z c) i) as (za & Hza); [lia|]. destruct (nth_error_lt (cm_z c) (S i)) as (zb & Hzb); [lia|].
      replace (Z.of_nat (S i) - 1)%Z with (Z.of_nat i) by lia. rewrite (pyidx_nat _ _ _ Hx0), (pyidx_nat _ _ _ Hx1), (pyidx_nat _ _ _ Hya), (pyidx_nat _ _ _ Hyb). cbn [rbind].
      assert (Hlt : x0 < x1) by (eapply (increasing_nth (cm_x c) i (S i)); eauto). destruct (Qeq_bool (x1 - x0) 0) eqn:EQ; [apply Qeq_bool_iff in EQ; lra|].
      assert (X0 : x0 < x) by (apply (searchsorted_below (cm_x c) x i); [auto|lia]). assert (lo <= x0) by (apply (increasing_nth_le (cm_x c) 0 i lo x0 Hx E1 Hx0); lia).
      do 2 eexists. split; [reflexivity|]. split; [split; [intros _; split; lra|reflexivity]|]. split; [eauto|].
      exists (row_mix ((x - x0) / (x1 - x0)) ya yb), (row_mix ((x - x0) / (x1 - x0)) za zb). split; [|apply Forall2_Qeq_refl].
      eapply sl_between; eauto. apply (searchsorted_at (cm_x c) x). rewrite <- Ek. exact Hx1.
Qed.

Lemma scaled_increasing k l : 0 < k -> increasing l -> increasing (map (fun v => v * k) l).
Proof.
  intros K I0. unfold increasing in *. induction I0 as [|a l S0 IH F]; cbn [map]; constructor; [exact IH|]. rewrite Forall_map. eapply Forall_impl; [|exact F].
  intros b B. cbn beta. nra.
Qed.
Lemma Forall2_increasing l l' : Forall2 Qeq l l' -> increasing l' -> increasing l.
Proof.
  unfold increasing. intros F. induction F as [|a b l l' E F IH]; intros I0; [constructor|]. inversion I0 as [|? ? S0 FA]; subst. constructor; [now apply IH|].
  clear -E F FA. induction F as [|c d l l' E' F IH]; [constructor|]. inversion FA; subst. constructor; [lra|now apply IH].
Qed.
Lemma Forall2_nth (l l' : list Q) i b : Forall2 Qeq l l' -> nth_error l' i = Some b -> exists a, nth_error l i = Some a /\ a == b.
Proof. intros F. revert i. induction F as [|x y l l' E F IH]; intros [|i] H; try discriminate; cbn in *; [injection H as <-; eauto|auto]. Qed.

Lemma Forall2_len {A B} (R : A -> B -> Prop) l l' : Forall2 R l l' -> length l = length l'.
Proof. induction 1; cbn; congruence. Qed.

(** A map of several rows, an operating point inside of them: the check leaves the map and
    reports nothing exactly if the flow lies in the scaled row. *)
Lemma check_map_inside c x y igva lo hi : cm_ok c -> (2 <= length (cm_x c))%nat -> ends_of (cm_x c) lo hi -> within lo hi x -> 0 < 1 - igva / 100 ->
  fst (check_map c x y igva) = c /\
  exists ya za a b, speedline c x ya za /\ ends_of ya a b /\
    (snd (check_map c x y igva) = Ok [] <-> within (a * (1 - igva / 100)) (b * (1 - igva / 100)) y).
Proof.
  intros OK L E X K. destruct (domain_x c x lo hi OK L E) as (w & ar & D & W & FR & ya & za & SP & F). destruct (FR X) as (l & ->). assert (w = []) by now apply W. subst w.
  unfold check_map. rewrite D. cbn [scale_inplace deref] in *. split; [destruct c; reflexivity|]. destruct (speedline_shape c x ya za OK SP) as (IY & _ & LY).
  destruct (nth_error_lt ya 0 LY) as (a & A). destruct (nth_error_lt ya (length ya - 1)) as (b & B); [lia|].
  exists ya, za, a, b. split; [exact SP|]. split; [split; auto|]. cbn [snd].
  destruct (Forall2_nth l ya 0 a F A) as (a' & A' & EA). destruct (Forall2_nth l ya _ b F B) as (b' & B' & EB). pose proof (Forall2_len _ _ _ F) as FL.
  set (k := 1 - igva / 100) in *.
  assert (EN : ends_of (map (fun v => v * k) l) (a' * k) (b' * k)).
  { split; [rewrite nth_error_map, A'; reflexivity|]. rewrite map_length, FL, nth_error_map, B'. reflexivity. }
  pose proof (ends_domain (map (fun v => v * k) l) y (a' * k) (b' * k) (scaled_increasing k l K (Forall2_increasing l ya F IY))) as ED.
  assert (NE : map (fun v => v * k) l <> []). { destruct l; [cbn in FL; lia|discriminate]. } specialize (ED NE EN).
  destruct (map_domain_y y (Some (map (fun v => v * k) l))) as [w|e] eqn:M; cbn [rmap app].
  - unfold within in *. rewrite <- EA, <- EB. exact ED.
  - unfold within in *. rewrite <- EA, <- EB. exact ED.
Qed.
Lemma check_map_outside c x y igva lo hi : cm_ok c -> (2 <= length (cm_x c))%nat -> ends_of (cm_x c) lo hi -> ~ within lo hi x -> snd (check_map c x y igva) <> Ok [].
Proof.
  intros OK L E X. destruct (domain_x c x lo hi OK L E) as (w & ar & D & W & _). unfold check_map. rewrite D. destruct (scale_inplace (cm_y c) ar (1 - igva / 100)) as (ty, a').
  cbn [snd]. destruct (map_domain_y y (Some (deref ty a'))) as [w'|e]; cbn [rmap]; [|discriminate]. intros H. apply X, W. injection H as H. now apply app_eq_nil in H.
Qed.
Lemma check_map_changes : exists c x y igva, cm_ok c /\ ~ map_eq c (fst (check_map c x y igva)).
Proof.
  exists wmap, (11 # 10), (3 # 2), 10. split; [apply wmap_ok|]. intros (_ & H & _). vm_compute in H. inversion H as [|? ? ? ? _ H']; subst. inversion H' as [|? ? ? ? H'' _]; subst.
  inversion H'' as [|? ? ? ? H0 _]; subst. vm_compute in H0. discriminate.
Qed.
Lemma check_map_single : exists c x y v, cm_ok c /\ In x (cm_x c) /\ cm_evaluate c x y = Ok v /\ (forall r, In r (cm_y c) -> exists a b, ends_of r a b /\ within a b y) /\ snd (check_map c x y 0) <> Ok [].
Proof.
  exists {| cm_x := [1]; cm_y := [[1; 2]]; cm_z := [[4; 2]] |}, 1, (3 # 2). eexists. split; [|split; [now left|split; [vm_compute; reflexivity|split; [|vm_compute; discriminate]]]].
  - constructor; cbn; try congruence; try lia; [repeat constructor| |intros r [<-|[]]; repeat constructor; reflexivity]. exists 2%nat. split; [lia|]. split; intros r [<-|[]]; reflexivity.
  - intros r [<-|[]]. exists 1, 2. split; [split; reflexivity|split; vm_compute; discriminate].
Qed.
