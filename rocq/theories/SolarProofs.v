(** Lemmas about solar collectors and steam turbines. *)
From Coq Require Import Reals Lra.
From Verif Require Import SolarModel SolarSpec.
Open Scope R_scope.

Lemma sq0 x : 0 <= x ^ 2.
Proof. replace (x ^ 2) with (Rsqr x) by (unfold Rsqr; ring). apply Rle_0_sqr. Qed.
Lemma pow15_bounds x : 0 <= x <= 1 -> 0 <= pow15 x <= 1.
Proof.
  intros (A & B). unfold pow15. destruct (Req_EM_T x 0) as [E|E]; [lra|]. split; [apply Rlt_le, exp_pos|].
  replace 1 with (Rpower 1 (3 / 2)) by (unfold Rpower; rewrite ln_1, Rmult_0_r; apply exp_0). apply Rle_Rpower_l; lra.
Qed.

Lemma collector_balance A E eta lin quad Tamb m h_i h_o T_i T_o :
  collector_eq A E eta lin quad Tamb m h_i h_o T_i T_o = 0 ->
  let dT := (T_i + T_o) / 2 - Tamb in
  heat m h_i h_o = A * E * eta - A * (lin * dT + quad * dT ^ 2) /\
  - collector_loss A E m h_i h_o = A * E * (1 - eta) + A * (lin * dT + quad * dT ^ 2) /\
  (0 <= A -> 0 <= E -> 0 <= eta <= 1 -> 0 <= lin -> 0 <= quad -> 0 <= dT -> collector_loss A E m h_i h_o <= 0 /\ heat m h_i h_o <= A * E).
Proof.
  intros H dT. unfold collector_eq in H. unfold collector_loss, heat. cbv zeta in H. replace (1 / 2 * (T_i + T_o) - Tamb) with dT in H by (unfold dT; field).
  assert (X : m * (h_o - h_i) = A * E * eta - A * (lin * dT + quad * dT ^ 2)) by lra. split; [exact X|]. split; [lra|].
  intros HA HE (E0 & E1) HL HQ HT. assert (Y : 0 <= A * (lin * dT + quad * dT ^ 2)).
  { apply Rmult_le_pos; [exact HA|]. apply Rplus_le_le_0_compat; apply Rmult_le_pos; try assumption. apply sq0. }
  assert (Z : 0 <= A * E * (1 - eta)) by (apply Rmult_le_pos; [apply Rmult_le_pos; assumption|lra]). lra.
Qed.

Lemma trough_balance A E eta doc iam_1 iam_2 aoi c_1 c_2 Tamb m h_i h_o T_i T_o :
  trough_eq A E eta doc iam_1 iam_2 aoi c_1 c_2 Tamb m h_i h_o T_i T_o = 0 ->
  let dT := (T_i + T_o) / 2 - Tamb in
  let k := eta * pow15 doc * (1 - iam_1 * Rabs aoi - iam_2 * aoi ^ 2) in
  heat m h_i h_o = A * E * k - A * (c_1 * dT + c_2 * dT ^ 2) /\
  - trough_loss A E m h_i h_o = A * E * (1 - k) + A * (c_1 * dT + c_2 * dT ^ 2) /\
  (0 <= A -> 0 <= E -> 0 <= eta <= 1 -> 0 <= doc <= 1 -> 0 <= iam_1 -> 0 <= iam_2 -> 0 <= c_1 -> 0 <= c_2 -> 0 <= dT ->
   trough_loss A E m h_i h_o <= 0 /\ heat m h_i h_o <= A * E).
Proof.
  intros H dT k. unfold trough_eq, iam in H. unfold trough_loss, heat. cbv zeta in H. replace (1 / 2 * (T_i + T_o) - Tamb) with dT in H by (unfold dT; field).
  replace (E * eta * pow15 doc * (1 - iam_1 * Rabs aoi - iam_2 * aoi ^ 2)) with (E * k) in H by (unfold k; ring).
  assert (X : m * (h_o - h_i) = A * E * k - A * (c_1 * dT + c_2 * dT ^ 2)) by lra. split; [exact X|]. split; [lra|].
  intros HA HE (E0 & E1) HD I1 I2 HL HQ HT. destruct (pow15_bounds doc HD) as (P0 & P1).
  assert (Y : 0 <= A * (c_1 * dT + c_2 * dT ^ 2)).
  { apply Rmult_le_pos; [exact HA|]. apply Rplus_le_le_0_compat; apply Rmult_le_pos; try assumption. apply sq0. }
  assert (K : k <= 1).
  { unfold k. assert (J1 : 0 <= iam_1 * Rabs aoi) by (apply Rmult_le_pos; [exact I1|apply Rabs_pos]). assert (J2 : 0 <= iam_2 * aoi ^ 2) by (apply Rmult_le_pos; [exact I2|apply sq0]).
    set (j := 1 - iam_1 * Rabs aoi - iam_2 * aoi ^ 2) in *. assert (J : j <= 1) by (unfold j; lra). clearbody j. set (q := eta * pow15 doc).
    assert (Q : 0 <= q <= 1). { unfold q. split; [apply Rmult_le_pos; assumption|]. rewrite <- (Rmult_1_r 1). apply Rmult_le_compat; lra. }
    apply Rle_trans with (q * 1); [apply Rmult_le_compat_l; lra|lra]. }
  assert (Z : 0 <= A * E * (1 - k)) by (apply Rmult_le_pos; [apply Rmult_le_pos; assumption|lra]). lra.
Qed.

Lemma collector_entry A E eta lin quad Tamb h_i h_o T_i T_o m :
  derivable_pt_lim (fun m => collector_eq A E eta lin quad Tamb m h_i h_o T_i T_o) m (collector_m_entry h_i h_o).
Proof.
  unfold collector_eq, collector_m_entry. cbv zeta. set (c := A * _). intros eps He. exists (mkposreal 1 Rlt_0_1). intros h h0 _.
  replace (((m + h) * (h_o - h_i) - c - (m * (h_o - h_i) - c)) / h - (h_o - h_i)) with 0 by (field; exact h0). rewrite Rabs_R0. exact He.
Qed.

(** Colder than the surroundings, no linear losses *)
Lemma cold_collector : exists A E eta lin quad Tamb m h_i h_o T_i T_o, 0 < A /\ 0 <= E /\ 0 <= eta <= 1 /\ 0 <= lin /\ 0 <= quad /\
  T_i < Tamb /\ T_o < Tamb /\ collector_eq A E eta lin quad Tamb m h_i h_o T_i T_o = 0 /\ heat m h_i h_o < A * E * eta.
Proof.
  exists 1, 0, 1, 0, 1, 300, 1, 0, (-100), 290, 290. unfold collector_eq, heat. repeat split; lra.
Qed.
(** Grazing incidence *)
Lemma grazing_trough : exists A E E' eta doc iam_1 iam_2 aoi c_1 c_2 Tamb m h_i h_o h_o' T, 0 < A /\ 0 <= E /\ E < E' /\ 0 <= eta <= 1 /\ 0 <= doc <= 1 /\
  0 <= iam_1 /\ 0 <= iam_2 /\ -90 <= aoi <= 90 /\ 0 <= c_1 /\ 0 <= c_2 /\
  trough_eq A E eta doc iam_1 iam_2 aoi c_1 c_2 Tamb m h_i h_o T T = 0 /\
  trough_eq A E' eta doc iam_1 iam_2 aoi c_1 c_2 Tamb m h_i h_o' T T = 0 /\ heat m h_i h_o' < heat m h_i h_o.
Proof.
  exists 1, 0, 1000, 1, 1, (1 / 50), 0, 90, 0, 0, 300, 1, 0, 0, (-800), 300. unfold trough_eq, heat, iam, pow15.
  destruct (Req_EM_T 1 0) as [X|_]; [lra|]. assert (Y : Rpower 1 (3 / 2) = 1) by (unfold Rpower; rewrite ln_1, Rmult_0_r; apply exp_0). rewrite Y.
  rewrite (Rabs_right 90) by lra. repeat split; lra.
Qed.

(* ---- steam turbines ---- *)
Lemma eta_s_iff f i o eta : his f (pp i) (hh i) (pp o) <> hh i ->
  (eta_s f i o - eta = 0 <-> expands f (pp i) (hh i) (pp o) (hh o) eta).
Proof.
  intros N. unfold eta_s, expands. set (s := his f (pp i) (hh i) (pp o)) in *. clearbody s. split; intros H.
  - assert (E : (hh o - hh i) / (s - hh i) = eta) by lra. assert (X : hh o - hh i = eta * (s - hh i)) by (rewrite <- E; field; lra). lra.
  - assert (X : hh o - hh i = eta * (s - hh i)) by lra. rewrite X. field. lra.
Qed.

Lemma turbine_solution f eta_dry alpha i o : searches f -> his f (pp i) (hh i) (pp o) <> hh i -> eta_s_wet f eta_dry alpha i o = Ok 0 ->
  (ph i = TwoPhase -> expands f (pp i) (hh i) (pp o) (hh o) (eta_dry * (1 - alpha * (((1 - xx i) + (1 - xx o)) / 2)))) /\
  (ph i <> TwoPhase -> ph o = Gas -> expands f (pp i) (hh i) (pp o) (hh o) eta_dry) /\
  (ph i <> TwoPhase -> ph o <> Gas -> exists ps, Rmin (pp i) (pp o) <= ps <= Rmax (pp i) (pp o) /\
     expands f (pp i) (hh i) ps (hvap f ps) eta_dry /\
     expands f ps (hvap f ps) (pp o) (hh o) (eta_dry * (1 - alpha * ((1 - xx o) / 2)))).
Proof.
  intros (S1 & _) N H. unfold eta_s_wet in H. split; [|split].
  - intros E. rewrite E in H. apply eta_s_iff; [exact N|]. assert (X : eta_s f i o - eta_dry * (1 - alpha * (1 - (xx i + xx o) / 2)) = 0) by congruence.
    replace (((1 - xx i) + (1 - xx o)) / 2) with (1 - (xx i + xx o) / 2) by field. exact X.
  - intros E G. rewrite G in H. apply eta_s_iff; [exact N|]. assert (X : forall a, Ok a = Ok 0 -> a = 0) by (intros; congruence). apply X. destruct (ph i); solve [exact H | congruence].
  - intros E G. assert (H' : rmap (fun frac => let psat := pp i - frac * (pp i - pp o) in let hsat := hvap f psat in
            let eta := eta_dry * (1 - alpha * (1 - (1 + xx o) / 2)) in hh o - (hsat - eta * (hsat - his f psat hsat (pp o)))) (brentq f (find_sat f eta_dry i o) 1 0) = Ok 0)
      by (destruct (ph i), (ph o); solve [exact H | congruence]).
    clear H. destruct (brentq f (find_sat f eta_dry i o) 1 0) as [x|] eqn:B; [|discriminate]. cbn [rmap] in H'. destruct (S1 _ _ _ _ B) as (R & I0).
    rewrite Rmin_right, Rmax_left in I0 by lra. exists (pp i - x * (pp i - pp o)). split; [|split].
    + assert (X : pp i - x * (pp i - pp o) = (1 - x) * pp i + x * pp o) by ring. rewrite X. clear - I0. unfold Rmin, Rmax. destruct (Rle_dec (pp i) (pp o)); nra.
    + unfold find_sat in R. unfold expands. lra.
    + unfold expands. assert (X : forall a, Ok a = Ok 0 -> a = 0) by (intros; congruence). apply X in H'. cbv zeta in H'.
      replace (1 - (1 + xx o) / 2) with ((1 - xx o) / 2) in H' by field. lra.
Qed.

Lemma wet_worse f p h p' h' eta_dry alpha y : 0 <= eta_dry -> 0 <= alpha -> 0 <= y -> his f p h p' <= h ->
  expands f p h p' h' (eta_dry * (1 - alpha * y)) -> forall hd, expands f p h p' hd eta_dry -> hd <= h'.
Proof.
  unfold expands. intros A B C D -> hd ->. set (s := his f p h p') in *. clearbody s.
  assert (X : 0 <= eta_dry * (alpha * y) * (h - s)) by (apply Rmult_le_pos; [apply Rmult_le_pos; [exact A|apply Rmult_le_pos; assumption]|lra]). lra.
Qed.

(** A dry expansion that ends on the saturation line *)
Lemma at_saturation f eta_dry alpha i o : searches f -> isentropic_at f -> ph i <> TwoPhase -> ph o <> Gas -> xx o = 1 -> hh o = hvap f (pp o) ->
  his f (pp i) (hh i) (pp o) <> hh i -> eta_s f i o = eta_dry -> eta_s_wet f eta_dry alpha i o = Ok 0.
Proof.
  intros (S1 & _ & S3) I0 E G X V N H. unfold eta_s_wet.
  assert (D : expands f (pp i) (hh i) (pp o) (hh o) eta_dry) by (apply eta_s_iff; [exact N|lra]). unfold expands in D.
  assert (Z : find_sat f eta_dry i o 1 = 0). { unfold find_sat. cbv zeta. replace (pp i - 1 * (pp i - pp o)) with (pp o) by ring. lra. }
  rewrite (S3 _ _ _ Z). cbn [rmap]. cbv zeta. replace (pp i - 1 * (pp i - pp o)) with (pp o) by ring. rewrite I0, <- V, X.
  assert (F : Ok (hh o - (hh o - eta_dry * (1 - alpha * (1 - (1 + 1) / 2)) * (hh o - hh o))) = Ok 0) by (f_equal; ring).
  destruct (ph i); try congruence; destruct (ph o); solve [exact F|congruence].
Qed.

(** Unrecognised phase: nothing crosses the saturation line *)
Lemma not_recognised f eta_dry alpha i o : searches f -> ph i <> TwoPhase -> ph o <> Gas ->
  0 < find_sat f eta_dry i o 1 -> 0 < find_sat f eta_dry i o 0 -> eta_s_wet f eta_dry alpha i o = Err ValueError.
Proof.
  intros (_ & S2 & _) E G A B. unfold eta_s_wet. rewrite S2 by (now apply Rmult_lt_0_compat). destruct (ph i); try congruence; destruct (ph o); try congruence; reflexivity.
Qed.

(** Constant properties: isentropic expansion lowers the enthalpy by the pressure difference *)
Definition w_search (g : R -> R) (a b : R) : res R :=
  if Rlt_dec 0 (g a * g b) then Err ValueError else if Req_EM_T (g a) 0 then Ok a else if Req_EM_T (g b) 0 then Ok b else Err ValueError.
Definition w_steam : steam := {| his := fun p h p' => h - (p - p'); hvap := fun _ => 0; brentq := w_search |}.

Lemma negative_efficiency : exists i o, eta_s_wet w_steam 1 (5 / 2) i o = Ok 0 /\ ph i = TwoPhase /\ ph o = TwoPhase /\ 0 <= xx i <= 1 /\ 0 <= xx o <= 1 /\
  pp o < pp i /\ hh i < hh o.
Proof.
  exists {| pp := 10; hh := 0; ph := TwoPhase; xx := 1 / 2 |}, {| pp := 2; hh := 2; ph := TwoPhase; xx := 1 / 2 |}. unfold eta_s_wet, eta_s. cbn.
  repeat split; try lra. f_equal. field.
Qed.

Lemma w_searches : searches w_steam /\ isentropic_at w_steam.
Proof.
  split; [|intros p h; cbn; lra]. split; [|split]; cbn; unfold w_search.
  - intros g a b x. destruct (Rlt_dec 0 (g a * g b)); [discriminate|]. destruct (Req_EM_T (g a) 0) as [A|A].
    + intros H. assert (a = x) as <- by congruence. split; [exact A|]. split; [apply Rmin_l|apply Rmax_l].
    + destruct (Req_EM_T (g b) 0) as [B|B]; [|discriminate]. intros H. assert (b = x) as <- by congruence. split; [exact B|]. split; [apply Rmin_r|apply Rmax_r].
  - intros g a b H. destruct (Rlt_dec 0 (g a * g b)); [reflexivity|contradiction].
  - intros g a b H. destruct (Rlt_dec 0 (g a * g b)) as [L|L]; [rewrite H in L; lra|]. destruct (Req_EM_T (g a) 0); [reflexivity|contradiction].
Qed.

(** Hot steam far above saturation that expands with the dry efficiency *)
Lemma hot_expansion : exists f i o eta_dry alpha, searches f /\ isentropic_at f /\ 0 < eta_dry <= 1 /\ 0 < pp o < pp i /\
  hvap f (pp o) < hh o /\ hvap f (pp i) < hh i /\ ph i = phase_ph SupercriticalGas /\ ph o = phase_ph SupercriticalGas /\
  expands f (pp i) (hh i) (pp o) (hh o) eta_dry /\ eta_s_wet f eta_dry alpha i o = Err ValueError.
Proof.
  exists w_steam, {| pp := 10; hh := 100; ph := phase_ph SupercriticalGas; xx := -1 |}, {| pp := 2; hh := 92; ph := phase_ph SupercriticalGas; xx := -1 |}, 1, 1.
  destruct w_searches as (A & B). split; [exact A|]. split; [exact B|]. cbn [pp hh ph hvap w_steam]. repeat (split; [solve [lra|reflexivity]|]).
  split; [unfold expands; cbn; lra|]. apply not_recognised; [exact A|discriminate|discriminate| |]; unfold find_sat; cbn; lra.
Qed.

Lemma efficiency_range eta_dry alpha y : 0 <= eta_dry <= 1 -> 0 <= alpha -> 0 <= y -> alpha * y <= 1 -> 0 <= eta_dry * (1 - alpha * y) <= eta_dry.
Proof.
  intros (A & B) C D E. assert (F : 0 <= alpha * y) by (apply Rmult_le_pos; assumption). set (z := alpha * y) in *. clearbody z. split; [apply Rmult_le_pos; lra|].
  rewrite <- (Rmult_1_r eta_dry) at 2. apply Rmult_le_compat_l; lra.
Qed.
(** With a moderate wetness nothing is compressed *)
Lemma moderate_wetness f eta_dry alpha i o : searches f -> his f (pp i) (hh i) (pp o) < hh i -> eta_s_wet f eta_dry alpha i o = Ok 0 ->
  ph i = TwoPhase -> 0 <= eta_dry <= 1 -> 0 <= alpha -> 0 <= xx i <= 1 -> 0 <= xx o <= 1 -> alpha * (1 - (xx i + xx o) / 2) <= 1 ->
  his f (pp i) (hh i) (pp o) <= hh o <= hh i.
Proof.
  intros S0 L H P A B Xi Xo W. destruct (turbine_solution f eta_dry alpha i o S0) as (T & _); [lra|exact H|]. specialize (T P). unfold expands in T.
  replace (((1 - xx i) + (1 - xx o)) / 2) with (1 - (xx i + xx o) / 2) in T by field.
  destruct (efficiency_range eta_dry alpha (1 - (xx i + xx o) / 2) A B) as (E0 & E1); [lra|exact W|].
  set (z := eta_dry * _) in *. clearbody z. set (s := his f _ _ _) in *. clearbody s. rewrite T.
  assert (0 <= z * (hh i - s)) by (apply Rmult_le_pos; lra). assert (0 <= (1 - z) * (hh i - s)) by (apply Rmult_le_pos; lra). lra.
Qed.

(** More irradiation, more heat: modifier not negative *)
Lemma more_sun A E E' eta doc iam_1 iam_2 aoi c_1 c_2 Tamb m h_i h_o h_o' T_i T_o :
  0 <= A -> 0 <= eta -> 0 <= doc <= 1 -> iam_1 * Rabs aoi + iam_2 * aoi ^ 2 <= 1 -> E <= E' ->
  trough_eq A E eta doc iam_1 iam_2 aoi c_1 c_2 Tamb m h_i h_o T_i T_o = 0 ->
  trough_eq A E' eta doc iam_1 iam_2 aoi c_1 c_2 Tamb m h_i h_o' T_i T_o = 0 -> heat m h_i h_o <= heat m h_i h_o'.
Proof.
  intros HA He Hd HI HE H1 H2. destruct (trough_balance _ _ _ _ _ _ _ _ _ _ _ _ _ _ _ H1) as (B1 & _). destruct (trough_balance _ _ _ _ _ _ _ _ _ _ _ _ _ _ _ H2) as (B2 & _).
  rewrite B1, B2. set (k := eta * _ * _) in *. assert (K : 0 <= k). { unfold k. destruct (pow15_bounds doc Hd). apply Rmult_le_pos; [apply Rmult_le_pos; assumption|lra]. }
  clearbody k. assert (A * E * k <= A * E' * k) by (apply Rmult_le_compat_r; [exact K|]; apply Rmult_le_compat_l; assumption). lra.
Qed.
(** Below the ambient temperature heat is gained if the losses are linear *)
Lemma cold_gains A E eta lin Tamb m h_i h_o T_i T_o : 0 <= A -> 0 <= lin -> (T_i + T_o) / 2 <= Tamb ->
  collector_eq A E eta lin 0 Tamb m h_i h_o T_i T_o = 0 -> A * E * eta <= heat m h_i h_o.
Proof.
  intros HA HL HT H. destruct (collector_balance _ _ _ _ _ _ _ _ _ _ _ H) as (B & _). rewrite B. set (d := (T_i + T_o) / 2 - Tamb) in *.
  assert (D : d <= 0) by (unfold d; lra). clearbody d. assert (0 <= A * (lin * - d)) by (apply Rmult_le_pos; [exact HA|apply Rmult_le_pos; [exact HL|lra]]). lra.
Qed.
