(** Example networks in two sets of units. *)
From Coq Require Import QArith Qabs Lqa.
From Verif Require Import Base UnitsModel StateModel StateSpec StateWitness StateUnitsSpec StateUnitsProofs.
Open Scope string_scope.
Open Scope list_scope.

Lemma leb_eq a b a' b' : a == a' -> b == b' -> Qle_bool a b = Qle_bool a' b'.
Proof. intros -> ->. reflexivity. Qed.

Lemma water_respectful z : respectful (water z).
Proof.
  unfold respectful, respects1, respects2. cbn [water f_hpT f_hpQ f_psat f_Tsat f_Tph f_Qph f_vph f_sph f_phase].
  repeat split; intros.
  - replace (Qeq_bool y 373) with (Qeq_bool y' 373) by (rewrite H0; reflexivity). rewrite (leb_eq y 373 y' 373) by (auto; reflexivity).
    destruct (Qeq_bool y' 373); [reflexivity|]. destruct (Qle_bool y' 373); unfold agree; rewrite H0; reflexivity.
  - rewrite (leb_eq 0 y 0 y'), (leb_eq y 1 y' 1) by (auto; reflexivity). destruct (Qle_bool 0 y' && Qle_bool y' 1); unfold agree; [rewrite H0; reflexivity|reflexivity].
  - replace (Qeq_bool x 373) with (Qeq_bool y 373) by (rewrite H; reflexivity). destruct (Qeq_bool y 373); reflexivity.
  - rewrite (leb_eq x 22000000 y 22000000) by (auto; reflexivity). destruct (Qle_bool y 22000000); reflexivity.
  - rewrite (leb_eq (y + z) 373000 (y' + z) 373000), (leb_eq (y + z) 2373000 (y' + z) 2373000) by (rewrite ?H0; reflexivity).
    destruct (Qle_bool (y' + z) 373000); [|destruct (Qle_bool (y' + z) 2373000)]; unfold agree; rewrite ?H0; reflexivity.
  - rewrite (leb_eq x 22000000 x' 22000000) by (auto; reflexivity). destruct (Qle_bool x' 22000000); unfold agree; rewrite ?H0; reflexivity.
  - unfold agree. rewrite H0. reflexivity.
  - rewrite (leb_eq x 22000000 x' 22000000), (leb_eq (y + z) 373000 (y' + z) 373000), (leb_eq (y + z) 2373000 (y' + z) 2373000) by (rewrite ?H, ?H0; reflexivity).
    destruct (Qle_bool x' 22000000); reflexivity.
Qed.

Lemma mk_twin u1 u2 f sp1 sp2 st1 st2 off s : respectful f -> keys sp1 = keys sp2 ->
  (forall k, In k fpd_keys -> dmem k sp1 = true -> means_same k (entry_unit u1 k) (entry_unit u2 k) (dget k sp1) (dget k sp2)) ->
  (forall k, In k ["m"; "p"; "h"] -> means_same k (u1 k) (u2 k) (dget k st1) (dget k st2)) ->
  twin u1 u2 (mk f sp1 st1 off s) (mk f sp2 st2 off s).
Proof.
  intros R K A B. constructor; cbn [mk n_fluid n_state n_phase n_good n_known n_off n_solved n_eqs n_c n_r conts k_set k_var k_val k_val0 k_SI no_ref r_set r_conn r_factor r_delta]; auto; try discriminate.
  - intros k. unfold dmem. destruct (dget k sp1) eqn:E; [destruct (keys_some _ _ _ _ K E) as [w ->]; reflexivity|now rewrite (keys_none _ _ _ K E)].
  - intros k. exact I.
Qed.

(** SI units with pressures in bar; a set of other units *)
Definition metric : string -> string := si [].
Definition other : string -> string := si [("p", "psi"); ("T", "F"); ("m", "t / h"); ("h", "kJ / kg")].
Lemma metric_ok : units_ok metric.
Proof. intros k H. repeat (destruct H as [<-|H]; [reflexivity|]). destruct H. Qed.
Lemma other_ok : units_ok other.
Proof. intros k H. repeat (destruct H as [<-|H]; [reflexivity|]). destruct H. Qed.

(** 2 kg/s at 1 bar and 300 K; the second connection is unknown, its mass flow starts at 1 kg/s *)
Definition entered_metric : dict conn :=
  [("1", mk (water 0) [("m", 2); ("p", 1); ("T", 300)] [] [] None); ("2", mk (water 0) [] [("m", 1)] [] None)].
Definition entered_other : dict conn :=
  [("1", mk (water 0) [("m", 72 # 10); ("p", 1000000 # 68948); ("T", 8033 # 100)] [] [] None); ("2", mk (water 0) [] [("m", 36 # 10)] [] None)].

Lemma two_paired (R : conn -> conn -> Prop) a1 b1 a2 b2 : R a1 a2 -> R b1 b2 -> paired R [("1", a1); ("2", b1)] [("1", a2); ("2", b2)].
Proof.
  intros A B. split; [reflexivity|]. intros l c1 c2. cbn. destruct (String.eqb l "1"); [intros X Y; inversion X; inversion Y; subst; auto|].
  destruct (String.eqb l "2"); [intros X Y; inversion X; inversion Y; subst; auto|discriminate].
Qed.
Lemma one_paired (R : conn -> conn -> Prop) a1 a2 : R a1 a2 -> paired R [("1", a1)] [("1", a2)].
Proof.
  intros A. split; [reflexivity|]. intros l c1 c2. cbn. destruct (String.eqb l "1"); [intros X Y; inversion X; inversion Y; subst; auto|discriminate].
Qed.

Ltac value := do 2 eexists; split; [reflexivity|split; [reflexivity|vm_compute; reflexivity]].
Lemma entered_twins : twins metric other entered_metric entered_other.
Proof.
  apply two_paired; apply mk_twin; try apply water_respectful; try reflexivity.
  all: intros k H; repeat (destruct H as [<-|H]; [first [exact I|discriminate|intros; value]|]); destruct H.
Qed.
Lemma entered_plainly : plainly metric other entered_metric entered_other.
Proof.
  apply two_paired; (split; [intros [W|W]; [discriminate W|destruct W]|]).
  - left. left. reflexivity.
  - right. right. left. cbn. discriminate.
Qed.

(** 9 degrees Fahrenheit or 5 K above the boiling temperature *)
Definition boiling (d : Q) (p : Q) : dict conn := [("1", mk (water 0) [("m", 1); ("p", p); ("Td_bp", d)] [] [] None)].
Definition fahrenheit : string -> string := si [("T", "F")].
Lemma fahrenheit_ok : units_ok fahrenheit.
Proof. intros k H. repeat (destruct H as [<-|H]; [reflexivity|]). destruct H. Qed.
Lemma boiling_twins : twins metric fahrenheit (boiling 5 1) (boiling 9 1).
Proof.
  apply one_paired, mk_twin; try apply water_respectful; try reflexivity.
  all: intros k H; repeat (destruct H as [<-|H]; [first [exact I|discriminate|intros; value]|]); destruct H.
Qed.
Lemma boiling_flow l c : dget l (boiling 5 1) = Some c -> flow_alike metric fahrenheit c.
Proof. cbn. destruct (String.eqb l "1"); [|discriminate]. intros H; inversion H; subst. left. left. reflexivity. Qed.

(** nothing is known of the mass flow *)
Definition unknown_flow : dict conn := [("1", mk (water 0) [("p", 1)] [] [] None)].
Definition tons : string -> string := si [("m", "t / h")].
Lemma tons_ok : units_ok tons.
Proof. intros k H. repeat (destruct H as [<-|H]; [reflexivity|]). destruct H. Qed.
Lemma unknown_twins : twins metric tons unknown_flow unknown_flow.
Proof.
  apply one_paired, mk_twin; try apply water_respectful; try reflexivity.
  all: intros k H; repeat (destruct H as [<-|H]; [first [exact I|discriminate|intros; value]|]); destruct H.
Qed.

(** Two outcomes that give different SI values of a property. *)
Definition differ (r1 r2 : res (dict conn)) (k : string) : Prop :=
  exists n1 n2 l c1 c2, r1 = Ok n1 /\ r2 = Ok n2 /\ dget l n1 = Some c1 /\ dget l n2 = Some c2 /\ ~ same (k_SI (n_c c1 k)) (k_SI (n_c c2 k)).
Definition SI_at (r : res (dict conn)) (l k : string) : res num :=
  match r with Ok n => match dget l n with Some c => Ok (option_map Qred (k_SI (n_c c k))) | None => Err KeyError end | Err e => Err e end.
Lemma differ_at r1 r2 l k a b : SI_at r1 l k = Ok (Some a) -> SI_at r2 l k = Ok (Some b) -> ~ a == b -> differ r1 r2 k.
Proof.
  unfold SI_at, differ. destruct r1 as [n1|]; [|discriminate]. destruct r2 as [n2|]; [|discriminate].
  destruct (dget l n1) as [c1|] eqn:D1; [|discriminate]. destruct (dget l n2) as [c2|] eqn:D2; [|discriminate].
  intros A B N. exists n1, n2, l, c1, c2. repeat split; auto.
  destruct (k_SI (n_c c1 k)) as [x|], (k_SI (n_c c2 k)) as [y|]; try discriminate. cbn in A, B. inversion A; inversion B; subst.
  intros S. apply N. cbn in S. now rewrite !Qred_correct.
Qed.

Lemma boiling_differ : differ (solve metric no_guess None (finds 100000 0) (boiling 5 1)) (solve fahrenheit no_guess None (finds 100000 0) (boiling 9 1)) "h".
Proof. apply (differ_at _ _ "1" "h" 2378000 2382000); [vm_compute; reflexivity|vm_compute; reflexivity|discriminate]. Qed.
Lemma unknown_differ : differ (initialise metric no_guess None unknown_flow) (initialise tons no_guess None unknown_flow) "m".
Proof. apply (differ_at _ _ "1" "m" (3 # 2) (5 # 12)); [vm_compute; reflexivity|vm_compute; reflexivity|discriminate]. Qed.
