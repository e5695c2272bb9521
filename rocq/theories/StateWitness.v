(** Example networks for the properties of specified states: a fluid that boils at
    373 K, networks of one or two connections. *)
From Coq Require Import QArith Qabs Lqa.
From Verif Require Import Base UnitsModel StateModel StateSpec.
Open Scope string_scope.
Open Scope list_scope.

(** Heat capacity 1000 J/kgK, latent heat 2 MJ/kg, critical pressure 220 bar; enthalpies are
    shifted by [z]. *)
Definition water (z : Q) : fluid :=
  {| f_mixture := false;
     f_hpT := fun _ T => if Qeq_bool T 373 then Err ValueError else if Qle_bool T 373 then Ok (1000 * T - z)%Q else Ok (2373000 + 1000 * (T - 373) - z)%Q;
     f_hpQ := fun _ x => if Qle_bool 0 x && Qle_bool x 1 then Ok (373000 + 2000000 * x - z)%Q else Err ValueError;
     f_psat := fun T => if Qeq_bool T 373 then Ok 100000%Q else Err ValueError;
     f_Tsat := fun p => if Qle_bool p 22000000 then Ok 373%Q else Err ValueError;
     f_Tph := fun _ h => let e := (h + z)%Q in if Qle_bool e 373000 then Ok (e / 1000)%Q else if Qle_bool e 2373000 then Ok 373%Q else Ok (373 + (e - 2373000) / 1000)%Q;
     f_Qph := fun p h => if Qle_bool p 22000000 then Ok ((h + z - 373000) / 2000000)%Q else Err ValueError;
     f_vph := fun _ _ => Ok (1 # 1000)%Q;
     f_sph := fun _ h => Ok (h / 300)%Q;
     f_phase := fun p h => if Qle_bool p 22000000 then Ok (if Qle_bool (h + z) 373000 then "l" else if Qle_bool (h + z) 2373000 then "tp" else "g") else Err ValueError |}.

Lemma Qle_bool_dec a b : (Qle_bool a b = true /\ a <= b) \/ (Qle_bool a b = false /\ b < a).
Proof.
  destruct (Qle_bool a b) eqn:E; [left; split; [reflexivity|now apply Qle_bool_iff]|right; split; [reflexivity|]].
  apply Qnot_le_lt. intros L. apply Qle_bool_iff in L. congruence.
Qed.

Lemma water_consistent z : consistent (water z).
Proof.
  split.
  - intros p T h. cbn [water f_hpT f_Tph]. destruct (Qeq_bool T 373) eqn:E; [discriminate|]. apply Qeq_bool_neq in E.
    destruct (Qle_bool_dec T 373) as [(-> & L)|(-> & L)]; intros H; inversion H; subst; clear H.
    + assert (T < 373) by (apply Qle_lteq in L; destruct L; [auto|contradiction]).
      destruct (Qle_bool_dec (1000 * T - z + z) 373000) as [(-> & M)|(_ & M)]; [|exfalso; lra]. eexists; split; [reflexivity|]. field.
    + destruct (Qle_bool_dec (2373000 + 1000 * (T - 373) - z + z) 373000) as [(_ & M)|(-> & M)]; [exfalso; lra|].
      destruct (Qle_bool_dec (2373000 + 1000 * (T - 373) - z + z) 2373000) as [(_ & N)|(-> & N)]; [exfalso; lra|].
      eexists; split; [reflexivity|]. field.
  - intros T p x h. cbn [water f_psat f_hpQ f_Tph]. destruct (Qeq_bool T 373) eqn:E; [|discriminate]. apply Qeq_bool_iff in E. intros _.
    destruct (Qle_bool_dec 0 x) as [(-> & X0)|(-> & _)]; [|discriminate]. destruct (Qle_bool_dec x 1) as [(-> & X1)|(-> & _)]; [|discriminate].
    cbn [andb]. intros H; inversion H; subst; clear H.
    destruct (Qle_bool_dec (373000 + 2000000 * x - z + z) 373000) as [(-> & M)|(-> & M)].
    + eexists; split; [reflexivity|]. assert (x == 0) by lra. rewrite E, H. field.
    + destruct (Qle_bool_dec (373000 + 2000000 * x - z + z) 2373000) as [(-> & N)|(_ & N)]; [|exfalso; lra]. exists 373%Q. split; [reflexivity|]. symmetry; exact E.
Qed.

(** A mixture with a temperature that is found exactly. *)
Definition gas : fluid :=
  {| f_mixture := true; f_hpT := fun _ T => Ok (1000 * T)%Q; f_hpQ := fun _ _ => Err ValueError; f_psat := fun _ => Err ValueError;
     f_Tsat := fun _ => Err ValueError; f_Tph := fun _ h => Ok (h / 1000)%Q; f_Qph := fun _ _ => Err ValueError;
     f_vph := fun _ _ => Ok 1%Q; f_sph := fun _ h => Ok (h / 300)%Q; f_phase := fun _ _ => Err ValueError |}.

(** Containers that are specified ([sp]) and have starting values ([st]) *)
Definition conts (sp st : dict Q) (k : string) : cont :=
  {| k_set := dmem k sp; k_var := false; k_val := dget k sp; k_val0 := dget k st; k_SI := None; k_unit := "" |}.
Definition no_ref : ref := {| r_set := false; r_conn := ""; r_factor := 1; r_delta := 0; r_SI := None |}.
Definition mk (f : fluid) (sp st : dict Q) (off : dict num) (state : option string) : conn :=
  {| n_c := conts sp st; n_r := fun _ => no_ref; n_state := state; n_phase := None; n_good := false; n_known := true;
     n_fluid := f; n_off := off; n_solved := []; n_eqs := [] |}.
(** connections of a network referencing each other *)
Definition with_ref (k l : string) (c : conn) : conn :=
  with_refs c (fun j => if String.eqb j k then {| r_set := true; r_conn := l; r_factor := 1; r_delta := 0; r_SI := None |} else n_r c j).
Definition with_fluid (f : fluid) (c : conn) : conn :=
  {| n_c := n_c c; n_r := n_r c; n_state := n_state c; n_phase := n_phase c; n_good := n_good c; n_known := n_known c;
     n_fluid := f; n_off := n_off c; n_solved := n_solved c; n_eqs := n_eqs c |}.
(** SI units but for the pressure in bar, and what is changed *)
Definition si (changes : dict string) (k : string) : string :=
  match dget k changes with
  | Some u => u
  | None => match dget k SI_unit with Some u => if String.eqb k "p" then "bar" else u | None => "" end
  end.
Definition no_guess : proposals := {| a_rnd := fun _ => 1 # 2; a_src := fun _ _ => 0; a_tgt := fun _ _ => 0 |}.
(** A solver that finds p = 1 bar (or [p]) and h *)
Definition finds (p h : Q) (_ k : string) : Q := if String.eqb k "p" then p else if String.eqb k "h" then h else 1%Q.

Definition holds {A : Type} (r : res A) (P : A -> Prop) : Prop := match r with Ok x => P x | Err _ => False end.
Definition at_label (l : string) (net : dict conn) (P : conn -> Prop) : Prop := match dget l net with Some c => P c | None => False end.
Lemma holds_at (r : res (dict conn)) l P : holds r (fun net => at_label l net P) -> exists net c, r = Ok net /\ dget l net = Some c /\ P c.
Proof. unfold holds, at_label. destruct r as [net|]; [|contradiction]. destruct (dget l net) as [c|] eqn:E; [|contradiction]. intros H. exists net, c. auto. Qed.

Lemma holds_ok {A : Type} (r : res A) P : holds r P -> exists x, r = Ok x /\ P x.
Proof. destruct r; [|contradiction]. eauto. Qed.
Lemma at_ok l net P : at_label l net P -> exists c, dget l net = Some c /\ P c.
Proof. unfold at_label. destruct (dget l net); [|contradiction]. eauto. Qed.

Lemma labelled_one c : NoDup (keys (n_off c)) -> labelled [("1", c)].
Proof. intros N. split; [repeat constructor; intros []|]. intros l x. cbn. destruct (String.eqb l "1"); [|discriminate]. intros E; inversion E; subst; exact N. Qed.
Lemma labelled_two c d : NoDup (keys (n_off c)) -> NoDup (keys (n_off d)) -> labelled [("1", c); ("2", d)].
Proof.
  intros N M. split; [constructor; [intros [X|[]]; discriminate|repeat constructor; intros []]|].
  intros l x. cbn. destruct (String.eqb l "1"); [|destruct (String.eqb l "2"); [|discriminate]]; intros E; inversion E; subst; auto.
Qed.

(** The state is none with the wanted property. *)
Definition wrong_T (c : conn) (v : Q) : Prop :=
  match k_SI (n_c c "p"), k_SI (n_c c "h") with
  | Some p, Some h => match f_Tph (n_fluid c) p h with Ok T => Qeq_bool T v = false | Err _ => True end
  | _, _ => True
  end.
Lemma wrong_T_spec c v : wrong_T c v -> ~ satisfied c "T" v.
Proof.
  unfold wrong_T, satisfied. intros W (p & h & P & H & (T & _)). rewrite P, H in W. destruct (T eq_refl) as (t & A & B). rewrite A in W.
  apply Qeq_bool_neq in W. contradiction.
Qed.
Definition wrong_Td (c : conn) (v : Q) : Prop :=
  match k_SI (n_c c "p"), k_SI (n_c c "h") with
  | Some p, Some h => match f_Tph (n_fluid c) p h, f_Tsat (n_fluid c) p with Ok T, Ok Ts => Qeq_bool (T - Ts) v = false | _, _ => True end
  | _, _ => True
  end.
Lemma wrong_Td_spec c v : wrong_Td c v -> ~ satisfied c "Td_bp" v.
Proof.
  unfold wrong_Td, satisfied. intros W (p & h & P & H & (_ & _ & T)). rewrite P, H in W. destruct (T eq_refl) as (t & ts & A & B & C). rewrite A, B in W.
  apply Qeq_bool_neq in W. contradiction.
Qed.
Lemma not_accounted c k v : smem k (n_eqs c) = false -> ~ satisfied c k v -> ~ accounted c k v.
Proof. intros E N [I|(_ & _ & S)]; [apply smem_In in I; congruence|contradiction]. Qed.

(* ---- C125 ---- *)
Definition superheated : conn := mk (water 0) [("p", 1); ("Td_bp", 9)] [] [] None.
Lemma Td_unit : exists units a sol net net' l c c' v, labelled net /\ solve units a None sol net = Ok net' /\ dget l net = Some c /\ dget l net' = Some c' /\
  consistent (n_fluid c) /\ (forall k, r_set (n_r c k) = false) /\ wanted units c "Td_bp" v /\ ~ accounted c' "Td_bp" v.
Proof.
  destruct (holds_at (solve (si [("T", "F")]) no_guess None (finds 100000 0) [("1", superheated)]) "1"
    (fun c' => smem "Td_bp" (n_eqs c') = false /\ wrong_Td c' (9 * (5 # 9)))) as (net' & c' & R & D' & P & Q); [vm_compute; auto|].
  exists (si [("T", "F")]), no_guess, (finds 100000 0), [("1", superheated)], net', "1", superheated, c', (9 * (5 # 9))%Q.
  split; [apply labelled_one; constructor|]. split; [exact R|]. split; [reflexivity|]. split; [exact D'|]. split; [apply water_consistent|].
  split; [reflexivity|]. split; [split; [reflexivity|]; exists 9%Q; split; reflexivity|]. apply not_accounted; [exact P|]. now apply wrong_Td_spec.
Qed.

Definition off_superheated : conn := mk (water 0) [("p", 1)] [] [("Td_bp", Some 5%Q)] None.
Lemma Td_offdesign : exists units a sol net l c p v Ts h, labelled net /\ dget l net = Some c /\ consistent (n_fluid c) /\
  (forall k, r_set (n_r c k) = false) /\ wanted units c "p" p /\ wanted units c "Td_bp" v /\ f_Tsat (n_fluid c) p = Ok Ts /\ f_hpT (n_fluid c) p (Ts + v) = Ok h /\
  solve units a None sol net = Err ValueError.
Proof.
  exists (si []), no_guess, (finds 100000 0), [("1", off_superheated)], "1", off_superheated, (1 * 100000)%Q, 5%Q, 373%Q, (2373000 + 1000 * (373 + 5 - 373) - 0)%Q.
  split; [apply labelled_one; repeat constructor; intros []|]. split; [reflexivity|]. split; [apply water_consistent|]. split; [reflexivity|].
  split; [split; [reflexivity|]; exists 1%Q; split; reflexivity|]. split; [reflexivity|]. split; [reflexivity|]. split; vm_compute; reflexivity.
Qed.

(* ---- C126 ---- *)
Definition referenced : conn := with_ref "h" "2" (mk (water 0) [("p", 1); ("T", 300)] [] [] None).
Definition other : conn := mk (water 0) [("p", 1)] [] [] None.
Definition ref_h : Q := match solve (si []) no_guess None (finds 100000 0) [("1", referenced); ("2", other)] with
  | Ok net => match dget "1" net with Some c => match SI c "h" with Some h => h | None => 0 end | None => 0 end | Err _ => 0 end.
Lemma h_reference : exists units a sol net net' l o c c' d' v, labelled net /\ solve units a None sol net = Ok net' /\ dget l net = Some c /\ dget l net' = Some c' /\
  consistent (n_fluid c) /\ wanted units c "T" v /\ ~ accounted c' "T" v /\
  r_conn (n_r c "h") = o /\ dget o net' = Some d' /\ k_SI (n_c c' "h") = k_SI (n_c d' "h").
Proof.
  assert (X : holds (solve (si []) no_guess None (finds 100000 ref_h) [("1", referenced); ("2", other)]) (fun net => at_label "1" net (fun c' => at_label "2" net (fun d' => smem "T" (n_eqs c') = false /\ wrong_T c' (300 + 0) /\ SI c' "h" = SI d' "h")))).
  { vm_compute. auto. }
  apply holds_ok in X. destruct X as (net' & R & X). apply at_ok in X. destruct X as (c' & D1 & X). apply at_ok in X. destruct X as (d' & D2 & P & Q & E).
  exists (si []), no_guess, (finds 100000 ref_h), [("1", referenced); ("2", other)], net', "1", "2", referenced, c', d', ((300 + 0) * 1)%Q.
  split; [apply labelled_two; constructor|]. split; [exact R|]. split; [reflexivity|]. split; [exact D1|]. split; [apply water_consistent|].
  split; [split; [reflexivity|]; exists 300%Q; split; reflexivity|]. split.
  - apply not_accounted; [exact P|]. intros (p & h & A & B & (C & _)). apply wrong_T_spec in Q. apply Q. exists p, h. split; [exact A|]. split; [exact B|].
    split; [|split; discriminate]. intros _. destruct (C eq_refl) as (T & C1 & C2). exists T. split; [exact C1|]. rewrite C2. reflexivity.
  - split; [reflexivity|]. split; [exact D2|exact E].
Qed.

(* ---- C128 ---- *)
Definition plain : conn := mk (water 0) [("m", 10); ("p", 1); ("T", 300)] [] [] None.
Definition in_tonnes : option (dict row) := Some [("1", fun k => if String.eqb k "m" then (Some 1%Q, "t / h") else if String.eqb k "p" then (Some 1%Q, "bar") else (Some 100000%Q, "J / kg"))].
Lemma file_units : exists units a file sol net net' net'' l c c' c'' u u' v v', labelled net /\ solve units a file sol net = Ok net' /\ solve units a None sol net' = Ok net'' /\
  dget l net = Some c /\ dget l net' = Some c' /\ dget l net'' = Some c'' /\ k_set (n_c c "m") = true /\ n_off c = [] /\
  k_val (n_c c "m") = Some u /\ k_val (n_c c' "m") = Some u' /\ ~ u' == u /\ k_SI (n_c c' "m") = Some v /\ k_SI (n_c c'' "m") = Some v' /\ ~ v' == v.
Proof.
  assert (X : holds (solve (si []) no_guess in_tonnes (finds 100000 0) [("1", plain)]) (fun net => at_label "1" net (fun c' => k_val (n_c c' "m") = Some (10 * 1 / (10 # 36))%Q /\ SI c' "m" = Some (10 * 1)%Q /\
    holds (solve (si []) no_guess None (finds 100000 0) net) (fun net'' => at_label "1" net'' (fun c'' => SI c'' "m" = Some (10 * 1 / (10 # 36) * 1)%Q))))).
  { vm_compute. auto. }
  apply holds_ok in X. destruct X as (net' & R & X). apply at_ok in X. destruct X as (c' & D1 & P & Q & X).
  apply holds_ok in X. destruct X as (net'' & R2 & X). apply at_ok in X. destruct X as (c'' & D2 & X).
  exists (si []), no_guess, in_tonnes, (finds 100000 0), [("1", plain)], net', net'', "1", plain, c', c'', 10%Q, (10 * 1 / (10 # 36))%Q, (10 * 1)%Q, (10 * 1 / (10 # 36) * 1)%Q.
  split; [apply labelled_one; constructor|]. split; [exact R|]. split; [exact R2|]. split; [reflexivity|]. split; [exact D1|]. split; [exact D2|].
  split; [reflexivity|]. split; [reflexivity|]. split; [reflexivity|]. split; [exact P|]. split; [vm_compute; discriminate|]. split; [exact Q|]. split; [exact X|]. vm_compute; discriminate.
Qed.

(* ---- C130 ---- *)
Definition free_flow : conn := mk (water 0) [("p", 1); ("T", 300)] [] [] None.
Lemma small_start : exists units a net net' l c c' s, labelled net /\ initialise units a None net = Ok net' /\ dget l net = Some c /\ dget l net' = Some c' /\
  k_var (n_c c' "m") = true /\ undisturbed c "m" /\ k_val0 (n_c c "m") = None /\ 0 <= a_rnd a l /\ a_rnd a l < 1 /\ k_SI (n_c c' "m") = Some s /\ s < 1.
Proof.
  destruct (holds_at (initialise (si [("m", "t / h")]) no_guess None [("1", free_flow)]) "1"
    (fun c' => k_var (n_c c' "m") = true /\ SI c' "m" = Some (((1 # 2) + 1) * (10 # 36))%Q)) as (net' & c' & R & D' & P & Q); [vm_compute; auto|].
  exists (si [("m", "t / h")]), no_guess, [("1", free_flow)], net', "1", free_flow, c', (((1 # 2) + 1) * (10 # 36))%Q.
  split; [apply labelled_one; constructor|]. split; [exact R|]. split; [reflexivity|]. split; [exact D'|]. split; [exact P|].
  split; [split; [right; reflexivity|discriminate]|]. split; [reflexivity|]. split; [vm_compute; discriminate|]. split; [vm_compute; reflexivity|]. split; [exact Q|vm_compute; reflexivity].
Qed.

(* ---- C131 ---- *)
Definition steam : conn := mk (water 3000000) [("p", 1)] [("h", (-1000000)%Q)] [] (Some "g").
Definition liquid : conn := mk (water 3000000) [("p", 1)] [("h", (-1000000)%Q)] [] (Some "l").
Lemma steam_start : exists units a net net' l c c' p h hg, labelled net /\ initialise units a None net = Ok net' /\ dget l net = Some c /\ dget l net' = Some c' /\
  k_var (n_c c' "h") = true /\ vapour_wanted units c /\ k_SI (n_c c' "p") = Some p /\ f_hpQ (n_fluid c) p 1 = Ok hg /\ k_SI (n_c c' "h") = Some h /\ h < hg.
Proof.
  destruct (holds_at (initialise (si []) no_guess None [("1", steam)]) "1"
    (fun c' => k_var (n_c c' "h") = true /\ SI c' "p" = Some (1 * 100000)%Q /\ SI c' "h" = Some ((373000 + 2000000 * 1 - 3000000) * (1001 # 1000))%Q)) as (net' & c' & R & D' & P & Q & H); [vm_compute; auto|].
  exists (si []), no_guess, [("1", steam)], net', "1", steam, c', (1 * 100000)%Q, ((373000 + 2000000 * 1 - 3000000) * (1001 # 1000))%Q, (373000 + 2000000 * 1 - 3000000)%Q.
  split; [apply labelled_one; constructor|]. split; [exact R|]. split; [reflexivity|]. split; [exact D'|]. split; [exact P|]. split; [left; reflexivity|].
  split; [exact Q|]. split; [reflexivity|]. split; [exact H|vm_compute; reflexivity].
Qed.
Lemma liquid_start_wrong : exists units a net net' l c c' p h hl, labelled net /\ initialise units a None net = Ok net' /\ dget l net = Some c /\ dget l net' = Some c' /\
  k_var (n_c c' "h") = true /\ liquid_wanted units c /\ k_SI (n_c c' "p") = Some p /\ f_hpQ (n_fluid c) p 0 = Ok hl /\ k_SI (n_c c' "h") = Some h /\ hl < h.
Proof.
  destruct (holds_at (initialise (si []) no_guess None [("1", liquid)]) "1"
    (fun c' => k_var (n_c c' "h") = true /\ SI c' "p" = Some (1 * 100000)%Q /\ SI c' "h" = Some ((373000 + 2000000 * 0 - 3000000) * (999 # 1000))%Q)) as (net' & c' & R & D' & P & Q & H); [vm_compute; auto|].
  exists (si []), no_guess, [("1", liquid)], net', "1", liquid, c', (1 * 100000)%Q, ((373000 + 2000000 * 0 - 3000000) * (999 # 1000))%Q, (373000 + 2000000 * 0 - 3000000)%Q.
  split; [apply labelled_one; constructor|]. split; [exact R|]. split; [reflexivity|]. split; [exact D'|]. split; [exact P|].
  split; [split; [discriminate|]; split; [intros (d & (W & _) & _); discriminate|left; reflexivity]|].
  split; [exact Q|]. split; [reflexivity|]. split; [exact H|vm_compute; reflexivity].
Qed.

(* ---- C132 ---- *)
Definition free_h : conn := mk (water 0) [("m", 1); ("p", 1)] [] [] None.
Lemma stale_Td : exists units a sol net net1 net2 l c1 c2 p d, labelled net /\ solve units a None sol net = Ok net1 /\ dget l net1 = Some c1 /\
  solve units a None sol (dset l (upd "p" (with_val (Some 250%Q)) c1) net1) = Ok net2 /\ dget l net2 = Some c2 /\
  f_mixture (n_fluid c2) = false /\ k_set (n_c c2 "Td_bp") = false /\ k_SI (n_c c2 "p") = Some p /\ f_Tsat (n_fluid c2) p = Err ValueError /\
  k_val (n_c c2 "Td_bp") = Some d.
Proof.
  assert (X : holds (solve (si []) no_guess None (finds 100000 300000) [("1", free_h)]) (fun net => at_label "1" net (fun c1 =>
    holds (solve (si []) no_guess None (finds 100000 300000) (dset "1" (upd "p" (with_val (Some 250%Q)) c1) net)) (fun net2 => at_label "1" net2 (fun c2 =>
      f_mixture (n_fluid c2) = false /\ k_set (n_c c2 "Td_bp") = false /\ SI c2 "p" = Some (250 * 100000)%Q /\ f_Tsat (n_fluid c2) (250 * 100000) = Err ValueError /\
      k_val (n_c c2 "Td_bp") = Some (((300000 + 0) / 1000 - 373) / 1 * 1 / 1)%Q))))).
  { vm_compute. auto 10. }
  apply holds_ok in X. destruct X as (net1 & R & X). apply at_ok in X. destruct X as (c1 & D1 & X).
  apply holds_ok in X. destruct X as (net2 & R2 & X). apply at_ok in X. destruct X as (c2 & D2 & X).
  destruct X as (X1 & X2 & X3 & X4 & X5).
  exists (si []), no_guess, (finds 100000 300000), [("1", free_h)], net1, net2, "1", c1, c2, (250 * 100000)%Q. eexists.
  split; [apply labelled_one; constructor|]. split; [exact R|]. split; [exact D1|]. split; [exact R2|]. split; [exact D2|]. split; [exact X1|]. split; [exact X2|].
  split; [exact X3|]. split; [exact X4|exact X5].
Qed.

Definition wet : conn := mk (water 0) [("m", 1); ("x", 1 # 2)] [] [] None.
Lemma lost_x : exists units a sol net net' l c c' u, labelled net /\ solve units a None sol net = Ok net' /\ dget l net = Some c /\ dget l net' = Some c' /\
  k_set (n_c c "x") = true /\ k_val (n_c c "x") = Some u /\ n_off c = [] /\ k_set (n_c c' "x") = true /\ k_val (n_c c' "x") = None.
Proof.
  destruct (holds_at (solve (si []) no_guess None (finds 25000000 300000) [("1", wet)]) "1"
    (fun c' => k_set (n_c c' "x") = true /\ k_val (n_c c' "x") = None)) as (net' & c' & R & D' & P & Q); [vm_compute; auto|].
  exists (si []), no_guess, (finds 25000000 300000), [("1", wet)], net', "1", wet, c', (1 # 2)%Q.
  split; [apply labelled_one; constructor|]. split; [exact R|]. split; [reflexivity|]. split; [exact D'|]. split; [reflexivity|]. split; [reflexivity|]. split; [reflexivity|]. auto.
Qed.

Lemma stale_mixture : exists units a sol net net1 net2 l c1 c2 f d s, labelled net /\ solve units a None sol net = Ok net1 /\ dget l net1 = Some c1 /\
  solve units a None sol (dset l (with_fluid f c1) net1) = Ok net2 /\ dget l net2 = Some c2 /\ n_fluid c2 = f /\ f_mixture f = true /\
  k_set (n_c c2 "x") = false /\ k_val (n_c c2 "x") = Some d /\ n_phase c2 = Some s.
Proof.
  assert (X : holds (solve (si []) no_guess None (finds 100000 300000) [("1", free_h)]) (fun net => at_label "1" net (fun c1 =>
    holds (solve (si []) no_guess None (finds 100000 300000) (dset "1" (with_fluid gas c1) net)) (fun net2 => at_label "1" net2 (fun c2 =>
      n_fluid c2 = gas /\ k_set (n_c c2 "x") = false /\ match k_val (n_c c2 "x") with Some _ => True | None => False end /\ n_phase c2 = Some "l"))))).
  { vm_compute. auto 10. }
  apply holds_ok in X. destruct X as (net1 & R & X). apply at_ok in X. destruct X as (c1 & D1 & X).
  apply holds_ok in X. destruct X as (net2 & R2 & X). apply at_ok in X. destruct X as (c2 & D2 & X).
  destruct X as (X1 & X2 & X3 & X4). destruct (k_val (n_c c2 "x")) as [d|] eqn:V; [|contradiction].
  exists (si []), no_guess, (finds 100000 300000), [("1", free_h)], net1, net2, "1", c1, c2, gas, d, "l".
  split; [apply labelled_one; constructor|]. split; [exact R|]. split; [exact D1|]. split; [exact R2|]. split; [exact D2|]. split; [exact X1|]. split; [reflexivity|].
  split; [exact X2|]. split; [exact V|exact X4].
Qed.

(* ---- C133 ---- *)
Definition too_much : conn := mk (water 0) [("p", 1); ("T", 300); ("x", 1 # 2)] [] [] None.
Lemma overdetermined : exists units a sol net net' l c c' v, labelled net /\ solve units a None sol net = Ok net' /\ dget l net = Some c /\ dget l net' = Some c' /\
  n_known c = true /\ wanted units c "x" v /\ In "x" (n_eqs c') /\ k_var (n_c c' "p") = false /\ k_var (n_c c' "h") = false /\ ~ satisfied c' "x" v.
Proof.
  destruct (holds_at (solve (si []) no_guess None (finds 100000 300000) [("1", too_much)]) "1"
    (fun c' => smem "x" (n_eqs c') = true /\ k_var (n_c c' "p") = false /\ k_var (n_c c' "h") = false /\ n_fluid c' = water 0 /\ SI c' "h" = Some (1000 * ((300 + 0) * 1) - 0)%Q)) as (net' & c' & R & D' & P & Q & H & F & S); [vm_compute; auto 10|].
  exists (si []), no_guess, (finds 100000 300000), [("1", too_much)], net', "1", too_much, c', ((1 # 2) * 1)%Q.
  split; [apply labelled_one; constructor|]. split; [exact R|]. split; [reflexivity|]. split; [exact D'|]. split; [reflexivity|].
  split; [split; [reflexivity|]; exists (1 # 2)%Q; split; reflexivity|]. split; [now apply smem_In|]. split; [exact Q|]. split; [exact H|].
  intros (p & h & _ & B & (_ & C & _)). destruct (C eq_refl) as (h' & C1 & C2). unfold SI in S. rewrite S in B. rewrite F in C1. inversion B; subst h.
  change (Ok (373000 + 2000000 * ((1 # 2) * 1) - 0)%Q = Ok h') in C1. inversion C1; subst h'. revert C2. vm_compute. discriminate.
Qed.

(* ---- C134 ---- *)
Definition free_p : conn := mk (water 0) [("m", 1); ("h", 300000)] [] [] None.
Lemma changed_units : exists units units' a sol net net' net'' l c' c'', labelled net /\ solve units a None sol net = Ok net' /\
  initialise units' a None net' = Ok net'' /\ dget l net' = Some c' /\ dget l net'' = Some c'' /\ (forall k, k <> "p" -> units' k = units k) /\
  k_var (n_c c'' "p") = true /\ ~ same (k_SI (n_c c'' "p")) (k_SI (n_c c' "p")).
Proof.
  assert (X : holds (solve (si []) no_guess None (finds 100000 300000) [("1", free_p)]) (fun net => at_label "1" net (fun c' => SI c' "p" = Some 100000%Q /\
    holds (initialise (si [("p", "Pa")]) no_guess None net) (fun net2 => at_label "1" net2 (fun c'' =>
      k_var (n_c c'' "p") = true /\ SI c'' "p" = Some (100000 / 100000 * 1)%Q))))).
  { vm_compute. auto 10. }
  apply holds_ok in X. destruct X as (net1 & R & X). apply at_ok in X. destruct X as (c1 & D1 & X0 & X).
  apply holds_ok in X. destruct X as (net2 & R2 & X). apply at_ok in X. destruct X as (c2 & D2 & X).
  destruct X as (X1 & X2).
  exists (si []), (si [("p", "Pa")]), no_guess, (finds 100000 300000), [("1", free_p)], net1, net2, "1", c1, c2.
  split; [apply labelled_one; constructor|]. split; [exact R|]. split; [exact R2|]. split; [exact D1|]. split; [exact D2|]. split.
  - intros k N. unfold si. cbn [dget]. apply String.eqb_neq in N. now rewrite N.
  - split; [exact X1|]. fold (SI c2 "p") (SI c1 "p"). rewrite X0, X2. vm_compute. discriminate.
Qed.
