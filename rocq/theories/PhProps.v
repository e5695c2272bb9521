(** Properties from pressure and enthalpy: C188. *)
From Coq Require Import QArith Lqa.
From Verif Require Import Base NewtonModel MixModel MixSpec PhModel PhSpec PhProofs ChemExWitness.
Open Scope Q_scope.

(** C188 – for constant heat capacities, temperature, entropy, volume and viscosity computed from the enthalpy are those computed from the temperature, from every start value. *)
Theorem C188_ph : forall u root names r fd cp b p T T0 lo hi, valid fd -> number_of_fluids fd <> 1%nat ->
  In r ["ideal"; "incompressible"]%string -> linear_h fd cp b -> respects fd ->
  temperature_range fd = Ok (lo, hi) -> lo <= T <= hi * 2 ->
  exists h T', h_mix_pT names p T fd (Some r) = Ok h /\ T_mix_ph u names p h fd (Some r) T0 = Ok T' /\ T' == T
  /\ agree (s_mix_ph u names p h fd (Some r) T0) (s_mix_pT names p T fd (Some r))
  /\ agree (v_mix_ph u names p h fd (Some r) T0) (v_mix_pT names p T fd (Some r))
  /\ agree (viscosity_mix_ph u root names p h fd (Some r) T0) (viscosity_mix_pT root p T fd (Some r)).
Proof. exact ph_agree. Qed.
Print Assumptions C188_ph.

(** C188 – the isentropic outlet enthalpy is the enthalpy at the outlet pressure with the entropy of the inlet, whatever start value is given. *)
Theorem C188_isentropic : forall u names r fd cp b c d p1 T1 p2 T2 s1 s2 T0 lo hi, valid fd -> number_of_fluids fd <> 1%nat ->
  In r ["ideal"; "incompressible"]%string -> linear_h fd cp b -> linear_s fd c d ->
  temperature_range fd = Ok (lo, hi) -> lo <= T1 <= hi * 2 -> lo <= T2 <= hi * 2 ->
  s_mix_pT names p1 T1 fd (Some r) = Ok s1 -> s_mix_pT names p2 T2 fd (Some r) = Ok s2 -> s1 == s2 ->
  exists h1, h_mix_pT names p1 T1 fd (Some r) = Ok h1
  /\ agree (isentropic u names p1 h1 p2 fd (Some r) T0) (h_mix_pT names p2 T2 fd (Some r)).
Proof. exact isentropic_exact. Qed.
Print Assumptions C188_isentropic.

(** C188 – also for a single fluid, if the property library agrees with itself; the volume is the inverse of the density. *)
Theorem C188_single : forall u root names rule fd e p h T T0,
  number_of_fluids fd = 1%nat -> pure_fluid fd = Some e ->
  u_Tph u e p h = Ok T -> u_sph u e p h = Ok (w_spT (e_wr e) p T) -> u_dph u e p h = Ok (w_dpT (e_wr e) p T) ->
  u_visph u e p h = Ok (w_vis (e_wr e) p T) -> ~ w_dpT (e_wr e) p T == 0 ->
  T_mix_ph u names p h fd rule T0 = Ok T
  /\ s_mix_ph u names p h fd rule T0 = s_mix_pT names p T fd rule
  /\ viscosity_mix_ph u root names p h fd rule T0 = viscosity_mix_pT root p T fd rule
  /\ exists v v', v_mix_ph u names p h fd rule T0 = Ok v /\ v_mix_pT names p T fd rule = Ok v' /\ v == v'
     /\ v * w_dpT (e_wr e) p T == 1.
Proof. exact single_ph. Qed.
Print Assumptions C188_single.

Example C188_ex : temperature_range (two n2 h2o) = Ok (200 + (1 # 10), 1000 - (1 # 10))
  /\ linear_h (two n2 h2o) (fun _ => 1) (fun _ => 0) /\ respects (two n2 h2o)
  /\ linear_s (two n2 h2o) (fun _ => 1) (fun _ p => - p)
  /\ rmap Qred (s_mix_pT waters 2 400 (two n2 h2o) (Some "incompressible"%string)) = Ok 398
  /\ rmap Qred (s_mix_pT waters 12 410 (two n2 h2o) (Some "incompressible"%string)) = Ok 398
  /\ rmap Qred (h_mix_pT waters 12 410 (two n2 h2o) (Some "incompressible"%string)) = Ok 410.
Proof.
  split; [reflexivity |].
  split; [intros k e D; apply MixProofs.dget_In in D; destruct D as [E | [E | []]]; injection E as <- <-;
          (split; [reflexivity |]; intros; cbn; ring) |].
  split; [intros k e D p T T' TT; apply MixProofs.dget_In in D; destruct D as [E | [E | []]]; injection E as <- <-;
          cbn; rewrite TT; (split; [reflexivity |]; split; reflexivity) |].
  split; [intros k e D; apply MixProofs.dget_In in D; destruct D as [E | [E | []]]; injection E as <- <-;
          (split; [reflexivity |]; intros; cbn; ring) |].
  split; [vm_compute; reflexivity |]. split; [vm_compute; reflexivity |]. vm_compute. reflexivity.
Qed.

