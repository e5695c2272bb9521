(** C85-C88: load of engines, accepted fluids, ranges of outlet fractions, columns. *)
From Coq Require Import QArith Qabs Lqa.
From Verif Require Import Base CharModel CombModel CombSpec CombProofs CombProofs2 CombProofs3.
Open Scope Q_scope.

(** C85 – the columns of all unknown mass flows are written. *)
Theorem C85_mass_columns_partial : forall is_var p, In (VM p) (energy_columns is_var) <-> is_var (VM p) = true.
Proof. exact energy_columns_mass. Qed.
Print Assumptions C85_mass_columns_partial.

(** C86 – the characteristics are evaluated at power over design power, at one without design. *)
Theorem C86_load : forall e P,
  match e_design e with
  | None => load e P = Ok 1
  | Some d => (~ d == 0 -> exists x, load e P = Ok x /\ x * d == P)
              /\ (d == 0 -> load e P = Err ZeroDivisionError)
  end.
Proof. exact load_val. Qed.
Print Assumptions C86_load.

(** C87 – what an accepted list of fluids contains. *)
Theorem C87_accepted_partial : forall aliases all fuels, setup_names aliases all = Ok fuels ->
  NoDup fuels /\ fuels <> []
  /\ (forall f, In f fuels <-> In f all /\ known_in aliases f combustion_gases)
  /\ forall f, In f ["O2"; "CO2"; "H2O"; "N2"]%string -> known_in aliases f all.
Proof. exact setup_ok. Qed.
Print Assumptions C87_accepted_partial.

(** C87 – lists without fuel or without one of the four fluids are rejected. *)
Theorem C87_rejected_partial : forall aliases all,
  (forall f, In f all -> ~ known_in aliases f combustion_gases)
  \/ (exists f, In f ["O2"; "CO2"; "H2O"; "N2"]%string /\ ~ known_in aliases f all) ->
  setup_names aliases all = Err TESPyComponentError.
Proof. exact setup_err. Qed.
Print Assumptions C87_rejected_partial.

(** C87 – all others are accepted. *)
Theorem C87_complete_partial : forall aliases all f,
  In f all -> known_in aliases f combustion_gases ->
  (forall g, In g ["O2"; "CO2"; "H2O"; "N2"]%string -> known_in aliases g all) ->
  exists fuels, setup_names aliases all = Ok fuels.
Proof. exact setup_total. Qed.
Print Assumptions C87_complete_partial.

(** C88 – unknown fractions at the outlet are moved into plausible ranges; plausible ones are kept. *)
Theorem C88_fractions : forall fuels i1 i2 m vars o o',
  NoDup vars -> check_fractions fuels i1 i2 o m vars = Ok o' ->
  forall f v, In f vars -> dget f (k_x o) = Some v ->
  exists v', dget f (k_x o') = Some v' /\ plausible fuels i1 i2 m f v'
    /\ (plausible fuels i1 i2 m f v -> v' = v).
Proof. exact check_fractions_plausible. Qed.
Print Assumptions C88_fractions.

Example C88_fractions_ex :
  let p x := {| k_m := 1; k_m_var := true; k_x := x; k_x_var := []; k_h := 0; k_h_var := true; k_good := false |} in
  plausible ["CH4"]%string (p [("N2", 1#2)]%string) (p [("N2", 0)]%string) 2 "N2"%string (26#100)
  /\ ~ plausible ["CH4"]%string (p []) (p []) 2 "CH4"%string (1#10)
  /\ ~ plausible ["CH4"]%string (p []) (p []) 2 "O2"%string (1#2)
  /\ match check_fractions ["CH4"]%string (p []) (p []) (p [("CH4", 1#10); ("O2", 1#2)]%string) 2 ["CH4"; "O2"]%string with
     | Ok o => k_x o = [("CH4", 0); ("O2", 1#5)]%string | Err _ => False end.
Proof.
  cbv zeta. split; [| split; [| split]].
  - exists (1#2), 0. split; [reflexivity | split; [reflexivity |]]. vm_compute. discriminate.
  - intro H. vm_compute in H. apply H. reflexivity.
  - intros (_ & H). vm_compute in H. apply H. reflexivity.
  - vm_compute. reflexivity.
Qed.
