(** C01, C02, C45: unit conversion and the network's unit settings. *)
From Verif Require Import UnitsModel NetUnitsModel UnitsSpec UnitsProofs.
Open Scope string_scope.
Open Scope Q_scope.

(** C01 – to SI and back. *)
Theorem C01_roundtrip_user_SI_user :
  forall prop unit v si,
    convert_to_SI prop v unit = Ok si ->
    exists v', convert_from_SI prop si unit = Ok v' /\ v' == v.
Proof. exact (fun p u v r => roundtrip_in_out p u v r). Qed.
Print Assumptions C01_roundtrip_user_SI_user.

(** C01 – from SI and back. *)
Theorem C01_roundtrip_SI_user_SI :
  forall prop unit si v,
    convert_from_SI prop si unit = Ok v ->
    exists si', convert_to_SI prop v unit = Ok si' /\ si' == si.
Proof. exact (fun p u s w => roundtrip_out_in p u s w). Qed.
Print Assumptions C01_roundtrip_SI_user_SI.

(** C01 – every supported unit is converted according to its physical
    definition, for every value. *)
Theorem C01_physical :
  forall prop unit step zero v,
    In (prop, unit, step, zero) physical_units ->
    exists si, convert_to_SI prop v unit = Ok si /\ si == step * v + zero.
Proof. exact to_SI_physical. Qed.
Print Assumptions C01_physical.

(** C01 – anything else is an error in both directions. *)
Theorem C01_unsupported_is_error :
  forall prop unit v,
    ~ supported prop unit ->
    convert_to_SI prop v unit = Err KeyError /\ convert_from_SI prop v unit = Err KeyError.
Proof. exact unsupported_rejected. Qed.
Print Assumptions C01_unsupported_is_error.

(** C01 – order is preserved and reflected. *)
Theorem C01_monotone :
  forall prop unit v1 v2 s1 s2,
    convert_to_SI prop v1 unit = Ok s1 -> convert_to_SI prop v2 unit = Ok s2 ->
    (v1 < v2 <-> s1 < s2).
Proof. exact to_SI_monotone. Qed.
Print Assumptions C01_monotone.

(** C01 – only temperature has an offset. *)
Theorem C01_scaling :
  forall prop unit v si,
    prop <> "T" -> convert_to_SI prop v unit = Ok si ->
    exists one, convert_to_SI prop 1 unit = Ok one /\ si == v * one.
Proof. exact scaling_only. Qed.
Print Assumptions C01_scaling.

(** C01 – temperature differences and temperatures use consistent units: the
    difference of two temperatures is the converted temperature difference. *)
Theorem C01_temperature_difference :
  forall unit t1 t2 k1 k2,
    convert_to_SI "T" t1 unit = Ok k1 -> convert_to_SI "T" t2 unit = Ok k2 ->
    exists d, convert_to_SI "Td_bp" (t1 - t2) unit = Ok d /\ k1 - k2 == d.
Proof. exact T_difference. Qed.
Print Assumptions C01_temperature_difference.

Example C01_case :
  exists si, convert_to_SI "T" (212#1) "F" = Ok si /\ si == 37315#100 /\
  ~ supported "p" "torr".
Proof.
  eexists; split; [reflexivity|]. split; [reflexivity|].
  rewrite <- known_physical. vm_compute. discriminate.
Qed.

(** C02 – a successful call does exactly what was asked: passed units are in
    force (and were supported), units not passed are unchanged; a passed range is
    stored as the SI image of what was typed, in the unit in force after the
    call; other ranges keep their SI value; the displayed range is the stored
    range in the unit in force. *)
Theorem C02_set_attr_success :
  forall kw s s',
    nu_set_attr kw s = (s', None) ->
    (forall p, In p fpd_keys ->
       match dget p (kw_unit kw) with
       | Some u => dget p (nu_unit s') = Some u /\ unit_known p u = Some true
       | None => dget p (nu_unit s') = dget p (nu_unit s)
       end) /\
    (forall p, In p range_props ->
       exists u rs vals,
         dget p (nu_unit s') = Some u /\
         dget p (nu_range_SI s') = Some rs /\
         dget p (nu_range s') = Some vals /\
         Forall2 (fun r v => convert_from_SI p r u = Ok v) rs vals /\
         match dget p (kw_range kw) with
         | Some (Some given) => Forall2 (fun g r => convert_to_SI p g u = Ok r) given rs
         | Some None => False
         | None => dget p (nu_range_SI s) = Some rs
         end) /\
    nu_iter s' = (match kw_iter kw with Some b => b | None => nu_iter s end) /\
    nu_iter s' <> None.
Proof. exact nu_set_attr_spec. Qed.
Print Assumptions C02_set_attr_success.

(** C02 – reading a range back shows what was typed. *)
Theorem C02_range_read_back :
  forall kw s s' p given,
    nu_set_attr kw s = (s', None) -> In p range_props ->
    dget p (kw_range kw) = Some (Some given) ->
    exists shown, dget p (nu_range s') = Some shown /\ Forall2 Qeq shown given.
Proof. exact nu_set_attr_typed_range. Qed.
Print Assumptions C02_range_read_back.

(** C02 – after any history of calls, raising ones included, every unit in force
    is a supported unit of its property. *)
Theorem C02_units_always_supported :
  forall kws p, In p fpd_keys ->
    exists u, dget p (nu_unit (nu_history kws nu_defaults)) = Some u /\ supported p u.
Proof.
  exact (fun kws p Hp =>
    match nu_history_valid kws nu_defaults nu_defaults_valid p Hp with
    | ex_intro _ u (conj A B) => ex_intro _ u (conj A (proj1 (known_physical p u) B))
    end).
Qed.
Print Assumptions C02_units_always_supported.

Example C02_case :
  snd (nu_set_attr {| kw_unit := [("p", "bar"); ("T", "C")];
                      kw_range := [("p", Some [1; 10])];
                      kw_iter := Some (Some false) |} nu_defaults) = None.
Proof. reflexivity. Qed.

(** C45 – "a call that raises changes nothing" is false: p_unit='bar' together
    with an unknown T_unit raises ValueError but leaves the pressure unit
    changed, and the displayed pressure range still in the old unit. *)
Theorem C45_rejected_set_attr_changes_nothing_refuted :
  exists kw s e,
    snd (nu_set_attr kw s) = Some e /\
    dget "p" (nu_unit s) = Some "Pa" /\
    dget "p" (nu_unit (fst (nu_set_attr kw s))) = Some "bar" /\
    dget "p" (nu_range (fst (nu_set_attr kw s))) = dget "p" (nu_range s).
Proof. exact (ex_intro _ bad_kw (ex_intro _ nu_start (ex_intro _ ValueError nu_set_attr_not_atomic))). Qed.
Print Assumptions C45_rejected_set_attr_changes_nothing_refuted.

(** C45 – what does hold: ranges and iterinfo are untouched when a unit is
    rejected. *)
Theorem C45_rejected_unit_frame_partial :
  forall kw s e s1,
    set_units fpd_keys kw s = (s1, Some e) ->
    nu_set_attr kw s = (s1, Some e) /\
    nu_range_SI s1 = nu_range_SI s /\ nu_range s1 = nu_range s /\ nu_iter s1 = nu_iter s.
Proof. exact rejected_unit_frame. Qed.
Print Assumptions C45_rejected_unit_frame_partial.
