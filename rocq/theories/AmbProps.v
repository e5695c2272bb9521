(** Ambient temperatures: C268, C269. *)
From Verif Require Import Base NetUnitsModel AmbModel AmbSpec AmbProofs.
Open Scope string_scope.
Open Scope list_scope.

(** C268 – every evaluation of an equation uses the ambient temperature given last, read in the unit of the network
    at the time of the calculation; the calculation leaves the number as it is. *)
Theorem C268_ambient : forall l incs, never_variable l -> exists u used g',
  dget "T" (nu_unit (g_net (session l))) = Some u /\ calculate incs (session l) = Ok (used, g') /\
  length used = S (length incs) /\ (forall t, In t used -> convert_to_SI "T" (last_given l 1) u = Ok t) /\
  a_val (g_amb g') = last_given l 1.
Proof. exact ambient_read. Qed.
Print Assumptions C268_ambient.

(** C268 – two sessions that mean the same ambient temperature in different units use the same temperature. *)
Theorem C268_units : forall l l' incs incs' used used' g g' a b, never_variable l -> never_variable l' ->
  calculate incs (session l) = Ok (used, g) -> calculate incs' (session l') = Ok (used', g') ->
  (forall u u' s s', dget "T" (nu_unit (g_net (session l))) = Some u -> dget "T" (nu_unit (g_net (session l'))) = Some u' ->
     convert_to_SI "T" (last_given l 1) u = Ok s -> convert_to_SI "T" (last_given l' 1) u' = Ok s' -> (s == s')%Q) ->
  In a used -> In b used' -> (a == b)%Q.
Proof. exact same_in_units. Qed.
Print Assumptions C268_units.

(** C269 – an ambient temperature made variable: the solver changes the value, the equations keep the old one. *)
Theorem C269_variable_refuted : exists l incs used g', calculate incs (session l) = Ok (used, g') /\ a_var (g_amb g') = true /\
  (a_val (g_amb g') == 25)%Q /\ forall t, In t used -> t = ((27315 # 100) + 20)%Q.
Proof. exact variable_unused. Qed.
Print Assumptions C269_variable_refuted.

(** C269 – in no calculation does the ambient temperature of the equations change. *)
Theorem C269_constant_always : forall g incs used g', calculate incs g = Ok (used, g') -> forall a b, In a used -> In b used -> a = b.
Proof. exact variable_constant. Qed.
Print Assumptions C269_constant_always.

(** 20 degrees Celsius and 68 degrees Fahrenheit. *)
Example C268_ex : let kw u := Settings {| kw_unit := [("T", u)]; kw_range := []; kw_iter := None |} in
  let l := [kw "C"; SetTamb (ANum 20); Solve [3; 4]%Q] in let l' := [SetTamb (ANum 68); Solve []; kw "F"] in
  never_variable l /\ never_variable l' /\ last_given l 1 = 20%Q /\ last_given l' 1 = 68%Q /\
  exists t t', convert_to_SI "T" 20 "C" = Ok t /\ convert_to_SI "T" 68 "F" = Ok t' /\ (t == t')%Q.
Proof.
  cbn zeta. split; [intros [H|[H|[H|[]]]]; discriminate H|]. split; [intros [H|[H|[H|[]]]]; discriminate H|].
  split; [reflexivity|]. split; [reflexivity|]. exists ((20 + (27315 # 100)) * 1)%Q, ((68 + (45967 # 100)) * (5 # 9))%Q. split; [reflexivity|]. split; reflexivity.
Qed.
