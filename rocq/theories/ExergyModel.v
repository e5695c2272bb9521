(** Physical exergy of connections, entropy and exergy balances of components.
    Source: /repo/src/tespy/connections/connection.py,
    tools/fluid_properties/functions.py and the exergy_balance / entropy_balance
    methods below /repo/src/tespy/components.
    Numbers are rationals, [None] is nan; rounding is not modelled.  Fluid property
    functions are arbitrary functions of pressure and temperature. *)
From Coq Require Import QArith.
From Verif Require Import Base.
Open Scope Q_scope.

(* ------------------------------------------------------------------ nan *)

(** A float: [None] is nan, which every operation propagates. As in analyses.py 345-491. *)
Definition num := option Q.
(** IEEE arithmetic propagates nan; used by every balance below, e.g. turbine.py exergy_balance *)
Definition nlift (f : Q -> Q -> Q) (a b : num) : num :=
  match a, b with Some x, Some y => Some (f x y) | _, _ => None end.
(** float [+], nan kept, e.g. analyses.py 517 *)
Definition nadd := nlift Qplus.
(** float [-], nan kept, e.g. analyses.py 519 *)
Definition nsub := nlift Qminus.
(** float negation, nan kept, e.g. analyses.py 589 *)
Definition nneg (a : num) : num := option_map Qopp a.
(** [np.isnan], e.g. valve.py 393 *)
Definition isnan (a : num) : bool := match a with None => true | _ => false end.

(** Comparisons of temperatures; as in turbine.py 566-586 *)
Definition ge (a b : Q) : bool := Qle_bool b a.
(** [>] on the temperatures [T.val_SI], as [ge]; turbine.py 566-586 *)
Definition gt (a b : Q) : bool := negb (Qle_bool a b).

(* ---------------------------------------------------------- connections *)

(** [h_mix_pT] and [s_mix_pT] for the fluid of a connection; functions.py 126-131, 203-208 *)
Record fluid := { f_h : Q -> Q -> Q; f_s : Q -> Q -> Q }.
(** A solved connection; [x_chem] is [ex_chemical]; connection.py 904-963, 1097-1136 *)
Record conn := { x_m : Q; x_p : Q; x_T : Q; x_h : Q; x_s : Q; x_fluid : fluid; x_chem : Q }.
(** Ambient state [pamb_SI], [Tamb_SI]; analyses.py 345-491 *)
Record ambient := { a_p : Q; a_T : Q }.

(** calc_physical_exergy, functions.py 68-74 *)
Definition ex_therm (a : ambient) (c : conn) : Q :=
  (x_h c - f_h (x_fluid c) (x_p c) (a_T a)) - a_T a * (x_s c - f_s (x_fluid c) (x_p c) (a_T a)).
(** mechanical share of calc_physical_exergy, functions.py 68-74 *)
Definition ex_mech (a : ambient) (c : conn) : Q :=
  (f_h (x_fluid c) (x_p c) (a_T a) - f_h (x_fluid c) (a_p a) (a_T a))
  - a_T a * (f_s (x_fluid c) (x_p c) (a_T a) - f_s (x_fluid c) (a_p a) (a_T a)).
(** get_physical_exergy, connection.py 1097-1105 *)
Definition ex_physical a c := ex_therm a c + ex_mech a c.
(** [Ex_therm], connection.py 1097-1105 *)
Definition Ex_therm a c := ex_therm a c * x_m c.
(** [Ex_mech], connection.py 1097-1105 *)
Definition Ex_mech a c := ex_mech a c * x_m c.
(** [Ex_physical], connection.py 1097-1105 *)
Definition Ex_physical a c := x_m c * ex_physical a c.
(** get_chemical_exergy, connection.py 1134 *)
Definition Ex_chemical c := x_m c * x_chem c.

(* -------------------------------------------------------------- results *)

(** [E_bus]: a dictionary of the three shares, or a plain number
    (combustion/base.py 1404, water_electrolyzer.py 1181) *)
Inductive bus_value := Shares (chemical physical massless : num) | Plain (v : num).
(** Attributes set by exergy_balance; component.py 863-875 *)
Record balance := { E_F : num; E_P : num; E_D : num; epsilon : num; E_bus : bus_value }.

(** component.py 871-875 *)
Definition calc_epsilon (F P : num) : num :=
  match F with
  | Some f => if Qeq_bool f 0 then None else nlift Qdiv P F
  | None => None
  end.
(** [E_D = E_F - E_P], e.g. turbine.py 585-586 *)
Definition finish (F P : num) (bus : bus_value) : balance :=
  {| E_F := F; E_P := P; E_D := nsub F P; epsilon := calc_epsilon F P; E_bus := bus |}.
(** [E_D = E_F] if [E_P] is nan, e.g. valve.py 393-397 *)
Definition finish_nan (F P : num) (bus : bus_value) : balance :=
  {| E_F := F; E_P := P; E_D := if isnan P then F else nsub F P;
     epsilon := calc_epsilon F P; E_bus := bus |}.
(** [E_bus] of nan shares, e.g. valve.py 390-392 *)
Definition no_bus : bus_value := Shares None None None.

(* ------------------------------------------------------- turbomachinery *)

(** turbine.py 566-586 *)
Definition turbine_exergy (a : ambient) (P : Q) (i o : conn) : balance :=
  let T0 := a_T a in
  let '(EF, EP) :=
    if ge (x_T i) T0 && ge (x_T o) T0 then
      (Some (Ex_physical a i - Ex_physical a o), Some (- P))
    else if gt (x_T i) T0 && ge T0 (x_T o) then
      (Some (Ex_therm a i + (Ex_mech a i - Ex_mech a o)), Some (- P + Ex_therm a o))
    else if ge T0 (x_T i) && ge T0 (x_T o) then
      (Some (Ex_mech a i - Ex_mech a o), Some (- P + (Ex_therm a o - Ex_therm a i)))
    else (None, None) in
  finish EF EP (Shares (Some 0) (Some 0) (Some (- P))).

(** compressor.py 715-737 and pump.py 554-576 (the same code) *)
Definition compressor_exergy (a : ambient) (P : Q) (i o : conn) : balance :=
  let T0 := a_T a in
  let '(EF, EP) :=
    if ge (x_T i) T0 && ge (x_T o) T0 then
      (Some P, Some (Ex_physical a o - Ex_physical a i))
    else if ge T0 (x_T i) && gt (x_T o) T0 then
      (Some (P + Ex_therm a i), Some (Ex_therm a o + (Ex_mech a o - Ex_mech a i)))
    else if ge T0 (x_T i) && ge T0 (x_T o) then
      (Some (P + (Ex_therm a i - Ex_therm a o)), Some (Ex_mech a o - Ex_mech a i))
    else (None, None) in
  finish EF EP (Shares (Some 0) (Some 0) (Some P)).

(** turbomachinery/base.py 256-258 and valve.py 336-338 *)
Definition flow_entropy (i o : conn) : Q := x_m i * (x_s o - x_s i).

(** valve.py 373-397 *)
Definition valve_exergy (a : ambient) (i o : conn) : balance :=
  let T0 := a_T a in
  let '(EF, EP) :=
    if gt (x_T i) T0 && gt (x_T o) T0 then
      (Some (Ex_physical a i - Ex_physical a o), None)
    else if ge T0 (x_T o) && gt (x_T i) T0 then
      (Some (Ex_therm a i + (Ex_mech a i - Ex_mech a o)), Some (Ex_therm a o))
    else if ge T0 (x_T i) && ge T0 (x_T o) then
      (Some (Ex_mech a i - Ex_mech a o), Some (Ex_therm a o - Ex_therm a i))
    else (None, None) in
  finish_nan EF EP no_bus.

(* ------------------------------------------------------ heat exchangers *)

(** heat_exchangers/base.py 1331-1371 *)
Definition hx_exergy (a : ambient) (i1 i2 o1 o2 : conn) : balance :=
  let T0 := a_T a in
  let hot c := gt (x_T c) T0 in
  let cold c := ge T0 (x_T c) in
  let '(EF, EP) :=
    if forallb hot [i1; i2; o1; o2] then
      (Some (Ex_physical a i1 - Ex_physical a o1 + (Ex_mech a i2 - Ex_mech a o2)),
       Some (Ex_therm a o2 - Ex_therm a i2))
    else if forallb cold [i1; i2; o1; o2] then
      (Some (Ex_physical a i2 - Ex_physical a o2 + (Ex_mech a i1 - Ex_mech a o1)),
       Some (Ex_therm a o1 - Ex_therm a i1))
    else if hot i1 && hot o2 && cold o1 && cold i2 then
      (Some (Ex_physical a i1 + Ex_physical a i2 - (Ex_mech a o1 + Ex_mech a o2)),
       Some (Ex_therm a o1 + Ex_therm a o2))
    else if hot i1 && cold i2 && cold o1 && cold o2 then
      (Some (Ex_physical a i1 + Ex_physical a i2 - (Ex_physical a o2 + Ex_mech a o1)),
       Some (Ex_therm a o1))
    else if hot i1 && hot o1 && cold i2 && cold o2 then
      (Some (Ex_physical a i1 - Ex_physical a o1 + (Ex_physical a i2 - Ex_physical a o2)), None)
    else
      (Some (Ex_physical a i1 - Ex_physical a o1 + (Ex_physical a i2 - Ex_mech a o2)),
       Some (Ex_therm a o2)) in
  finish_nan EF EP no_bus.

(** heat_exchangers/base.py 1234-1258: [s_star] holds the entropies at the virtual
    states of one side (inlet, outlet), results of [s_mix_ph]; the mean temperatures
    [T_mQ1], [T_mQ2] are not modelled. *)
Definition side_entropy (s_star : Q * Q) (i o : conn) : Q * Q :=
  let S_Q := x_m i * (snd s_star - fst s_star) in
  (S_Q, x_m i * (x_s o - x_s i) - S_Q).
(** [S_irr], heat_exchangers/base.py 1227-1256: both sides *)
Definition hx_entropy (star1 star2 : Q * Q) (i1 i2 o1 o2 : conn) : Q :=
  let '(SQ1, irr1) := side_entropy star1 i1 o1 in
  let '(SQ2, irr2) := side_entropy star2 i2 o2 in
  0 + irr1 + irr2 + (SQ1 + SQ2).

(** heat_exchangers/simple.py 1048-1139: the balance and [dissipative.val]
    afterwards *)
Definition simple_exergy (a : ambient) (Qv : Q) (dissipative : option bool) (i o : conn)
  : balance * option bool :=
  let T0 := a_T a in
  let d := match dissipative with None => true | Some b => b end in
  let massless v := Shares (Some 0) (Some 0) v in
  let '(EF, EP, bus) :=
    if gt 0 Qv then
      if ge (x_T i) T0 && ge (x_T o) T0 then
        let EP := if d then None else Some (Ex_therm a i - Ex_therm a o) in
        (Some (Ex_physical a i - Ex_physical a o), EP, massless EP)
      else if ge (x_T i) T0 && gt T0 (x_T o) then
        (Some (Ex_therm a i + Ex_therm a o + (Ex_mech a i - Ex_mech a o)), Some (Ex_therm a o),
         massless (Some (Ex_therm a i + Ex_therm a o)))
      else if ge T0 (x_T i) && ge T0 (x_T o) then
        let EP := Some (Ex_therm a o - Ex_therm a i) in
        (Some (Ex_therm a o - Ex_therm a o + (Ex_mech a i - Ex_mech a o)), EP, massless EP)
      else (None, None, no_bus)
    else if gt Qv 0 then
      if ge (x_T i) (T0 - (1 # 1000000)) && ge (x_T o) (T0 - (1 # 1000000)) then
        let EF := Some (Ex_therm a o - Ex_therm a i) in
        (EF, Some (Ex_physical a o - Ex_physical a i), massless EF)
      else if ge T0 (x_T i) && gt (x_T o) T0 then
        (Some (Ex_therm a i + (Ex_mech a i - Ex_mech a o)), Some (Ex_therm a o + Ex_therm a i),
         massless (Some (Ex_therm a i)))
      else if gt T0 (x_T i) && gt T0 (x_T o) then
        let EF := Some (Ex_therm a i - Ex_therm a o) in
        (EF, if d then None else Some (Ex_therm a i - Ex_therm a o + (Ex_mech a o - Ex_mech a i)),
         massless EF)
      else (None, None, no_bus)
    else (Some (Ex_physical a i - Ex_physical a o), None, no_bus) in
  (finish_nan EF EP bus, Some d).

(* ----------------------------------------------------------------- nodes *)

(** merge.py 446-481: fuel and product share of one inlet *)
Definition merge_above (a : ambient) (o i : conn) (acc : Q * Q) : Q * Q :=
  let '(F, P) := acc in
  if gt (x_T o) (x_T i) then
    if ge (x_T i) (a_T a) then (F, P + x_m i * (ex_physical a o - ex_physical a i))
    else (F + Ex_physical a i, P + x_m i * ex_physical a o)
  else (F + x_m i * (ex_physical a i - ex_physical a o), P).
(** one inlet, merge.py 464-476, outlet below the ambient temperature *)
Definition merge_below (a : ambient) (o i : conn) (acc : Q * Q) : Q * Q :=
  let '(F, P) := acc in
  if gt (x_T i) (x_T o) then
    if ge (x_T i) (a_T a) then (F + Ex_physical a i, P + x_m i * ex_physical a o)
    else (F, P + x_m i * (ex_physical a o - ex_physical a i))
  else (F + x_m i * (ex_physical a i - ex_physical a o), P).
(** merge.py 446-484: all inlets, by the outlet temperature; nan at the ambient temperature *)
Definition merge_exergy (a : ambient) (ins : list conn) (o : conn) : balance :=
  let '(EF, EP) :=
    if gt (x_T o) (a_T a) then
      let '(F, P) := fold_left (fun acc i => merge_above a o i acc) ins (0, 0) in (F, Some P)
    else if Qeq_bool (x_T o) (a_T a) then
      (fold_left (fun acc i => acc + Ex_physical a i) ins 0, None)
    else
      let '(F, P) := fold_left (fun acc i => merge_below a o i acc) ins (0, 0) in (F, Some P) in
  finish (Some EF) EP no_bus.

(** merge.py 367-377 *)
Definition merge_entropy (ins : list conn) (o : conn) : Q :=
  let ref c := f_s (x_fluid c) 100000 (29815 # 100) in
  fold_left (fun acc i => acc - x_m i * (x_s i - ref i)) ins (x_m o * (x_s o - ref o)).

(** drum.py 402-409 *)
Definition drum_exergy (a : ambient) (i1 i2 o1 o2 : conn) : balance :=
  finish (Some (Ex_physical a i1 + Ex_physical a i2))
    (Some (Ex_physical a o1 + Ex_physical a o2)) no_bus.

(* ------------------------------------------------- reactors, combustion *)

(** water_electrolyzer.py 1171-1181 *)
Definition electrolyzer_exergy (a : ambient) (P : Q) (i1 i2 o1 o2 o3 : conn) : balance :=
  finish (Some P)
    (Some (Ex_chemical o2 + Ex_chemical o3 - Ex_chemical i2 + Ex_physical a o1 + Ex_physical a i1))
    (Plain (Some P)).

(** combustion/base.py 1393-1404 and diabatic.py 395-407 (which sets the
    dictionary) *)
Definition chamber_exergy (a : ambient) (bus : bus_value) (i1 i2 o : conn) : balance :=
  finish (Some (Ex_chemical i1 + Ex_chemical i2 - Ex_chemical o))
    (Some (Ex_physical a o - (Ex_physical a i1 + Ex_physical a i2))) bus.

(** Operands of Python's + and -: connections are objects of a class that defines neither (connections/connection.py 41-1480). *)
Inductive operand := ANumber (x : Q) | AConnection (c : conn).
(** Python's -, used in combustion/engine.py 1488-1489 *)
Definition py_sub (x y : operand) : res operand :=
  match x, y with ANumber a, ANumber b => Ok (ANumber (a - b)) | _, _ => Err TypeError end.
(** Python's +, used in combustion/engine.py 1488-1489 *)
Definition py_add (x y : operand) : res operand :=
  match x, y with ANumber a, ANumber b => Ok (ANumber (a + b)) | _, _ => Err TypeError end.
(** CombustionEngine.exergy_balance, combustion/engine.py 1485-1499; [cooling] are the operands written for the
    cooling water, the connections themselves in the code *)
Definition engine_exergy (cooling : conn -> operand) (a : ambient) (P : Q) (i1 i2 i3 i4 o1 o2 o3 : conn) : res balance :=
  rbind (py_sub (cooling o2) (cooling i2)) (fun q2 =>
  rbind (py_add (ANumber (Ex_physical a o3 - (Ex_physical a i4 + Ex_physical a i3) - P)) q2) (fun acc =>
  rbind (py_sub (cooling o1) (cooling i1)) (fun q1 =>
  rbind (py_add acc q1) (fun EP =>
  match EP with
  | ANumber ep => Ok (finish (Some (Ex_chemical i4 + Ex_chemical i3 - Ex_chemical o3)) (Some ep) (Shares None None (Some (- P))))
  | AConnection _ => Err TypeError
  end)))).

(** s_mix_pT(1e5, 298.15, fluid_data, "forced-gas"), combustion/base.py 1382, functions.py
    202-208: the rule is in the table of enthalpies only (mixtures.py 344-356), so that every
    mixture raises KeyError *)
Definition s_reference (mixture : conn -> bool) (c : conn) : res Q :=
  if mixture c then Err KeyError else Ok (f_s (x_fluid c) 100000 (29815 # 100)).
(** combustion/base.py 1377-1391: [S_Qcomb] is the attribute, set nowhere in the
    class; result [S_comb] *)
Definition chamber_entropy (mixture : conn -> bool) (S_Qcomb : option Q) (i1 i2 o : conn) : res Q :=
  rbind (s_reference mixture o) (fun ro =>
  match S_Qcomb with
  | None => Err AttributeError
  | Some _ => rbind (s_reference mixture i1) (fun _ => rbind (s_reference mixture i2) (fun _ =>
              Ok (x_m o * (x_s o - ro))))
  end).
(** [S_Qcomb] of the engine, combustion/engine.py 1413-1423, which comes first in its balance *)
Definition engine_S_Qcomb (mixture : conn -> bool) (i3 i4 o3 : conn) : res Q :=
  rbind (s_reference mixture o3) (fun r3 => rbind (s_reference mixture i3) (fun q3 =>
  rbind (s_reference mixture i4) (fun q4 =>
  Ok (x_m o3 * (x_s o3 - r3) - x_m i3 * (x_s i3 - q3) - x_m i4 * (x_s i4 - q4))))).

(** combustion/engine.py 1451-1483: parts of the entropy production; [Q1], [Q2],
    [P] are the reported values, [star1], [star2] as above *)
Record engine_entropy := { S_Q1irr : Q; S_Q2irr : Q; S_irr1 : Q; S_irr2 : Q; S_irr_i : Q; S_irr : Q }.
(** combustion/engine.py 1451-1483 *)
Definition engine_entropy_balance (T_v eta_mech P Q1 Q2 : Q) (star1 star2 : Q * Q)
    (i1 i2 o1 o2 : conn) : engine_entropy :=
  let '(SQ12, irr1) := side_entropy star1 i1 o1 in
  let '(SQ22, irr2) := side_entropy star2 i2 o2 in
  let irr_i := (1 / eta_mech - 1) * P / T_v in
  let q1 := SQ12 - Q1 / T_v in
  let q2 := SQ22 - Q2 / T_v in
  {| S_Q1irr := q1; S_Q2irr := q2; S_irr1 := irr1; S_irr2 := irr2; S_irr_i := irr_i;
     S_irr := irr_i + irr2 + irr1 + q1 + q2 |}.

(* --------------------------------------------------- sources and others *)

(** source.py 118-127 and sink.py 100-109: [c] is the only connection *)
Definition terminal_exergy (a : ambient) (c : conn) : balance :=
  {| E_F := None; E_P := None; E_D := None; epsilon := None;
     E_bus := Shares (Some (Ex_chemical c)) (Some (Ex_physical a c)) (Some 0) |}.
(** component.py 854-869: components without an own balance *)
Definition default_exergy : balance :=
  {| E_F := None; E_P := None; E_D := None; epsilon := None; E_bus := no_bus |}.
