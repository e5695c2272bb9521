(** Unit tables and unit conversion.
    Models src/tespy/tools/global_vars.py 17-103 and
    src/tespy/tools/helpers.py 85-137. Numbers are exact rationals. *)
From Coq Require Export QArith.
From Verif Require Export Base.
Open Scope string_scope.

(** The units of temperature: pairs [offset, factor].
    global_vars.py 58-69 (entry 'T'). *)
Definition units_T : dict (Q * Q) :=
  [ ("K", (0, 1)); ("R", (0, 5#9));
    ("C", (27315#100, 1)); ("F", (45967#100, 5#9)) ]%Q.

(** All other properties: one factor per unit. The decimal literals of the
    Python text are written as exact fractions.
    global_vars.py 18-57 and 70-103. *)
Definition units_lin : dict (dict Q) :=
  [ ("m", [ ("kg / s", 1#1); ("kg / min", 1#60); ("kg / h", 1#3600);
            ("t / h", 10#36); ("g / s", 1#1000) ]);
    ("v", [ ("m3 / s", 1#1); ("m3 / min", 1#60); ("m3 / h", 1#3600);
            ("l / s", 1#1000); ("l / min", 1#60000); ("l / h", 1#3600000) ]);
    ("p", [ ("Pa", 1#1); ("kPa", 1000#1); ("psi", 68948#10);
            ("bar", 100000#1); ("atm", 101325#1); ("MPa", 1000000#1) ]);
    ("h", [ ("J / kg", 1#1); ("kJ / kg", 1000#1); ("MJ / kg", 1000000#1);
            ("cal / kg", 4184#1000); ("kcal / kg", 4184#1);
            ("Wh / kg", 3600#1); ("kWh / kg", 3600000#1) ]);
    ("Td_bp", [ ("K", 1#1); ("R", 5#9); ("C", 1#1); ("F", 5#9) ]);
    ("vol", [ ("m3 / kg", 1#1); ("l / kg", 1#1000) ]);
    ("x", [ ("-", 1#1); ("%", 1#100); ("ppm", 1#1000000) ]);
    ("s", [ ("J / kgK", 1#1); ("kJ / kgK", 1000#1); ("MJ / kgK", 1000000#1) ]) ]%Q.

(** Order of the keys of fluid_property_data. global_vars.py 17-103. *)
Definition fpd_keys : list string :=
  ["m"; "v"; "p"; "h"; "T"; "Td_bp"; "vol"; "x"; "s"].

(** SI unit of each property ('SI_unit' entries). global_vars.py 20-96. *)
Definition SI_unit : dict string :=
  [ ("m", "kg / s"); ("v", "m3 / s"); ("p", "Pa"); ("h", "J / kg"); ("T", "K");
    ("Td_bp", "K"); ("vol", "m3 / kg"); ("x", "-"); ("s", "J / kgK") ].

(** [unit in fpd[prop]['units']]; [None] when the property itself is unknown
    (the subscript raises KeyError). network.py 276-326, helpers.py 105-137. *)
Definition unit_known (property unit : string) : option bool :=
  if String.eqb property "T" then Some (dmem unit units_T)
  else match dget property units_lin with
       | Some us => Some (dmem unit us)
       | None => None
       end.

(** helpers.py 85-110: convert_to_SI. A missing property or unit raises
    KeyError from the dictionary subscript. *)
Definition convert_to_SI (property : string) (value : Q) (unit : string) : res Q :=
  if String.eqb property "T" then
    match dget unit units_T with
    | Some (c0, c1) => Ok ((value + c0) * c1)%Q
    | None => Err KeyError
    end
  else
    match dget property units_lin with
    | None => Err KeyError
    | Some us => match dget unit us with
                 | Some f => Ok (value * f)%Q
                 | None => Err KeyError
                 end
    end.

(** helpers.py 113-137: convert_from_SI. *)
Definition convert_from_SI (property : string) (SI_value : Q) (unit : string) : res Q :=
  if String.eqb property "T" then
    match dget unit units_T with
    | Some (c0, c1) => Ok (SI_value / c1 - c0)%Q
    | None => Err KeyError
    end
  else
    match dget property units_lin with
    | None => Err KeyError
    | Some us => match dget unit us with
                 | Some f => Ok (SI_value / f)%Q
                 | None => Err KeyError
                 end
    end.
