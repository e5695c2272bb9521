(** Independent specification of the supported units: each unit is written
    through its physical definition. *)
From Coq Require Import QArith.
From Coq Require Import String List.
Import ListNotations.
Open Scope string_scope.
Open Scope Q_scope.

Definition minute : Q := 60.
Definition hour : Q := 60 * minute.
Definition litre : Q := 1 / 1000.
Definition gram : Q := 1 / 1000.
Definition tonne : Q := 1000.
Definition kilo : Q := 1000.
Definition mega : Q := 1000 * kilo.
Definition calorie : Q := 4184 / 1000.
Definition watt_hour : Q := hour.
Definition psi : Q := 68948 / 10.      (* the rounded value documented by tespy *)
Definition fahrenheit_step : Q := 5 / 9.

(** (property, unit, SI value of "one step" of the unit, SI value of "zero"). *)
Definition physical_units : list (string * string * Q * Q) :=
  [ ("m", "kg / s", 1, 0); ("m", "kg / min", 1 / minute, 0); ("m", "kg / h", 1 / hour, 0);
    ("m", "t / h", tonne / hour, 0); ("m", "g / s", gram, 0);
    ("v", "m3 / s", 1, 0); ("v", "m3 / min", 1 / minute, 0); ("v", "m3 / h", 1 / hour, 0);
    ("v", "l / s", litre, 0); ("v", "l / min", litre / minute, 0); ("v", "l / h", litre / hour, 0);
    ("p", "Pa", 1, 0); ("p", "kPa", kilo, 0); ("p", "psi", psi, 0); ("p", "bar", 100 * kilo, 0);
    ("p", "atm", 101325, 0); ("p", "MPa", mega, 0);
    ("h", "J / kg", 1, 0); ("h", "kJ / kg", kilo, 0); ("h", "MJ / kg", mega, 0);
    ("h", "cal / kg", calorie, 0); ("h", "kcal / kg", kilo * calorie, 0);
    ("h", "Wh / kg", watt_hour, 0); ("h", "kWh / kg", kilo * watt_hour, 0);
    ("T", "K", 1, 0); ("T", "C", 1, 27315 / 100);
    ("T", "R", fahrenheit_step, 0); ("T", "F", fahrenheit_step, 27315 / 100 - 32 * fahrenheit_step);
    ("Td_bp", "K", 1, 0); ("Td_bp", "C", 1, 0);
    ("Td_bp", "R", fahrenheit_step, 0); ("Td_bp", "F", fahrenheit_step, 0);
    ("vol", "m3 / kg", 1, 0); ("vol", "l / kg", litre, 0);
    ("x", "-", 1, 0); ("x", "%", 1 / 100, 0); ("x", "ppm", 1 / mega, 0);
    ("s", "J / kgK", 1, 0); ("s", "kJ / kgK", kilo, 0); ("s", "MJ / kgK", mega, 0) ].

Definition supported (prop unit : string) : Prop :=
  exists step zero, In (prop, unit, step, zero) physical_units.
