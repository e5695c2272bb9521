(** Chemical exergy.
    Source: /repo/src/tespy/tools/fluid_properties/functions.py 77-85, mixtures.py
    236-271 and connection.py 1107-1136.  Numbers are exact rationals; [ln] is the
    logarithm of the positive numbers. *)
From Coq Require Import QArith.
From Verif Require Import Base MixModel.
Open Scope Q_scope.

(** A cell of the tables in data/ChemEx: a number or the text 'NaN' (e.g.
    Ahrendts.json, loaded in tools/helpers.py 41-45) *)
Inductive cell := Num (q : Q) | Text.
(** A row: registry number, solid, liquid and gas value in kJ / mol, column of
    the state of reference (functions.py 81); only the last three are modelled *)
Record row := { r_liquid : cell; r_gas : cell; r_ref : cell }.
(** [Chem_Ex]: rows by name of the fluid, functions.py 77 *)
Definition table := dict row.

(** Arithmetic with a cell: text raises, functions.py 82, mixtures.py 261, 264 *)
Definition number (c : cell) : res Q := match c with Num q => Ok q | Text => Err TypeError end.
(** [Chem_Ex[k][i]] for a column that is itself read from the table, functions.py
    81: the columns 0 and 1 of the tables hold text *)
Definition column (r : row) (c : cell) : res cell :=
  match c with
  | Text => Err TypeError
  | Num i => if Qeq_bool i 2 then Ok (r_liquid r) else if Qeq_bool i 3 then Ok (r_gas r)
             else if Qeq_bool i 4 then Ok (r_ref r) else Ok Text
  end.
(** The rows of the names of a fluid, e.g. functions.py 81 *)
Definition rows_of (t : table) (aliases : list string) : list row :=
  flat_map (fun k => match dget k t with Some r => [r] | None => [] end) aliases.
(** [y[0]], functions.py 82, mixtures.py 261, 264 *)
Definition head {A : Type} (l : list A) : res A := match l with [] => Err IndexError | a :: _ => Ok a end.
(** math.log, mixtures.py 264 *)
Definition mlog (ln : Q -> Q) (x : Q) : res Q := if Qle_bool x 0 then Err ValueError else Ok (ln x).

(** gas_constants['uni'], global_vars.py 15 *)
Definition R_uni : Q := 8314462618 # 1000000000.
(** mixtures.py 255-264: what a fluid of the gas adds to [ex_cond] and [ex_dry] *)
Definition chem_step (ln : Q -> Q) (t : table) (Tamb liquid : Q) (fd : fluids) (k : string) (x : Q)
    (acc : Q * Q) : res (Q * Q) :=
  if Qeq_bool x 0 then Ok acc
  else
    rbind (at_key k fd) (fun e =>
    let al := w_aliases (e_wr e) in
    rbind (if negb (Qle_bool liquid 0) && smem "water" al
           then rbind (rbind (head (rows_of t al)) (fun r => number (r_liquid r))) (fun y => Ok (fst acc + liquid * y))
           else Ok (fst acc)) (fun cond =>
    rbind (rbind (head (rows_of t al)) (fun r => number (r_gas r))) (fun y =>
    rbind (mlog ln x) (fun l =>
    Ok (cond, snd acc + (x * y + Tamb * R_uni * (1 # 1000) * x * l)))))).
(** mixtures.py 251-264 *)
Definition chem_loop (ln : Q -> Q) (t : table) (Tamb liquid : Q) (fd : fluids) (xs : dict Q) : res (Q * Q) :=
  fold_left (fun r x => rbind r (chem_step ln t Tamb liquid fd (fst x) (snd x))) xs (Ok (0, 0)).
(** exergy_chemical_ideal_cond, mixtures.py 236-271 *)
Definition chem_ideal_cond (ln : Q -> Q) (names : list string) (t : table) (pamb Tamb : Q) (fd : fluids) : res Q :=
  rbind (molar_fractions fd) (fun xs =>
  rbind (match water_in names fd with
         | None => Ok (xs, 0)
         | Some water => rmap (fun c => (c_molar_gas c, c_molar_liquid c)) (cond_check pamb Tamb fd water)
         end) (fun '(gas, liquid) =>
  rbind (chem_loop ln t Tamb liquid fd gas) (fun '(cond, dry) =>
  rbind (molar_mass_mixture fd xs) (fun M =>
  rbind (qdiv 1 M) (fun i => Ok ((cond + dry * (1 - liquid)) * i * 1000)))))).
(** calc_chemical_exergy, functions.py 77-85 *)
Definition chem_mix (ln : Q -> Q) (names : list string) (t : table) (pamb Tamb : Q) (fd : fluids)
    (rule : option string) : res Q :=
  dispatch PChemical rule fd (fun e =>
    rbind (rmapM (fun r => column r (r_ref r)) (rows_of t (w_aliases (e_wr e)))) (fun ys =>
    rbind (head ys) (fun y => rbind (number y) (fun q =>
    rmap (fun z => z * 1000) (qdiv q (w_M (e_wr e))))))) (fun _ => chem_ideal_cond ln names t pamb Tamb fd).
(** Connection.get_chemical_exergy, connection.py 1107-1136: specific value and
    flow *)
Definition chem_conn (ln : Q -> Q) (names : list string) (t : option table) (pamb Tamb m : Q) (fd : fluids)
    (rule : option string) : res (Q * Q) :=
  rmap (fun e => (e, m * e))
    (match t with None => Ok 0 | Some t => chem_mix ln names t pamb Tamb fd rule end).
