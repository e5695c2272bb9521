(** Texts of the tables of connections in the LaTeX report: headers with units, labels, rows.
    Source: /repo/src/tespy/tools/helpers.py 140-161, tools/document_models.py 325-361, 924-955,
    networks/network.py 1151-1159, 1544-1556, 2468-2485, connections/connection.py 952-958.
    Not modelled: the environment around a table and the padding pandas adds to align columns. *)
From Coq Require Import Ascii.
From Verif Require Import Base NetUnitsModel.
Open Scope string_scope.
Open Scope list_scope.

(** Whether a text contains a character, Python [in] *)
Fixpoint contains (a : ascii) (s : string) : bool :=
  match s with EmptyString => false | String b s' => Ascii.eqb a b || contains a s' end.
(** [s.replace(' ', '')], helpers.py 155-156 *)
Fixpoint despace (s : string) : string :=
  match s with EmptyString => EmptyString | String b s' => if Ascii.eqb b " " then despace s' else String b (despace s') end.
(** [unit.split('/')[0]], helpers.py 155: the text before the first slash *)
Fixpoint before_slash (s : string) : string :=
  match s with EmptyString => EmptyString | String b s' => if Ascii.eqb b "/" then EmptyString else String b (before_slash s') end.
(** The text after the first slash; helpers.py 156 *)
Fixpoint after_slash (s : string) : string :=
  match s with EmptyString => EmptyString | String b s' => if Ascii.eqb b "/" then s' else after_slash s' end.
(** latex_unit, helpers.py 140-161; [split('/')[1]] ends at a second slash *)
Definition latex_unit (unit : string) : string :=
  if contains "/" unit then
    "$\unitfrac[]{" ++ despace (before_slash unit) ++ "}{" ++ despace (before_slash (after_slash unit)) ++ "}$"
  else
    "$\unit[]{" ++ (if String.eqb unit "C" || String.eqb unit "F" then "^\circ " ++ unit else unit) ++ "}$".

(** [s.replace('_', r'\_')], document_models.py 339, 941 *)
Fixpoint escape (s : string) : string :=
  match s with EmptyString => EmptyString | String b s' => if Ascii.eqb b "_" then String "\" (String "_" (escape s')) else String b (escape s') end.

(** The unit a connection takes from the network at the start of a calculation, network.py
    1151-1159 *)
Definition conn_unit (prop : string) (n : netunits) : res string :=
  get_unit (if String.eqb prop "Td_bp" then "T" else prop) n.
(** Units in a file of starting values, by connection and property; a connection may be missing.
    network.py 1544-1556 *)
Definition init_file := string -> string -> option string.
(** The unit of a property of a connection at the end of a calculation: the one of the network,
    for mass flow, pressure and enthalpy the one of the file of starting values if one is read;
    network.py 1151-1159, 1544-1556 *)
Definition final_unit (n : netunits) (file : option init_file) (label prop : string) : res string :=
  match file with
  | Some f => if smem prop ["m"; "p"; "h"] then match f label prop with Some u => Ok u | None => conn_unit prop n end else conn_unit prop n
  | None => conn_unit prop n
  end.
(** Value and unit of a property in the table of results, connection.py 955-958, network.py
    2474-2478; nan stays nan *)
Definition result (n : netunits) (file : option init_file) (SI : string -> string -> option Q) (label prop : string) : res (option Q * string) :=
  rbind (final_unit n file label prop) (fun u =>
    match SI label prop with
    | None => Ok (None, u)
    | Some x => rbind (convert_from_SI prop x u) (fun v => Ok (Some v, u))
    end).
(** A network after some calculation: settings and table of results. The part of a network that
    set_attr (network.py 234-326) and a calculation (2468-2485) write. *)
Record session := { s_net : netunits; s_results : string -> string -> res (option Q * string) }.
(** What a user does: change settings, or calculate, with or without a file of starting values and
    with the SI values found; network.py 234-326, 2468-2485 *)
Inductive step := SetAttr (kw : nukw) | Calculate (file : option init_file) (SI : string -> string -> option Q).
(** One step; exceptions of set_attr are caught by the caller. network.py 234-326, 2468-2485 *)
Definition do (s : session) (a : step) : session :=
  match a with
  | SetAttr kw => {| s_net := fst (nu_set_attr kw (s_net s)); s_results := s_results s |}
  | Calculate file SI => {| s_net := s_net s; s_results := result (s_net s) file SI |}
  end.
(** A new network has no results, network.py 209-232 *)
Definition new_session : session := {| s_net := nu_defaults; s_results := fun _ _ => Err KeyError |}.
(** Several steps, network.py 234-326, 2468-2485 *)
Definition steps (l : list step) : session := fold_left do l new_session.

(** Header of a property of connections without the reference to its equation,
    document_models.py 331-340; the unit is the one of the network when the report is written *)
Definition col_header (n : netunits) (col : string) : res string :=
  if String.eqb col "phase" then Ok col
  else rmap (fun u => escape col ++ " in " ++ latex_unit u)%string (conn_unit col n).

(** A row of a table: label and cells separated by ampersands, ended by two backslashes;
    document_models.py 940-955 with [escape=False] *)
Definition table_row (label : string) (cells : list string) : string :=
  String.concat " & " (escape label :: cells) ++ " \\".
(** The row of headers, document_models.py 940-955 *)
Definition header_row (headers : list string) : string := String.concat " & " ("" :: headers) ++ " \\".
