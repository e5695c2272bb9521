(** The tables with the specifications of connections, from which the report is written.
    Source: /repo/src/tespy/networks/network.py 877-902 (order of the preparation), 1195-1200, 1735-1764,
    tools/document_models.py 244-361.
    Mass flow and composition are looked up in the containers that are shared during the preparation (MassModel.v, FluidModel.v);
    flags of other properties are those in force when the tables are written.  Mass flows that are switched between design and
    offdesign mode are not considered. *)
From Verif Require Import Base MassModel FluidModel.
From Verif Require DocModel.
Open Scope string_scope.
Open Scope list_scope.

(** fluid_property_data, tools/global_vars.py 17-100: the names of the properties *)
Definition fpd : list string := ["m"; "v"; "p"; "h"; "T"; "Td_bp"; "vol"; "x"; "s"].
(** Columns of the table of references, network.py 1199 *)
Definition ref_cols : list string := ["m_ref"; "p_ref"; "h_ref"; "T_ref"; "v_ref"].
(** The connections of a network: numbers in order, labels, flags [is_set] of the properties other than mass flow and of
    references, and of the fluid balance. network.py 1735-1762 *)
Record cnet := {
  n_ids : list nat; n_label : nat -> string; n_flag : nat -> string -> bool; n_ref : nat -> string -> bool; n_balance : nat -> bool }.
(** A table: rows by label, entries by column. network.py 1196-1200 *)
Definition table := dict (dict bool).

(** The row of a connection, network.py 1745-1761; [fluids] are the fluids of the network *)
Definition conn_row (k : cnet) (fluids : list string) (ms : mstate) (fs : fstate) (c : nat) : dict bool :=
  map (fun v => (v, if String.eqb v "m" then m_is_set ms c else n_flag k c v)) fpd
  ++ map (fun f => (f, smem f (fc_set (cont_of fs c)))) fluids ++ [("balance", n_balance k c)].
(** The row in the table of references, network.py 1750-1752 *)
Definition ref_row (k : cnet) (c : nat) : dict bool := map (fun v => (v, n_ref k c v)) ref_cols.
(** The loop over the connections writes both tables, which are new in every calculation; network.py 1195-1200, 1676, 1700 *)
Definition write_tables (k : cnet) (fluids : list string) (ms : mstate) (fs : fstate) : table * table :=
  fold_left (fun t c => (dset (n_label k c) (conn_row k fluids ms fs c) (fst t), dset (n_label k c) (ref_row k c) (snd t)))
            (n_ids k) ([], []).
(** The preparation of a calculation with one group of fluids: propagation of fluids, mass flows, compositions, tables;
    network.py 877-902. The containers are shared when the tables are written. *)
Definition prepare (mref : nat -> option nat) (mbs fbs : list (list nat)) (k : cnet) (fluids : list string) (ms : mstate) (fs : fstate)
  : res (table * table) :=
  match propagate (n_ids k) fs with
  | (_, Some e) => Err e
  | (fs0, None) =>
      match presolve_massflow mref mbs ms with
      | (_, Some e) => Err e
      | (ms1, None) =>
          match presolve_fluids fbs fs0 with
          | (_, Some e) => Err e
          | (fs1, None) => Ok (write_tables k fluids ms1 fs1)
          end
      end
  end.
(** [specs.loc[row, col]], document_models.py 349, 406 *)
Definition marked (t : table) (l c : string) : bool :=
  match dget l t with Some r => match dget c r with Some b => b | None => false end | None => false end.
(** The table of connections in the report, document_models.py 244-281, 296-361 *)
Definition report (s : DocModel.settings) (t : table * table) (results : DocModel.frame) :=
  DocModel.conn_table s (marked (fst t)) results.
