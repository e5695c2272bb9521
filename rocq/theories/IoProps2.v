(** C183: what is written and read is checked. *)
From Coq Require Import QArith.
From Verif Require Import Base UnitsModel NetUnitsModel IoModel IoSpec2 IoProofs7 IoWitness.
Open Scope string_scope.
Open Scope list_scope.

(** C183 – whatever the files contain, a network that is returned is well formed: components of registered classes with known parameters, connections between two different components at existing connectors, references to connections of the network, lists of existing parameters, valid lines on busses. *)
Theorem C183_load : forall usable reg engines d n, load usable reg engines d = Ok n ->
  (forall l cls o, dget l (t_comps n) = Some (cls, o) -> from_file reg (d_comps d) l cls o)
  /\ t_conns n <> []
  /\ (forall l c, In (l, c) (t_conns n) -> joined reg (t_comps n) c /\ valid_attrs (n_obj c)
       /\ keys (o_params (n_obj c)) = keys new_data /\ references_in (keys (t_conns n)) c)
  /\ (forall lb b l w, In (lb, b) (t_busses n) -> In (l, w) (b_rows b) ->
       valid_row w /\ exists cls o, from_file reg (d_comps d) l cls o).
Proof. exact load_ok. Qed.
Print Assumptions C183_load.

(** C183 – whatever the network contains, an export that succeeds writes json trees only, with one entry for each connection; older files are left as they were. *)
Theorem C183_export : forall n d d', export n d = Ok d' ->
  (exists c, d_conns d' = Some c /\ json (VDict c) /\ forall l, In l (keys c) <-> In l (keys (t_conns n)))
  /\ (forall cls f, dget cls (d_comps d') = Some f -> json (VDict f) \/ dget cls (d_comps d) = Some f)
  /\ (forall b, d_busses d' = Some b -> json (VDict b) \/ t_busses n = [] /\ d_busses d = Some b).
Proof. exact export_json. Qed.
Print Assumptions C183_export.

(** The files of C41 are read; a connection of a component with itself, an unknown
    parameter, a list with an unknown name and an unequal line are not. *)
Example C183_ex :
  outcome w_dir = None
  /\ outcome (with_conn (fun x => match dget "source" x with Some s => dset "target" s x | None => x end) w_dir) = Some TESPyConnectionError
  /\ outcome (with_comp (dset "colour" (VStr "red")) w_dir) = Some KeyError
  /\ outcome (with_conn (dset "design" (VList [VStr "colour"])) w_dir) = Some ValueError
  /\ outcome (with_conn (dset "colour" (VStr "red")) w_dir) = Some KeyError
  /\ outcome (with_conn (dset "source_id" (VStr "out9")) w_dir) = Some ValueError.
Proof. vm_compute. repeat split. Qed.

