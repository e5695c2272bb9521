(** C13, C14, C15, C51, C55: the tables of connections and components and the
    check of the topology. *)
From Coq Require Import Sorted.
From Verif Require Import TopoModel TopoSpec TopoProofs.
Open Scope string_scope.
Open Scope list_scope.

(** C13 – through any history of additions, removals and checks, including calls
    that raise, labels stay unique. *)
Theorem C13_labels_unique :
  forall W order check ops, check_frame check ->
    let n := history W order check ops empty_net in
    NoDup (map fst (n_conns n)) /\
    forall c d, has_conn n c -> has_conn n d -> w_label W c = w_label W d -> c = d.
Proof. exact history_labels. Qed.
Print Assumptions C13_labels_unique.

(** C13 – get_conn finds a connection exactly if it is part of the network. *)
Theorem C13_get_conn :
  forall W order check ops l c, check_frame check ->
    let n := history W order check ops empty_net in
    get_conn n l = Some c <-> has_conn n c /\ w_label W c = l.
Proof. exact history_get_conn. Qed.
Print Assumptions C13_get_conn.

(** C13 – what a successful call adds and removes. *)
Theorem C13_added :
  forall W order check ops args n', check_frame check ->
    let n := history W order check ops empty_net in
    add_conns W order args n = (n', None) ->
    forall c, has_conn n' c <-> has_conn n c \/ In c (arg_conns args).
Proof. exact history_added. Qed.
Print Assumptions C13_added.

Theorem C13_removed :
  forall W order check ops cs n', check_frame check ->
    let n := history W order check ops empty_net in
    (forall c, In c cs -> has_conn n c) -> del_conns W order cs n = (n', None) ->
    forall c, has_conn n' c <-> has_conn n c /\ ~ In c cs.
Proof. exact history_removed. Qed.
Print Assumptions C13_removed.

(** C13 - a connection the network does not have cannot be removed. *)
Theorem C13_unknown :
  forall W order check ops cs c, check_frame check ->
    let n := history W order check ops empty_net in
    In c cs -> (forall c', has_conn n c' -> w_label W c' <> w_label W c) -> snd (del_conns W order cs n) = Some KeyError.
Proof. exact history_unknown. Qed.
Print Assumptions C13_unknown.

(** C14 – after any history of successful calls the component table lists exactly
    the ends of the network's connections. *)
Theorem C14_components_mirror_connections :
  forall W order check ops, set_order order -> check_frame check ->
    clean W order check ops empty_net ->
    let n := history W order check ops empty_net in
    forall k, has_comp n k <-> attached W n k.
Proof. exact history_mirrored. Qed.
Print Assumptions C14_components_mirror_connections.

(** C14 – component labels are unique and get_comp finds exactly the components
    of the table, after any history including calls that raise. *)
Theorem C14_get_comp :
  forall W order check ops l k, check_frame check ->
    let n := history W order check ops empty_net in
    get_comp n l = Some k <-> has_comp n k /\ w_clabel W k = l.
Proof. exact history_get_comp. Qed.
Print Assumptions C14_get_comp.

(** C15 – the topology checks pass exactly if every port of every component is
    used by exactly one connection. *)
Theorem C15_checks_iff_fully_connected :
  forall W n, conns_ok W n -> mirrored W n -> world_ok W n ->
    (check_conns W n = None /\ check_components W (map snd (n_comps n)) n = None <->
     forall k, has_comp n k -> fully_connected W n k).
Proof. exact checks_iff. Qed.
Print Assumptions C15_checks_iff_fully_connected.

(** C15 – the connection lists of a component then hold one connection per port,
    in lexicographic order of the port names. *)
Theorem C15_port_lists :
  forall W n, conns_ok W n -> mirrored W n -> world_ok W n ->
    check_conns W n = None -> check_components W (map snd (n_comps n)) n = None ->
    forall k, has_comp n k ->
      (forall p c, In p (w_outlets W k) -> (uses_outlet W n k p c <-> In c (outl W n k) /\ w_source_id W c = p)) /\
      (forall p c, In p (w_inlets W k) -> (uses_inlet W n k p c <-> In c (inl W n k) /\ w_target_id W c = p)) /\
      NoDup (outl W n k) /\ NoDup (inl W n k) /\
      (Sorted sle (w_outlets W k) -> map (w_source_id W) (outl W n k) = w_outlets W k) /\
      (Sorted sle (w_inlets W k) -> map (w_target_id W) (inl W n k) = w_inlets W k).
Proof. exact port_lists_full. Qed.
Print Assumptions C15_port_lists.

(** C51 – a rejected call does not leave the tables in step: the connections
    before the offending argument stay without their components. *)
Theorem C51_rejected_add_keeps_tables_in_step_refuted :
  exists W order args n,
    set_order order /\ conns_ok W n /\ comps_ok W n /\ mirrored W n /\
    snd (add_conns W order args n) = Some TypeError /\ ~ mirrored W (fst (add_conns W order args n)).
Proof. exact add_out_of_step. Qed.
Print Assumptions C51_rejected_add_keeps_tables_in_step_refuted.

(** C51 – removing connections of a network that was never checked raises KeyError
    half way, leaving components without connections. *)
Theorem C51_del_keeps_tables_in_step_refuted :
  exists W order args cs,
    let n := fst (add_conns W order args empty_net) in
    set_order order /\ snd (add_conns W order args empty_net) = None /\ (forall c, In c cs -> has_conn n c) /\
    snd (del_conns W order cs n) = Some KeyError /\ ~ mirrored W (fst (del_conns W order cs n)).
Proof. exact del_out_of_step. Qed.
Print Assumptions C51_del_keeps_tables_in_step_refuted.

(** C51 – what remains true of additions: no connection is lost and no component
    is listed that is not attached to a connection. *)
Theorem C51_rejected_add_partial :
  forall W order args n, set_order order -> conns_ok W n -> comps_ok W n ->
    (forall k, has_comp n k -> attached W n k) ->
    let n' := fst (add_conns W order args n) in
    (forall c, has_conn n c -> has_conn n' c) /\ (forall k, has_comp n' k -> attached W n' k).
Proof. exact add_conns_subset. Qed.
Print Assumptions C51_rejected_add_partial.

(** C55 – with ten or more ports the lists are not in port order. *)
Theorem C55_port_order_refuted :
  exists W n k,
    conns_ok W n /\ mirrored W n /\ world_ok W n /\
    check_conns W n = None /\ check_components W (map snd (n_comps n)) n = None /\ has_comp n k /\
    map (w_target_id W) (inl W n k) <> w_inlets W k.
Proof. exact port_order_ten. Qed.
Print Assumptions C55_port_order_refuted.

(** Example: source -> pump -> sink, then the second connection is removed. *)
Example C13_C14_example :
  let n := fst (add_conns exW (nodup Nat.eq_dec) [AConn 0; AConn 1] empty_net) in
  let n1 := init_components exW n in
  let n2 := fst (del_conns exW (nodup Nat.eq_dec) [1] n1) in
  n_comps n = [("so", 0); ("pu", 1); ("si", 2)] /\ get_conn n "2" = Some 1 /\
  snd (add_conns exW (nodup Nat.eq_dec) [AConn 1] n) = Some ValueError /\
  n_comps n2 = [("so", 0); ("pu", 1)] /\ get_conn n2 "2" = None /\
  check_conns exW n = None /\ check_components exW [0; 1; 2] n = None /\
  check_components exW [0; 1] n2 = Some TESPyNetworkError.
Proof. vm_compute. repeat split. Qed.
