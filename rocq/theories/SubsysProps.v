(** C179, C180, C181: subsystems and labels. *)
From Coq Require Import Ascii.
From Verif Require Import TopoModel TopoSpec TopoProofs SubsysModel SubsysSpec SubsysProofs.
Open Scope string_scope.
Open Scope list_scope.

(** C179 – a network then holds its connections and those of the subsystems, under distinct labels. *)
Theorem C179_added : forall W order check ops subs n',
  check_frame check ->
  let n := history W order check ops empty_net in
  add_subsys W order subs n = (n', None) ->
  (forall c, has_conn n' c <-> has_conn n c \/ in_subsystem subs c) /\
  forall c d, has_conn n' c -> has_conn n' d -> w_label W c = w_label W d -> c = d.
Proof. exact subsystem_added. Qed.
Print Assumptions C179_added.

(** C179 – its components are the ends of its connections. *)
Theorem C179_components : forall W order check ops subs n',
  set_order order -> check_frame check -> clean W order check ops empty_net ->
  add_subsys W order subs (history W order check ops empty_net) = (n', None) -> forall k, has_comp n' k <-> attached W n' k.
Proof. exact subsystem_components. Qed.
Print Assumptions C179_components.

(** C179 – the table of connections is that of adding the connections directly. *)
Theorem C179_as_connections : forall W order subs n n' n'',
  conns_ok W n ->
  add_subsys W order subs n = (n', None) ->
  add_conns W order (flat_map (map (fun e => AConn (snd e))) subs) n = (n'', None) -> n_conns n' = n_conns n''.
Proof. exact subsystem_as_connections. Qed.
Print Assumptions C179_as_connections.

(** Two subsystems with three connections between components 0, 1, 2, 3. *)
Example C179_ex :
  let W := {| w_class := fun _ => "Pipe"; w_clabel := fun k => nth k ["a"; "b"; "c"; "d"] ""; w_inlets := fun _ => ["in1"]; w_outlets := fun _ => ["out1"];
              w_label := fun c => nth c ["1"; "2"; "3"] ""; w_source := fun c => c; w_source_id := fun _ => "out1"; w_target := fun c => S c; w_target_id := fun _ => "in1" |} in
  let r := add_subsys W (nodup Nat.eq_dec) [[("x", 0); ("y", 1)]; [("x", 2)]] empty_net in
  snd r = None /\ n_conns (fst r) = [("1", 0); ("2", 1); ("3", 2)] /\ n_comps (fst r) = [("a", 0); ("b", 1); ("c", 2); ("d", 3)].
Proof. vm_compute. auto. Qed.


(** C180 – component labels are accepted if and only if they are free of semicolon, comma and dot. *)
Theorem C180_component_labels : forall s,
  (component_label (LStr s) = Ok s <-> without ";" s /\ without "," s /\ without "." s)
  /\ (component_label (LStr s) = Err ValueError <-> part_of ";" s \/ part_of "," s \/ part_of "." s).
Proof. exact component_label_iff. Qed.
Print Assumptions C180_component_labels.

(** C180 – subsystem labels: semicolon, comma with blank, dot. *)
Theorem C180_subsystem_labels : forall s,
  (subsystem_label (LStr s) = Ok s <-> without ";" s /\ ~ part_of ", " s /\ without "." s)
  /\ (subsystem_label (LStr s) = Err ValueError <-> part_of ";" s \/ part_of ", " s \/ part_of "." s).
Proof. exact subsystem_label_iff. Qed.
Print Assumptions C180_subsystem_labels.

(** C180 – other objects than strings are rejected. *)
Theorem C180_other_objects : component_label LOther = Err ValueError /\ subsystem_label LOther = Err ValueError.
Proof. exact other_label. Qed.
Print Assumptions C180_other_objects.

(** C180 – a connection takes every string as label, a default label if none is given. *)
Theorem C180_connection_labels : forall s o t i,
  connection_label s o t i None = Ok (s ++ ":" ++ o ++ "_" ++ t ++ ":" ++ i)%string /\ (forall l, connection_label s o t i (Some (LStr l)) = Ok l) /\
  connection_label s o t i (Some LOther) = Err TypeError.
Proof. exact connection_labels. Qed.
Print Assumptions C180_connection_labels.
(** C180 – the default label of a connection determines its ends unless labels contain colons. *)
Theorem C180_default_labels : forall s o t i s' o' t' i',
  without ":" s -> without ":" t -> without ":" s' -> without ":" t' -> without "_" o -> without "_" o' ->
  default_label s o t i = default_label s' o' t' i' -> s = s' /\ o = o' /\ t = t' /\ i = i'.
Proof. exact default_label_inj. Qed.
Print Assumptions C180_default_labels.

(** C180 – so default labels are unique where every outlet is used once. *)
Theorem C180_default_labels_unique : forall W n,
  default_labels W n ->
  (forall c, has_conn n c -> without ":" (w_clabel W (w_source W c)) /\ without ":" (w_clabel W (w_target W c)) /\ without "_" (w_source_id W c)) ->
  (forall c d, has_conn n c -> has_conn n d -> w_clabel W (w_source W c) = w_clabel W (w_source W d) -> w_source W c = w_source W d) ->
  (forall c d, has_conn n c -> has_conn n d -> w_source W c = w_source W d -> w_source_id W c = w_source_id W d -> c = d) ->
  forall c d, has_conn n c -> has_conn n d -> w_label W c = w_label W d -> c = d.
Proof. exact default_labels_unique. Qed.
Print Assumptions C180_default_labels_unique.

(** Accepted, rejected; default label. *)
Example C180_ex : component_label (LStr "heat pump:1") = Ok "heat pump:1" /\ component_label (LStr "p.1") = Err ValueError
  /\ connection_label "a" "out1" "b" "in2" None = Ok "a:out1_b:in2" /\ connection_label "a" "out1" "b" "in2" (Some LOther) = Err TypeError.
Proof. vm_compute. auto. Qed.


(** C181 – refuted: a comma is accepted in labels of subsystems though no component can be named after it. *)
Theorem C181_subsystem_commas_refuted : exists s part, subsystem_label (LStr s) = Ok s /\ component_label (LStr (s ++ part)%string) = Err ValueError
  /\ part_of "," s.
Proof. exact comma_in_subsystem. Qed.
Print Assumptions C181_subsystem_commas_refuted.

(** C181 – refuted: different connections may have the same default label. *)
Theorem C181_default_labels_refuted : exists s o t i s' o' t' i', component_label (LStr s) = Ok s /\ component_label (LStr t) = Ok t /\
  component_label (LStr s') = Ok s' /\ component_label (LStr t') = Ok t' /\ In o ["out1"; "out2"] /\ In o' ["out1"; "out2"] /\ In i ["in1"] /\ In i' ["in1"] /\
  (s, t) <> (s', t') /\ default_label s o t i = default_label s' o' t' i'.
Proof. exact default_label_clash. Qed.
Print Assumptions C181_default_labels_refuted.
