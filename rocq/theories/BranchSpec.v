(** Vocabulary for statements about mass flow branches, independent of how the
    branches are built: streams are followed through component ports. *)
From Coq Require Import QArith.
From Verif Require Import TopoModel TopoSpec BranchModel.
Open Scope nat_scope.
Open Scope string_scope.

Section W.
Variable W : world.
Variable n : net.

(** Ports of the component classes (inlets() and outlets() of each class). A
    component passing streams straight through has paired ports in<s>, out<s>. *)
Definition ports_ok (k : nat) : Prop :=
  let i := w_inlets W k in let o := w_outlets W k in
  match kind_of W k with
  | Through => exists ss, i = map (fun s => "in" ++ s) ss /\ o = map (fun s => "out" ++ s) ss
  | Source => i = [] /\ o = ["out1"]
  | Sink => i = ["in1"] /\ o = []
  | CycleCloser => i = ["in1"] /\ o = ["out1"]
  | Merge => o = ["out1"]
  | Separator | Node => i = ["in1"]
  | Drum => i = ["in1"; "in2"] /\ o = ["out1"; "out2"]
  | Combustion => i = ["in1"; "in2"] /\ o = ["out1"]
  | Engine => i = ["in1"; "in2"; "in3"; "in4"] /\ o = ["out1"; "out2"; "out3"]
  | FuelCell => i = ["in1"; "in2"; "in3"] /\ o = ["out1"; "out2"]
  | Electrolyzer => i = ["in1"; "in2"] /\ o = ["out1"; "out2"; "out3"]
  end.

(** Connection [b] leaves component [k] on the port paired with the one [a] enters. *)
Definition paired (a b : nat) : Prop :=
  exists s, w_target_id W a = "in" ++ s /\ w_source_id W b = "out" ++ s.

(** The stream on [a] continues on [b]. *)
Definition flow_next (a b : nat) : Prop :=
  has_conn n a /\ has_conn n b /\ w_target W a = w_source W b /\
  match kind_of W (w_target W a) with
  | Through => paired a b
  | Node => True
  | Drum => w_target_id W a = "in1"
  | Engine => paired a b /\ (w_target_id W a = "in1" \/ w_target_id W a = "in2")
  | FuelCell | Electrolyzer => w_target_id W a = "in1" /\ w_source_id W b = "out1"
  | Source | Sink | CycleCloser | Merge | Separator | Combustion => False
  end.

(** A new stream begins with [a]. *)
Definition starts (a : nat) : Prop :=
  has_conn n a /\
  match kind_of W (w_source W a) with
  | Source | CycleCloser | Merge | Separator | Combustion => True
  | Engine => w_source_id W a = "out3"
  | FuelCell => w_source_id W a = "out2"
  | Electrolyzer => w_source_id W a = "out2" \/ w_source_id W a = "out3"
  | Through | Node | Drum | Sink => False
  end.

(** [b] is reached from [a] in the given number of steps. *)
Fixpoint steps (i : nat) (a b : nat) : Prop :=
  match i with
  | 0 => a = b
  | S i' => exists x, steps i' a x /\ flow_next x b
  end.

(** No stream runs into itself. *)
Definition loop_free : Prop := forall a i, ~ steps (S i) a a.

(** A network whose topology was accepted by check_conns and check_components. *)
Definition accepted : Prop :=
  conns_ok W n /\ comps_ok W n /\ mirrored W n /\ world_ok W n /\
  check_conns W n = None /\ check_components W (map snd (n_comps n)) n = None /\
  forall k, has_comp n k -> ports_ok k.

(** Mass balances of the components that pass streams on. *)
Definition balanced (m : nat -> Q) : Prop :=
  (forall a b, flow_next a b ->
     match kind_of W (w_target W a) with Node | Drum => True | _ => (m a == m b)%Q end) /\
  (forall k i1 i2 o1 o2, kind_of W k = Drum ->
     uses_inlet W n k "in1" i1 -> uses_inlet W n k "in2" i2 ->
     uses_outlet W n k "out1" o1 -> uses_outlet W n k "out2" o2 ->
     (m i1 + m i2 == m o1 + m o2)%Q).
End W.

(** All connections listed in a set of branches. *)
Definition branch_conns (l : list (list nat * list nat)) : list nat := concat (map fst l).

(** A network as left by successful calls (C13, C14) of connections made by the
    constructor between components of known classes. *)
Definition sound_net (W : world) (n : net) : Prop :=
  conns_ok W n /\ comps_ok W n /\ mirrored W n /\ world_ok W n /\ forall k, has_comp n k -> ports_ok W k.

(** [c] belongs to a stream with a beginning. *)
Definition on_stream (W : world) (n : net) (c : nat) : Prop :=
  exists s i, starts W n s /\ steps W n i s c.
