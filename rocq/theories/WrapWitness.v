(** Networks for the refutations and examples about fluid wrapper branches. *)
From Coq Require Import Relations.
From Verif Require Import TopoModel TopoSpec TopoProofs BranchModel BranchSpec BranchProofs WrapModel WrapSpec WrapDfs WrapProofs.
Open Scope nat_scope.
Open Scope string_scope.
Open Scope list_scope.

Lemma accepts W n : sound_net W n -> check_conns W n = None -> check_components W (map snd (n_comps n)) n = None -> accepted W n.
Proof. intros (A & B & C & D & E) F G. repeat (split; [assumption|]). assumption. Qed.

(** Sources p and x into one merge, q and y into another, r split to both. *)
Definition overlapW : world := mkW
  ["Source"; "Source"; "Source"; "Source"; "Source"; "Merge"; "Merge"; "Splitter"; "Sink"; "Sink"]
  ["P"; "X"; "Q"; "Y"; "R"; "M1"; "M2"; "SP"; "S1"; "S2"]
  [[]; []; []; []; []; ["in1"; "in2"; "in3"]; ["in1"; "in2"; "in3"]; ["in1"]; ["in1"]; ["in1"]]
  [["out1"]; ["out1"]; ["out1"]; ["out1"]; ["out1"]; ["out1"]; ["out1"]; ["out1"; "out2"]; []; []]
  ["p"; "x"; "q"; "y"; "r"; "r1"; "r2"; "m1"; "m2"]
  [(0, "out1", 5, "in1"); (1, "out1", 5, "in2"); (2, "out1", 6, "in1"); (3, "out1", 6, "in2"); (4, "out1", 7, "in1");
   (7, "out1", 5, "in3"); (7, "out2", 6, "in3"); (5, "out1", 8, "in1"); (6, "out1", 9, "in1")].
Definition overlapN : net := history overlapW (nodup Nat.eq_dec) (fun n => n) [TopoSpec.Add (map AConn [0; 1; 2; 3; 4; 5; 6; 7; 8])] empty_net.

(** A source split to the cooling and the fuel inlet of a combustion engine. *)
Definition engineW : world := mkW
  ["Source"; "Splitter"; "CombustionEngine"; "Source"; "Source"; "Sink"; "Sink"; "Sink"]
  ["so"; "sp"; "en"; "cw"; "air"; "s1"; "s2"; "s3"]
  [[]; ["in1"]; ["in1"; "in2"; "in3"; "in4"]; []; []; ["in1"]; ["in1"]; ["in1"]]
  [["out1"]; ["out1"; "out2"]; ["out1"; "out2"; "out3"]; ["out1"]; ["out1"]; []; []; []]
  ["a"; "b"; "f"; "c"; "l"; "o1"; "o2"; "o3"]
  [(0, "out1", 1, "in1"); (1, "out1", 2, "in1"); (1, "out2", 2, "in3"); (3, "out1", 2, "in2"); (4, "out1", 2, "in4");
   (2, "out1", 5, "in1"); (2, "out2", 6, "in1"); (2, "out3", 7, "in1")].
Definition engineN : net := history engineW (nodup Nat.eq_dec) (fun n => n) [TopoSpec.Add (map AConn [0; 1; 2; 3; 4; 5; 6; 7])] empty_net.

Ltac by_conn Hc := cbn in Hc; repeat (destruct Hc as [<-|Hc]; [split; [reflexivity|split; cbn; auto; try (exists ["1"%string]; auto)]|]); destruct Hc.

Lemma overlap_accepted : accepted overlapW overlapN.
Proof.
  apply accepts; [|vm_compute; reflexivity|vm_compute; reflexivity].
  apply small_world with (args := map AConn [0; 1; 2; 3; 4; 5; 6; 7; 8]); [reflexivity|vm_compute; reflexivity| |].
  - intros c Hc. by_conn Hc.
  - intros k. do 10 (destruct k as [|k]; [cbn; split; small_ports_tac|]). cbn. destruct k; cbn; split; constructor.
Qed.
Lemma engine_accepted : accepted engineW engineN.
Proof.
  apply accepts; [|vm_compute; reflexivity|vm_compute; reflexivity].
  apply small_world with (args := map AConn [0; 1; 2; 3; 4; 5; 6; 7]); [reflexivity|vm_compute; reflexivity| |].
  - intros c Hc. by_conn Hc.
  - intros k. do 8 (destruct k as [|k]; [cbn; split; small_ports_tac|]). cbn. destruct k; cbn; split; constructor.
Qed.
Lemma loop_accepted : accepted loopW loopN.
Proof. apply accepts; [apply loop_sound|vm_compute; reflexivity|vm_compute; reflexivity]. Qed.

Lemma overlap_no_engine : no_engine overlapW overlapN.
Proof.
  intros k (l & H). vm_compute in H. repeat (destruct H as [H|H]; [injection H as _ <-; split; vm_compute; discriminate|]). destruct H.
Qed.
Lemma loop_no_engine : no_engine loopW loopN.
Proof.
  intros k (l & H). vm_compute in H. repeat (destruct H as [H|H]; [injection H as _ <-; split; vm_compute; discriminate|]). destruct H.
Qed.

Definition overlap_result : dict (list nat * list nat) := Eval vm_compute in
  match create_fluid_wrapper_branches overlapW overlapN (nodup Nat.eq_dec) 20 with Ok r => r | Err _ => [] end.
Definition engine_result : dict (list nat * list nat) := Eval vm_compute in
  match create_fluid_wrapper_branches engineW engineN (nodup Nat.eq_dec) 20 with Ok r => r | Err _ => [] end.

Lemma nodup_set_order : set_order (nodup Nat.eq_dec).
Proof. exact nodup_order. Qed.

Lemma overlap_shared : exists W n order f ms l b l' b' c, accepted W n /\ no_engine W n /\ set_order order /\ length (n_conns n) < f /\
  create_fluid_wrapper_branches W n order f = Ok ms /\ In (l, b) ms /\ In (l', b') ms /\ l <> l' /\ In c (fst b) /\ In c (fst b').
Proof.
  exists overlapW, overlapN, (nodup Nat.eq_dec), 20, overlap_result, "q", ([2; 3; 8], [2; 3; 6; 9]), "r", ([4; 5; 6; 8; 0; 1; 7], [4; 7; 6; 9; 0; 1; 5; 8]), 8.
  split; [apply overlap_accepted|]. split; [apply overlap_no_engine|]. split; [apply nodup_set_order|]. split; [vm_compute; lia|].
  split; [vm_compute; reflexivity|]. split; [left; reflexivity|]. split; [right; left; reflexivity|]. split; [discriminate|]. cbn. auto 10.
Qed.

Lemma engine_split : exists W n order f ms s c, accepted W n /\ set_order order /\ length (n_conns n) < f /\
  create_fluid_wrapper_branches W n order f = Ok ms /\ fluid_starts W n s /\ fluid_reach W n s c /\ ~ together ms s c.
Proof.
  exists engineW, engineN, (nodup Nat.eq_dec), 20, engine_result, 0, 7.
  split; [apply engine_accepted|]. split; [apply nodup_set_order|]. split; [vm_compute; lia|].
  split; [vm_compute; reflexivity|].
  assert (HC : forall c, c < 8 -> has_conn engineN c).
  { intros c C. exists (nth c ["a"; "b"; "f"; "c"; "l"; "o1"; "o2"; "o3"] ""). do 8 (destruct c as [|c]; [vm_compute; tauto|]). lia. }
  split; [split; [apply HC; lia|exact I]|]. split.
  - eapply rt_trans; [apply rt_step|apply rt_step].
    + split; [apply HC; lia|]. split; [apply (HC 2); lia|]. split; [reflexivity|]. exact I.
    + split; [apply HC; lia|]. split; [apply HC; lia|]. split; [reflexivity|]. right. split; [left; reflexivity|reflexivity].
  - intros (l & b & H & A & B). cbn in H. destruct H as [H|[H|[H|[]]]]; injection H as <- <-; cbn in A, B; intuition discriminate.
Qed.

(* ---- branches that do not overlap are left alone ---- *)
Definition apart (bs : dict (list nat * list nat)) : Prop :=
  forall l b l' b' c, In (l, b) bs -> In (l', b') bs -> In c (fst b) -> In c (fst b') -> l = l'.

Lemma merge_one_apart order bs name : NoDup (keys bs) -> apart bs -> forall obs alive, merge_one order name obs bs alive = (bs, alive).
Proof.
  intros ND A. induction obs as [|ob obs IH]; intros alive; cbn [merge_one]; [reflexivity|].
  destruct (String.eqb_spec ob name) as [->|N]; [apply IH|]. destruct (dget name bs) as [b|] eqn:B; [|reflexivity]. destruct (dget ob bs) as [o|] eqn:O; [|reflexivity].
  destruct (common (fst b) (fst o)) eqn:C; [|apply IH]. apply common_In in C. destruct C as (x & X1 & X2). exfalso. apply N.
  apply (A ob o name b x); auto using dget_In.
Qed.
Lemma merge_all_apart order bs obs : NoDup (keys bs) -> apart bs -> forall names alive, merge_all order names obs bs alive = (bs, alive).
Proof.
  intros ND A. induction names as [|name names IH]; intros alive; cbn [merge_all]; [reflexivity|].
  destruct (smem name alive); [|apply IH]. rewrite (merge_one_apart order bs name ND A). apply IH.
Qed.
Lemma merge_apart order bs : NoDup (keys bs) -> apart bs -> merge_branches order bs = bs.
Proof.
  intros ND A. unfold merge_branches. rewrite (merge_all_apart order bs (keys bs) ND A).
  assert (E : forall d : dict (list nat * list nat), incl d bs -> filter (fun b => smem (fst b) (keys bs)) d = d).
  { induction d as [|x d IH]; intros I0; cbn [filter]; [reflexivity|]. rewrite IH by (intros y Y; apply I0; now right).
    rewrite (proj2 (smem_In (fst x) (keys bs))); [reflexivity|]. unfold keys. apply in_map. apply I0. now left. }
  apply E, incl_refl.
Qed.

(** Fluids that never meet: every source keeps its own branch. *)
Lemma wrapper_apart W n order f : accepted W n -> no_engine W n -> length (n_conns n) < f ->
  (forall s s' c, fluid_starts W n s -> fluid_starts W n s' -> fluid_reach W n s c -> fluid_reach W n s' c -> s = s') ->
  exists ms, create_fluid_wrapper_branches W n order f = Ok ms /\ NoDup (keys ms) /\
    (forall s, fluid_starts W n s -> exists b, dget (w_label W s) ms = Some b) /\
    (forall l b, dget l ms = Some b -> exists s, fluid_starts W n s /\ w_label W s = l /\ NoDup (fst b) /\ forall x, In x (fst b) <-> fluid_reach W n s x).
Proof.
  intros ACC NE L AP. destruct (branches_ok W n ACC NE f) as (bs & B & ND & ST & SP). { now rewrite map_length. }
  exists bs. split; [|auto]. unfold create_fluid_wrapper_branches. rewrite B. cbn [rmap]. rewrite merge_apart; [reflexivity|exact ND|].
  intros l b l' b' c I1 I2 C1 C2. apply In_dget in I1, I2; try exact ND. destruct (SP _ _ I1) as (s & S0 & E & _ & R). destruct (SP _ _ I2) as (s' & S1 & E' & _ & R').
  rewrite <- E, <- E'. f_equal. apply (AP s s' c); auto; [now apply R|now apply R'].
Qed.
