From Coq Require Import QArith.
From Verif Require Import Base MassModel MassSpec FluidModel FluidSpec MarkModel MarkSpec.
From Verif Require DocModel.
Open Scope nat_scope.
Open Scope string_scope.
Open Scope list_scope.

(** Two connections in a row and a third one, which joins them in a merge: the mass flow of the second is 5, water is 2/5 at the
    first, the third has air. *)
Definition ex_net : cnet := {|
  n_ids := [0; 1; 2]; n_label := fun c => match c with 0 => "c1" | 1 => "c2" | _ => "c3" end;
  n_flag := fun c v => Nat.eqb c 0 && String.eqb v "p"; n_ref := fun c v => Nat.eqb c 2 && String.eqb v "T_ref";
  n_balance := fun _ => false |}.
Definition ex_ms : mstate := {|
  ms_heap := fun a => {| mc_set := Nat.eqb a 1; mc_val := if Nat.eqb a 1 then 5 else 1 |}; ms_of := fun c => c; ms_tmp := fun _ => None |}.
Definition ex_fs : fstate := set_fluid 2 "air" (Some 1%Q) (set_fluid 0 "water" (Some (2 # 5)%Q) (new_conns 9)).
Definition ex_bs : list (list nat) := [[0; 1]; [2]].
Definition ex_fluids : list string := ["air"; "water"].
Definition ex_tables : table * table :=
  match prepare (fun _ => None) ex_bs ex_bs ex_net ex_fluids ex_ms ex_fs with Ok t => t | Err _ => ([], []) end.
Definition ex_results : DocModel.frame := {|
  DocModel.t_rows := ["c1"; "c2"; "c3"]; DocModel.t_cols := ["m"; "p"; "air"; "water"]; DocModel.t_val := fun _ _ => Some 1%Q |}.

Lemma ex_ok : prepare (fun _ => None) ex_bs ex_bs ex_net ex_fluids ex_ms ex_fs = Ok ex_tables.
Proof.
  assert (H : match prepare (fun _ => None) ex_bs ex_bs ex_net ex_fluids ex_ms ex_fs with Ok _ => true | Err _ => false end = true) by (vm_compute; reflexivity).
  unfold ex_tables. destruct (prepare (fun _ => None) ex_bs ex_bs ex_net ex_fluids ex_ms ex_fs); [reflexivity|discriminate].
Qed.
Lemma ex_labelled : labelled ex_net.
Proof. intros c d C D. cbn in C, D. destruct C as [<-|[<-|[<-|[]]]], D as [<-|[<-|[<-|[]]]]; cbn; congruence. Qed.
Lemma ex_fluids_ok : fluids_ok ex_fluids.
Proof.
  split; [repeat constructor; cbn; intuition discriminate|]. intros f F. cbn in F. destruct F as [<-|[<-|[]]]; cbn; intuition discriminate.
Qed.
Lemma ex_mass : mass_setup ex_net ex_bs ex_ms.
Proof.
  split; [repeat constructor; cbn; intuition congruence|]. split; [|split].
  - split; [repeat constructor; cbn; intuition congruence|]. split; [cbn; intuition discriminate|]. intros c C. exact C.
  - split; cbn; auto.
  - intros c C. cbn in C. destruct C as [<-|[<-|[<-|[]]]]; [exists [0; 1]|exists [0; 1]|exists [2]]; cbn; auto.
Qed.
Lemma ex_fluid_setup : fluid_setup ex_net ex_bs ex_fs.
Proof.
  split; [|split; [|split; [|split; [|split]]]].
  - split; [repeat constructor; cbn; intuition congruence|]. intros c C. cbn in C. destruct C as [<-|[<-|[<-|[]]]]; cbn;
      (split; [repeat constructor; cbn; intuition congruence|]); (split; [repeat constructor; cbn; intuition congruence|]);
      (split; [lia|]); (split; [lia|]); intros x X; exact X.
  - split; [intros c d C D|reflexivity]. cbn. auto.
  - intros b b' c d B B' C D N. cbn in B, B'. destruct B as [<-|[<-|[]]], B' as [<-|[<-|[]]]; try (exfalso; now apply N); cbn in C, D; clear N; intuition (subst; cbn in *; congruence).
  - repeat constructor; cbn; intuition congruence.
  - cbn; intuition discriminate.
  - intros c. cbn. tauto.
Qed.
Lemma bold_mass_flow : exists mref mbs fbs k fluids ms fs t c,
  labelled k /\ fluids_ok fluids /\ mass_setup k mbs ms /\ fluid_setup k fbs fs /\ prepare mref mbs fbs k fluids ms fs = Ok t
  /\ In c (n_ids k) /\ ~ gives_m ms c /\ marked (fst t) (n_label k c) "m" = true
  /\ exists s r v, let '(_, _, cells, _) := report s t r in cells (n_label k c) "m" = DocModel.Bold v.
Proof.
  exists (fun _ => None), ex_bs, ex_bs, ex_net, ex_fluids, ex_ms, ex_fs, ex_tables, 0.
  split; [exact ex_labelled|]. split; [exact ex_fluids_ok|]. split; [exact ex_mass|]. split; [exact ex_fluid_setup|]. split; [exact ex_ok|].
  split; [now left|]. split; [intros G; apply G; reflexivity|]. split; [vm_compute; reflexivity|].
  exists {| DocModel.f_results := true; DocModel.f_params := [] |}, ex_results, (Some 1%Q). vm_compute. reflexivity.
Qed.
Lemma bold_fluid : exists mref mbs fbs k fluids ms fs t b c f,
  labelled k /\ fluids_ok fluids /\ mass_setup k mbs ms /\ fluid_setup k fbs fs /\ prepare mref mbs fbs k fluids ms fs = Ok t
  /\ In b fbs /\ In c b /\ (forall d, In d b -> ~ In f (fset fs d)) /\ marked (fst t) (n_label k c) f = true
  /\ exists s r v, let '(_, _, cells, _) := report s t r in cells (n_label k c) f = DocModel.Bold v.
Proof.
  exists (fun _ => None), ex_bs, ex_bs, ex_net, ex_fluids, ex_ms, ex_fs, ex_tables, [0; 1], 1, "air".
  split; [exact ex_labelled|]. split; [exact ex_fluids_ok|]. split; [exact ex_mass|]. split; [exact ex_fluid_setup|]. split; [exact ex_ok|].
  split; [now left|]. split; [right; now left|].
  split; [intros d D; cbn in D; destruct D as [<-|[<-|[]]]; vm_compute; intuition discriminate|]. split; [vm_compute; reflexivity|].
  exists {| DocModel.f_results := true; DocModel.f_params := [] |}, ex_results, (Some 1%Q). vm_compute. reflexivity.
Qed.
