(** A small network for the statements about printed tables. *)
From Coq Require Import QArith.
From Verif Require Import Base PrintModel PrintSpec.
Open Scope nat_scope.
Open Scope string_scope.

(** Text of a value. *)
Definition w_show (v : value) : string := match v with Num None => "nan" | Num (Some _) => "1.0" | Txt s => s end.
Definition w_k : colours := {| c_end := "E"; c_set := "S"; c_err := "R"; c_var := "V" |}.
Definition w_param (_ : string) : pparam := {| q_min := 0; q_max := 1; q_var := false; q_set := true |}.
Definition w_pump : pcomp := {| pc_label := "pump"; pc_type := "Pump"; pc_print := true; pc_param := w_param |}.
Definition w_hidden : pcomp := {| pc_label := "total"; pc_type := "Pump"; pc_print := false; pc_param := w_param |}.
Definition w_pumps : table :=
  {| t_cols := ["P"; "eta_s"]; t_rows := [("pump", [Num (Some 5); Num (Some (1 # 2))]); ("total", [Num None; Num (Some 2)])]%Q |}.
Definition w_conn : pconn := {| cn_label := "c1"; cn_print := true; cn_set := String.eqb "m"; cn_val := fun _ => Num (Some 1%Q) |}.
Definition w_conns : table :=
  {| t_cols := ["m"; "p"; "h"; "T"; "x"; "phase"];
     t_rows := [("c1", [Num (Some 1%Q); Num (Some 2%Q); Num (Some 3%Q); Num (Some 4%Q); Num None; Txt "l"])] |}.
Definition w_bus : pbus := {| b_label := "power"; b_print := true; b_Pset := false |}.
(** A bus with the component labelled total, or without. *)
Definition w_power (b : bool) : table :=
  {| t_cols := ["component value"; "bus value"; "efficiency"; "design value"];
     t_rows := ("pump", [Num (Some 5%Q); Num (Some 4%Q); Num (Some 1%Q); Num None])
               :: if b then [("total", [Num (Some 7%Q); Num (Some 6%Q); Num (Some 1%Q); Num None])] else [] |}.
Definition w_net (b : bool) : pnet :=
  {| n_comps := [w_pump; w_hidden]; n_conns := [w_conn]; n_busses := [w_bus];
     n_results := [("power", w_power b); ("Pump", w_pumps); ("Connection", w_conns)] |}.
(** The network before it is solved. *)
Definition w_new : pnet := {| n_comps := [w_pump]; n_conns := [w_conn]; n_busses := []; n_results := [] |}.

Lemma w_wf : forall b, well_formed (w_net b).
Proof.
  intros b. split; cbn.
  - repeat constructor; cbn; intuition discriminate.
  - repeat constructor; cbn; intuition.
  - intros c t l vs [<-|[<-|[]]] E H; cbn in E; injection E as <-; cbn in H;
      destruct H as [H|[H|[]]]; injection H as <- <-; (split; [reflexivity|repeat constructor; eauto]).
Qed.

Lemma total_lost : exists n l b t vs,
  print_results w_show false w_k n = Ok l /\ In b (n_busses n) /\ b_print b = true /\
  dget (b_label b) (n_results n) = Some t /\ In ("total", vs) (t_rows t) /\
  col_of t vs "bus value" = Some (Num (Some 6%Q)) /\
  forall cells, shows l ("Bus: " ++ b_label b) "total" cells ->
    cells <> map (fun c => Value (match col_of t vs c with Some v => v | None => Num None end))
               ["component value"; "bus value"; "efficiency"].
Proof.
  exists (w_net true). eexists. exists w_bus, (w_power true). eexists.
  split; [reflexivity|]. split; [left; reflexivity|]. split; [reflexivity|]. split; [reflexivity|].
  split; [right; left; reflexivity|]. split; [reflexivity|].
  intros cells (s & I & T & R) E. subst cells. cbn in I.
  destruct I as [<-|[<-|[<-|[]]]]; try discriminate T. cbn in R.
  destruct R as [R|[R|[]]]; discriminate R.
Qed.
