(** Units, labels and rows of the tables in reports: C266, C267. *)
From Coq Require Import Ascii.
From Verif Require Import Base NetUnitsModel RepTexModel RepTexSpec RepTexProofs.
Open Scope string_scope.
Open Scope list_scope.

(** C266 – the header of a property names exactly one supported unit, and the values below are in that
    unit, if the unit was not changed after the calculation and starting values were not read from a file in
    other units. *)
Theorem C266_units : forall l file SI kws label prop, In prop fpd_keys -> file_agrees (steps l) file label prop -> unit_kept prop kws ->
  let s := steps (l ++ Calculate file SI :: map SetAttr kws) in
  exists u h, col_header (s_net s) prop = Ok h /\ names_unit h prop u /\ supported prop u /\
    (forall u', supported prop u' -> names_unit h prop u' -> u' = u) /\
    match SI label prop with
    | None => s_results s label prop = Ok (None, u)
    | Some x => exists v, s_results s label prop = Ok (Some v, u) /\ convert_from_SI prop x u = Ok v
    end.
Proof. exact header_of_values. Qed.
Print Assumptions C266_units.

(** C266 – texts of different units differ, also of units not known to the package. *)
Theorem C266_apart : forall u u', unit_text u -> unit_text u' -> latex_unit u = latex_unit u' ->
  despace u = despace u' /\ (contains "/" u = false -> u = u').
Proof. exact units_apart. Qed.
Print Assumptions C266_apart.

(** C267 – after a change of units the header names another unit than the one of the values. *)
Theorem C267_changed_refuted : exists l SI kws label prop u v h,
  In prop fpd_keys /\ let s := steps (l ++ Calculate None SI :: map SetAttr kws) in
  s_results s label prop = Ok (Some v, u) /\ col_header (s_net s) prop = Ok h /\ names_unit h prop "Pa" /\ u = "bar" /\ (v == 1)%Q.
Proof. exact changed_units. Qed.
Print Assumptions C267_changed_refuted.

(** C267 – results of a calculation with a file of starting values in bar are in bar, the header says Pa. *)
Theorem C267_file_refuted : exists file SI label prop u v h,
  In prop fpd_keys /\ let s := steps [Calculate (Some file) SI] in
  s_results s label prop = Ok (Some v, u) /\ col_header (s_net s) prop = Ok h /\ names_unit h prop "Pa" /\ u = "bar" /\ (v == 1)%Q.
Proof. exact file_units. Qed.
Print Assumptions C267_file_refuted.

(** C267 – with vapour mass fractions in percent the header ends at the unit: the columns behind it are lost. *)
Theorem C267_percent_refuted : exists kws h, col_header (s_net (steps (map SetAttr kws))) "x" = Ok h /\
  read_row (header_row [h; "s in $\unitfrac[]{J}{kgK}$"]) = [[]; text "x in $\unit[]{"].
Proof. exact percent_header. Qed.
Print Assumptions C267_percent_refuted.

(** C267 – a label with an ampersand adds a column to its row. *)
Theorem C267_ampersand_refuted : exists l cells, Forall in_field cells /\ length (read_row (table_row l cells)) <> S (length cells).
Proof. exact ampersand_label. Qed.
Print Assumptions C267_ampersand_refuted.

(** C267 – a label with a percent sign removes the values of its row. *)
Theorem C267_label_refuted : exists l cells, Forall in_field cells /\ read_row (table_row l cells) = [text "load 50"] /\ length cells = 2%nat.
Proof. exact percent_label. Qed.
Print Assumptions C267_label_refuted.

(** C267 – rows of labels without such characters show the label and every cell in its column. *)
Theorem C267_row_partial : forall l cells, plain_label l -> Forall in_field cells ->
  read_row (table_row l cells) = text (escape l) :: map text cells.
Proof. exact row_read. Qed.
Print Assumptions C267_row_partial.

(** C267 – headers with supported units other than percent stay in their columns. *)
Theorem C267_header_partial : forall us : list (string * string), (forall p u, In (p, u) us -> supported p u /\ u <> "%") ->
  let hs := map (fun e => (escape (fst e) ++ " in " ++ latex_unit (snd e))%string) us in
  read_row (header_row hs) = [] :: map text hs.
Proof. exact all_headers_read. Qed.
Print Assumptions C267_header_partial.

(** Pressures in bar, temperatures in degrees. *)
Example C266_ex : let s := steps [SetAttr (kw1 "T" "C"); SetAttr (kw1 "p" "bar"); Calculate (Some bar_file) one_bar; SetAttr (kw1 "m" "t / h")] in
  unit_kept "p" [kw1 "m" "t / h"] /\ file_agrees (steps [SetAttr (kw1 "T" "C"); SetAttr (kw1 "p" "bar")]) (Some bar_file) "c1" "p" /\ col_header (s_net s) "Td_bp" = Ok "Td\_bp in $\unit[]{^\circ C}$" /\
  col_header (s_net s) "m" = Ok "m in $\unitfrac[]{t}{h}$" /\ s_results s "c1" "p" = Ok (Some (100000 / 100000)%Q, "bar").
Proof. split; [intros kw [<-|[]]; reflexivity|]. split; [intros u H; injection H as <-; reflexivity|]. split; [reflexivity|split; reflexivity]. Qed.
Example C266_apart_ex : unit_text "kJ / kg" /\ unit_text "C" /\ unit_text "kJ/kg" /\ latex_unit "kJ / kg" = latex_unit "kJ/kg".
Proof. unfold unit_text. cbn. repeat split; auto. Qed.
Example C267_ex : plain_label "c_1" /\ read_row (table_row "c_1" ["\bftab 1.000"; "-"]) = [text "c\_1"; text "\bftab 1.000"; text "-"].
Proof. split; [split; [|split]; reflexivity|reflexivity]. Qed.
