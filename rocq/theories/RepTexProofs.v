(** Lemmas about units and rows in the tables of a report. *)
From Coq Require Import Ascii Lia.
From Verif Require Import Base NetUnitsModel UnitsProofs RepTexModel RepTexSpec.
Open Scope string_scope.
Open Scope list_scope.

(* ------------------------------------------------------------------ rows *)

Lemma within_fields : forall n c s cur, (length c <= n)%nat -> within c = true -> fields (c ++ s) cur = fields s (rev c ++ cur).
Proof.
  induction n as [|n IH]; intros c s cur L W.
  - destruct c; [reflexivity|cbn in L; lia].
  - destruct c as [|a c]; [reflexivity|]. cbn [within app fields] in *. cbn [length] in L.
    destruct (Ascii.eqb a "\") eqn:E1.
    + destruct c as [|d c]; [discriminate W|]. cbn [app] in *. apply andb_prop in W. destruct W as [W1 W2].
      destruct (Ascii.eqb d "\") eqn:E2; [discriminate W1|]. cbn [length] in L. rewrite IH by (try lia; assumption).
      cbn [rev]. rewrite <- !app_assoc. reflexivity.
    + apply andb_prop in W. destruct W as [W W3]. apply andb_prop in W. destruct W as [W1 W2].
      destruct (Ascii.eqb a "%"); [discriminate W1|]. destruct (Ascii.eqb a "&"); [discriminate W2|].
      rewrite IH by (try lia; assumption). cbn [rev]. rewrite <- app_assoc. reflexivity.
Qed.

Lemma ltrim_all_or : forall s t, (ltrim s = [] /\ ltrim (s ++ t) = ltrim t) \/ (ltrim s <> [] /\ ltrim (s ++ t) = ltrim s ++ t).
Proof.
  induction s as [|c s IH]; intros t; cbn [ltrim app]; [left; auto|].
  destruct (Ascii.eqb c " "); [apply IH|right; split; [discriminate|reflexivity]].
Qed.
Lemma trim_space_l : forall s, trim (" "%char :: s) = trim s.
Proof. reflexivity. Qed.
Lemma trim_space_r : forall s, trim (s ++ [" "%char]) = trim s.
Proof.
  intros s. unfold trim. destruct (ltrim_all_or s [" "%char]) as [[A B]|[A B]].
  - rewrite A, B. reflexivity.
  - rewrite B, rev_app_distr. reflexivity.
Qed.

Lemma list_ascii_app : forall a b, list_ascii_of_string (a ++ b) = list_ascii_of_string a ++ list_ascii_of_string b.
Proof. induction a as [|c a IH]; intros b; [reflexivity|]. cbn. rewrite IH. reflexivity. Qed.

Lemma trim_mid : forall s, trim ((" "%char :: s) ++ [" "%char]) = trim s.
Proof. intros. rewrite trim_space_r. apply trim_space_l. Qed.

Lemma row_tail : forall cells c cur, Forall in_field (c :: cells) ->
  map trim (fields (list_ascii_of_string (String.concat " & " (c :: cells) ++ " \\")) cur) =
  trim (rev cur ++ list_ascii_of_string c) :: map text cells.
Proof.
  induction cells as [|d cells IH]; intros c cur F.
  - inversion F as [|? ? H _]. subst. cbn [String.concat]. rewrite list_ascii_app. rewrite (within_fields _ _ _ _ (le_n _) H).
    cbn [list_ascii_of_string]. cbn -[rev trim app]. 
    change (rev (" "%char :: rev (list_ascii_of_string c) ++ cur)) with (rev (rev (list_ascii_of_string c) ++ cur) ++ [" "%char]).
    rewrite rev_app_distr, rev_involutive. rewrite trim_space_r. reflexivity.
  - inversion F as [|? ? H F']. subst.
    change (String.concat " & " (c :: d :: cells)) with (c ++ " & " ++ String.concat " & " (d :: cells))%string.
    assert (E : ((c ++ " & " ++ String.concat " & " (d :: cells)) ++ " \\" = c ++ " & " ++ (String.concat " & " (d :: cells) ++ " \\"))%string).
    { generalize (String.concat " & " (d :: cells)). clear. intros s. induction c as [|x c IH]; [reflexivity|]. cbn in *. rewrite IH. reflexivity. }
    rewrite E, list_ascii_app, (within_fields _ _ _ _ (le_n _) H), list_ascii_app.
    pose proof (IH d [" "%char] F') as R. revert R. generalize (list_ascii_of_string (String.concat " & " (d :: cells) ++ " \\")). intros t R.
    change (fields (list_ascii_of_string " & " ++ t) (rev (list_ascii_of_string c) ++ cur))
      with (rev (" "%char :: rev (list_ascii_of_string c) ++ cur) :: fields t [" "%char]).
    cbn [map]. rewrite R.
    change (rev (" "%char :: rev (list_ascii_of_string c) ++ cur)) with (rev (rev (list_ascii_of_string c) ++ cur) ++ [" "%char]).
    rewrite rev_app_distr, rev_involutive, trim_space_r. reflexivity.
Qed.

Lemma escape_within : forall l, plain_label l -> in_field (escape l).
Proof.
  intros l (A & B & C). unfold in_field. induction l as [|c l IH]; [reflexivity|].
  cbn [contains] in A, B, C. apply orb_false_elim in A, B, C. destruct A as [A A'], B as [B B'], C as [C C'].
  cbn [escape]. destruct (Ascii.eqb c "_") eqn:E.
  - cbn. exact (IH A' B' C').
  - cbn [list_ascii_of_string within]. rewrite Ascii.eqb_sym in A, B, C. rewrite A, B, C. exact (IH A' B' C').
Qed.

Lemma row_read : forall l cells, plain_label l -> Forall in_field cells ->
  read_row (table_row l cells) = text (escape l) :: map text cells.
Proof.
  intros l cells P F. unfold read_row, table_row. rewrite row_tail; [reflexivity|]. constructor; [exact (escape_within l P)|exact F].
Qed.
Lemma headers_read : forall hs, Forall in_field hs -> read_row (header_row hs) = [] :: map text hs.
Proof.
  intros hs F. unfold read_row, header_row. rewrite row_tail; [reflexivity|]. constructor; [reflexivity|exact F].
Qed.

(* ----------------------------------------------------------------- units *)

Lemma contains_app : forall a s t, contains a (s ++ t) = contains a s || contains a t.
Proof. induction s as [|c s IH]; intros t; [reflexivity|]. cbn. rewrite IH. destruct (Ascii.eqb a c); reflexivity. Qed.
Lemma contains_despace : forall a s, contains a s = false -> contains a (despace s) = false.
Proof.
  induction s as [|c s IH]; intros H; [reflexivity|]. cbn in *. apply orb_false_elim in H. destruct H as [A B].
  destruct (Ascii.eqb c " "); [exact (IH B)|]. cbn. rewrite A. exact (IH B).
Qed.
Lemma contains_before : forall a s, contains a s = false -> contains a (before_slash s) = false.
Proof.
  induction s as [|c s IH]; intros H; [reflexivity|]. cbn in *. apply orb_false_elim in H. destruct H as [A B].
  destruct (Ascii.eqb c "/"); [reflexivity|]. cbn. rewrite A. exact (IH B).
Qed.
Lemma contains_after : forall a s, contains a s = false -> contains a (after_slash s) = false.
Proof.
  induction s as [|c s IH]; intros H; [reflexivity|]. cbn in *. apply orb_false_elim in H. destruct H as [A B].
  destruct (Ascii.eqb c "/"); [exact B|exact (IH B)].
Qed.
Lemma cut_at : forall a s t s' t', contains a s = false -> contains a s' = false ->
  (s ++ String a t = s' ++ String a t')%string -> s = s' /\ t = t'.
Proof.
  induction s as [|c s IH]; intros t s' t' A B E; destruct s' as [|c' s']; cbn in *.
  - injection E as E. auto.
  - injection E as E _. subst c'. rewrite Ascii.eqb_refl in B. discriminate B.
  - injection E as E _. subst c. rewrite Ascii.eqb_refl in A. discriminate A.
  - injection E as -> E. apply orb_false_elim in A, B. destruct (IH _ _ _ (proj2 A) (proj2 B) E) as [-> ->]. auto.
Qed.
Lemma no_slash_before : forall s, slashes s = 0%nat -> before_slash s = s.
Proof.
  induction s as [|c s IH]; intros H; [reflexivity|]. cbn in *. destruct (Ascii.eqb c "/"); [discriminate H|]. rewrite IH by assumption. reflexivity.
Qed.
Lemma one_slash : forall s, contains "/" s = true -> (slashes s <= 1)%nat ->
  s = (before_slash s ++ String "/" (before_slash (after_slash s)))%string.
Proof.
  induction s as [|c s IH]; intros H L; [discriminate H|]. cbn [contains slashes before_slash after_slash] in *. rewrite Ascii.eqb_sym in H.
  destruct (Ascii.eqb c "/") eqn:E.
  - apply Ascii.eqb_eq in E. subst c. cbn. rewrite no_slash_before by lia. reflexivity.
  - cbn in *. rewrite <- IH by assumption. reflexivity.
Qed.
Lemma despace_app : forall s t, despace (s ++ t) = (despace s ++ despace t)%string.
Proof. induction s as [|c s IH]; intros t; [reflexivity|]. cbn. rewrite IH. destruct (Ascii.eqb c " "); reflexivity. Qed.

Lemma shown_unit : forall u u', contains "}" u = false -> contains "\" u = false -> contains "}" u' = false -> contains "\" u' = false ->
  ((if String.eqb u "C" || String.eqb u "F" then "^\circ " ++ u else u) ++ "}$")%string =
  ((if String.eqb u' "C" || String.eqb u' "F" then "^\circ " ++ u' else u') ++ "}$")%string -> u = u'.
Proof.
  intros u u' A B A' B' E.
  assert (G : forall x, contains "}" x = false -> contains "}" (if String.eqb x "C" || String.eqb x "F" then "^\circ " ++ x else x)%string = false).
  { intros x H. destruct (String.eqb x "C" || String.eqb x "F"); [cbn; exact H|exact H]. }
  destruct (cut_at "}" _ _ _ _ (G u A) (G u' A') E) as [F _]. clear E G.
  destruct (String.eqb u "C" || String.eqb u "F"), (String.eqb u' "C" || String.eqb u' "F").
  - cbn in F. injection F as F. exact F.
  - subst u'. discriminate B'.
  - subst u. discriminate B.
  - exact F.
Qed.

Lemma units_apart : forall u u', unit_text u -> unit_text u' -> latex_unit u = latex_unit u' ->
  despace u = despace u' /\ (contains "/" u = false -> u = u').
Proof.
  intros u u' (A & B & C & D) (A' & B' & C' & D') E. unfold latex_unit in E.
  destruct (contains "/" u) eqn:S, (contains "/" u') eqn:S'.
  - split; [|discriminate]. apply one_slash in S, S'; try assumption.
    cbn in E. injection E as E.
    apply cut_at in E; [|now apply contains_despace, contains_before|now apply contains_despace, contains_before].
    destruct E as [E1 E]. cbn in E. injection E as E.
    apply cut_at in E; [|now apply contains_despace, contains_before, contains_after|now apply contains_despace, contains_before, contains_after].
    destruct E as [E2 _]. rewrite S, S'. rewrite !despace_app. cbn. rewrite E1, E2. reflexivity.
  - cbn in E. discriminate E.
  - cbn in E. discriminate E.
  - cbn in E. injection E as E. apply shown_unit in E; try assumption. subst. auto.
Qed.

(** All units of a property. *)
Definition units_of (prop : string) : list string :=
  if String.eqb prop "T" then keys units_T else match dget prop units_lin with Some us => keys us | None => [] end.
Lemma dmem_keys : forall (A : Type) (k : string) (d : dict A), dmem k d = true -> In k (keys d).
Proof.
  intros A k d. unfold dmem, keys. induction d as [|[x v] d IH]; cbn; intros H; [discriminate H|].
  destruct (String.eqb k x) eqn:E; [apply String.eqb_eq in E; left; congruence|right; exact (IH H)].
Qed.
Lemma supported_in : forall p u, supported p u -> In u (units_of p).
Proof.
  intros p u H. unfold supported, unit_known in H. unfold units_of. destruct (String.eqb p "T"); [injection H as H; exact (dmem_keys _ _ _ H)|].
  destruct (dget p units_lin); [injection H as H; exact (dmem_keys _ _ _ H)|discriminate H].
Qed.
Lemma dget_in : forall (A : Type) (k : string) (d : dict A) v, dget k d = Some v -> In k (keys d).
Proof.
  intros A k d v. unfold keys. induction d as [|[x w] d IH]; cbn; intros H; [discriminate H|].
  destruct (String.eqb k x) eqn:E; [apply String.eqb_eq in E; left; congruence|right; exact (IH H)].
Qed.
Lemma supported_prop : forall p u, supported p u -> In p fpd_keys.
Proof.
  intros p u H. unfold supported, unit_known in H. destruct (String.eqb p "T") eqn:E.
  - apply String.eqb_eq in E. subst p. cbn. tauto.
  - destruct (dget p units_lin) eqn:G; [|discriminate H]. apply dget_in in G. cbn in G. cbn. tauto.
Qed.

Definition apart_b (l : list string) : bool :=
  forallb (fun u => forallb (fun u' => implb (String.eqb (latex_unit u) (latex_unit u')) (String.eqb u u')) l) l.
Lemma apart_all : forallb (fun p => apart_b (units_of p)) fpd_keys = true.
Proof. vm_compute. reflexivity. Qed.
Lemma append_cancel : forall a b c, (a ++ b = a ++ c)%string -> b = c.
Proof. induction a as [|x a IH]; intros b c E; [exact E|]. cbn in E. injection E as E. exact (IH _ _ E). Qed.
Lemma supported_apart : forall p u u', supported p u -> supported p u' -> latex_unit u = latex_unit u' -> u = u'.
Proof.
  intros p u u' S S' E. pose proof (proj1 (forallb_forall _ _) apart_all p (supported_prop p u S)) as H.
  pose proof (proj1 (forallb_forall _ _) (proj1 (forallb_forall _ _) H u (supported_in p u S)) u' (supported_in p u' S')) as K.
  cbv beta in K. rewrite E, String.eqb_refl in K. cbn in K. now apply String.eqb_eq in K.
Qed.

Definition fits_b : bool :=
  forallb (fun p => forallb (fun u => String.eqb u "%" || within (list_ascii_of_string (escape p ++ " in " ++ latex_unit u))) (units_of p)) fpd_keys.
Lemma fits_all : fits_b = true.
Proof. vm_compute. reflexivity. Qed.
Lemma header_fits : forall p u, supported p u -> u <> "%"%string -> in_field (escape p ++ " in " ++ latex_unit u)%string.
Proof.
  intros p u S N. pose proof (proj1 (forallb_forall _ _) fits_all p (supported_prop p u S)) as H.
  pose proof (proj1 (forallb_forall _ _) H u (supported_in p u S)) as K. cbv beta in K.
  apply orb_prop in K. destruct K as [K|K]; [apply String.eqb_eq in K; contradiction|exact K].
Qed.

(* -------------------------------------------------------------- sessions *)

Lemma do_valid : forall l s, units_valid (s_net s) -> units_valid (s_net (fold_left do l s)).
Proof.
  induction l as [|[kw|file SI] l IH]; intros s H; cbn [fold_left do]; [exact H| |]; apply IH; cbn [s_net]; [apply nu_set_attr_valid, H|exact H].
Qed.
Lemma steps_valid : forall l, units_valid (s_net (steps l)).
Proof. intros l. apply do_valid, nu_defaults_valid. Qed.

Lemma set_units_other : forall ps kw s p, dget p (kw_unit kw) = None -> dget p (nu_unit (fst (set_units ps kw s))) = dget p (nu_unit s).
Proof.
  induction ps as [|q ps IH]; intros kw s p H; cbn [set_units]; [reflexivity|].
  destruct (dget q (kw_unit kw)) as [u|] eqn:E; [|exact (IH kw s p H)].
  destruct (unit_known q u) as [[|]|]; [|reflexivity|reflexivity]. rewrite IH by exact H. cbn [nu_unit].
  apply dget_dset_neq. intros ->. congruence.
Qed.
Lemma set_attr_other : forall kw s p, dget p (kw_unit kw) = None -> dget p (nu_unit (fst (nu_set_attr kw s))) = dget p (nu_unit s).
Proof.
  intros kw s p H. unfold nu_set_attr. pose proof (set_units_other fpd_keys kw s p H) as H1.
  destruct (set_units fpd_keys kw s) as [s1 [e1|]]; cbn [fst] in *; [exact H1|].
  pose proof (set_ranges_unit range_props kw s1) as H2.
  destruct (set_ranges range_props kw s1) as [s2 [e2|]]; cbn [fst] in *; [rewrite H2; exact H1|].
  pose proof (update_ranges_unit range_props s2) as H3.
  destruct (update_ranges range_props s2) as [s3 [e3|]]; cbn [fst] in *; unfold set_iter; cbn [fst nu_unit]; rewrite H3, H2; exact H1.
Qed.

Lemma after_results : forall kws s, s_results (fold_left do (map SetAttr kws) s) = s_results s.
Proof. induction kws as [|kw kws IH]; intros s; [reflexivity|]. cbn [map fold_left do]. rewrite IH. reflexivity. Qed.
Lemma after_unit : forall kws s p, (forall kw, In kw kws -> dget p (kw_unit kw) = None) ->
  dget p (nu_unit (s_net (fold_left do (map SetAttr kws) s))) = dget p (nu_unit (s_net s)).
Proof.
  induction kws as [|kw kws IH]; intros s p H; [reflexivity|]. cbn [map fold_left do].
  rewrite IH by (intros k I; exact (H k (or_intror I))). cbn [s_net]. apply set_attr_other, H. left. reflexivity.
Qed.

Definition source (prop : string) : string := if String.eqb prop "Td_bp" then "T" else prop.
Lemma source_known : forall p u, In p fpd_keys -> unit_known (source p) u = Some true -> supported p u.
Proof.
  intros p u I H. unfold source in H. unfold supported. destruct (String.eqb p "Td_bp") eqn:E; [|exact H].
  apply String.eqb_eq in E. subst p. rewrite <- (T_Td_same_units u). exact H.
Qed.
Lemma source_in : forall p, In p fpd_keys -> In (source p) fpd_keys.
Proof. intros p H. unfold source. destruct (String.eqb p "Td_bp"); [cbn; tauto|exact H]. Qed.

Lemma convert_supported : forall p u x, supported p u -> exists v, convert_from_SI p x u = Ok v.
Proof.
  intros p u x H. unfold supported, unit_known in H. unfold convert_from_SI. destruct (String.eqb p "T").
  - injection H as H. unfold dmem in H. destruct (dget u units_T) as [[a b]|]; [eexists; reflexivity|discriminate H].
  - destruct (dget p units_lin) as [us|]; [|discriminate H]. injection H as H. unfold dmem in H.
    destruct (dget u us); [eexists; reflexivity|discriminate H].
Qed.

Lemma header_of_values : forall l file SI kws label prop, In prop fpd_keys -> file_agrees (steps l) file label prop -> unit_kept prop kws ->
  let s := steps (l ++ Calculate file SI :: map SetAttr kws) in
  exists u h, col_header (s_net s) prop = Ok h /\ names_unit h prop u /\ supported prop u /\
    (forall u', supported prop u' -> names_unit h prop u' -> u' = u) /\
    match SI label prop with
    | None => s_results s label prop = Ok (None, u)
    | Some x => exists v, s_results s label prop = Ok (Some v, u) /\ convert_from_SI prop x u = Ok v
    end.
Proof.
  intros l file SI kws label prop I G K s. unfold s, steps. rewrite fold_left_app. fold (steps l). cbn [fold_left do].
  rewrite after_results. cbn [s_results]. unfold col_header.
  assert (NP : String.eqb prop "phase" = false). { destruct (String.eqb prop "phase") eqn:E; [|reflexivity]. apply String.eqb_eq in E. subst. cbn in I. intuition discriminate. }
  rewrite NP. unfold conn_unit, get_unit. fold (source prop).
  rewrite (after_unit kws _ (source prop) K). cbn [s_net].
  destruct (steps_valid l (source prop) (source_in prop I)) as (u & D & V). rewrite D. cbn [rmap].
  exists u. eexists. split; [reflexivity|]. split; [reflexivity|]. pose proof (source_known prop u I V) as S. split; [exact S|]. split.
  - intros u' S' N. unfold names_unit in N. symmetry in N. apply append_cancel in N. apply append_cancel in N. exact (supported_apart prop u' u S' S N).
  - assert (U : final_unit (s_net (steps l)) file label prop = Ok u).
    { unfold final_unit, conn_unit, get_unit. fold (source prop). rewrite D. unfold file_agrees in G. fold (source prop) in G.
      destruct file as [f|]; [|reflexivity]. destruct (smem prop _); [|reflexivity].
      destruct (f label prop) as [w|] eqn:W; [|reflexivity]. specialize (G w eq_refl). rewrite D in G. congruence. }
    unfold result. rewrite U. cbn [rbind].
    destruct (SI label prop) as [x|]; [|reflexivity]. destruct (convert_supported prop u x S) as (v & C). exists v. rewrite C. auto.
Qed.

(* ------------------------------------------------------------- witnesses *)

Definition kw1 (p u : string) : nukw := {| kw_unit := [(p, u)]; kw_range := []; kw_iter := None |}.
Definition one_bar : string -> string -> option Q := fun _ p => if String.eqb p "p" then Some 100000%Q else None.
Lemma changed_units : exists l SI kws label prop u v h,
  In prop fpd_keys /\ let s := steps (l ++ Calculate None SI :: map SetAttr kws) in
  s_results s label prop = Ok (Some v, u) /\ col_header (s_net s) prop = Ok h /\ names_unit h prop "Pa" /\ u = "bar"%string /\ (v == 1)%Q.
Proof.
  exists [SetAttr (kw1 "p" "bar")], one_bar, [kw1 "p" "Pa"], "c1"%string, "p"%string, "bar"%string, (100000 / 100000)%Q, "p in $\unit[]{Pa}$"%string.
  split; [cbn; tauto|]. split; [reflexivity|]. split; [reflexivity|]. split; [reflexivity|]. split; reflexivity.
Qed.
Definition bar_file : init_file := fun _ p => if String.eqb p "p" then Some "bar"%string else None.
Lemma file_units : exists file SI label prop u v h,
  In prop fpd_keys /\ let s := steps [Calculate (Some file) SI] in
  s_results s label prop = Ok (Some v, u) /\ col_header (s_net s) prop = Ok h /\ names_unit h prop "Pa" /\ u = "bar"%string /\ (v == 1)%Q.
Proof.
  exists bar_file, one_bar, "c1"%string, "p"%string, "bar"%string, (100000 / 100000)%Q, "p in $\unit[]{Pa}$"%string.
  split; [cbn; tauto|]. split; [reflexivity|]. split; [reflexivity|]. split; [reflexivity|]. split; reflexivity.
Qed.
Lemma percent_header : exists kws h, col_header (s_net (steps (map SetAttr kws))) "x" = Ok h /\
  read_row (header_row [h; "s in $\unitfrac[]{J}{kgK}$"]) = [[]; text "x in $\unit[]{"].
Proof. exists [kw1 "x" "%"], "x in $\unit[]{%}$"%string. split; vm_compute; reflexivity. Qed.
Lemma ampersand_label : exists l cells, Forall in_field cells /\ length (read_row (table_row l cells)) <> S (length cells).
Proof. exists "fan & filter"%string, ["1.0"%string]. split; [repeat constructor|]. vm_compute. discriminate. Qed.
Lemma percent_label : exists l cells, Forall in_field cells /\ read_row (table_row l cells) = [text "load 50"] /\ length cells = 2%nat.
Proof. exists "load 50% hot"%string, ["1.0"%string; "2.0"%string]. split; [repeat constructor|]. split; vm_compute; reflexivity. Qed.
Lemma all_headers_read : forall us : list (string * string), (forall p u, In (p, u) us -> supported p u /\ u <> "%"%string) ->
  let hs := map (fun e => (escape (fst e) ++ " in " ++ latex_unit (snd e))%string) us in
  read_row (header_row hs) = [] :: map text hs.
Proof.
  intros us H hs. apply headers_read. unfold hs. apply Forall_forall. intros x I. apply in_map_iff in I.
  destruct I as ([p u] & <- & I). destruct (H p u I) as [S N]. exact (header_fits p u S N).
Qed.
