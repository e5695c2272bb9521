(** What a reader of the tables in a LaTeX report sees. *)
From Coq Require Import Ascii.
From Verif Require Import Base NetUnitsModel RepTexModel.
Open Scope string_scope.
Open Scope list_scope.

(** LaTeX reads a row of a table: fields are separated by ampersands; a percent sign starts a
    comment, two backslashes end the row, another character after a backslash is literal. *)
Fixpoint fields (s cur : list ascii) : list (list ascii) :=
  match s with
  | [] => [rev cur]
  | c :: s' =>
      if Ascii.eqb c "\" then
        match s' with
        | [] => [rev (c :: cur)]
        | d :: s'' => if Ascii.eqb d "\" then [rev cur] else fields s'' (d :: c :: cur)
        end
      else if Ascii.eqb c "%" then [rev cur]
      else if Ascii.eqb c "&" then rev cur :: fields s' []
      else fields s' (c :: cur)
  end.
(** Spaces at the start and the end of a field do not count. *)
Fixpoint ltrim (s : list ascii) : list ascii :=
  match s with [] => [] | c :: s' => if Ascii.eqb c " " then ltrim s' else s end.
Definition trim (s : list ascii) : list ascii := rev (ltrim (rev (ltrim s))).
Definition read_row (s : string) : list (list ascii) := map trim (fields (list_ascii_of_string s) []).
Definition text (s : string) : list ascii := trim (list_ascii_of_string s).

(** Texts that stay within their field. *)
Fixpoint within (s : list ascii) : bool :=
  match s with
  | [] => true
  | c :: s' =>
      if Ascii.eqb c "\" then match s' with [] => false | d :: s'' => negb (Ascii.eqb d "\") && within s'' end
      else negb (Ascii.eqb c "%") && negb (Ascii.eqb c "&") && within s'
  end.
Definition in_field (s : string) : Prop := within (list_ascii_of_string s) = true.
(** Labels without the characters backslash, percent sign and ampersand. *)
Definition plain_label (s : string) : Prop := contains "\" s = false /\ contains "%" s = false /\ contains "&" s = false.

(** Texts of units: no braces, no backslash, at most one slash. *)
Fixpoint slashes (s : string) : nat :=
  match s with EmptyString => 0%nat | String b s' => if Ascii.eqb b "/" then S (slashes s') else slashes s' end.
Definition unit_text (s : string) : Prop :=
  contains "{" s = false /\ contains "}" s = false /\ contains "\" s = false /\ (slashes s <= 1)%nat.

(** A header names a unit. *)
Definition names_unit (header prop u : string) : Prop := header = (escape prop ++ " in " ++ latex_unit u)%string.
(** Units of a property known to the package. *)
Definition supported (prop u : string) : Prop := unit_known prop u = Some true.
(** The steps after the last calculation do not change the unit used for a property. *)
Definition unit_kept (prop : string) (kws : list nukw) : Prop :=
  forall kw, In kw kws -> dget (if String.eqb prop "Td_bp" then "T" else prop) (kw_unit kw) = None.
(** Starting values of a connection come from no file, or from one in the same unit. *)
Definition file_agrees (s : session) (file : option init_file) (label prop : string) : Prop :=
  match file with
  | None => True
  | Some f => forall u, f label prop = Some u -> dget (if String.eqb prop "Td_bp" then "T" else prop) (nu_unit (s_net s)) = Some u
  end.
