(** Vocabulary of the statements about combustion. *)
From Coq Require Import QArith Qabs.
From Verif Require Import Base CombModel.
Open Scope Q_scope.

Fixpoint qsum (l : list Q) : Q := match l with [] => 0 | a :: r => a + qsum r end.
Definition sum_over {A} (l : list A) (g : A -> Q) : Q := qsum (map g l).

Definition frac (d : dict Q) (k : string) : Q := match dget k d with Some v => v | None => 0 end.
(** mass flow of fluid [f] in a stream *)
Definition flow (s : stream) (f : string) : Q := s_m s * frac (s_x s) f.

(** amount of an element in a stream: [atoms f] atoms per molecule of [f] *)
Definition element (atoms : string -> Q) (M : dict Q) (fl : list string) (s : stream) : Q :=
  sum_over fl (fun f => atoms f * flow s f / frac M f).

(** the elemental compositions: [a_C], [a_H], [a_O] agree with the fuels' data and
    with the chemistry of oxygen, carbon dioxide and water; any other fluid may
    have any composition *)
Record chemistry (ch : chamber) (aC aH aO : string -> Q) : Prop := {
  co2_C : aC "CO2"%string == 1; co2_H : aH "CO2"%string == 0; co2_O : aO "CO2"%string == 2;
  h2o_C : aC "H2O"%string == 0; h2o_H : aH "H2O"%string == 2; h2o_O : aO "H2O"%string == 1;
  o2_C : aC "O2"%string == 0; o2_H : aH "O2"%string == 0; o2_O : aO "O2"%string == 2;
  fuel_C : forall f, In f (c_fuels ch) -> aC (f_name f) == f_C f;
  fuel_H : forall f, In f (c_fuels ch) -> aH (f_name f) == f_H f;
  fuel_O : forall f, In f (c_fuels ch) -> aO (f_name f) == 0
}.

(** the fluids [fl] of the network are present everywhere, molar masses are not
    zero; the reactants and products are among them *)
Record complete (ch : chamber) (fl : list string) : Prop := {
  fl_nodup : NoDup fl;
  fl_products : incl ["CO2"; "H2O"; "O2"]%string fl;
  fl_fuels : incl (map f_name (c_fuels ch)) fl;
  fl_names : NoDup (map f_name (c_fuels ch));
  fl_apart : forall f, In f (c_fuels ch) -> ~ In (f_name f) ["CO2"; "H2O"; "O2"]%string;
  fl_present : forall f s, In f fl -> In s [c_in1 ch; c_in2 ch; c_out ch] ->
               dget f (s_x s) <> None;
  fl_mass : forall f, In f fl -> exists M, dget f (c_M ch) = Some M /\ ~ M == 0
}.

(** amounts at the inlets *)
Definition moles_in (ch : chamber) (f : string) : Q :=
  flow (c_in1 ch) f / frac (c_M ch) f + flow (c_in2 ch) f / frac (c_M ch) f.
(** oxygen needed for complete combustion *)
Definition oxygen_needed (ch : chamber) : Q :=
  sum_over (c_fuels ch) (fun f => moles_in ch (f_name f) * (f_C f + f_H f / 4)).

(** all reaction equations hold *)
Definition reactions_hold (ch : chamber) (fl : list string) : Prop :=
  forall f, In f fl -> exists r l, stoichiometry ch f = Ok (r, l) /\ r == 0.

(** the air ratio is not specified, or its equation holds *)
Definition air_ratio_consistent (ch : chamber) : Prop :=
  c_lamb_set ch = true -> exists r, lambda_func ch = Ok r /\ r == 0.

(** changing one variable *)
Definition set_stream (ch : chamber) (p : port) (s : stream) : chamber :=
  {| c_in1 := match p with In1 => s | _ => c_in1 ch end;
     c_in2 := match p with In2 => s | _ => c_in2 ch end;
     c_out := match p with Out => s | _ => c_out ch end;
     c_fuels := c_fuels ch; c_M := c_M ch; c_lamb_set := c_lamb_set ch; c_lamb := c_lamb ch |}.
Definition shift (ch : chamber) (v : var) (d : Q) : chamber :=
  match v with
  | VM p => let s := stream_at ch p in set_stream ch p {| s_m := s_m s + d; s_x := s_x s |}
  | VX p f => let s := stream_at ch p in
      set_stream ch p {| s_m := s_m s; s_x := dset f (frac (s_x s) f + d) (s_x s) |}
  end.

(** the value in the row: the last one written, zero if none *)
Definition var_eqb (a b : var) : bool :=
  match a, b with
  | VM p, VM q => match p, q with In1, In1 | In2, In2 | Out, Out => true | _, _ => false end
  | VX p f, VX q g =>
      match p, q with In1, In1 | In2, In2 | Out, Out => String.eqb f g | _, _ => false end
  | _, _ => false
  end.
Definition row (v : var) (l : list (var * Q)) : Q :=
  fold_left (fun acc wv => if var_eqb v (fst wv) then snd wv else acc) l 0.

(** one of the names of [f] is in the list *)
Definition known_in (aliases : string -> list string) (f : string) (l : list string) : Prop :=
  exists a, In a (aliases f) /\ In a l.

(** The fraction of an unknown fluid at the outlet before the sum is normalised:
    kept if plausible, moved into the plausible range otherwise. *)
Definition plausible (fuels : list string) (i1 i2 : port_state) (m : Q) (f : string) (v : Q) : Prop :=
  if String.eqb f "O2" then 1#1000 <= v <= 1#4
  else if String.eqb f "CO2" then 1#1000 <= v <= 1#10
  else if String.eqb f "H2O" then 1#1000 <= v <= 1#10
  else if smem f fuels then v <= 0
  else exists x1 x2, dget f (k_x i1) = Some x1 /\ dget f (k_x i2) = Some x2 /\
       Qabs (v - (x1 * k_m i1 + x2 * k_m i2) / m) <= 3#100.
