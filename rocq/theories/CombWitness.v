(** Objects used in the examples and refutations of CombProps.v. *)
From Coq Require Import QArith Qabs Lqa.
From Verif Require Import Base CharModel CombModel CombSpec CombProofs CombProofs2.
Open Scope Q_scope.

(** Methane with twice the oxygen needed. *)
Definition ex_M : dict Q := [("CH4", 16); ("O2", 32); ("N2", 28); ("CO2", 44); ("H2O", 18)]%string.
Definition ex_ch (xo : dict Q) (mo : Q) (ls : bool) (l air : Q) : chamber :=
  {| c_in1 := {| s_m := air; s_x := [("CH4", 0); ("O2", 4#5); ("N2", 1#5); ("CO2", 0); ("H2O", 0)]%string |};
     c_in2 := {| s_m := 16; s_x := [("CH4", 1); ("O2", 0); ("N2", 0); ("CO2", 0); ("H2O", 0)]%string |};
     c_out := {| s_m := mo; s_x := xo |};
     c_fuels := [{| f_name := "CH4"; f_C := 1; f_H := 4; f_LHV := 50 |}]; c_M := ex_M;
     c_lamb_set := ls; c_lamb := l |}.
Definition ex_fl : list string := ["CH4"; "O2"; "N2"; "CO2"; "H2O"]%string.
Definition ex_lean : chamber :=
  ex_ch [("CH4", 0); ("O2", 64#176); ("N2", 32#176); ("CO2", 44#176); ("H2O", 36#176)]%string 176 true 2 160.
Lemma ex_complete : forall xo mo ls l air, keys xo = ex_fl -> complete (ex_ch xo mo ls l air) ex_fl.
Proof.
  intros xo mo ls l air K. constructor.
  - unfold ex_fl. repeat constructor; cbn [In]; intuition discriminate.
  - unfold ex_fl. intros x. cbn [In]. tauto.
  - unfold ex_fl. intros x. cbn. tauto.
  - repeat constructor. cbn. tauto.
  - cbn. intros f [<- | []]. cbn. intuition discriminate.
  - intros f s F S N. apply dget_None_notin in N. apply N. clear N.
    cbn [ex_ch c_in1 c_in2 c_out In] in S. destruct S as [<- | [<- | [<- | []]]]; cbn [s_x]; try exact F.
    rewrite K. exact F.
  - unfold ex_fl. cbn [In]. intros f F. cbn [ex_ch c_M].
    destruct F as [<- | [<- | [<- | [<- | [<- | []]]]]]; eexists; (split; [reflexivity | discriminate]).
Qed.
(** One mole of methane with one mole of oxygen: all equations hold, but
    half of the carbon disappears, and mass is lost. *)
Definition rich_ch : chamber :=
  ex_ch [("CH4", 1#2); ("O2", 0); ("N2", 1#2); ("CO2", 0); ("H2O", 0)]%string 16 false 0 40.
(** Hydrogen burnt with too little oxygen "produces" a negative flow of carbon
    dioxide. *)
Definition h2_ch : chamber :=
  {| c_in1 := {| s_m := 16; s_x := [("H2", 0); ("O2", 1); ("CO2", 0); ("H2O", 0)]%string |};
     c_in2 := {| s_m := 4; s_x := [("H2", 1); ("O2", 0); ("CO2", 0); ("H2O", 0)]%string |};
     c_out := {| s_m := 1; s_x := [("H2", 2); ("O2", 0); ("CO2", -(22)); ("H2O", 18)]%string |};
     c_fuels := [{| f_name := "H2"; f_C := 0; f_H := 2; f_LHV := 120 |}];
     c_M := [("H2", 2); ("O2", 32); ("CO2", 44); ("H2O", 18)]%string; c_lamb_set := false; c_lamb := 0 |}.
Definition const_char (v : Q) : charline := {| cl_x := [0; 2]; cl_y := [v; v]; cl_extrapolate := false |}.
Definition ex_engine : engine :=
  {| e_tiP := const_char (5#2); e_Q1c := const_char (1#2); e_Q2c := const_char (1#4); e_Qlc := const_char (1#4);
     e_P := -(320); e_design := Some (-(320)); e_Qloss := -(80);
     e_m1 := 1; e_hi1 := 100; e_ho1 := 260; e_m2 := 1; e_hi2 := 100; e_ho2 := 180 |}.
(** The setup accepts alternative names of oxygen, the equations then look for
    "O2" and raise KeyError. *)
Definition al (f : string) : list string :=
  if String.eqb f "O2" then ["O2"; "oxygen"]%string
  else if String.eqb f "oxygen" then ["O2"; "oxygen"]%string else [f].
Definition alias_ch : chamber :=
  let x := [("methane", 0); ("oxygen", 1#5); ("N2", 4#5); ("CO2", 0); ("H2O", 0)]%string in
  {| c_in1 := {| s_m := 1; s_x := x |}; c_in2 := {| s_m := 1; s_x := x |}; c_out := {| s_m := 2; s_x := x |};
     c_fuels := [{| f_name := "methane"; f_C := 1; f_H := 4; f_LHV := 50 |}];
     c_M := [("methane", 16); ("oxygen", 32); ("N2", 28); ("CO2", 44); ("H2O", 18)]%string;
     c_lamb_set := false; c_lamb := 0 |}.
Definition ex_port (m : Q) (x : dict Q) (xv : list string) (good : bool) : port_state :=
  {| k_m := m; k_m_var := true; k_x := x; k_x_var := xv; k_h := 100000; k_h_var := true; k_good := good |}.
Definition ex_i1 g := ex_port 10 [("CH4", 0); ("O2", 1#5); ("N2", 4#5); ("CO2", 0); ("H2O", 0)]%string [] g.
Definition ex_i2 g := ex_port (-(1)) [("CH4", 1); ("O2", 0); ("N2", 0); ("CO2", 0); ("H2O", 0)]%string [] g.
Definition ex_o xv := ex_port (-(3)) [("CH4", 1#10); ("O2", 1#2); ("N2", 1#5); ("CO2", 1#10); ("H2O", 1#10)]%string xv false.
