(** C232: what equations with characteristics prescribe. *)
From Coq Require Import String List Lqa.
From Verif Require Import Base CharModel OffModel OffSpec OffProofs OffProofs2 OffProofs3.
Import ListNotations.
Open Scope string_scope.
Open Scope Q_scope.

(** C232 – the pressure drop of a valve is the value of the characteristic. *)
Theorem C232_pressure_drop : forall vol inl outl i o c x f,
  nth_error inl 0 = Some i -> nth_error outl 0 = Some o ->
  get_char_expr vol inl outl (ch_param c) (ch_params c) = Ok (Some x) -> ~ x == 0 -> cl_evaluate (ch c) x = Ok f ->
  exists r, dp_char_func vol inl outl c = Ok r /\ (r == 0 <-> op i - op o == f).
Proof. exact dp_means. Qed.
Print Assumptions C232_pressure_drop.

(** C232 – the pressure increase of a pump is the value of the flow characteristic. *)
Theorem C232_flow : forall vol inl outl i o c x f,
  nth_error inl 0 = Some i -> nth_error outl 0 = Some o ->
  get_char_expr vol inl outl (ch_param c) (ch_params c) = Ok (Some x) -> cl_evaluate (ch c) x = Ok f ->
  exists r, flow_char_func vol inl outl c = Ok r /\ (r == 0 <-> op o - op i == f).
Proof. exact flow_means. Qed.
Print Assumptions C232_flow.

(** C232 – the enthalpy drop of a turbine is that of an isentropic expansion times design efficiency and characteristic. *)
Theorem C232_turbine : forall vol isen inl outl i o eta_d c x f,
  nth_error inl 0 = Some i -> nth_error outl 0 = Some o ->
  get_char_expr vol inl outl (ch_param c) default_params = Ok (Some x) -> ~ x == 0 -> cl_evaluate (ch c) x = Ok f ->
  exists r, turbine_eta_s_char vol isen inl outl eta_d c = Ok r
    /\ (r == 0 <-> oh i - oh o == eta_d * f * (oh i - isen (op i) (oh i) (op o))).
Proof. exact turbine_means. Qed.
Print Assumptions C232_turbine.

(** C232 – the same for pumps and compressors. *)
Theorem C232_pump : forall vol isen inl outl i o eta_d c x f,
  nth_error inl 0 = Some i -> nth_error outl 0 = Some o ->
  get_char_expr vol inl outl (ch_param c) (ch_params c) = Ok (Some x) -> ~ x == 0 -> cl_evaluate (ch c) x = Ok f ->
  exists r, pump_eta_s_char vol isen inl outl eta_d c = Ok r
    /\ (r == 0 <-> (oh o - oh i) * (eta_d * f) == isen (op i) (oh i) (op o) - oh i).
Proof. exact pump_means. Qed.
Print Assumptions C232_pump.

(** C232 – the heat transferred is that of the design kA times the mean of both sides. *)
Theorem C232_exchanger : forall vol inl outl i o kA_d td c1 c2 x1 x2 f1 f2,
  nth_error inl 0 = Some i -> nth_error outl 0 = Some o ->
  get_char_expr vol inl outl (ch_param c1) (ch_params c1) = Ok (Some x1) ->
  get_char_expr vol inl outl (ch_param c2) (ch_params c2) = Ok (Some x2) ->
  cl_evaluate (ch c1) x1 = Ok f1 -> cl_evaluate (ch c2) x2 = Ok f2 -> 0 < f1 -> 0 < f2 ->
  exists r k, kA_char_func vol inl outl kA_d td c1 c2 = Ok r /\ 2 / k == 1 / f1 + 1 / f2 /\ 0 < k
    /\ (r == 0 <-> om i * (oh i - oh o) == kA_d * k * td).
Proof. exact kA_means. Qed.
Print Assumptions C232_exchanger.

Example C232_ex : (exists r, dp_char_func (fun _ _ => 1) [w_port] [w_out] {| ch := w_line; ch_param := "m"; ch_params := abs_params |} = Ok r /\ r == 0)
  /\ (exists r, dp_char_func (fun _ _ => 1) [w_port] [w_port] {| ch := w_line; ch_param := "m"; ch_params := abs_params |} = Ok r /\ ~ r == 0).
Proof. split; eexists; (split; [reflexivity|]); [reflexivity|discriminate]. Qed.

