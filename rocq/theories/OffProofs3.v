(** What the equations with characteristics prescribe. *)
From Coq Require Import Lqa.
From Verif Require Import OffModel OffSpec OffProofs.
Open Scope Q_scope.

Lemma dp_means : forall vol inl outl i o c x f,
  nth_error inl 0 = Some i -> nth_error outl 0 = Some o ->
  get_char_expr vol inl outl (ch_param c) (ch_params c) = Ok (Some x) -> ~ x == 0 -> cl_evaluate (ch c) x = Ok f ->
  exists r, dp_char_func vol inl outl c = Ok r /\ (r == 0 <-> op i - op o == f).
Proof.
  intros vol inl outl i o c x f Hi Ho He Hx Hf. unfold dp_char_func. rewrite He. cbn [rbind].
  rewrite checked_nonzero by exact Hx. cbn [rbind]. unfold at_port. rewrite Hi, Ho. cbn [rbind]. rewrite Hf. cbn [rmap].
  eexists. split; [reflexivity|]. split; intros H; lra.
Qed.

Lemma flow_means : forall vol inl outl i o c x f,
  nth_error inl 0 = Some i -> nth_error outl 0 = Some o ->
  get_char_expr vol inl outl (ch_param c) (ch_params c) = Ok (Some x) -> cl_evaluate (ch c) x = Ok f ->
  exists r, flow_char_func vol inl outl c = Ok r /\ (r == 0 <-> op o - op i == f).
Proof.
  intros vol inl outl i o c x f Hi Ho He Hf. unfold flow_char_func. rewrite He. cbn [rbind].
  unfold at_port. rewrite Hi, Ho. cbn [rbind as_num]. rewrite Hf. cbn [rmap].
  eexists. split; [reflexivity|]. split; intros H; lra.
Qed.

Lemma turbine_means : forall vol isen inl outl i o eta_d c x f,
  nth_error inl 0 = Some i -> nth_error outl 0 = Some o ->
  get_char_expr vol inl outl (ch_param c) default_params = Ok (Some x) -> ~ x == 0 -> cl_evaluate (ch c) x = Ok f ->
  exists r, turbine_eta_s_char vol isen inl outl eta_d c = Ok r
    /\ (r == 0 <-> oh i - oh o == eta_d * f * (oh i - isen (op i) (oh i) (op o))).
Proof.
  intros vol isen inl outl i o eta_d c x f Hi Ho He Hx Hf. unfold turbine_eta_s_char. rewrite He. cbn [rbind].
  rewrite checked_nonzero by exact Hx. cbn [rbind]. unfold at_port. rewrite Hi, Ho. cbn [rbind]. rewrite Hf. cbn [rmap].
  eexists. split; [reflexivity|]. split; intros H; lra.
Qed.

Lemma pump_means : forall vol isen inl outl i o eta_d c x f,
  nth_error inl 0 = Some i -> nth_error outl 0 = Some o ->
  get_char_expr vol inl outl (ch_param c) (ch_params c) = Ok (Some x) -> ~ x == 0 -> cl_evaluate (ch c) x = Ok f ->
  exists r, pump_eta_s_char vol isen inl outl eta_d c = Ok r
    /\ (r == 0 <-> (oh o - oh i) * (eta_d * f) == isen (op i) (oh i) (op o) - oh i).
Proof.
  intros vol isen inl outl i o eta_d c x f Hi Ho He Hx Hf. unfold pump_eta_s_char. rewrite He. cbn [rbind].
  rewrite checked_nonzero by exact Hx. cbn [rbind]. unfold at_port. rewrite Hi, Ho. cbn [rbind]. rewrite Hf. cbn [rmap].
  eexists. split; [reflexivity|]. split; intros H; lra.
Qed.

(** The heat of a heat exchanger with characteristics: that of a constant kA times the factor. *)
Lemma kA_means : forall vol inl outl i o kA_d td c1 c2 x1 x2 f1 f2,
  nth_error inl 0 = Some i -> nth_error outl 0 = Some o ->
  get_char_expr vol inl outl (ch_param c1) (ch_params c1) = Ok (Some x1) ->
  get_char_expr vol inl outl (ch_param c2) (ch_params c2) = Ok (Some x2) ->
  cl_evaluate (ch c1) x1 = Ok f1 -> cl_evaluate (ch c2) x2 = Ok f2 -> 0 < f1 -> 0 < f2 ->
  exists r k, kA_char_func vol inl outl kA_d td c1 c2 = Ok r /\ 2 / k == 1 / f1 + 1 / f2 /\ 0 < k
    /\ (r == 0 <-> om i * (oh i - oh o) == kA_d * k * td).
Proof.
  intros vol inl outl i o kA_d td c1 c2 x1 x2 f1 f2 Hi Ho E1 E2 F1 F2 P1 P2. unfold kA_char_func.
  rewrite E1. cbn [rbind]. rewrite E2. cbn [rbind as_num]. rewrite F1. cbn [rbind]. rewrite F2. cbn [rbind].
  destruct (factor_spec f1 f2 P1 P2) as (k & -> & Pk & Ek). cbn [rbind]. unfold at_port. rewrite Hi, Ho. cbn [rbind].
  eexists. exists k. split; [reflexivity|]. split; [exact Ek|]. split; [exact Pk|]. split; intros H; lra.
Qed.
