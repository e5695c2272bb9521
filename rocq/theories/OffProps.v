(** C156-C164: characteristics in equations, checks of limits and ranges. *)
From Verif Require Import CharModel CharSpec OffModel OffSpec OffData OffProofs OffProofs2.
Open Scope Q_scope.

(** C156 – relative expressions are the ratios of mass flow, volume flow and pressure ratio
    to their design values. *)
Theorem C156_relative : forall vol inl outl param c i o,
  ctype c = "rel"%string -> nth_error inl (cin c) = Some i -> nth_error outl (cout c) = Some o ->
  proper i -> proper o ->
  (param = "m"%string -> exists x, get_char_expr vol inl outl param c = Ok (Some x) /\ x * omd i == om i) /\
  (param = "m_out"%string -> exists x, get_char_expr vol inl outl param c = Ok (Some x) /\ x * omd o == om o) /\
  (param = "v"%string -> exists x, get_char_expr vol inl outl param c = Ok (Some x) /\ x * ovd i == om i * vol (op i) (oh i)) /\
  (param = "pr"%string -> exists x, get_char_expr vol inl outl param c = Ok (Some x) /\ x * (opd o / opd i) == op o / op i).
Proof. exact expr_relative. Qed.
Print Assumptions C156_relative.

(** C156 – absolute expressions are the values themselves. *)
Theorem C156_absolute : forall vol inl outl param c i o,
  ctype c <> "rel"%string -> nth_error inl (cin c) = Some i -> nth_error outl (cout c) = Some o ->
  (param = "m"%string -> get_char_expr vol inl outl param c = Ok (Some (om i))) /\
  (param = "m_out"%string -> get_char_expr vol inl outl param c = Ok (Some (om o))) /\
  (param = "v"%string -> get_char_expr vol inl outl param c = Ok (Some (om i * vol (op i) (oh i)))) /\
  (param = "pr"%string -> get_char_expr vol inl outl param c = Ok (Some (op o / op i))).
Proof. exact expr_absolute. Qed.
Print Assumptions C156_absolute.

(** C156 – in the design state relative expressions are 1. *)
Theorem C156_design : forall vol inl outl param c i o,
  ctype c = "rel"%string -> nth_error inl (cin c) = Some i -> nth_error outl (cout c) = Some o ->
  proper i -> proper o -> at_design vol i -> at_design vol o -> known param ->
  exists x, get_char_expr vol inl outl param c = Ok (Some x) /\ x == 1.
Proof. exact expr_design. Qed.
Print Assumptions C156_design.

(** C156 – in the design state the turbine equation with a characteristic is that of the
    design efficiency. *)
Theorem C156_turbine_design : forall vol isen inl outl i o eta_d c,
  nth_error inl 0 = Some i -> nth_error outl 0 = Some o -> proper i -> proper o -> at_design vol i -> at_design vol o ->
  known (ch_param c) -> passes (ch c) ->
  exists r, turbine_eta_s_char vol isen inl outl eta_d c = Ok r /\ r == turbine_eta_s isen i o eta_d.
Proof. exact turbine_design. Qed.
Print Assumptions C156_turbine_design.

(** C156 – off design the equation holds if the efficiency is the design efficiency times
    the value of the line. *)
Theorem C156_turbine_off_design : forall vol isen inl outl i o eta_d c x f,
  nth_error inl 0 = Some i -> nth_error outl 0 = Some o ->
  get_char_expr vol inl outl (ch_param c) default_params = Ok (Some x) -> ~ x == 0 -> cl_evaluate (ch c) x = Ok f ->
  exists r, turbine_eta_s_char vol isen inl outl eta_d c = Ok r /\ (r == 0 <-> oh i - oh o == eta_d * f * (oh i - isen (op i) (oh i) (op o))).
Proof. exact turbine_off. Qed.
Print Assumptions C156_turbine_off_design.

(** C156 – the same for pumps and compressors. *)
Theorem C156_pump_design : forall vol isen inl outl i o a b eta_d c,
  nth_error inl 0 = Some i -> nth_error outl 0 = Some o ->
  ctype (ch_params c) = "rel"%string -> nth_error inl (cin (ch_params c)) = Some a -> nth_error outl (cout (ch_params c)) = Some b ->
  proper a -> proper b -> at_design vol a -> at_design vol b -> known (ch_param c) -> passes (ch c) ->
  exists r, pump_eta_s_char vol isen inl outl eta_d c = Ok r /\ r == pump_eta_s isen i o eta_d.
Proof. exact pump_design. Qed.
Print Assumptions C156_pump_design.

(** C156 – off design, pumps and compressors. *)
Theorem C156_pump_off_design : forall vol isen inl outl i o eta_d c x f,
  nth_error inl 0 = Some i -> nth_error outl 0 = Some o ->
  get_char_expr vol inl outl (ch_param c) (ch_params c) = Ok (Some x) -> ~ x == 0 -> cl_evaluate (ch c) x = Ok f ->
  exists r, pump_eta_s_char vol isen inl outl eta_d c = Ok r /\ (r == 0 <-> (oh o - oh i) * (eta_d * f) == isen (op i) (oh i) (op o) - oh i).
Proof. exact pump_off. Qed.
Print Assumptions C156_pump_off_design.

(** C156 – heat exchangers in the design state transfer with the design kA. *)
Theorem C156_exchanger_design : forall vol inl outl i o a1 b1 a2 b2 kA_d td c1 c2,
  nth_error inl 0 = Some i -> nth_error outl 0 = Some o ->
  ctype (ch_params c1) = "rel"%string -> nth_error inl (cin (ch_params c1)) = Some a1 -> nth_error outl (cout (ch_params c1)) = Some b1 ->
  ctype (ch_params c2) = "rel"%string -> nth_error inl (cin (ch_params c2)) = Some a2 -> nth_error outl (cout (ch_params c2)) = Some b2 ->
  (forall p, In p [a1; b1; a2; b2] -> proper p /\ at_design vol p) -> known (ch_param c1) -> known (ch_param c2) -> passes (ch c1) -> passes (ch c2) ->
  exists r, kA_char_func vol inl outl kA_d td c1 c2 = Ok r /\ r == kA_func i o kA_d td.
Proof. exact kA_design. Qed.
Print Assumptions C156_exchanger_design.

(** C156 – the same for simple heat exchangers and pipes. *)
Theorem C156_simple_exchanger_design : forall vol inl outl i o a b kA_d td c,
  nth_error inl 0 = Some i -> nth_error outl 0 = Some o ->
  ctype (ch_params c) = "rel"%string -> nth_error inl (cin (ch_params c)) = Some a -> nth_error outl (cout (ch_params c)) = Some b ->
  proper a -> proper b -> at_design vol a -> at_design vol b -> known (ch_param c) -> passes (ch c) ->
  exists r, kA_char_group_func vol inl outl kA_d td c = Ok r /\ r == kA_func i o kA_d td.
Proof. exact kA_simple_design. Qed.
Print Assumptions C156_simple_exchanger_design.

(** C156 – the lines of the package have the value 1 in the design state. *)
Theorem C156_package_lines : forall P,
  In P (efficiency_lines ++ transfer_lines) -> passes (pts_line P false).
Proof. exact lines_pass. Qed.
Print Assumptions C156_package_lines.

Example C156_ex : at_design (fun _ _ => 2) {| om := 4; op := 80; oh := 4; omd := 4; opd := 80; ovd := 8 |} /\
  proper {| om := 4; op := 80; oh := 4; omd := 4; opd := 80; ovd := 8 |} /\
  exists r, turbine_eta_s_char (fun _ _ => 2) (fun _ _ _ => 2) [{| om := 4; op := 80; oh := 4; omd := 4; opd := 80; ovd := 8 |}]
    [{| om := 4; op := 40; oh := 3; omd := 4; opd := 40; ovd := 8 |}] (1 # 2)
    {| ch := pts_line line_turbine_eta_s_char false; ch_param := "m"; ch_params := default_params |} = Ok r /\ r == 0.
Proof.
  split; [repeat split; reflexivity|]. split; [repeat split; vm_compute; discriminate|]. eexists. split; [vm_compute; reflexivity|reflexivity].
Qed.

(** C157 – the factor on kA is positive and its reciprocal the mean of the reciprocals of both
    sides: thermal resistances add. *)
Theorem C157_resistances : forall f1 f2,
  0 < f1 -> 0 < f2 -> exists k, kA_factor f1 f2 = Ok k /\ 0 < k /\ 2 / k == 1 / f1 + 1 / f2.
Proof. exact factor_spec. Qed.
Print Assumptions C157_resistances.

(** C157 – it lies between the factors of the sides. *)
Theorem C157_between : forall f1 f2 k lo hi,
  0 < lo -> within lo hi f1 -> within lo hi f2 -> kA_factor f1 f2 = Ok k -> within lo hi k.
Proof. exact factor_between. Qed.
Print Assumptions C157_between.

(** C157 – simple heat exchangers: the other side has the factor 1. *)
Theorem C157_simple : forall f,
  kA_factor_simple f = kA_factor 1 f.
Proof. exact factor_simple. Qed.
Print Assumptions C157_simple.

(** C157 – with the lines of the package the equation is defined in every state for which the
    expressions are. *)
Theorem C157_package_lines : forall vol inl outl i o kA_d td c1 c2 P1 P2,
  nth_error inl 0 = Some i -> nth_error outl 0 = Some o -> In P1 transfer_lines -> In P2 transfer_lines ->
  ch c1 = pts_line P1 false -> ch c2 = pts_line P2 false ->
  (exists e1, get_char_expr vol inl outl (ch_param c1) (ch_params c1) = Ok e1) -> (exists e2, get_char_expr vol inl outl (ch_param c2) (ch_params c2) = Ok e2) ->
  exists r, kA_char_func vol inl outl kA_d td c1 c2 = Ok r.
Proof. exact kA_defined. Qed.
Print Assumptions C157_package_lines.

(** C164 – a line that starts with 0 raises ZeroDivisionError there. *)
Theorem C164_zero_refuted : exists vol inl outl kA_d td c1 c2, CharLine_new (cl_x (ch c1)) (cl_y (ch c1)) false = Ok (ch c1) /\ increasing (cl_x (ch c1)) /\
  (forall v, In v (cl_y (ch c1)) -> 0 <= v) /\ ch c2 = ch c1 /\ kA_char_func vol inl outl kA_d td c1 c2 = Err ZeroDivisionError.
Proof. exact zero_division. Qed.
Print Assumptions C164_zero_refuted.

Example C157_ex : exists k, kA_factor (1 # 2) 1 = Ok k /\ k == 2 # 3.
Proof. eexists. split; [vm_compute; reflexivity|reflexivity]. Qed.

(** C158 – the flow characteristic of a pump with an unknown parameter is evaluated, at 0. *)
Theorem C158_flow_refuted : exists vol inl outl c r, ~ known (ch_param c) /\ flow_char_func vol inl outl c = Ok r.
Proof. exact unknown_flow. Qed.
Print Assumptions C158_flow_refuted.

(** C158 – efficiency and pressure drop characteristics reject unknown parameters. Missing:
    flow characteristics and absolute expressions in heat exchangers. *)
Theorem C158_checked_partial : forall vol isen inl outl eta_d c,
  ~ known (ch_param c) ->
  turbine_eta_s_char vol isen inl outl eta_d c = Err ValueError /\
  pump_eta_s_char vol isen inl outl eta_d c = Err ValueError /\
  dp_char_func vol inl outl c = Err ValueError.
Proof. exact unknown_rejected. Qed.
Print Assumptions C158_checked_partial.

(** C159 – without flow a known parameter whose line has a value there is rejected as invalid. *)
Theorem C159_zero_refuted : exists vol isen inl outl eta_d c x f, known (ch_param c) /\ get_char_expr vol inl outl (ch_param c) (ch_params c) = Ok (Some x) /\
  cl_evaluate (ch c) x = Ok f /\ pump_eta_s_char vol isen inl outl eta_d c = Err ValueError.
Proof. exact zero_rejected. Qed.
Print Assumptions C159_zero_refuted.

(** C159 – expressions other than 0 are evaluated. *)
Theorem C159_nonzero_partial : forall vol isen inl outl i o eta_d c x f,
  nth_error inl 0 = Some i -> nth_error outl 0 = Some o ->
  get_char_expr vol inl outl (ch_param c) (ch_params c) = Ok (Some x) -> ~ x == 0 -> cl_evaluate (ch c) x = Ok f ->
  exists r, pump_eta_s_char vol isen inl outl eta_d c = Ok r /\ (r == 0 <-> (oh o - oh i) * (eta_d * f) == isen (op i) (oh i) (op o) - oh i).
Proof. exact pump_off. Qed.
Print Assumptions C159_nonzero_partial.

(** C160 – a turbine with the efficiency the line has at the absolute mass flow, as asked for:
    the equation does not hold. *)
Theorem C160_turbine_refuted : exists vol isen inl outl i o eta_d c x f r, nth_error inl 0 = Some i /\ nth_error outl 0 = Some o /\
  get_char_expr vol inl outl (ch_param c) (ch_params c) = Ok (Some x) /\ ~ x == 0 /\ cl_evaluate (ch c) x = Ok f /\
  turbine_eta_s_char vol isen inl outl eta_d c = Ok r /\
  oh i - oh o == eta_d * f * (oh i - isen (op i) (oh i) (op o)) /\ ~ r == 0.
Proof. exact turbine_params. Qed.
Print Assumptions C160_turbine_refuted.

(** C160 – with default char_params the line is read at the relative value. *)
Theorem C160_default_partial : forall vol isen inl outl i o eta_d c x f,
  nth_error inl 0 = Some i -> nth_error outl 0 = Some o ->
  get_char_expr vol inl outl (ch_param c) default_params = Ok (Some x) -> ~ x == 0 -> cl_evaluate (ch c) x = Ok f ->
  exists r, turbine_eta_s_char vol isen inl outl eta_d c = Ok r /\ (r == 0 <-> oh i - oh o == eta_d * f * (oh i - isen (op i) (oh i) (op o))).
Proof. exact turbine_off. Qed.
Print Assumptions C160_default_partial.

(** C161 – exactly the values outside of their limits by more than 1e-6 are reported, as above
    or below. *)
Theorem C161_reported : forall vol inl outl ps ws p,
  check_parameter_bounds vol inl outl ps = Ok ws ->
  (forall v lo hi, In (p, PProp (Some v) lo hi) ps -> lo <= hi) ->
  (In (Above p) ws <-> exists v lo hi, In (p, PProp (Some v) lo hi) ps /\ hi + (1 # 1000000) < v) /\
  (In (Below p) ws <-> exists v lo hi, In (p, PProp (Some v) lo hi) ps /\ v < lo - (1 # 1000000)).
Proof. exact bounds_reported. Qed.
Print Assumptions C161_reported.

(** C161 – without characteristics in use the check never fails. *)
Theorem C161_total : forall vol inl outl ps,
  (forall p d, In (p, d) ps -> match d with PChar s _ | PGroup s _ => s = false | _ => True end) ->
  exists ws, check_parameter_bounds vol inl outl ps = Ok ws.
Proof. exact bounds_total. Qed.
Print Assumptions C161_total.

Example C161_ex : check_parameter_bounds (fun _ _ => 1) [] [] [("eta_s"%string, PProp (Some (11 # 10)) 0 1); ("pr"%string, PProp (Some (1 # 2)) 1 (1000000 # 1)); ("P"%string, PProp None 0 5)]
  = Ok [Above "eta_s"%string; Below "pr"%string].
Proof. vm_compute. reflexivity. Qed.

(** C162 – the minimum named in the message is the second point of the line. *)
Theorem C162_message_refuted : exists c x lo hi m, increasing (cl_x c) /\ ends_of (cl_x c) lo hi /\ x < lo /\ line_domain c x = Ok [RangeBelow m] /\ ~ m == lo.
Proof. exact line_message. Qed.
Print Assumptions C162_message_refuted.

(** C162 – below a line of one point the check raises IndexError. *)
Theorem C162_single_refuted : exists c x f, CharLine_new (cl_x c) (cl_y c) false = Ok c /\ cl_evaluate c x = Ok f /\ line_domain c x = Err IndexError.
Proof. exact line_single. Qed.
Print Assumptions C162_single_refuted.

(** C162 – operating points inside the range are not reported, points above with the maximum,
    points below if the line has two points or more. Missing: the minimum named. *)
Theorem C162_range_partial : forall c x lo hi,
  cl_x c <> [] -> ends_of (cl_x c) lo hi ->
  (within lo hi x -> line_domain c x = Ok []) /\
  (hi < x -> line_domain c x = Ok [RangeAbove hi]) /\
  (lo <= hi -> x < lo -> (2 <= length (cl_x c))%nat -> exists m, line_domain c x = Ok [RangeBelow m] /\ In m (cl_x c)).
Proof. exact line_range. Qed.
Print Assumptions C162_range_partial.

(** C163 – maps of several rows and speeds inside the map: nothing is reported exactly if the
    flow is inside the scaled row, and the map is left as it is. *)
Theorem C163_inside_partial : forall c x y igva lo hi,
  cm_ok c -> (2 <= length (cm_x c))%nat -> ends_of (cm_x c) lo hi -> within lo hi x -> 0 < 1 - igva / 100 ->
  fst (check_map c x y igva) = c /\
  exists ya za a b, speedline c x ya za /\ ends_of ya a b /\
    (snd (check_map c x y igva) = Ok [] <-> within (a * (1 - igva / 100)) (b * (1 - igva / 100)) y).
Proof. exact check_map_inside. Qed.
Print Assumptions C163_inside_partial.

(** C163 – speeds outside of the map are reported. *)
Theorem C163_outside_partial : forall c x y igva lo hi,
  cm_ok c -> (2 <= length (cm_x c))%nat -> ends_of (cm_x c) lo hi -> ~ within lo hi x -> snd (check_map c x y igva) <> Ok [].
Proof. exact check_map_outside. Qed.
Print Assumptions C163_outside_partial.

(** C163 – outside of the map the check scales the row stored in the map. *)
Theorem C163_changed_refuted : exists c x y igva, cm_ok c /\ ~ map_eq c (fst (check_map c x y igva)).
Proof. exact check_map_changes. Qed.
Print Assumptions C163_changed_refuted.

(** C163 – a map of one row: a point on it is reported as outside. *)
Theorem C163_single_refuted : exists c x y v, cm_ok c /\ In x (cm_x c) /\ cm_evaluate c x y = Ok v /\ (forall r, In r (cm_y c) -> exists a b, ends_of r a b /\ within a b y) /\ snd (check_map c x y 0) <> Ok [].
Proof. exact check_map_single. Qed.
Print Assumptions C163_single_refuted.
