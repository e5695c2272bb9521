(** C03, C04, C05: characteristic lines and maps. *)
From Coq Require Import Qabs Sorting.Sorted.
From Verif Require Import CharModel CharSpec CharProofs CharMapProofs CharWitness.
Open Scope Q_scope.

(** C03 – the constructor accepts exactly data of equal length, so a line is a
    list of points; [pts_line P ex] is the line with points P. *)
Theorem C03_constructor :
  forall xs ys ex,
    (length xs = length ys -> CharLine_new xs ys ex = Ok (pts_line (combine xs ys) ex)) /\
    (length xs <> length ys -> CharLine_new xs ys ex = Err ValueError).
Proof. exact CharLine_new_spec. Qed.
Print Assumptions C03_constructor.

(** C03 – at a data point the value is that point's ordinate. *)
Theorem C03_through_points :
  forall P p x,
    increasing (map fst P) -> In p P -> x == fst p ->
    exists v, cl_evaluate (pts_line P false) x = Ok v /\ v == snd p.
Proof. exact eval_node. Qed.
Print Assumptions C03_through_points.

(** C03 – between neighbouring points the value lies on their straight line. *)
Theorem C03_segment :
  forall P p q x,
    increasing (map fst P) -> neighbours p q P -> fst p <= x -> x <= fst q ->
    exists v, cl_evaluate (pts_line P false) x = Ok v /\ v == line_through p q x.
Proof. exact eval_segment. Qed.
Print Assumptions C03_segment.

(** C03 – outside the data the value is the border value. *)
Theorem C03_clamped_below :
  forall P p x,
    increasing (map fst P) -> nth_error P 0 = Some p -> x <= fst p ->
    cl_evaluate (pts_line P false) x = Ok (snd p).
Proof. exact eval_below. Qed.
Print Assumptions C03_clamped_below.

Theorem C03_clamped_above :
  forall P p x,
    increasing (map fst P) -> nth_error P (length P - 1) = Some p -> fst p <= x ->
    exists v, cl_evaluate (pts_line P false) x = Ok v /\ v == snd p.
Proof. exact eval_above. Qed.
Print Assumptions C03_clamped_above.

(** C03 – every argument has a value, and it stays in the range of the data. *)
Theorem C03_total :
  forall P x, P <> [] -> increasing (map fst P) ->
    exists v, cl_evaluate (pts_line P false) x = Ok v.
Proof. exact eval_total. Qed.
Print Assumptions C03_total.

Theorem C03_range :
  forall P x v lo hi,
    increasing (map fst P) -> (forall p, In p P -> lo <= snd p <= hi) ->
    cl_evaluate (pts_line P false) x = Ok v -> lo <= v <= hi.
Proof. exact eval_bounds. Qed.
Print Assumptions C03_range.

(** C03 – continuity, quantitatively: a bound on the slopes of the segments is a
    Lipschitz constant on the whole axis. *)
Theorem C03_continuous :
  forall P L x x' v v',
    increasing (map fst P) -> 0 <= L ->
    (forall p q, neighbours p q P -> Qabs ((snd q - snd p) / (fst q - fst p)) <= L) ->
    cl_evaluate (pts_line P false) x = Ok v -> cl_evaluate (pts_line P false) x' = Ok v' ->
    Qabs (v' - v) <= L * Qabs (x' - x).
Proof. exact eval_lipschitz. Qed.
Print Assumptions C03_continuous.

(** C03 – monotone data give a monotone characteristic. *)
Theorem C03_monotone :
  forall P x x' v v',
    increasing (map fst P) -> (forall p q, neighbours p q P -> snd p <= snd q) -> x <= x' ->
    cl_evaluate (pts_line P false) x = Ok v -> cl_evaluate (pts_line P false) x' = Ok v' ->
    v <= v'.
Proof. exact eval_monotone. Qed.
Print Assumptions C03_monotone.

(** C03 – with extrapolation: defined everywhere (two points at least), straight
    lines of the outer segments outside, segment lines inside. *)
Theorem C03_extrapolate :
  forall P x,
    (2 <= length P)%nat -> increasing (map fst P) ->
    exists v, cl_evaluate (pts_line P true) x = Ok v /\
      (forall p q, nth_error P 0 = Some p -> nth_error P 1 = Some q -> x <= fst q ->
         v == line_through p q x) /\
      (forall p q, nth_error P (length P - 2) = Some p -> nth_error P (length P - 1) = Some q ->
         fst p <= x -> v == line_through p q x) /\
      (forall p q, neighbours p q P -> fst p <= x -> x <= fst q -> v == line_through p q x).
Proof. exact eval_extrapolate_cases. Qed.
Print Assumptions C03_extrapolate.

Example C03_case :
  sample_line <> [] /\ increasing (map fst sample_line) /\
  (2 <= length sample_line)%nat /\ neighbours (0, 1) (1#2, 3#4) sample_line /\
  (exists v, cl_evaluate (pts_line sample_line false) (1#4) = Ok v /\ v == 7#8) /\
  cl_evaluate (pts_line sample_line false) 7 = Ok (9#10) /\
  (exists v, cl_evaluate (pts_line sample_line true) 7 = Ok v /\ v == 7#5).
Proof.
  split; [discriminate|]. split; [repeat constructor; reflexivity|].
  split; [cbn; lia|]. split; [apply neighbours_hd|].
  split; [eexists; split; [vm_compute; reflexivity|reflexivity]|].
  split; [reflexivity|].
  eexists; split; [vm_compute; reflexivity|reflexivity].
Qed.

(** C04 – maps as accepted by the constructor, with increasing x and rows, meet
    the hypothesis used below. *)
Theorem C04_constructed_maps_are_ok :
  forall x y z c,
    CharMap_new x y z = Ok c -> x <> [] -> increasing x ->
    (forall r, In r y -> increasing r /\ r <> []) -> cm_ok c.
Proof. exact CharMap_new_ok. Qed.
Print Assumptions C04_constructed_maps_are_ok.

(** C04 – table values at the nodes. *)
Theorem C04_through_nodes :
  forall c i j x y z yr zr,
    cm_ok c ->
    nth_error (cm_x c) i = Some x ->
    nth_error (cm_y c) i = Some yr -> nth_error yr j = Some y ->
    nth_error (cm_z c) i = Some zr -> nth_error zr j = Some z ->
    exists v, cm_evaluate c x y = Ok v /\ v == z.
Proof. exact cm_node. Qed.
Print Assumptions C04_through_nodes.

(** C04 – defined everywhere and inside the range of the table. *)
Theorem C04_total : forall c x y, cm_ok c -> exists v, cm_evaluate c x y = Ok v.
Proof. exact cm_total. Qed.
Print Assumptions C04_total.

Theorem C04_range :
  forall c x y v lo hi,
    cm_ok c -> (forall r z, In r (cm_z c) -> In z r -> lo <= z <= hi) ->
    cm_evaluate c x y = Ok v -> lo <= v <= hi.
Proof. exact cm_bounds. Qed.
Print Assumptions C04_range.

(** C04 – the value is that of the characteristic line formed by the speed line
    at x: a border row outside the table, the linear mix of the two neighbouring
    rows inside. Together with C03 this fixes the value everywhere, including
    clamping in y. *)
Theorem C04_speedline :
  forall c x y,
    cm_ok c ->
    exists ya za, speedline c x ya za /\
      cm_evaluate c x y = cl_evaluate {| cl_x := ya; cl_y := za; cl_extrapolate := false |} y.
Proof. exact evaluate_speedline. Qed.
Print Assumptions C04_speedline.

(** C04 – clamping in x. *)
Theorem C04_left_border :
  forall c x x0 y,
    cm_ok c -> nth_error (cm_x c) 0 = Some x0 -> x <= x0 ->
    cm_evaluate c x y = cm_evaluate c x0 y.
Proof. exact cm_left_border. Qed.
Print Assumptions C04_left_border.

Theorem C04_right_border :
  forall c x xn y,
    cm_ok c -> nth_error (cm_x c) (length (cm_x c) - 1) = Some xn -> xn <= x ->
    exists v v', cm_evaluate c x y = Ok v /\ cm_evaluate c xn y = Ok v' /\ v == v'.
Proof. exact cm_right_border. Qed.
Print Assumptions C04_right_border.

Example C04_case : cm_ok wmap /\ (exists v, cm_evaluate wmap (9#10) (3#2) = Ok v /\ v == 3).
Proof. split; [exact wmap_ok|]. eexists; split; [vm_compute; reflexivity|reflexivity]. Qed.

(** C05 – "evaluating the compressor map equations leaves the map alone" is
    false: with an inlet guide vane angle of 10 and a speed line index above the
    table, one evaluation changes the stored map and the next evaluation at the
    same point gives a different value. *)
Theorem C05_map_unchanged_refuted :
  exists c c1 v1 v2,
    cm_ok c /\
    char_map_pr c (11#10) (3#2) 10 = (c1, Ok v1) /\
    snd (char_map_pr c1 (11#10) (3#2) 10) = Ok v2 /\
    ~ map_eq c c1 /\ ~ v1 == v2.
Proof.
  exact (let '(ex_intro _ c1 (ex_intro _ v1 (ex_intro _ v2 H))) := compressor_map_corrupts in
         ex_intro _ wmap (ex_intro _ c1 (ex_intro _ v1 (ex_intro _ v2 (conj wmap_ok H))))).
Qed.
Print Assumptions C05_map_unchanged_refuted.

(** C05 – it holds when the point lies inside the speed line range ... *)
Theorem C05_map_unchanged_inside_partial :
  forall c x y igva i xi xj,
    cm_ok c -> nth_error (cm_x c) i = Some xi -> nth_error (cm_x c) (S i) = Some xj ->
    xi < x -> x <= xj ->
    fst (char_map_pr c x y igva) = c /\ fst (char_map_eta_s c x y igva) = c.
Proof. exact char_maps_frame_inside. Qed.
Print Assumptions C05_map_unchanged_inside_partial.

(** ... and when the vane angle is zero (the default). *)
Theorem C05_map_unchanged_igva0_partial :
  forall c x y igva,
    cm_ok c -> igva == 0 ->
    map_eq c (fst (char_map_pr c x y igva)) /\ map_eq c (fst (char_map_eta_s c x y igva)).
Proof. exact char_maps_frame_igva0. Qed.
Print Assumptions C05_map_unchanged_igva0_partial.
