(** Proofs about messages. *)
From Coq Require Import String List Bool Arith Lia.
From Verif Require Import Base LogModel LogSpec.
Import ListNotations.
Open Scope nat_scope.
Open Scope string_scope.

Lemma receive_arrives : forall r h, settings (receive r h) = settings h
   /\ (h_level h <= r_level r -> h_received (receive r h) = (h_received h ++ [r])%list)
   /\ (r_level r < h_level h -> h_received (receive r h) = h_received h).
Proof.
  intros r h. unfold receive. destruct (Nat.leb_spec (h_level h) (r_level r)); repeat split; intros; try lia; reflexivity.
Qed.

Lemma emit_arrives : forall r hs, DEBUG <= r_level r -> arrives r hs (emit hs r).
Proof.
  intros r hs H. unfold emit. apply Nat.leb_le in H. rewrite H. clear H.
  induction hs as [|h hs IH]; [constructor|]. constructor; [apply receive_arrives|exact IH].
Qed.

Lemma emit_dropped : forall r hs, r_level r < DEBUG -> emit hs r = hs.
Proof. intros r hs H. unfold emit. apply Nat.leb_gt in H. now rewrite H. Qed.

(** One, two or three frames of the logger are passed. *)
Ltac frames kw H :=
  unfold message, asked_frame, find_caller, increment_stacklevel, with_stack; cbn [kw_stack kw_extra kw_exc];
  destruct (kw_stack kw) as [[|s]|]; [now elim H| |];
  cbn; rewrite ?Nat.sub_0_r; rewrite ?Nat.add_1_r; cbn; rewrite ?Nat.sub_0_r; try reflexivity.

Lemma log_message : forall stack hs level msg args kw, proper_stack kw -> DEBUG <= level ->
  arrives (message level stack msg args (given_extra kw) (kw_exc kw) kw) hs (log_ stack hs level msg args kw).
Proof.
  intros stack hs level msg args kw H HL. unfold log_. cbn zeta.
  match goal with |- arrives ?a _ (emit _ ?b) => replace a with b end; [now apply emit_arrives|].
  unfold message, asked_frame, find_caller, increment_stacklevel, with_stack, given_extra; cbn [kw_stack kw_extra kw_exc].
  f_equal. destruct (kw_stack kw) as [[|s]|] eqn:E; [elim H; exact E| |reflexivity].
  replace (S s + 1 - 1) with (S s) by lia. reflexivity.
Qed.

Lemma shift : forall f stack kw, proper_stack kw ->
  asked_frame (f :: stack) (with_stack kw (increment_stacklevel kw)) = asked_frame stack kw.
Proof.
  intros f stack kw H. unfold asked_frame, with_stack, increment_stacklevel. cbn [kw_stack].
  destruct (kw_stack kw) as [[|s]|] eqn:E; [elim H; exact E| |reflexivity].
  rewrite Nat.add_1_r. reflexivity.
Qed.

Lemma proper_incr : forall kw, proper_stack (with_stack kw (increment_stacklevel kw)).
Proof. intros kw. unfold proper_stack, with_stack, increment_stacklevel. cbn. rewrite Nat.add_1_r. discriminate. Qed.

Lemma short_message : forall f stack hs level msg args kw, proper_stack kw -> DEBUG <= level ->
  arrives (message level stack msg args (given_extra kw) (kw_exc kw) kw) hs
    (log_ (f :: stack) hs level msg args (with_stack kw (increment_stacklevel kw))).
Proof.
  intros f stack hs level msg args kw H HL.
  pose proof (log_message (f :: stack) hs level msg args _ (proper_incr kw) HL) as A.
  unfold message in *. now rewrite shift in A.
Qed.

Lemma messages_arrive : forall stack hs msg args kw, proper_stack kw ->
  let m level := message level stack msg args (given_extra kw) (kw_exc kw) kw in
  arrives (m DEBUG) hs (debug stack hs msg args kw)
  /\ arrives (m INFO) hs (info stack hs msg args kw)
  /\ arrives (m WARNING) hs (warning stack hs msg args kw)
  /\ arrives (m ERROR) hs (error stack hs msg args kw)
  /\ arrives (m CRITICAL) hs (critical stack hs msg args kw)
  /\ arrives (m RESULT) hs (result stack hs msg args kw).
Proof.
  intros stack hs msg args kw H m.
  repeat split; apply short_message; try exact H; unfold DEBUG, INFO, WARNING, ERROR, CRITICAL, RESULT, INFO; lia.
Qed.

Lemma exception_arrives : forall stack hs msg args exc kw, proper_stack kw ->
  arrives (message ERROR stack msg args (given_extra kw) (match exc with Some b => b | None => true end) kw) hs
    (exception stack hs msg args exc kw).
Proof.
  intros stack hs msg args exc kw H. unfold exception, error. cbn zeta.
  set (k := {| kw_stack := kw_stack (with_stack kw (increment_stacklevel kw));
               kw_extra := kw_extra (with_stack kw (increment_stacklevel kw));
               kw_exc := match exc with Some b => b | None => true end |}).
  assert (P : proper_stack k) by apply (proper_incr kw).
  pose proof (short_message "error" ("exception" :: stack) hs ERROR msg args k P) as A.
  assert (D : DEBUG <= ERROR) by (unfold DEBUG, ERROR; lia). specialize (A D).
  unfold message in *.
  replace (asked_frame ("exception" :: stack) k) with (asked_frame stack kw) in A; [exact A|].
  symmetry. apply (shift "exception" stack kw H).
Qed.

Lemma levels_numbers : forall stack lev msg args kw, proper_stack kw ->
  let h := {| h_kind := Console; h_level := lev; h_format := ""; h_datefmt := None; h_rotation := []; h_received := [] |} in
  let shown hs := list_sum (map (fun h => List.length (h_received h)) hs) = 1 in
  (shown (debug stack [h] msg args kw) <-> lev <= 10) /\ (shown (info stack [h] msg args kw) <-> lev <= 20)
  /\ (forall v, shown (fst (progress stack [h] v msg args kw)) <-> lev <= 21) /\ (shown (result stack [h] msg args kw) <-> lev <= 22)
  /\ (shown (warning stack [h] msg args kw) <-> lev <= 30) /\ (shown (error stack [h] msg args kw) <-> lev <= 40)
  /\ (shown (critical stack [h] msg args kw) <-> lev <= 50).
Proof.
  intros stack lev msg args kw _ h shown.
  assert (X : forall r n, r_level r = n -> 10 <= n -> (shown (emit [h] r) <-> lev <= n)).
  { intros r n <- N. unfold shown, emit. apply Nat.leb_le in N. unfold DEBUG. rewrite N. cbn [map]. unfold receive. cbn [h_level h].
    destruct (Nat.leb_spec lev (r_level r)); cbn; lia. }
  assert (Y : forall st n m a k, 10 <= n -> (shown (log_ st [h] n m a k) <-> lev <= n)) by (intros; apply X; [reflexivity|assumption]).
  split; [apply Y; lia|]. split; [apply Y; lia|]. split; [intros; apply Y; lia|]. split; [apply Y; lia|]. split; [apply Y; lia|]. split; apply Y; lia.
Qed.
Lemma levels_ordered : DEBUG < INFO < PROGRESS /\ PROGRESS < RESULT < WARNING /\ WARNING < ERROR < CRITICAL.
Proof. unfold DEBUG, INFO, WARNING, ERROR, CRITICAL, RESULT, PROGRESS, INFO. lia. Qed.

(** *** Progress *)

Lemma dget_dset_same {V} : forall k (v : V) d, dget k (dset k v d) = Some v.
Proof.
  induction d as [|[k' v'] d IH]; cbn; [now rewrite String.eqb_refl|].
  destruct (String.eqb k k') eqn:E; cbn; rewrite E; [reflexivity|exact IH].
Qed.
Lemma dget_dset_other {V} : forall k k' (v : V) d, k <> k' -> dget k (dset k' v d) = dget k d.
Proof.
  intros k k' v d N. induction d as [|[a w] d IH]; cbn.
  - destruct (String.eqb_spec k k'); [congruence|reflexivity].
  - destruct (String.eqb_spec k' a); cbn.
    + subst a. destruct (String.eqb_spec k k'); [congruence|reflexivity].
    + destruct (String.eqb k a); [reflexivity|exact IH].
Qed.

Lemma progress_arrives : forall stack hs value msg args kw, proper_stack kw ->
  arrives (message PROGRESS stack msg args (progress_extra value kw) (kw_exc kw) kw) hs (fst (progress stack hs value msg args kw)).
Proof.
  intros stack hs value msg args kw H. unfold progress. cbn [fst].
  set (k := {| kw_stack := kw_stack kw; kw_extra := Some (progress_extra value kw); kw_exc := kw_exc kw |}).
  assert (D : DEBUG <= PROGRESS) by (unfold DEBUG, PROGRESS, INFO; lia).
  exact (short_message "progress" stack hs PROGRESS msg args k H D).
Qed.

Lemma dmem_false {V} : forall k (d : dict V), dmem k d = false <-> dget k d = None.
Proof. intros k d. unfold dmem. destruct (dget k d); split; congruence. Qed.
Lemma dmem_true {V} : forall k (d : dict V) v, dget k d = Some v -> dmem k d = true.
Proof. intros k d v H. unfold dmem. now rewrite H. Qed.

Lemma progress_arrives_with : forall stack hs value msg args kw, proper_stack kw ->
  exists extra, arrives (message PROGRESS stack msg args extra (kw_exc kw) kw) hs (fst (progress stack hs value msg args kw))
    /\ dget "progress_val" extra = Some value
    /\ (leaves "progress_min" kw -> leaves "progress_max" kw ->
        dget "progress_min" extra = Some 0 /\ dget "progress_max" extra = Some 100)
    /\ (forall a b, gives "progress_min" kw a -> gives "progress_max" kw b ->
        dget "progress_min" extra = Some a /\ dget "progress_max" extra = Some b)
    /\ (forall k v, ~ In k ["progress_min"; "progress_max"; "progress_val"] ->
        (gives k kw v <-> dget k extra = Some v)).
Proof.
  intros stack hs value msg args kw H. exists (progress_extra value kw).
  split; [now apply progress_arrives|].
  unfold progress_extra. set (e := match kw_extra kw with None => [] | Some e => e end). cbn zeta.
  assert (GE : forall k v, gives k kw v <-> dget k e = Some v).
  { intros k v. unfold gives, e. destruct (kw_extra kw) as [e'|]; split.
    - intros (x & X & Y). now inversion X; subst.
    - intros Y. now exists e'.
    - intros (x & X & Y). discriminate.
    - discriminate. }
  split; [apply dget_dset_same|]. split; [|split].
  - intros L1 L2.
    assert (N1 : dget "progress_min" e = None) by (unfold e; destruct (kw_extra kw) as [e0|] eqn:E0; [apply L1; exact E0|reflexivity]).
    assert (N2 : dget "progress_max" e = None) by (unfold e; destruct (kw_extra kw) as [e0|] eqn:E0; [apply L2; exact E0|reflexivity]).
    apply dmem_false in N1, N2. rewrite N1, N2. cbn [negb andb].
    rewrite !(dget_dset_other _ "progress_val") by discriminate. split; [|apply dget_dset_same].
    rewrite dget_dset_other by discriminate. apply dget_dset_same.
  - intros a b A B. apply GE in A, B. rewrite (dmem_true _ _ _ A). cbn [negb andb].
    rewrite !(dget_dset_other _ "progress_val") by discriminate. split; assumption.
  - intros k v N. rewrite GE. cbn in N.
    rewrite dget_dset_other by (intros ->; tauto).
    destruct (negb (dmem "progress_min" e) && negb (dmem "progress_max" e)); [|reflexivity].
    rewrite !dget_dset_other by (intros ->; tauto). reflexivity.
Qed.

Lemma progress_one_limit : exists stack hs value msg args kw, proper_stack kw /\ gives "progress_max" kw 1
  /\ exists h r, In h (fst (progress stack hs value msg args kw)) /\ In r (h_received h)
       /\ r_level r = PROGRESS /\ dget "progress_min" (r_extra r) = None.
Proof.
  exists ["main"], [{| h_kind := Console; h_level := INFO; h_format := ""; h_datefmt := None; h_rotation := []; h_received := [] |}],
    1, "done", [], {| kw_stack := None; kw_extra := Some [("progress_max", 1)]; kw_exc := false |}.
  split; [discriminate|]. split; [exists [("progress_max", 1)]; split; reflexivity|].
  eexists. eexists. split; [left; reflexivity|]. split; [left; reflexivity|]. split; reflexivity.
Qed.

Lemma progress_changes_extra : exists stack hs value msg args kw e e',
  kw_extra kw = Some e /\ snd (progress stack hs value msg args kw) = Some e' /\ e' <> e.
Proof.
  exists ["main"], [], 7, "done", [], {| kw_stack := None; kw_extra := Some []; kw_exc := false |}, [].
  eexists. split; [reflexivity|]. split; [reflexivity|]. discriminate.
Qed.

(** *** Warnings *)

Lemma warning_arrives : forall stack hs category text filename,
  exists r, arrives r hs (show_warning stack hs category text filename)
    /\ r_level r = WARNING /\ r_msg r = "FutureWarning: " ++ text /\ r_frame r = nth_error stack 0.
Proof.
  intros. eexists. split; [apply emit_arrives; cbn; unfold DEBUG, WARNING; lia|]. split; [reflexivity|]. split; reflexivity.
Qed.

Lemma warning_forgets : forall stack hs c1 c2 text f1 f2,
  show_warning stack hs c1 text f1 = show_warning stack hs c2 text f2.
Proof. reflexivity. Qed.

Lemma warning_category : exists stack hs category text filename r h,
  category <> "FutureWarning" /\ In h (show_warning stack hs category text filename) /\ h_received h = [r]
  /\ prefix (category ++ ": ") (r_msg r) = false /\ prefix "FutureWarning: " (r_msg r) = true.
Proof.
  exists ["_showwarnmsg"; "solve"],
    [{| h_kind := Console; h_level := INFO; h_format := ""; h_datefmt := None; h_rotation := []; h_received := [] |}],
    "RuntimeWarning", "divide by zero", "network.py".
  eexists. eexists. split; [discriminate|]. split; [left; reflexivity|]. split; [reflexivity|]. split; reflexivity.
Qed.

(** *** Set-up *)

Lemma smem_In : forall k l, smem k l = true <-> In k l.
Proof.
  intros k l. unfold smem. rewrite existsb_exists. split.
  - intros (x & Hx & E). apply String.eqb_eq in E. now subst.
  - intros H. exists k. split; [exact H|apply String.eqb_refl].
Qed.

Lemma mkdir_dirs : forall p st x, In x (ls_dirs (mkdir p st)) <-> In x (ls_dirs st) \/ x = p.
Proof.
  intros p st x. unfold mkdir. destruct (smem p (ls_dirs st)) eqn:E.
  - apply smem_In in E. split; [tauto|]. intros [H| ->]; [exact H|exact E].
  - cbn [ls_dirs]. rewrite in_app_iff. cbn. split; intros [H|H]; auto; [destruct H as [<-|[]]; now right].
Qed.
Lemma mkdir_handlers : forall p st, ls_handlers (mkdir p st) = ls_handlers st.
Proof. intros p st. unfold mkdir. now destruct (smem p (ls_dirs st)). Qed.

Lemma version_always : forall version g, g <> GitFile -> exists v, get_version version g = inl v.
Proof.
  intros version g H. unfold get_version. destruct g as [| |h loose]; cbn; [now eexists|now elim H|].
  destruct (dget _ loose); now eexists.
Qed.

Lemma version_branch : forall version name loose commit, dget name loose = Some commit ->
  get_version version (GitDir (HeadBranch name) loose) = inl (substring 0 8 commit ++ "@" ++ name).
Proof. intros version name loose commit H. unfold get_version. cbn. now rewrite H. Qed.

Lemma version_packed : forall version name loose, dget name loose = None ->
  get_version version (GitDir (HeadBranch name) loose) = inl version.
Proof. intros version name loose H. unfold get_version. cbn. now rewrite H. Qed.

Lemma version_no_git : forall version, get_version version NoGit = inl version.
Proof. reflexivity. Qed.

(** Handlers after the messages of the set-up. *)
Lemma emit_settings : forall r hs, map settings (emit hs r) = map settings hs.
Proof.
  intros r hs. unfold emit. destruct (Nat.leb DEBUG (r_level r)); [|reflexivity].
  rewrite map_map. apply map_ext. intros h. apply receive_arrives.
Qed.
Lemma say_settings : forall stack msg st, map settings (ls_handlers (say stack msg st)) = map settings (ls_handlers st).
Proof. intros. unfold say, info, log_. cbn [ls_handlers]. apply emit_settings. Qed.
Lemma say_version_settings : forall stack version g ask st st',
  say_version stack version g ask st = inl st' ->
  map settings (ls_handlers st') = map settings (ls_handlers st) /\ ls_dirs st' = ls_dirs st.
Proof.
  intros stack version g ask st st' H. unfold say_version in H. destruct ask; [|now inversion H].
  destruct (get_version version g); inversion H; subst. split; [apply say_settings|reflexivity].
Qed.

Lemma define_sets_up : forall stack version g home a st file st',
  define_logging stack version g home a st = inl (file, st') ->
  map settings (ls_handlers st') = (map settings (ls_handlers st) ++
    [(Console, dl_screen_level a, match dl_screen_format a with Some f => f | None => "%(asctime)s-%(levelname)s-%(message)s" end,
      dl_screen_datefmt a, []);
     (LogFile file, dl_file_level a,
      match dl_file_format a with Some f => f | None => "%(asctime)s - %(levelname)s - %(module)s - %(message)s" end,
      dl_file_datefmt a,
      match dl_rotation a with None => [("when", "midnight"); ("backupCount", "10")]
      | Some r => update [("when", "midnight"); ("backupCount", "10")] r end)])%list
  /\ (exists dir, In dir (ls_dirs st') /\ file = join dir (match dl_file a with Some f => f | None => "tespy.log" end)
      /\ match dl_path a with Some p => dir = p | None => dir = join (join home ".tespy") "log_files" end)
  /\ (forall d, In d (ls_dirs st) -> In d (ls_dirs st')).
Proof.
  intros stack version g home a st file st' H. unfold define_logging, add_console_logging in H.
  cbn [say_version] in H. unfold add_file_logging in H.
  destruct (extend_basic_path home "log_files" _) as [basic st1] eqn:EB.
  unfold extend_basic_path in EB. cbn zeta in EB. injection EB as <- <-.
  cbn zeta in H.
  match type of H with match say_version ?s ?v ?gg ?b ?x with _ => _ end = _ =>
    destruct (say_version s v gg b x) as [st2|] eqn:ES; [|discriminate] end.
  injection H as <- <-.
  apply say_version_settings in ES. destruct ES as [ES1 ES2].
  set (dir := match dl_path a with Some p => p | None => join (join home ".tespy") "log_files" end) in *.
  match type of ES1 with _ = map settings (ls_handlers (if _ then _ else ?x)) => set (st3 := x) in * end.
  assert (A : map settings (ls_handlers st2) = map settings (ls_handlers st3) /\ ls_dirs st2 = ls_dirs st3).
  { rewrite ES1, ES2. destruct (dl_log_path a); [split; [apply say_settings|reflexivity]|split; reflexivity]. }
  destruct A as [A1 A2]. clear ES1 ES2. rewrite A1, A2. unfold st3, add_handler. cbn [ls_handlers ls_dirs].
  rewrite !mkdir_handlers. cbn [ls_handlers]. split; [|split].
  - rewrite !map_app. cbn [map]. rewrite <- app_assoc. unfold settings. cbn.
    destruct (dl_file a), (dl_rotation a); reflexivity.
  - exists dir. split; [apply mkdir_dirs; now right|]. split; [unfold dir; destruct (dl_file a); reflexivity|].
    unfold dir. destruct (dl_path a); reflexivity.
  - intros d Hd. rewrite !mkdir_dirs. cbn [ls_dirs]. tauto.
Qed.

Lemma define_succeeds : forall stack version g home a st, g <> GitFile \/ dl_version a = false ->
  exists file st', define_logging stack version g home a st = inl (file, st').
Proof.
  intros stack version g home a st H. unfold define_logging, add_console_logging. cbn [say_version].
  unfold add_file_logging. destruct (extend_basic_path home "log_files" _) as [basic st1]. cbn zeta.
  unfold say_version. destruct (dl_version a) eqn:E; [|now eexists; eexists].
  destruct H as [H|H]; [|discriminate]. destruct (version_always version g H) as (v & ->). now eexists; eexists.
Qed.

Lemma rotation_options : forall (d r : dict string) k v, dget k r = Some v -> NoDup (keys r) -> dget k (update d r) = Some v.
Proof.
  unfold update. intros d r. revert d. induction r as [|[a w] r IH]; intros d k v H N; [discriminate|].
  cbn in H. inversion N; subst. cbn. destruct (String.eqb_spec k a).
  - inversion H; subst. clear IH. revert d. cut (forall r d, ~ In a (keys r) -> dget a d = Some v ->
      dget a (fold_left (fun d kv => dset (fst kv) (snd kv) d) r d) = Some v).
    { intros C d. apply C; [assumption|apply dget_dset_same]. }
    clear. induction r as [|[b u] r IH]; intros d N H; cbn; [exact H|]. cbn in N.
    apply IH; [tauto|]. rewrite dget_dset_other; [exact H|]. intros ->. tauto.
  - apply IH; assumption.
Qed.
Lemma rotation_defaults : forall (d r : dict string) k, ~ In k (keys r) -> dget k (update d r) = dget k d.
Proof.
  unfold update. intros d r. revert d. induction r as [|[a w] r IH]; intros d k H; [reflexivity|].
  cbn in *. rewrite IH by tauto. apply dget_dset_other. intros ->. tauto.
Qed.

(** The first messages. *)
Lemma skipn_new {A B} : forall (F : A -> B) l m, skipn (List.length l) (map F (l ++ m)%list) = map F m.
Proof.
  intros F l m. rewrite map_app, skipn_app, map_length, Nat.sub_diag.
  rewrite skipn_all2 by (rewrite map_length; lia). reflexivity.
Qed.

Lemma define_announces : forall stack version g home a st file st' v,
  define_logging stack version g home a st = inl (file, st') -> get_version version g = inl v ->
  dl_screen_level a <= INFO -> dl_file_level a <= INFO ->
  forall h, In h (skipn (List.length (ls_handlers st)) (ls_handlers st')) ->
  map r_msg (h_received h) =
    ((if dl_log_path a then ["Path for logging: " ++ file]%string else []) ++
     (if dl_version a then ["Used TESPy version: " ++ v]%string else []))%list
  /\ Forall (fun r => r_level r = INFO /\ r_frame r = Some "add_file_logging") (h_received h).
Proof.
  intros stack version g home a st file st' v H HV L1 L2 h Hin.
  unfold define_logging, add_console_logging in H.
  cbn [say_version] in H. unfold add_file_logging in H.
  destruct (extend_basic_path home "log_files" _) as [basic st1] eqn:EB.
  unfold extend_basic_path in EB. cbn zeta in EB. injection EB as <- <-.
  cbn zeta in H.
  unfold say_version in H. rewrite HV in H.
  match type of H with context [add_handler ?x ?y] => set (hf := x) in *; set (st2 := y) in * end.
  set (hc := {| h_kind := Console; h_level := dl_screen_level a;
     h_format := match dl_screen_format a with Some f => f | None => "%(asctime)s-%(levelname)s-%(message)s" end;
     h_datefmt := dl_screen_datefmt a; h_rotation := []; h_received := [] |}).
  assert (HS : ls_handlers (add_handler hf st2) = (ls_handlers st ++ [hc; hf])%list).
  { unfold add_handler, st2. cbn [ls_handlers]. rewrite !mkdir_handlers. unfold add_handler. cbn [ls_handlers].
    now rewrite <- app_assoc. }
  set (mk := fun msg => {| r_level := INFO; r_msg := msg; r_args := []; r_frame := Some "add_file_logging"; r_extra := []; r_exc := false |}).
  assert (SAY : forall msg x, ls_handlers (say ("add_file_logging" :: "define_logging" :: stack) msg x) = map (receive (mk msg)) (ls_handlers x))
    by reflexivity.
  assert (RC : forall m x, h_level x <= INFO -> h_received (receive (mk m) x) = (h_received x ++ [mk m])%list /\ h_level (receive (mk m) x) = h_level x).
  { intros m x Hx. destruct (receive_arrives (mk m) x) as (A & B & _). split; [now apply B|]. now inversion A. }
  assert (LV : forall x, In x [hc; hf] -> h_level x <= INFO /\ h_received x = []).
  { intros x [<-|[<-|[]]]; split; try assumption; reflexivity. }
  clearbody hc hf.
  destruct (dl_log_path a), (dl_version a); injection H as <- <-; rewrite ?SAY, ?HS in Hin; rewrite ?map_map in Hin.
  - rewrite skipn_new in Hin. apply in_map_iff in Hin. destruct Hin as (x & <- & Hx).
    destruct (LV x Hx) as [Lx Rx].
    match goal with |- context [receive (mk ?m2) (receive (mk ?m1) x)] =>
      destruct (RC m1 x Lx) as [R1 K1]; destruct (RC m2 (receive (mk m1) x)) as [R2 K2]; [lia|] end.
    rewrite R2, R1, Rx. split; [reflexivity|]. repeat constructor.
  - rewrite skipn_new in Hin. apply in_map_iff in Hin. destruct Hin as (x & <- & Hx).
    destruct (LV x Hx) as [Lx Rx].
    match goal with |- context [receive (mk ?m1) x] => destruct (RC m1 x Lx) as [R1 K1] end.
    rewrite R1, Rx. split; [reflexivity|]. repeat constructor.
  - rewrite skipn_new in Hin. apply in_map_iff in Hin. destruct Hin as (x & <- & Hx).
    destruct (LV x Hx) as [Lx Rx].
    match goal with |- context [receive (mk ?m1) x] => destruct (RC m1 x Lx) as [R1 K1] end.
    rewrite R1, Rx. split; [reflexivity|]. repeat constructor.
  - rewrite <- (map_id (_ ++ _)%list), skipn_new, map_id in Hin.
    destruct (LV h Hin) as [_ ->]. split; [reflexivity|constructor].
Qed.

(** *** Where it fails *)

Definition st0 : lstate := {| ls_handlers := []; ls_dirs := [] |}.

Lemma screen_date_default : exists stack version g home st file st', 
  define_logging stack version g home dl_default st = inl (file, st')
  /\ exists h, In h (ls_handlers st') /\ h_kind h = Console /\ h_datefmt h <> Some "%H:%M:%S".
Proof.
  exists ["main"], "0.7", NoGit, "/home/u", st0. eexists. eexists. split; [reflexivity|].
  eexists. split; [left; reflexivity|]. split; [reflexivity|]. discriminate.
Qed.

Lemma logging_twice : exists stack version g home st f1 st1 f2 st2 msg,
  define_logging stack version g home dl_default st = inl (f1, st1)
  /\ define_logging stack version g home dl_default st1 = inl (f2, st2)
  /\ console_lines msg (info stack (ls_handlers st1) msg [] no_kwargs) = 1
  /\ console_lines msg (info stack (ls_handlers st2) msg [] no_kwargs) = 2.
Proof.
  exists ["main"], "0.7", NoGit, "/home/u", st0. eexists. eexists. eexists. eexists. exists "hello".
  split; [reflexivity|]. split; [reflexivity|]. split; reflexivity.
Qed.

Lemma home_touched : exists stack version g home st path a file st', dl_path a = Some path
  /\ define_logging stack version g home a st = inl (file, st')
  /\ exists d, In d (ls_dirs st') /\ ~ In d (ls_dirs st) /\ d <> path.
Proof.
  exists ["main"], "0.7", NoGit, "/home/u", {| ls_handlers := []; ls_dirs := ["/tmp/logs"] |}, "/tmp/logs".
  exists {| dl_path := Some "/tmp/logs"; dl_file := None; dl_file_format := None; dl_screen_format := None;
     dl_file_datefmt := None; dl_screen_datefmt := None; dl_screen_level := INFO; dl_file_level := DEBUG;
     dl_version := true; dl_log_path := true; dl_rotation := None |}.
  eexists. eexists. split; [reflexivity|]. split; [reflexivity|]. exists "/home/u/.tespy/log_files".
  split; [right; right; left; reflexivity|]. split; [intros [E|[]]; discriminate|discriminate].
Qed.

Lemma submodule_fails : forall stack version home st a, dl_version a = true ->
  define_logging stack version GitFile home a st = inr NotADirectory.
Proof.
  intros stack version home st a H. unfold define_logging, add_console_logging. cbn [say_version].
  unfold add_file_logging. destruct (extend_basic_path home "log_files" _) as [basic st1]. cbn zeta.
  unfold say_version. rewrite H. reflexivity.
Qed.

Lemma define_defaults : forall stack version g home st v, get_version version g = inl v ->
  exists file st', define_logging stack version g home dl_default st = inl (file, st')
  /\ file = join (join (join home ".tespy") "log_files") "tespy.log"
  /\ exists screen log, skipn (List.length (ls_handlers st)) (ls_handlers st') = [screen; log]
     /\ h_kind screen = Console /\ h_level screen = 20 /\ h_kind log = LogFile file /\ h_level log = 10
     /\ forall h, h = screen \/ h = log ->
          map r_msg (h_received h) = ["Path for logging: " ++ file; "Used TESPy version: " ++ v]%string.
Proof.
  intros stack version g home st v V.
  assert (G : g <> GitFile) by (intros ->; discriminate V).
  destruct (define_succeeds stack version g home dl_default st (or_introl G)) as (file & st' & E).
  exists file, st'. split; [exact E |].
  destruct (define_sets_up _ _ _ _ _ _ _ _ E) as (S & (dir & _ & F & D) & _). cbn in D. subst dir.
  split; [exact F |].
  pose proof (define_announces _ _ _ _ _ _ _ _ _ E V (le_n INFO) (Nat.lt_le_incl _ _ (proj1 (proj1 levels_ordered)))) as A.
  assert (S' : map settings (skipn (List.length (ls_handlers st)) (ls_handlers st'))
    = skipn (List.length (map settings (ls_handlers st))) (map settings (ls_handlers st'))).
  { rewrite map_length. symmetry. apply skipn_map. }
  rewrite S, skipn_app, skipn_all, Nat.sub_diag in S'. cbn [app skipn] in S'.
  destruct (skipn (List.length (ls_handlers st)) (ls_handlers st')) as [| screen [| log [| z zs]]]; try discriminate S'.
  exists screen, log. split; [reflexivity |]. cbn [map] in S'. unfold settings in S'. injection S' as K1 L1 _ _ _ K2 L2 _ _ _.
  repeat split; try assumption. intros h H.
  assert (I : In h [screen; log]) by (destruct H; subst; cbn [In]; auto).
  exact (proj1 (A h I)).
Qed.
