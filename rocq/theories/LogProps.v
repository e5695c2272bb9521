(** C221–C225: messages of TESPy. *)
From Coq Require Import String List Bool Arith Lia.
From Verif Require Import Base LogModel LogSpec LogProofs.
Import ListNotations.
Open Scope nat_scope.
Open Scope string_scope.

(** C221 – log delivers the message once to every handler of sufficient level, attributed to its caller. *)
Theorem C221_log : forall stack hs level msg args kw, proper_stack kw -> DEBUG <= level ->
  arrives (message level stack msg args (given_extra kw) (kw_exc kw) kw) hs (log_ stack hs level msg args kw).
Proof. exact log_message. Qed.
Print Assumptions C221_log.

(** C221 – so do the functions for the single levels. *)
Theorem C221_messages : forall stack hs msg args kw, proper_stack kw ->
  let m level := message level stack msg args (given_extra kw) (kw_exc kw) kw in
  arrives (m DEBUG) hs (debug stack hs msg args kw)
  /\ arrives (m INFO) hs (info stack hs msg args kw)
  /\ arrives (m WARNING) hs (warning stack hs msg args kw)
  /\ arrives (m ERROR) hs (error stack hs msg args kw)
  /\ arrives (m CRITICAL) hs (critical stack hs msg args kw)
  /\ arrives (m RESULT) hs (result stack hs msg args kw).
Proof. exact messages_arrive. Qed.
Print Assumptions C221_messages.

(** C221 – and exception, with exception information unless switched off. *)
Theorem C221_exception : forall stack hs msg args exc kw, proper_stack kw ->
  arrives (message ERROR stack msg args (given_extra kw) (match exc with Some b => b | None => true end) kw) hs
    (exception stack hs msg args exc kw).
Proof. exact exception_arrives. Qed.
Print Assumptions C221_exception.

(** C221 – and progress, with its value and both limits: 0 and 100 if none is given. *)
Theorem C221_progress : forall stack hs value msg args kw, proper_stack kw ->
  exists extra, arrives (message PROGRESS stack msg args extra (kw_exc kw) kw) hs (fst (progress stack hs value msg args kw))
    /\ dget "progress_val" extra = Some value
    /\ (leaves "progress_min" kw -> leaves "progress_max" kw ->
        dget "progress_min" extra = Some 0 /\ dget "progress_max" extra = Some 100)
    /\ (forall a b, gives "progress_min" kw a -> gives "progress_max" kw b ->
        dget "progress_min" extra = Some a /\ dget "progress_max" extra = Some b)
    /\ (forall k v, ~ In k ["progress_min"; "progress_max"; "progress_val"] ->
        (gives k kw v <-> dget k extra = Some v)).
Proof. exact progress_arrives_with. Qed.
Print Assumptions C221_progress.

(** C221 – progress and results are between information and warnings. *)
Theorem C221_levels : DEBUG < INFO < PROGRESS /\ PROGRESS < RESULT < WARNING /\ WARNING < ERROR < CRITICAL.
Proof. exact levels_ordered. Qed.
Print Assumptions C221_levels.

(** C222 – with one limit given, the other is missing in the record. *)
Theorem C222_one_limit_refuted : exists stack hs value msg args kw, proper_stack kw /\ gives "progress_max" kw 1
  /\ exists h r, In h (fst (progress stack hs value msg args kw)) /\ In r (h_received h)
       /\ r_level r = PROGRESS /\ dget "progress_min" (r_extra r) = None.
Proof. exact progress_one_limit. Qed.
Print Assumptions C222_one_limit_refuted.

(** C222 – the dictionary of the caller is changed. *)
Theorem C222_extra_refuted : exists stack hs value msg args kw e e',
  kw_extra kw = Some e /\ snd (progress stack hs value msg args kw) = Some e' /\ e' <> e.
Proof. exact progress_changes_extra. Qed.
Print Assumptions C222_extra_refuted.

(** C221 – a handler of some level shows the messages from that level on, in the numbers of the logging package. *)
Theorem C221_numbers : forall stack lev msg args kw, proper_stack kw ->
  let h := {| h_kind := Console; h_level := lev; h_format := ""; h_datefmt := None; h_rotation := []; h_received := [] |} in
  let shown hs := list_sum (map (fun h => List.length (h_received h)) hs) = 1 in
  (shown (debug stack [h] msg args kw) <-> lev <= 10) /\ (shown (info stack [h] msg args kw) <-> lev <= 20)
  /\ (forall v, shown (fst (progress stack [h] v msg args kw)) <-> lev <= 21) /\ (shown (result stack [h] msg args kw) <-> lev <= 22)
  /\ (shown (warning stack [h] msg args kw) <-> lev <= 30) /\ (shown (error stack [h] msg args kw) <-> lev <= 40)
  /\ (shown (critical stack [h] msg args kw) <-> lev <= 50).
Proof. exact levels_numbers. Qed.
Print Assumptions C221_numbers.

(** C223 – the text of a warning arrives once at every handler of sufficient level (category and place are lost). *)
Theorem C223_warning_partial : forall stack hs category text filename,
  exists r, arrives r hs (show_warning stack hs category text filename)
    /\ r_level r = WARNING /\ r_msg r = "FutureWarning: " ++ text /\ r_frame r = nth_error stack 0.
Proof. exact warning_arrives. Qed.
Print Assumptions C223_warning_partial.

(** C223 – a warning of another category is reported as FutureWarning. *)
Theorem C223_category_refuted : exists stack hs category text filename r h,
  category <> "FutureWarning" /\ In h (show_warning stack hs category text filename) /\ h_received h = [r]
  /\ prefix (category ++ ": ") (r_msg r) = false /\ prefix "FutureWarning: " (r_msg r) = true.
Proof. exact warning_category. Qed.
Print Assumptions C223_category_refuted.

(** C223 – reports are the same for any category and file. *)
Theorem C223_place_always : forall stack hs c1 c2 text f1 f2,
  show_warning stack hs c1 text f1 = show_warning stack hs c2 text f2.
Proof. exact warning_forgets. Qed.
Print Assumptions C223_place_always.

(** C224 – one handler for the screen and one for the file are added with the settings asked for; the directory of the file exists. *)
Theorem C224_setup : forall stack version g home a st file st',
  define_logging stack version g home a st = inl (file, st') ->
  map settings (ls_handlers st') = (map settings (ls_handlers st) ++
    [(Console, dl_screen_level a, match dl_screen_format a with Some f => f | None => "%(asctime)s-%(levelname)s-%(message)s" end,
      dl_screen_datefmt a, []);
     (LogFile file, dl_file_level a,
      match dl_file_format a with Some f => f | None => "%(asctime)s - %(levelname)s - %(module)s - %(message)s" end,
      dl_file_datefmt a,
      match dl_rotation a with None => [("when", "midnight"); ("backupCount", "10")]
      | Some r => update [("when", "midnight"); ("backupCount", "10")] r end)])%list
  /\ (exists dir, In dir (ls_dirs st') /\ file = join dir (match dl_file a with Some f => f | None => "tespy.log" end)
      /\ match dl_path a with Some p => dir = p | None => dir = join (join home ".tespy") "log_files" end)
  /\ (forall d, In d (ls_dirs st) -> In d (ls_dirs st')).
Proof. exact define_sets_up. Qed.
Print Assumptions C224_setup.

(** C224 – it succeeds unless the version is asked for and .git is a file. *)
Theorem C224_succeeds : forall stack version g home a st, g <> GitFile \/ dl_version a = false ->
  exists file st', define_logging stack version g home a st = inl (file, st').
Proof. exact define_succeeds. Qed.
Print Assumptions C224_succeeds.

(** C224 – the new handlers receive the path and the version, if asked for, and nothing else. *)
Theorem C224_announces : forall stack version g home a st file st' v,
  define_logging stack version g home a st = inl (file, st') -> get_version version g = inl v ->
  dl_screen_level a <= INFO -> dl_file_level a <= INFO ->
  forall h, In h (skipn (List.length (ls_handlers st)) (ls_handlers st')) ->
  map r_msg (h_received h) =
    ((if dl_log_path a then ["Path for logging: " ++ file]%string else []) ++
     (if dl_version a then ["Used TESPy version: " ++ v]%string else []))%list
  /\ Forall (fun r => r_level r = INFO /\ r_frame r = Some "add_file_logging") (h_received h).
Proof. exact define_announces. Qed.
Print Assumptions C224_announces.

(** C224 – without arguments: information and more on the screen, everything in tespy.log below the home directory, path and version in both. *)
Theorem C224_defaults : forall stack version g home st v, get_version version g = inl v ->
  exists file st', define_logging stack version g home dl_default st = inl (file, st')
  /\ file = join (join (join home ".tespy") "log_files") "tespy.log"
  /\ exists screen log, skipn (List.length (ls_handlers st)) (ls_handlers st') = [screen; log]
     /\ h_kind screen = Console /\ h_level screen = 20 /\ h_kind log = LogFile file /\ h_level log = 10
     /\ forall h, h = screen \/ h = log ->
          map r_msg (h_received h) = ["Path for logging: " ++ file; "Used TESPy version: " ++ v]%string.
Proof. exact define_defaults. Qed.
Print Assumptions C224_defaults.

(** C224 – options of rotation given are used. *)
Theorem C224_rotation : forall (d r : dict string) k v, dget k r = Some v -> NoDup (keys r) -> dget k (update d r) = Some v.
Proof. exact rotation_options. Qed.
Print Assumptions C224_rotation.

(** C224 – the other ones keep their defaults. *)
Theorem C224_rotation_default : forall (d r : dict string) k, ~ In k (keys r) -> dget k (update d r) = dget k d.
Proof. exact rotation_defaults. Qed.
Print Assumptions C224_rotation_default.

(** C224 – the version in a working copy is the commit and the branch. *)
Theorem C224_version : forall version name loose commit, dget name loose = Some commit ->
  get_version version (GitDir (HeadBranch name) loose) = inl (substring 0 8 commit ++ "@" ++ name).
Proof. exact version_branch. Qed.
Print Assumptions C224_version.

(** C224 – without a file of its own for the branch, it is the version number. *)
Theorem C224_version_packed : forall version name loose, dget name loose = None ->
  get_version version (GitDir (HeadBranch name) loose) = inl version.
Proof. exact version_packed. Qed.
Print Assumptions C224_version_packed.

(** C224 – the same without working copy. *)
Theorem C224_version_installed : forall version, get_version version NoGit = inl version.
Proof. exact version_no_git. Qed.
Print Assumptions C224_version_installed.

(** C225 – by default the dates on the screen do not have the documented format. *)
Theorem C225_date_refuted : exists stack version g home st file st', 
  define_logging stack version g home dl_default st = inl (file, st')
  /\ exists h, In h (ls_handlers st') /\ h_kind h = Console /\ h_datefmt h <> Some "%H:%M:%S".
Proof. exact screen_date_default. Qed.
Print Assumptions C225_date_refuted.

(** C225 – after a second set-up every message is printed twice. *)
Theorem C225_twice_refuted : exists stack version g home st f1 st1 f2 st2 msg,
  define_logging stack version g home dl_default st = inl (f1, st1)
  /\ define_logging stack version g home dl_default st1 = inl (f2, st2)
  /\ console_lines msg (info stack (ls_handlers st1) msg [] no_kwargs) = 1
  /\ console_lines msg (info stack (ls_handlers st2) msg [] no_kwargs) = 2.
Proof. exact logging_twice. Qed.
Print Assumptions C225_twice_refuted.

(** C225 – directories are created in the home directory although another one is given. *)
Theorem C225_home_refuted : exists stack version g home st path a file st', dl_path a = Some path
  /\ define_logging stack version g home a st = inl (file, st')
  /\ exists d, In d (ls_dirs st') /\ ~ In d (ls_dirs st) /\ d <> path.
Proof. exact home_touched. Qed.
Print Assumptions C225_home_refuted.

(** C225 – in a submodule or worktree the set-up fails. *)
Theorem C225_submodule_always : forall stack version home st a, dl_version a = true ->
  define_logging stack version GitFile home a st = inr NotADirectory.
Proof. exact submodule_fails. Qed.
Print Assumptions C225_submodule_always.

Example C221_ex : arrives (message WARNING ["solve"; "main"] "no convergence" [] [] false no_kwargs)
  [{| h_kind := Console; h_level := INFO; h_format := "f"; h_datefmt := None; h_rotation := []; h_received := [] |};
   {| h_kind := LogFile "a"; h_level := ERROR; h_format := "f"; h_datefmt := None; h_rotation := []; h_received := [] |}]
  (warning ["solve"; "main"]
  [{| h_kind := Console; h_level := INFO; h_format := "f"; h_datefmt := None; h_rotation := []; h_received := [] |};
   {| h_kind := LogFile "a"; h_level := ERROR; h_format := "f"; h_datefmt := None; h_rotation := []; h_received := [] |}]
   "no convergence" [] no_kwargs)
  /\ asked_frame ["solve"; "main"] no_kwargs = Some "solve".
Proof. split; [apply messages_arrive; discriminate|reflexivity]. Qed.
Example C224_ex : match define_logging ["main"] "0.7" NoGit "/home/u" dl_default {| ls_handlers := []; ls_dirs := [] |} with
  | inl (file, st) => file = "/home/u/.tespy/log_files/tespy.log"
      /\ map (fun h => map r_msg (h_received h)) (ls_handlers st)
         = [["Path for logging: /home/u/.tespy/log_files/tespy.log"; "Used TESPy version: 0.7"];
            ["Path for logging: /home/u/.tespy/log_files/tespy.log"; "Used TESPy version: 0.7"]]
  | inr _ => False end.
Proof. split; reflexivity. Qed.
