(** Messages of TESPy (tools/logger.py). The logging package of Python is an external
    library; of it the model has the handlers of the TESPy logger, their levels and the
    selection of the frame a message is attributed to. *)
From Coq Require Import String List Bool Arith.
From Verif Require Import Base.
Import ListNotations.
Open Scope nat_scope.
Open Scope string_scope.

(** Keyword arguments of the functions that have a meaning there: stacklevel, extra
    and exc_info (tools/logger.py 55-59, 139, 173-178). Numbers in extra are natural. *)
Record kwargs := { kw_stack : option nat; kw_extra : option (dict nat); kw_exc : bool }.

(** Calls without keyword arguments (tools/logger.py 234). *)
Definition no_kwargs : kwargs := {| kw_stack := None; kw_extra := None; kw_exc := false |}.

(** kwargs["stacklevel"] = n (tools/logger.py 73). *)
Definition with_stack (kw : kwargs) (n : nat) : kwargs :=
  {| kw_stack := Some n; kw_extra := kw_extra kw; kw_exc := kw_exc kw |}.

(** increment_stacklevel (tools/logger.py 55-59). *)
Definition increment_stacklevel (kw : kwargs) : nat :=
  match kw_stack kw with None => 1 | Some s => s end + 1.

(** The levels of Python's logging package and the two of TESPy (tools/logger.py 21-22). *)
Definition DEBUG := 10.
(** logging.INFO (tools/logger.py 21) *)
Definition INFO := 20.
(** logging.WARNING (tools/logger.py 122) *)
Definition WARNING := 30.
(** logging.ERROR (tools/logger.py 136) *)
Definition ERROR := 40.
(** logging.CRITICAL (tools/logger.py 159) *)
Definition CRITICAL := 50.
(** TESPY_PROGRESS_LOG_LEVEL (tools/logger.py 21) *)
Definition PROGRESS := INFO + 1.
(** TESPY_RESULT_LOG_LEVEL (tools/logger.py 22) *)
Definition RESULT := INFO + 2.

(** A log record: level, message, arguments of the message, frame it is attributed to,
    extra attributes, exception information (logging.Logger.log as called in
    tools/logger.py 80). *)
Record lrecord := {
  r_level : nat; r_msg : string; r_args : list string; r_frame : option string;
  r_extra : dict nat; r_exc : bool }.

(** Frame a record is attributed to: the stacklevel-th of the call stack, innermost first,
    of the caller of logger.log (logging.Logger.findCaller, as used in tools/logger.py 80).
    Python's choice when the stack is shorter is not modelled. *)
Definition find_caller (stack : list string) (stacklevel : nat) : option string :=
  nth_error stack (stacklevel - 1).

(** A handler of the logger: console or file, level, format, format of dates, options of
    rotation, records received so far (tools/logger.py 224-226, 300-302). *)
Inductive hkind := Console | LogFile (path : string).
(** A handler of the logger (tools/logger.py 224-226, 300-302). *)
Record handler := {
  h_kind : hkind; h_level : nat; h_format : string; h_datefmt : option string;
  h_rotation : dict string; h_received : list lrecord }.

(** A handler receives a record of sufficient level (logging.Logger.callHandlers; levels set in
    tools/logger.py 226, 302). *)
Definition receive (r : lrecord) (h : handler) : handler :=
  if Nat.leb (h_level h) (r_level r)
  then {| h_kind := h_kind h; h_level := h_level h; h_format := h_format h; h_datefmt := h_datefmt h;
          h_rotation := h_rotation h; h_received := h_received h ++ [r] |}
  else h.

(** logger.log: records below the level of the logger, DEBUG, are dropped
    (tools/logger.py 32, 80). *)
Definition emit (hs : list handler) (r : lrecord) : list handler :=
  if Nat.leb DEBUG (r_level r) then map (receive r) hs else hs.

(** log (tools/logger.py 62-80; Python before 3.8 not considered). [stack] is the call
    stack of the caller, innermost frame first. *)
Definition log_ (stack : list string) (hs : list handler) (level : nat) (msg : string) (args : list string)
  (kw : kwargs) : list handler :=
  let kw := with_stack kw (increment_stacklevel kw) in
  emit hs {| r_level := level; r_msg := msg; r_args := args;
             r_frame := find_caller ("log" :: stack) (match kw_stack kw with Some s => s | None => 1 end);
             r_extra := match kw_extra kw with Some e => e | None => [] end;
             r_exc := kw_exc kw |}.

(** debug (tools/logger.py 83-94). *)
Definition debug (stack : list string) (hs : list handler) (msg : string) (args : list string) (kw : kwargs) :=
  let kw := with_stack kw (increment_stacklevel kw) in
  log_ ("debug" :: stack) hs DEBUG msg args kw.
(** info (tools/logger.py 97-108). *)
Definition info (stack : list string) (hs : list handler) (msg : string) (args : list string) (kw : kwargs) :=
  let kw := with_stack kw (increment_stacklevel kw) in
  log_ ("info" :: stack) hs INFO msg args kw.
(** warning (tools/logger.py 111-122). *)
Definition warning (stack : list string) (hs : list handler) (msg : string) (args : list string) (kw : kwargs) :=
  let kw := with_stack kw (increment_stacklevel kw) in
  log_ ("warning" :: stack) hs WARNING msg args kw.
(** error (tools/logger.py 125-136). *)
Definition error (stack : list string) (hs : list handler) (msg : string) (args : list string) (kw : kwargs) :=
  let kw := with_stack kw (increment_stacklevel kw) in
  log_ ("error" :: stack) hs ERROR msg args kw.
(** exception, exc_info defaults to True (tools/logger.py 139-145). *)
Definition exception (stack : list string) (hs : list handler) (msg : string) (args : list string)
  (exc_info : option bool) (kw : kwargs) :=
  let kw := with_stack kw (increment_stacklevel kw) in
  error ("exception" :: stack) hs msg args
    {| kw_stack := kw_stack kw; kw_extra := kw_extra kw;
       kw_exc := match exc_info with Some b => b | None => true end |}.
(** critical (tools/logger.py 148-159). *)
Definition critical (stack : list string) (hs : list handler) (msg : string) (args : list string) (kw : kwargs) :=
  let kw := with_stack kw (increment_stacklevel kw) in
  log_ ("critical" :: stack) hs CRITICAL msg args kw.
(** result (tools/logger.py 186-193). *)
Definition result (stack : list string) (hs : list handler) (msg : string) (args : list string) (kw : kwargs) :=
  let kw := with_stack kw (increment_stacklevel kw) in
  log_ ("result" :: stack) hs RESULT msg args kw.

(** The extra dictionary of progress (tools/logger.py 173-178). *)
Definition progress_extra (value : nat) (kw : kwargs) : dict nat :=
  let extra := match kw_extra kw with None => [] | Some e => e end in
  let extra := if negb (dmem "progress_min" extra) && negb (dmem "progress_max" extra)
               then dset "progress_max" 100 (dset "progress_min" 0 extra) else extra in
  dset "progress_val" value extra.

(** progress (tools/logger.py 164-181). The second result is the dictionary the caller
    passed as extra after the call: it is modified in place. *)
Definition progress (stack : list string) (hs : list handler) (value : nat) (msg : string) (args : list string)
  (kw : kwargs) : list handler * option (dict nat) :=
  let extra := progress_extra value kw in
  let kw' := {| kw_stack := kw_stack kw; kw_extra := Some extra; kw_exc := kw_exc kw |} in
  let kw' := with_stack kw' (increment_stacklevel kw') in
  (log_ ("progress" :: stack) hs PROGRESS msg args kw',
   match kw_extra kw with None => None | Some _ => Some extra end).

(** FutureWarningHandler.__call__, registered for every warning of the process
    (tools/logger.py 39-46): category, file and line are not used. Here logger is the one of
    Python, so stacklevel counts from the handler itself. *)
Definition show_warning (stack : list string) (hs : list handler) (category message filename : string) : list handler :=
  emit hs {| r_level := WARNING; r_msg := "FutureWarning: " ++ message; r_args := [];
             r_frame := find_caller ("__call__" :: stack) 2; r_extra := []; r_exc := false |}.

(** What .git next to the sources is: missing, a file (submodule, worktree), or a directory with a HEAD
    naming a branch or a commit and the branches stored in files of their own
    (tools/logger.py 456-473). *)
Inductive ghead := HeadBranch (name : string) | HeadCommit (sha : string).
(** Forms of .git (tools/logger.py 456-457) *)
Inductive gitdir := NoGit | GitFile | GitDir (head : ghead) (loose : dict string).
(** Exceptions of open: FileNotFoundError and NotADirectoryError (tools/logger.py 461, 468). *)
Inductive openerr := FileNotFound | NotADirectory.

(** check_git_branch (tools/logger.py 439-473). *)
Definition check_git_branch (g : gitdir) : string + openerr :=
  match g with
  | NoGit => inr FileNotFound
  | GitFile => inr NotADirectory
  | GitDir h loose =>
      let name := match h with HeadBranch n => n | HeadCommit s => s end in
      match dget name loose with
      | Some commit => inl (substring 0 8 commit ++ "@" ++ name)
      | None => inr FileNotFound
      end
  end.

(** get_version (tools/logger.py 401-418). *)
Definition get_version (version : string) (g : gitdir) : string + openerr :=
  match check_git_branch g with
  | inl v => inl v
  | inr FileNotFound => inl version
  | inr NotADirectory => inr NotADirectory
  end.

(** Logger and file system as far as the functions below change them: handlers and existing directories
    (tools/logger.py 230, 289; tools/helpers.py 582-597). *)
Record lstate := { ls_handlers : list handler; ls_dirs : list string }.

(** get_basic_path, extend_basic_path (tools/helpers.py 576-597). *)
Definition mkdir (p : string) (st : lstate) : lstate :=
  if smem p (ls_dirs st) then st else {| ls_handlers := ls_handlers st; ls_dirs := ls_dirs st ++ [p] |}.
(** os.path.join for relative second parts (tools/logger.py 284, 286). *)
Definition join (a b : string) : string := a ++ "/" ++ b.
(** extend_basic_path (tools/helpers.py 576-597). *)
Definition extend_basic_path (home sub : string) (st : lstate) : string * lstate :=
  let basic := join home ".tespy" in
  (join basic sub, mkdir (join basic sub) (mkdir basic st)).

(** addHandler (tools/logger.py 229-230). *)
Definition add_handler (h : handler) (st : lstate) : lstate :=
  {| ls_handlers := ls_handlers st ++ [h]; ls_dirs := ls_dirs st |}.
(** A message of level info (tools/logger.py 234, 310, 313). *)
Definition say (stack : list string) (msg : string) (st : lstate) : lstate :=
  {| ls_handlers := info stack (ls_handlers st) msg [] no_kwargs; ls_dirs := ls_dirs st |}.
(** The message with the version, if asked for (tools/logger.py 233-234, 312-313). *)
Definition say_version (stack : list string) (version : string) (g : gitdir) (ask : bool) (st : lstate) : lstate + openerr :=
  if ask then match get_version version g with
              | inl v => inl (say stack ("Used TESPy version: " ++ v) st)
              | inr e => inr e end
  else inl st.

(** add_console_logging (tools/logger.py 196-236). *)
Definition add_console_logging (stack : list string) (version : string) (g : gitdir)
  (logformat logdatefmt : option string) (loglevel : nat) (log_the_version : bool) (st : lstate) : lstate + openerr :=
  let fmt := match logformat with Some f => f | None => "%(asctime)s-%(levelname)s-%(message)s" end in
  let st := add_handler {| h_kind := Console; h_level := loglevel; h_format := fmt; h_datefmt := logdatefmt;
                           h_rotation := []; h_received := [] |} st in
  say_version ("add_console_logging" :: stack) version g log_the_version st.

(** Dictionary update: entries of the second replace those of the first (tools/logger.py 293). *)
Definition update (d e : dict string) : dict string := fold_left (fun d kv => dset (fst kv) (snd kv) d) e d.

(** add_file_logging (tools/logger.py 239-315). Options of rotation as strings; directories above the given
    path are not followed. *)
Definition add_file_logging (stack : list string) (version : string) (g : gitdir) (home : string)
  (logpath logfile : option string) (logrotation : option (dict string)) (logformat logdatefmt : option string)
  (loglevel : nat) (log_the_version log_the_path : bool) (st : lstate) : (string * lstate) + openerr :=
  let '(basic, st) := extend_basic_path home "log_files" st in
  let dir := match logpath with Some p => p | None => basic end in
  let file := match logfile with Some f => join dir f | None => join dir "tespy.log" end in
  let st := mkdir dir st in
  let rot := [("when", "midnight"); ("backupCount", "10")] in
  let rot := match logrotation with Some r => update rot r | None => rot end in
  let fmt := match logformat with Some f => f | None => "%(asctime)s - %(levelname)s - %(module)s - %(message)s" end in
  let st := add_handler {| h_kind := LogFile file; h_level := loglevel; h_format := fmt; h_datefmt := logdatefmt;
                           h_rotation := rot; h_received := [] |} st in
  let stack := "add_file_logging" :: stack in
  let st := if log_the_path then say stack ("Path for logging: " ++ file) st else st in
  match say_version stack version g log_the_version st with
  | inl st => inl (file, st)
  | inr e => inr e
  end.

(** Arguments of define_logging; None where the default of the signature is None
    (tools/logger.py 318-323). *)
Record dlargs := {
  dl_path : option string; dl_file : option string; dl_file_format : option string; dl_screen_format : option string;
  dl_file_datefmt : option string; dl_screen_datefmt : option string; dl_screen_level : nat; dl_file_level : nat;
  dl_version : bool; dl_log_path : bool; dl_rotation : option (dict string) }.

(** The defaults of define_logging (tools/logger.py 318-323). *)
Definition dl_default : dlargs :=
  {| dl_path := None; dl_file := Some "tespy.log"; dl_file_format := None; dl_screen_format := None;
     dl_file_datefmt := None; dl_screen_datefmt := None; dl_screen_level := INFO; dl_file_level := DEBUG;
     dl_version := true; dl_log_path := true; dl_rotation := None |}.

(** define_logging (tools/logger.py 393-398). *)
Definition define_logging (stack : list string) (version : string) (g : gitdir) (home : string) (a : dlargs) (st : lstate)
  : (string * lstate) + openerr :=
  let stack := "define_logging" :: stack in
  match add_console_logging stack version g (dl_screen_format a) (dl_screen_datefmt a) (dl_screen_level a) false st with
  | inr e => inr e
  | inl st => add_file_logging stack version g home (dl_path a) (dl_file a) (dl_rotation a)
                (dl_file_format a) (dl_file_datefmt a) (dl_file_level a) (dl_version a) (dl_log_path a) st
  end.
