(** [backy restore] from end to end: the command line client, the command line it
    builds, its interpretation by the child process, the choice of the backend and the
    restore itself (cli/__init__.py:266-274; source.py:122-244, 349-371;
    rbd/__init__.py:40-76, 267-352). *)
From Coq.Strings Require Import Ascii.
From Verif Require Export Model.Restore Model.Exit.
From Verif Require Import Model.RbdBackup.

(** rbd/__init__.py:40-47 RestoreBackend *)
Inductive backend := Auto | Python | Rust.
Definition backend_value (b : backend) : string :=
  match b with Auto => "auto" | Python => "python" | Rust => "rust" end.
(** [type=RestoreBackend]: the value is looked up, another one is a usage error. *)
Definition backend_of (s : string) : option backend :=
  if decide (s = "auto") then Some Auto
  else if decide (s = "python") then Some Python
  else if decide (s = "rust") then Some Rust else None.
(** rbd/__init__.py:50-58 RBDRestoreArgs and to_cmdargs *)
Definition to_cmdargs (b : backend) (target : string) : list string :=
  ["--backend"; backend_value b; target]%string.

(** ** argparse
    How the parser of [restore] (source.py:166-174, rbd/__init__.py:60-76: options -h, --help
    and --backend, positionals revision and TARGET) takes the last word of the command
    line.  This follows _parse_optional, _get_option_tuples and consume_optional of
    CPython's argparse (not part of /repo).  [bundle x]: "-h" followed by [x] counts as several
    one-letter options; versions differ (3.10: all letters are "h"; later ones ignore
    unknown letters), so it is a parameter.  Numbers: ASCII digits only. *)
Inductive token := Positional | AskHelp | UsageError.
Fixpoint before_eq (s : string) : string :=
  match s with
  | EmptyString => ""
  | String c r => if Ascii.eqb c "=" then "" else String c (before_eq r)
  end%string.
Fixpoint after_eq (s : string) : option string :=
  match s with
  | EmptyString => None
  | String c r => if Ascii.eqb c "=" then Some r else after_eq r
  end.
Fixpoint has_char (x : ascii) (s : string) : bool :=
  match s with
  | EmptyString => false
  | String c r => Ascii.eqb c x || has_char x r
  end.
Definition is_digit (c : ascii) : bool :=
  let n := nat_of_ascii c in (48 <=? n)%nat && (n <=? 57)%nat.
Fixpoint digits (s : string) : bool :=
  match s with EmptyString => true | String c r => is_digit c && digits r end.
(** _negative_number_matcher: ^-\d+$|^-\d*\.\d+$ (after the minus) *)
Fixpoint fraction (s : string) : bool :=
  match s with
  | EmptyString => false
  | String c r =>
      if Ascii.eqb c "." then negb (String.eqb r "") && digits r
      else is_digit c && fraction r
  end.
Definition number (s : string) : bool := (negb (String.eqb s "") && digits s) || fraction s.
(** It is no option of the parser. *)
Definition no_option (t r : string) : token :=
  if number r || has_char " " t then Positional else UsageError.

Section Argparse.
Context (bundle : string -> bool).
Definition bundled (x : string) : token :=
  if negb (String.eqb x "") && bundle x then AskHelp else UsageError.
Definition classify (t : string) : token :=
  match t with
  | EmptyString => Positional
  | String c r =>
      if negb (Ascii.eqb c "-") then Positional
      else if decide (r = "") then Positional                     (* - *)
      else if decide (t = "--") then UsageError                   (* dropped; TARGET is missing *)
      else if decide (t = "-h" \/ t = "--help") then AskHelp
      else if decide (t = "--backend") then UsageError            (* without its argument *)
      else match after_eq t with
        | Some x =>
            if decide (before_eq t = "-h") then bundled x
            else if decide (before_eq t = "--help" \/ before_eq t = "--backend") then UsageError
            else match r with
              | String d _ =>
                  if Ascii.eqb d "-" then
                    if startswith (before_eq t) "--help" || startswith (before_eq t) "--backend"
                    then UsageError else no_option t r
                  else if Ascii.eqb d "h" then match r with String _ y => bundled y | _ => UsageError end
                  else no_option t r
              | EmptyString => no_option t r
              end
        | None =>
            match r with
            | String d y =>
                if Ascii.eqb d "-" then
                  if startswith t "--help" then AskHelp           (* --h, --he, --hel *)
                  else if startswith t "--backend" then UsageError
                  else no_option t r
                else if Ascii.eqb d "h" then bundled y
                else no_option t r
            | EmptyString => no_option t r
            end
        end
  end%string.

(** source.py:188-190, 349-357: the child's arguments are "-t", taskid, "-C", path, "restore",
    uuid and [to_cmdargs].  The task id and the absolute path do not start with "-", nor
    does the uuid, so that only the last word is open. *)
Inductive parsed := ToRestore (uuid : string) (b : backend) (target : string) | HelpShown | Rejected.
Definition parse_restore (uuid : string) (cmdargs : list string) : parsed :=
  match cmdargs with
  | [o; b; t] =>
      if decide (o = "--backend")%string then
        match backend_of b, classify t with
        | Some b, Positional => ToRestore uuid b t
        | Some _, AskHelp => HelpShown
        | _, _ => Rejected
        end
      else Rejected
  | _ => Rejected
  end.
End Argparse.

(** ** The child *)
(** What a restore can change: files by name, and what was written to stdout.
    Creating, writing and truncating files is assumed to work for names that can be
    opened. *)
Record target_side := MkTarget { t_files : gmap string bytes; t_out : bytes }.
(** The outside world.  [x_version]: output of [backy-extract --version], None if that
    fails; [x_extract]: the return code of backy-extract ([Popen.wait]) and what it leaves; [x_openable]: the
    name can be opened for writing; [x_truncate]: it can be truncated (a regular file); [x_junk]:
    what a restore that failed leaves behind; [x_lock]: the shared lock on .purge is granted. *)
Record outside := MkOutside {
  x_version : option string;
  x_extract : string -> string -> target_side -> Z * target_side;
  x_openable : string -> bool;
  x_truncate : string -> bool;
  x_junk : bytes;
  x_lock : bool }.

Section Child.
Context (E : env) (X : outside) (n : Z).

(** rbd/__init__.py:289-307 backy_extract_supported; [n] is CHUNK_SIZE *)
Definition extract_supported (size : Z) : bool :=
  if negb (size mod n =? 0)%Z then false
  else match x_version X with Some v => startswith "backy-extract" v | None => false end.
(** rbd/__init__.py:310-325 restore_backy_extract *)
Definition restore_rust (u target : string) (s : target_side) : target_side * res unit :=
  let '(e, s') := x_extract X u target s in
  (s', if (e =? 0)%Z then Ok tt else Err RuntimeError).
(** rbd/__init__.py:276-282, 327-352: the Python backend *)
Definition restore_python (size : Z) (u target : string) (w : world) (s : target_side)
  : target_side * res unit :=
  if negb (x_lock X) then (s, Err BlockingIOError)
  else if decide (target = "-")%string then
    match (restore_stdout E n (Z.to_nat size) u w).2 with
    | Ok b => (MkTarget (t_files s) (t_out s ++ b), Ok tt)
    | Err e => (MkTarget (t_files s) (t_out s ++ x_junk X), Err e)
    end
  else if negb (x_openable X target) then (s, Err OSError)
  else match (restore_file E n (x_truncate X target) u (t_files s !! target) w).2 with
    | Ok (b, _) => (MkTarget (<[target := b]> (t_files s)) (t_out s), Ok tt)
    | Err e => (MkTarget (<[target := x_junk X]> (t_files s)) (t_out s), Err e)
    end.
(** rbd/__init__.py:267-284 restore *)
Definition restore_source (u : string) (b : backend) (target : string) (w : world) (s : target_side)
  : target_side * res unit :=
  match file_open u true false false w with
  | Err e => (s, Err e)
  | Ok f =>
      let b' := match b with
                | Auto => if extract_supported (f_size f) then Rust else Python
                | b => b
                end in
      match b' with
      | Rust => restore_rust u target s
      | _ => restore_python (f_size f) u target w s
      end
  end.
(** source.py:194-244 Source.main for "restore": usage errors end the process with 2, -h
    with 0 after printing the help text; [known]: the uuids of the repository
    (find_by_uuid raises IndexError for others). *)
Definition child_restore (bundle : string -> bool) (known : gset string) (u : string) (cmdargs : list string)
    (w : world) (s : target_side) : target_side * ended :=
  match parse_restore bundle u cmdargs with
  | Rejected => (s, Exited 2)
  | HelpShown => (MkTarget (t_files s) (t_out s ++ x_junk X), Exited 0)
  | ToRestore u b target =>
      if decide (u ∈ known) then
        let '(s', r) := restore_source u b target w s in (s', Exited (main_other r))
      else (s, Exited 1)
  end.
(** cli/__init__.py:266-274 and source.py:349-371: look the revision up, start the child; its
    code is the client's exit code.  [find]: the result of [repository.find], a revision
    that is known or an exception. *)
Definition restore_cmd (bundle : string -> bool) (known : gset string) (found : res string) (b : backend)
    (target : string) (w : world) (s : target_side) : target_side * Z :=
  match found with
  | Err e => (s, exit_status (command1 (Err e)))
  | Ok u =>
      let '(s', p) := child_restore bundle known u (to_cmdargs b target) w s in
      (s', exit_status (command1 (Ok (Some (returncode p)))))
  end.
End Child.
