(** Exit codes of the command line client and of the processes it starts
    (cli/__init__.py:89-125, 231-322; source.py:194-244, 349-377). *)
From Verif Require Export Model.Life Model.Cli.
From Verif Require Import Model.RbdBackup.

(** How a child process ended; [subprocess.run(..).returncode] is negative for one
    that was killed by a signal (source.py:359-363). *)
Inductive ended := Exited (code : Z) | Signalled (n : Z).
Definition returncode (p : ended) : Z :=
  match p with Exited c => c | Signalled n => (- n)%Z end.
(** source.py:215-244 Source.main: "backup" turns its result into a code
    ([main_backup]); "restore", "verify" and "gc" only fail with an exception. *)
Definition main_other {A} (x : res A) : Z := match x with Ok _ => 0%Z | Err _ => 1%Z end.

(** cli/__init__.py:89-125 [__call__] for functions without a [repo] parameter:
    something that is no int counts as 0, any exception as 1. *)
Definition command1 (x : res (option Z)) : Z :=
  match x with Ok c => default 0%Z c | Err _ => 1%Z end.
(** cli/__init__.py:758: [sys.exit(n)]; the system keeps the low byte. *)
Definition exit_status (n : Z) : Z := (n mod 256)%Z.

(** cli/__init__.py:249-264 backup in the foreground.  [clean1], [valid], [clean2]: the outcomes of
    the two clean-ups and of the tag validation (Ok with --force); [child]: an
    error if the child could not be started. *)
Definition backup_fg (own : bool) (clean1 valid : res unit) (child : res ended) (clean2 : res unit)
  : res (option Z) :=
  if negb own then Err AssertionError
  else res_bind clean1 (fun _ => res_bind valid (fun _ =>
       match clean2 with                                 (* finally *)
       | Err e => Err e
       | Ok _ => res_bind child (fun p => Ok (Some (returncode p)))
       end)).
(** cli/__init__.py:237-248 backup with --bg: the answers of the daemon. *)
Fixpoint backup_bg (answers : list (res unit)) : res (option Z) :=
  match answers with
  | [] => Ok (Some 0%Z)
  | Ok _ :: l => backup_bg l
  | Err (ClientResponseError n) :: _ =>
      if bool_decide (n = 404%Z) then Ok (Some 1%Z) else Err (ClientResponseError n)
  | Err e :: _ => Err e
  end.
(** cli/__init__.py:266-274 restore: [found] is the revision. *)
Definition restore_cli (found : res rev) (child : rev -> res ended) : res (option Z) :=
  res_bind found (fun r => res_bind (child r) (fun p => Ok (Some (returncode p)))).
(** cli/__init__.py:279-284 verify *)
Fixpoint verify_each (ret : Z) (child : rev -> res ended) (l : list rev) : res Z :=
  match l with
  | [] => Ok ret
  | r :: l => res_bind (child r) (fun p => verify_each (Z.max ret (returncode p)) child l)
  end.
Definition verify_cli (found : res (list rev)) (child : rev -> res ended) : res (option Z) :=
  res_bind found (fun l => res_bind (verify_each 0 child l) (fun c => Ok (Some c))).
(** cli/__init__.py:289-312 tags *)
Definition tags_cli (x : res bool) : res (option Z) :=
  res_bind x (fun ok => Ok (Some (if (ok : bool) then 0 else 1)%Z)).
(** cli/__init__.py:314-323 gc: the code of the child is dropped. *)
Definition gc_cli (expire local own : bool) (expired : res unit) (child : res ended) : res (option Z) :=
  if expire && negb local then Err AssertionError
  else if negb own then Err AssertionError
  else res_bind (if expire then expired else Ok tt) (fun _ =>
       res_bind child (fun _ => Ok None)).
