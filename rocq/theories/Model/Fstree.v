(** Directory trees and the daemon's purge of old directories (utils.py:448-475,
    daemon/__init__.py:285-307). *)
From Verif Require Export Model.Base.

(** What [stat(follow_symlinks=False)] and [scandir] see.  Times are in any unit
    of [st_mtime].  A symlink has its own time; what it points to is never
    looked at, so it is not part of the model. *)
Inductive node :=
| NFile (mtime : Z)
| NLink (mtime : Z)
| NDir (mtime : Z) (entries : list (string * node)).

Definition n_mtime (n : node) : Z :=
  match n with NFile m | NLink m | NDir m _ => m end.

(** utils.py:448-449 is_dir_no_symlink *)
Definition is_dir_no_symlink (n : node) : bool :=
  match n with NDir _ _ => true | _ => false end.

(** utils.py:452-475 has_recent_changes.  Simplification: the tree does not
    change while it is scanned. *)
Fixpoint has_recent_changes (n : node) (reference_time : Z) : bool :=
  if (reference_time <=? n_mtime n)%Z then true
  else match n with
       | NDir _ candidates =>
           if existsb (fun c => (reference_time <=? n_mtime c.2)%Z) candidates
           then true
           else existsb (fun c => has_recent_changes c.2 reference_time) candidates
       | _ => false
       end.

(** daemon/__init__.py:298: [time.time() - 3 * 31 * 24 * 60 * 60] *)
Definition purge_age : Z := (3 * 31 * 24 * 60 * 60)%Z.

(** daemon/__init__.py:285-307 purge_old_files, one scan of the base directory;
    [clock i] is [time.time()] when the i-th entry is examined.  Result: what is
    left of the base directory. *)
Fixpoint purge_scan (clock : nat -> Z) (i : nat) (base : list (string * node))
  : list (string * node) :=
  match base with
  | [] => []
  | (name, n) :: rest =>
      let rest' := purge_scan clock (Datatypes.S i) rest in
      if is_dir_no_symlink n then
        if negb (has_recent_changes n (clock i - purge_age)) then rest'
        else (name, n) :: rest'
      else (name, n) :: rest'
  end.
