(** Where the metadata of a revision is written: revision.py:97-112, and what a pull
    writes: daemon/scheduler.py:478-490, daemon/api.py:365-377.

    Simplifications: as in Model/JobDirs.v (no symbolic links); of the file system
    there are only the metadata files, by their place; a directory that is missing
    on the way is not noticed (the write would fail). *)
From Verif Require Export Model.JobDirs Model.Sync.

(** [path / uuid] and then [with_suffix(suffix + ".rev")]: the last component gets
    ".rev"; pathlib refuses if there is no last component.  An empty uuid is
    replaced by a new one (revision.py:53, [fresh]). *)
Definition info_place (repo : list string) (fresh uuid : string) : res (list string) :=
  let u := if bool_decide (uuid = "") then fresh else uuid in
  let from := if is_abs u then [] else repo in
  match List.rev (parts_of u) with
  | w :: up => Ok (walk from (List.rev up) ++ [w +:+ ".rev"])
  | [] =>
      match List.rev from with
      | w :: up => Ok (List.rev up ++ [w +:+ ".rev"])
      | [] => Err ValueError
      end
  end.

(** All metadata files below the base directory. *)
Notation revfiles := (gmap (list string) rev).
(** scheduler.py:478-490: each revision of the reply that is new or has changed is
    written ([write_info]); [skip]: the ones that are known and unchanged. *)
Fixpoint pull_store (repo : list string) (fresh : nat -> string) (skip : rev -> bool) (l : list rev)
    (i : nat) (fs : revfiles) : revfiles * res unit :=
  match l with
  | [] => (fs, Ok tt)
  | r :: l =>
      if skip r then pull_store repo fresh skip l (Datatypes.S i) fs
      else match info_place repo (fresh i) (r_uuid r) with
           | Ok p => pull_store repo fresh skip l (Datatypes.S i) (<[p := r]> fs)
           | Err e => (fs, Err e)
           end
  end.
(** The reply of the peer [server] arrives (api.py:365-377). *)
Definition pull_reply (server : string) (repo : list string) (fresh : nat -> string) (skip : rev -> bool)
    (l : list rev) (fs : revfiles) : revfiles * res unit :=
  pull_store repo fresh skip (map (mark server) l) 0 fs.
