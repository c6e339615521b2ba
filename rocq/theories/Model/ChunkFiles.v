(** The files of the chunk store (rbd/chunked/store.py:54-72, rbd/chunked/chunk.py:108-141).
    Everywhere else the store is a map from hashes to contents (Model/Disk.v); here are the
    directories and file names below it, and the operations one by one.

    Simplifications: a file is its bytes (compressed chunk data); permissions and
    posix_fadvise are left out; the 256 directories exist (store.py:32-34). *)
From Coq.Strings Require Import Ascii.
From Verif Require Export Model.Cli.

(** Files of the store by directory and name. *)
Notation cfiles := (gmap (string * string) bytes).

(** [hash[:2]] *)
Definition first2 (h : string) : string := unchars (take 2 (chars h)).
(** store.py:69-72 chunk_path; ".chunk.lzo" is a valid suffix, so with_suffix does not
    raise. *)
Definition chunk_path (h : string) : string * string :=
  (first2 h, match with_suffix h ".chunk.lzo" with Ok n => n | Err _ => h end).
(** store.py:54-57 ls, in directory order. *)
Definition store_ls (s : cfiles) : list string :=
  omap (fun kv => strip_suffix ".chunk.lzo" kv.1.2) (map_to_list s).

(** One operation on the file system. *)
Inductive cop :=
| FNew (d n : string)                (* mkstemp: an empty file *)
| FPut (d n : string) (b : bytes)    (* what has been written so far *)
| FMove (d n d' n' : string)         (* rename *)
| FDel (d n : string).               (* unlink(missing_ok=True) *)
Definition cop_run (s : cfiles) (o : cop) : cfiles :=
  match o with
  | FNew d n => <[(d, n) := []]> s
  | FPut d n b => <[(d, n) := b]> s
  | FMove d n d' n' =>
      match s !! (d, n) with
      | Some b => <[(d', n') := b]> (delete (d, n) s)
      | None => s
      end
  | FDel d n => delete (d, n) s
  end.
Definition cops_run (s : cfiles) (l : list cop) : cfiles := fold_left cop_run l s.

(** What a process does to the store.  [killed]: after so many operations the process is
    killed; [None]: it was not. *)
Inductive sact :=
| AFlush (seen force : bool) (h : string) (data : bytes) (tmp : string) (killed : option nat)
| APurge (used : gset string) (order : list string) (killed : option nat).

(** chunk.py:108-137 flush of a changed chunk with hash [h] and (compressed) [data]: [seen], [force]
    are store.seen and store.force_writes; [tmp] is the name mkstemp chose, in the
    directory of the target.  The data is written in pieces of any size: all
    prefixes may be seen by whoever looks after a crash. *)
Definition flush_ops (s : cfiles) (seen force : bool) (h : string) (data : bytes) (tmp : string) : list cop :=
  let '(d, n) := chunk_path h in
  if seen then []
  else if force || negb (bool_decide (is_Some (s !! (d, n)))) then
    FNew d tmp :: map (fun k => FPut d tmp (take k data)) (seq 0 (Datatypes.S (length data)))
      ++ [FMove d tmp d n]
  else [].
(** store.py:59-67 purge: [order] is what [ls] yields, one after the other. *)
Definition purge_ops (used : gset string) (order : list string) : list cop :=
  map (fun h => FDel (chunk_path h).1 (chunk_path h).2) (filter (fun h => h ∉ used) order).
Definition cut {A} (killed : option nat) (l : list A) : list A :=
  match killed with Some k => take k l | None => l end.
Definition sact_ops (s : cfiles) (a : sact) : list cop :=
  match a with
  | AFlush seen force h data tmp killed => cut killed (flush_ops s seen force h data tmp)
  | APurge used order killed => cut killed (purge_ops used order)
  end.
Definition sact_run (s : cfiles) (a : sact) : cfiles := cops_run s (sact_ops s a).
Definition store_run (l : list sact) : cfiles := fold_left sact_run l ∅.
