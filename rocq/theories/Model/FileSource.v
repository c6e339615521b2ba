(** The file source (file/__init__.py) and the parts of the source plugin's main
    function that lead to it (source.py:194-247).

    A repository directory holds one data file <uuid> per revision and one
    metadata file <uuid>.rev.  Simplifications: .rev files are keyed by the uuid in
    them; only the presence of the "duration" statistic is kept of the contents
    beside the revision itself; [shutil.copy] copies the bytes (permission bits are
    not modelled). *)
From Verif Require Export Model.Disk.

Record frepo := MkFrepo {
  f_source : option bytes;          (* the file being backed up *)
  f_data : gmap string bytes;       (* <uuid> *)
  f_revs : gmap string rev }.       (* <uuid>.rev *)

Definition set_data (u : string) (d : bytes) (s : frepo) : frepo :=
  MkFrepo (f_source s) (<[u := d]> (f_data s)) (f_revs s).
Definition set_rev (u : string) (r : rev) (s : frepo) : frepo :=
  MkFrepo (f_source s) (f_data s) (<[u := r]> (f_revs s)).
Definition with_duration (r : rev) (d : Z) : rev :=
  MkRev (r_uuid r) (r_ts r)
    (MkStats (s_bytes_written (r_stats r)) (Some d) (s_verification (r_stats r)))
    (r_tags r) (r_orig r) (r_trust r) (r_server r).

(** file/__init__.py:61-69 backup, as called by source.py:217-220 for the revision
    found by uuid.  [killed_at = Some n]: the process dies when n bytes have been
    copied. *)
Definition fs_backup (u : string) (dur : Z) (killed_at : option nat) (s : frepo)
  : frepo * res bool :=
  match f_revs s !! u with
  | None => (s, Err KeyError)
  | Some r =>
      match f_data s !! u with
      | Some _ => (s, Err AssertionError)
      | None =>
          match f_source s with
          | None => (s, Err FileNotFound)
          | Some c =>
              match killed_at with
              | Some n => (set_data u (take n c) s, Err OSError)
              | None => (set_rev u (with_duration r dur) (set_data u c s), Ok true)
              end
          end
      end
  end.

(** scheduler.py:288-296 run_backup, cli/__init__.py (backup): create the revision,
    write its metadata, run the source. *)
Definition run_backup (u : string) (ts : Z) (tags : gset string) (dur : Z)
    (killed_at : option nat) (s : frepo) : frepo * res bool :=
  let r := MkRev u ts (MkStats 0 None None) tags ∅ TRUSTED "" in
  fs_backup u dur killed_at (set_rev u r s).

(** file/__init__.py:71-72 restore: what is written to the target. *)
Definition fs_restore (u : string) (s : frepo) : res bytes :=
  match f_revs s !! u with
  | None => Err KeyError
  | Some _ => match f_data s !! u with Some d => Ok d | None => Err FileNotFound end
  end.

(** file/__init__.py:83-84 verify *)
Definition fs_verify (u : string) (s : frepo) : res unit :=
  match f_revs s !! u with
  | None => Err KeyError
  | Some _ => match f_data s !! u with Some _ => Ok tt | None => Err AssertionError end
  end.

(** file/__init__.py:74-81 gc: [files] are the names of all *.rev files,
    [expected_files] the uuids; the difference is unlinked. *)
Definition fs_gc (s : frepo) : frepo :=
  let expected := dom (f_revs s) in
  MkFrepo (f_source s) (f_data s)
    (filter (fun kv => (kv.1 ++ ".rev")%string ∈ expected) (f_revs s)).

(** revision.py:143-160 remove (local): only the metadata goes. *)
Definition fs_remove (u : string) (s : frepo) : frepo :=
  MkFrepo (f_source s) (f_data s) (delete u (f_revs s)).

(** repository.py:295-303 _clean: removes revisions without duration. *)
Definition fs_clean (s : frepo) : frepo :=
  MkFrepo (f_source s) (f_data s)
    (filter (fun kv => s_duration (r_stats kv.2) <> None \/ r_server kv.2 <> ""%string)
       (f_revs s)).

(** Everything that can happen to the repository.  [FMeta] stands for the
    operations that rewrite a revision's tags or trust (tags, distrust, expire's
    tag removal). *)
Inductive fevent :=
| FSource (c : option bytes)
| FBackup (u : string) (ts : Z) (tags : gset string) (dur : Z) (killed_at : option nat)
| FRestore (u : string)
| FVerify (u : string)
| FMeta (u : string) (tags : gset string) (trust : Trust)
| FRemove (u : string)
| FClean
| FGc.

Definition fstep (s : frepo) (e : fevent) : frepo :=
  match e with
  | FSource c => MkFrepo c (f_data s) (f_revs s)
  | FBackup u ts tags dur k => fst (run_backup u ts tags dur k s)
  | FRestore _ | FVerify _ => s
  | FMeta u tags trust =>
      MkFrepo (f_source s) (f_data s)
        (alter (fun r => MkRev (r_uuid r) (r_ts r) (r_stats r) tags (r_orig r) trust
                           (r_server r)) u (f_revs s))
  | FRemove u => fs_remove u s
  | FClean => fs_clean s
  | FGc => fs_gc s
  end.
Definition frun (s : frepo) (l : list fevent) : frepo := fold_left fstep l s.
