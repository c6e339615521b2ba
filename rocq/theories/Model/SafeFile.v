(** Atomic replacement of a file (utils.py:85-170: [SafeFile] with [open_new]).

    Modelled: [SafeFile(filename, sync)] used as a context manager with
    [open_new] (the only mode the metadata writers use: revision.py:109,
    source.py:321, report.py:58,107), with and without [use_write_protection].
    Not modelled: [open_copy] and [open_inplace] (no caller outside the tests),
    and encodings.

    A file system maps names to inodes; an inode has content and permission bits.
    [synced] says that the content has reached the disk. *)
From Verif Require Export Model.Base.

Record inode := MkInode { i_data : bytes; i_mode : Z; i_synced : bool }.
Record fsys := MkFs { fs_dir : gmap string nat; fs_ino : gmap nat inode }.

(** The system calls made. *)
Inductive sop :=
| SCreate (name : string) (ino : nat)     (* mkstemp: exclusive create, mode 0600 *)
| SAppend (ino : nat) (d : bytes)         (* write(2) of some buffered data *)
| SFsync (ino : nat)
| SChmod (name : string) (mode : Z)
| SRename (from to : string)
| SUnlink (name : string).

Definition upd_ino (i : nat) (f : inode -> inode) (s : fsys) : fsys :=
  MkFs (fs_dir s) (alter f i (fs_ino s)).

Definition sop_run (s : fsys) (o : sop) : fsys :=
  match o with
  | SCreate n i => MkFs (<[n := i]> (fs_dir s)) (<[i := MkInode [] 384 false]> (fs_ino s))
  | SAppend i d => upd_ino i (fun x => MkInode (i_data x ++ d) (i_mode x) false) s
  | SFsync i => upd_ino i (fun x => MkInode (i_data x) (i_mode x) true) s
  | SChmod n m =>
      match fs_dir s !! n with
      | Some i => upd_ino i (fun x => MkInode (i_data x) m (i_synced x)) s
      | None => s
      end
  | SRename a b =>
      match fs_dir s !! a with
      | Some i => MkFs (<[b := i]> (delete a (fs_dir s))) (fs_ino s)
      | None => s
      end
  | SUnlink n => MkFs (delete n (fs_dir s)) (fs_ino s)
  end.
Definition sops_run (s : fsys) (l : list sop) : fsys := fold_left sop_run l s.

(** [with SafeFile(filename, sync=sync) as f: [f.use_write_protection();]
    f.open_new("wb"); f.write(..)...].  [chunks] is the written data in the pieces
    in which Python's buffer hands it to the kernel, the last ones in [flush]
    (utils.py:124); [failed] says that the body raised.  utils.py:115-139
    [__exit__], 143-149 [open_new]. *)
Definition safe_write (filename tmp : string) (ino : nat) (sync wp failed : bool)
    (exists_old : bool) (chunks : list bytes) : list sop :=
  SCreate tmp ino ::
  map (SAppend ino) chunks ++
  (if sync then [SFsync ino] else []) ++
  (if wp then SChmod tmp 288 :: (if exists_old then [SChmod filename 288] else [])
   else []) ++
  (if failed then [SUnlink tmp] else [SRename tmp filename]).

(** What a reader of [name] sees. *)
Definition fs_read (s : fsys) (name : string) : option bytes :=
  match fs_dir s !! name with
  | Some i => i_data <$> fs_ino s !! i
  | None => None
  end.

(** A power failure after the calls [l]: the directory is as after some earlier
    prefix [l'] of the calls (directory changes are journalled in order), and a
    file whose content was not synced after its last write may contain anything
    ([garbage]). *)
Definition power_fail (s0 : fsys) (l : list sop) (j : nat) (garbage : nat -> bytes)
  : fsys :=
  let now := sops_run s0 l in
  let dir := fs_dir (sops_run s0 (take j l)) in
  MkFs dir (map_imap (fun i x =>
      Some (if i_synced x then x else MkInode (garbage i) (i_mode x) false)) (fs_ino now)).
