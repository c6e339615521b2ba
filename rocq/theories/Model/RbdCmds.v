(** The command lines a backup hands to the "rbd" tool (rbd/rbd.py:36-179,
    rbd/__init__.py:127-189, 401-547).  The control flow is that of Model/RbdBackup.v,
    repeated here with a record of the commands; PRbdCmds.v shows that forgetting the
    record gives back that model. *)
From Verif Require Export Model.RbdBackup.

(** An argument vector. *)
Notation cmd := (list string).

Section Cmds.
Context (RBD : string).                  (* ext_deps.py: the path of the tool *)

(** rbd.py:45-61 [_rbd]: empty arguments are dropped. *)
Definition rbd_cmd (args : list string) (json : bool) : cmd :=
  RBD :: List.filter (fun a => negb (bool_decide (a = ""))) args ++ (if json then ["--format=json"] else []).
(** rbd.py:63-69, 88-92, 117-127 *)
Definition cmd_info (spec : string) := rbd_cmd ["info"; spec] true.
Definition cmd_version := rbd_cmd ["--version"] false.
Definition cmd_map (spec : string) (readonly : bool) :=
  rbd_cmd ["map"; spec; if readonly then "--read-only" else ""] false.
Definition cmd_showmapped := rbd_cmd ["showmapped"] true.
Definition cmd_unmap (dev : string) := rbd_cmd ["unmap"; dev] false.
Definition cmd_snap_create (spec : string) := rbd_cmd ["snap"; "create"; spec] false.
Definition cmd_snap_ls (image : string) := rbd_cmd ["snap"; "ls"; image] true.
Definition cmd_snap_rm (spec : string) := rbd_cmd ["snap"; "rm"; spec] false.
(** rbd.py:130-141; [whole]: detect_whole_object_support (14-28). *)
Definition cmd_export_diff (whole : bool) (new old : string) : cmd :=
  [RBD; "export-diff"; new; "--from-snap"; old] ++ (if whole then ["--whole-object"] else []) ++ ["-"].
(** rbd.py:164-168 *)
Definition cmd_export (spec : string) : cmd := [RBD; "export"; spec; "-"].

(** What else the environment decides: with a virtual machine to ask for snapshots
    (rbd/__init__.py:423-445), how often "snap ls" is called and whether that timed out;
    which device is mapped; how many commands of [map] are run if it fails. *)
Record talk := MkTalk {
  tk_polls : option (nat * bool);
  tk_whole : bool;
  tk_dev : string;
  tk_map : nat }.

Section Source.
Context (E : env) (O : orders) (pool image : string) (K : talk).

(** rbd/__init__.py:487-488 *)
Definition image_name : string := (pool +:+ "/" +:+ image)%string.
(** 420, 495-529: the snapshot of a revision. *)
Definition snap_spec (u : string) : string := (image_name +:+ "@" +:+ snap_name u)%string.

(** A computation with a record of the commands so far. *)
Notation T := (M (rst * list cmd)).
Definition quiet {A} (m : M rst A) : T A :=
  fun s => let '(s', r) := m s.1 in ((s', s.2), r).
Definition say (l : list cmd) : T unit := modify (fun s => (s.1, s.2 ++ l)).

(** rbd/__init__.py:423-445 [create_snapshot] *)
Definition create_cmds (u : string) : list cmd :=
  match tk_polls K with
  | None => [cmd_snap_create (snap_spec u)]
  | Some (n, timeout) =>
      replicate n (cmd_snap_ls image_name) ++ (if timeout then [cmd_snap_create (snap_spec u)] else [])
  end.
(** rbd/__init__.py:493-511 [get_parent] *)
Fixpoint parent_cmds (fuel : nat) (fail : option exn) (s : rst) (r : rev) : list cmd :=
  match fuel with
  | 0 => []
  | S fuel =>
      match get_parent false (rs_hist s) r with
      | None => []
      | Some p =>
          cmd_info (snap_spec (r_uuid p)) ::
          match fail with
          | Some _ => []
          | None => if snap_exists (r_uuid p) s then [] else parent_cmds fuel fail s p
          end
      end
  end.
Definition ceph_parent_t (always_full : bool) (B : bk) (r : rev) : T (option rev) :=
  (let* s := get in
   do_ say (if always_full then [] else parent_cmds (2 + length (rs_hist s.1)) (bk_info B) s.1 r);
   quiet (ceph_parent always_full B r))%M.
(** rbd.py:71-116 [map] *)
Definition map_cmds (u : string) : list cmd :=
  [cmd_version; cmd_map (snap_spec u) true; cmd_showmapped].
(** rbd/__init__.py:145-154 and 513-547: the commands are run when the files are open;
    the device is unmapped in any case. *)
Definition backup_body_t (always_full : bool) (B : bk) (r : rev) : T bool :=
  (let* parent := ceph_parent_t always_full B r in
   do_ quiet (copy_parent (r_uuid r) parent);
   let* s := get in
   do_ match file_open (r_uuid r) false true false (rs_w s.1) with
       | Err e => raise e
       | Ok _ =>
           do_ say [match parent with
                    | Some p => cmd_export_diff (tk_whole K) (snap_spec (r_uuid r)) (snap_name (r_uuid p))
                    | None => cmd_export (snap_spec (r_uuid r))
                    end];
           quiet (with_file E (r_uuid r) true
             (match parent with Some p => diff_prog E B r p | None => full_prog E B end))
       end;
   let* s := get in
   match file_open (r_uuid r) true false false (rs_w s.1) with
   | Err e => raise e
   | Ok _ =>
       do_ quiet (upd (with_rstats (MkStats (s_bytes_written (r_stats r))
                  (s_duration (r_stats r)) (Some "partial"%string)) r));
       match bk_map B with
       | Err e => do_ say (take (tk_map K) (map_cmds (r_uuid r))); raise e
       | Ok a =>
           do_ say (map_cmds (r_uuid r));
           fun s =>
             let '(s', x) := quiet (with_file E (r_uuid r) false
                               (roughly_equal a (CS E) (bk_sample B) (bk_late B))) s in
             ((s'.1, s'.2 ++ [cmd_unmap (tk_dev K)]), x)
       end
   end)%M.
(** rbd/__init__.py:549-579 [_delete_old_snapshots] *)
Definition delete_cmds (always_full : bool) (B : bk) (s : rst) : list cmd :=
  let keep := match last (get_history false true (rs_hist s)) with
              | Some r => if always_full then None else Some (r_uuid r)
              | None => None
              end in
  cmd_snap_ls image_name ::
  match bk_ls B with
  | Some _ => []
  | None =>
      map (fun x => cmd_snap_rm (image_name +:+ "@" +:+ x.1)%string)
        (List.filter (fun x => startswith "backy-" x.1 && negb (bool_decide (Some (snap_uuid x.1) = keep)))
           (rs_snaps s))
  end.
(** rbd/__init__.py:144-154 *)
Definition backup_try_t (always_full : bool) (B : bk) (r : rev) : T bool := fun s =>
  let s := (s.1, s.2 ++ create_cmds (r_uuid r)) in
  match bk_snap B with
  | Err e => (s, Err e)
  | Ok c =>
      let s := (set_snaps (rs_snaps s.1 ++ [(snap_name (r_uuid r), c)]) s.1, s.2) in
      let '(s1, r1) := backup_body_t always_full B r s in
      let s1 := (s1.1, s1.2 ++ delete_cmds always_full B s1.1) in
      let '(s2, r2) := quiet (delete_old_snapshots always_full B) s1 in
      (s2, match r2 with Err e => Err e | Ok _ => r1 end)
  end.
(** rbd/__init__.py:144-165 *)
Definition backup_guarded_t (always_full : bool) (B : bk) (r : rev) : T bool := fun s =>
  match backup_try_t always_full B r s with
  | (s', Ok b) => (s', Ok b)
  | (s', Err e) =>
      if is_backend_exn e then
        (do_ quiet (distrust (filter (fun x => is_local x = true) (rs_hist s'.1)));
         ret false)%M s'
      else (s', Err e)
  end.
(** rbd/__init__.py:127-189 *)
Definition backup_t (always_full : bool) (B : bk) (r : rev) : T bool :=
  (do_ quiet (eff_ ETmp); do_ quiet (eff_ ETmp);
   do_ say [cmd_info image_name];
   if negb (bk_ready B) then raise RuntimeError
   else
     let* verified := backup_guarded_t always_full B r in
     do_ quiet (finish_backup B r verified);
     do_ quiet (after_backup E O);
     ret verified)%M.
End Source.
End Cmds.
