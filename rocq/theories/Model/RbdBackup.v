(** rbd/__init__.py: RBDSource and CephRBD. *)
From Verif Require Export Model.RbdDiff Model.Revs.

(** What the outside world does during one backup. *)
Record bk := MkBk {
  bk_ready : bool;              (* ready(): the volume exists (401-412) *)
  bk_snap : res bytes;          (* create_snapshot: content of the snapshot, or an error *)
  bk_info : option exn;         (* "rbd info" on a snapshot fails (rbd.py:66-69) *)
  bk_diff : bytes;              (* what "rbd export-diff" writes before it ends *)
  bk_full : bytes;              (* what "rbd export" writes before it ends *)
  bk_map : res bytes;           (* the mapped snapshot device, or an error (rbd.py:153-161) *)
  bk_sample : list Z;           (* random.sample (utils.py:398) *)
  bk_late : nat -> bool;        (* the time limit is over at the n-th block (utils.py:415) *)
  bk_duration : Z;              (* time.time() - start *)
  bk_ls : option exn;           (* "rbd snap ls" fails *)
  bk_rm_fail : string -> bool   (* "rbd snap rm" fails for this snapshot *)
}.

(** [str.startswith], [str.replace(p, "")] for a non-empty p. *)
Definition startswith (p s : string) : bool := String.prefix p s.
Fixpoint remove_all (fuel : nat) (p s : string) : string :=
  match fuel with
  | O => s
  | S fuel =>
      if String.prefix p s
      then remove_all fuel p (String.substring (String.length p) (String.length s) s)
      else match s with
           | EmptyString => EmptyString
           | String c s => String c (remove_all fuel p s)
           end
  end.
Definition snap_uuid (name : string) : string :=
  remove_all (S (String.length name)) "backy-" name.
Definition snap_name (u : string) : string := String.append "backy-" u.
Definition bytes_of (s : string) : bytes := String.list_byte_of_string s.

(** Reading the mapped device, an ordinary file with content [a]. *)
Definition dev_read (a : bytes) (pos n : Z) : bytes := ztake n (zdrop pos a).

Section Source.
Context (E : env) (O : orders).

(** utils.py:386-432 [files_are_roughly_equal]: [a] is the content of the
    device, the program runs on the chunked file.  [sample] is the result of
    random.sample, [late i] says whether the i-th look at the clock is past the
    limit.  The report goes to the quarantine directory (not modelled here). *)
Fixpoint roughly_loop (a : bytes) (blocksize : Z) (sample : list Z)
    (late : nat -> bool) (i : nat) : prog bool :=
  match sample with
  | [] => PRet true
  | block :: sample =>
      if late i then PRet true
      else
        (do^ do_op (OSeek (block * blocksize) FromStart);
         let chunk_a := dev_read a (block * blocksize) blocksize in
         let^ chunk_b := p_read blocksize in
         if bool_decide (chunk_a <> chunk_b) then PRet false
         else roughly_loop a blocksize sample late (S i))%P
  end.
Definition roughly_equal (a : bytes) (blocksize : Z) (sample : list Z)
    (late : nat -> bool) : prog bool :=
  roughly_loop a blocksize sample late 0.
(** The samples random.sample can return (utils.py:395-398): distinct blocks
    out of range(0, max(size // blocksize, 1)), at least one. *)
Definition sample_ok (a : bytes) (blocksize : Z) (sample : list Z) : Prop :=
  NoDup sample /\ sample <> [] /\
  Forall (fun b => (0 <= b < Z.max (zlen a / blocksize) 1)%Z) sample.

(** rbd/__init__.py:105-125 [open] for reading. *)
Definition open_map (r : rev) : M rst (gmap Z Hash) :=
  fun s => match file_open (r_uuid r) true false false (rs_w s) with
           | Ok f => (s, Ok (f_map f))
           | Err e => (s, Err e)
           end.
(** [with self.open(revision, ..) as file: p].  A file opened for writing
    switches the store to force_writes if the history contains a distrusted
    revision (120-123).  [__exit__] closes in any case (file.py:256-257). *)
Definition with_file {A} (u : string) (wr : bool) (p : prog A) : M rst A := fun s =>
  match file_open u (negb wr) wr false (rs_w s) with
  | Err e => (s, Err e)
  | Ok _ =>
      let w := if wr && contains_distrusted (rs_hist s)
               then set_force true (rs_w s) else rs_w s in
      let '(w2, r) := session E u (negb wr) wr p w in (set_w w2 s, r)
  end.
(** rbd/__init__.py:111-117: the parent's map is copied if the new revision has
    none yet.  The new file is created (empty) before the parent's is opened. *)
Definition copy_parent (u : string) (parent : option rev) : M rst unit :=
  match parent with
  | None => ret tt
  | Some p => fun s =>
      if bool_decide (d_maps (w_disk (rs_w s)) !! u = None) then
        (do_ eff_ (EMapPut u MapGarbage);
         let* s := get in
         match d_maps (w_disk (rs_w s)) !! r_uuid p with
         | None => raise FileNotFound
         | Some m => eff_ (EMapPut u m)
         end)%M s
      else (s, Ok tt)
  end.

(** rbd/__init__.py:493-511 CephRBD.get_parent; rbd.exists is a look at the
    snapshots (rbd.py:63-69).  Fuel: each round moves to an older revision. *)
Definition snap_exists (u : string) (s : rst) : bool :=
  bool_decide (snap_name u ∈ map fst (rs_snaps s)).
Fixpoint ceph_parent_loop (fuel : nat) (fail : option exn) (s : rst) (r : rev)
  : res (option rev) :=
  match fuel with
  | 0 => Err OutOfFuel
  | S fuel =>
      match get_parent false (rs_hist s) r with
      | None => Ok None
      | Some p =>
          match fail with
          | Some e => Err e
          | None =>
              if snap_exists (r_uuid p) s then Ok (Some p)
              else ceph_parent_loop fuel fail s p
          end
      end
  end.
Definition ceph_parent (always_full : bool) (B : bk) (r : rev) : M rst (option rev) :=
  fun s => if always_full then (s, Ok None)
           else (s, ceph_parent_loop (2 + length (rs_hist s)) (bk_info B) s r).

(** rbd/__init__.py:513-520 [diff]. *)
Definition diff_prog (B : bk) (r p : rev) : prog unit :=
  (do^ integrate (CS E) (bytes_of (snap_name (r_uuid p)))
         (bytes_of (snap_name (r_uuid r))) (bk_diff B);
   PRet tt)%P.
(** rbd/__init__.py:522-529 [full]. *)
Fixpoint full_loop (fuel : nat) (s : bytes) : prog unit :=
  match s with
  | [] => PRet tt
  | _ =>
      match fuel with
      | 0 => PRaise OutOfFuel
      | S fuel =>
          (do^ do_op (OWrite (ztake (CS E) s)); full_loop fuel (zdrop (CS E) s))%P
      end
  end.
Definition full_prog (B : bk) : prog unit := full_loop (length (bk_full B)) (bk_full B).

(** rbd/__init__.py:549-579 [_delete_old_snapshots]. *)
Definition delete_old_snapshots (always_full : bool) (B : bk) : M rst unit := fun s =>
  let keep := match last (get_history false true (rs_hist s)) with
              | Some r => if always_full then None else Some (r_uuid r)
              | None => None
              end in
  match bk_ls B with
  | Some e => (s, Err e)
  | None =>
      (set_snaps (filter (fun '(n, _) =>
          negb (startswith "backy-" n)
          || bool_decide (Some (snap_uuid n) = keep)
          || bk_rm_fail B n = true) (rs_snaps s)) s, Ok tt)
  end.

(** The body of the [with self.ceph_rbd(revision)] block
    (rbd/__init__.py:145-154), including CephRBD.verify (531-547). *)
Definition backup_body (always_full : bool) (B : bk) (r : rev) : M rst bool :=
  (let* parent := ceph_parent always_full B r in
   do_ copy_parent (r_uuid r) parent;
   do_ with_file (r_uuid r) true
         (match parent with Some p => diff_prog B r p | None => full_prog B end);
   let* s := get in
   match file_open (r_uuid r) true false false (rs_w s) with
   | Err e => raise e
   | Ok _ =>
       do_ upd (with_rstats (MkStats (s_bytes_written (r_stats r))
                  (s_duration (r_stats r)) (Some "partial"%string)) r);
       let* a := lift (bk_map B) in
       with_file (r_uuid r) false
         (roughly_equal a (CS E) (bk_sample B) (bk_late B))
   end)%M.

(** 144-154: entering creates the snapshot, leaving deletes old ones in any
    case. *)
Definition backup_try (always_full : bool) (B : bk) (r : rev) : M rst bool := fun s =>
  match bk_snap B with
  | Err e => (s, Err e)
  | Ok c =>
      let s := set_snaps (rs_snaps s ++ [(snap_name (r_uuid r), c)]) s in
      let '(s1, r1) := backup_body always_full B r s in
      let '(s2, r2) := delete_old_snapshots always_full B s1 in
      (s2, match r2 with Err e => Err e | Ok _ => r1 end)
  end.

(** The chunks named by a map. *)
Definition map_hashes (m : gmap Z Hash) : gset Hash :=
  list_to_set (map snd (map_to_list m)).
Fixpoint union_maps (revs : list rev) : M rst (gset Hash) :=
  match revs with
  | [] => ret ∅
  | r :: revs =>
      (let* m := open_map r in
       let* u := union_maps revs in
       ret (map_hashes m ∪ u))%M
  end.

(** rbd/__init__.py:255-265 [gc] (without the lock). *)
Definition gc : M rst unit :=
  (let* s := get in
   let* used := union_maps (get_history false true (rs_hist s)) in
   do_ modify (fun s => set_w (store_purge used (rs_w s)) s);
   eff_ ETmp)%M.                              (* clear_purge_pending *)

(** rbd/__init__.py:215-233: the first unreadable chunk is unlinked and ends
    the loop.  [Store.seen] is not updated. *)
Fixpoint verify_loop (l : list Hash) : M rst bool :=
  match l with
  | [] => ret false
  | h :: l => fun s =>
      match read_existing E (new_chunk (Some h)) (rs_w s) with
      | Ok _ => verify_loop l s
      | Err _ =>
          (do_ (if bool_decide (d_chunks (w_disk (rs_w s)) !! h = None)
                then ret tt else eff_ (EChunkDel h));
           ret true)%M s
      end
  end.
(** rbd/__init__.py:191-253 [verify] (without the lock). *)
Definition verify (r : rev) : M rst unit :=
  (let* s := get in
   let* verified := union_maps
     (filter (fun x => r_trust x = VERIFIED) (get_history true true (rs_hist s))) in
   let* m := open_map r in
   let hashes := map_hashes m ∖ verified in
   let* errors := verify_loop (o_set O hashes) in
   do_ (if (errors : bool) then rev_remove false r
        else
          do_ massert (is_local r) AssertionError;
          let r' := with_trust VERIFIED r in
          do_ upd r'; write_info r');
   gc)%M.

(** rbd/__init__.py:144-165: the try statement. *)
Definition backup_guarded (always_full : bool) (B : bk) (r : rev) : M rst bool := fun s =>
  match backup_try always_full B r s with
  | (s', Ok b) => (s', Ok b)
  | (s', Err e) =>
      if is_backend_exn e then
        (* find_revisions("local"): repository.py:445-446, 432-434 *)
        (do_ distrust (filter (fun x => is_local x = true) (rs_hist s'));
         ret false)%M s'
      else (s', Err e)
  end.
(** rbd/__init__.py:166-174: the outcome is recorded. *)
Definition finish_backup (B : bk) (r : rev) (verified : bool) : M rst unit :=
  (if verified then
     let r' := with_rstats (MkStats (s_bytes_written (r_stats r))
                 (Some (bk_duration B)) (Some "partial"%string)) r in
     do_ upd r'; do_ write_info r'; chmod_info
   else rev_remove false r)%M.
(** rbd/__init__.py:175-188: sync; then verify one distrusted revision. *)
Definition after_backup : M rst unit :=
  (do_ eff_ ESync;
   do_ scan O;
   let* s := get in
   match list_find (fun x => r_trust x = DISTRUSTED)
           (reverse (get_history true true (rs_hist s))) with
   | Some (_, x) => verify x
   | None => ret tt
   end)%M.
(** rbd/__init__.py:130-189 [backup] (without the locks).  The unlinked "last"
    links are not part of the modelled disk. *)
Definition backup (always_full : bool) (B : bk) (r : rev) : M rst bool :=
  (do_ eff_ ETmp; do_ eff_ ETmp;
   if negb (bk_ready B) then raise RuntimeError
   else
     let* verified := backup_guarded always_full B r in
     do_ finish_backup B r verified;
     do_ after_backup;
     ret verified)%M.

(** source.py:194-244 Source.main for "backup": the exit code. *)
Definition main_backup (x : res bool) : Z :=
  match x with Ok true => 0 | _ => 1 end.
End Source.
