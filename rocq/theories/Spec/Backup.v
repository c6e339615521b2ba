(** Specification vocabulary for repositories: what it means that a revision is
    complete and can be restored. *)
From Verif Require Export Spec.Image Spec.RbdDiff Model.Revs.

Section B.
Context (E : env).

(** The chunk map of [u] is on disk and every chunk it names is there, can be
    decompressed and has the right hash. *)
Definition readable (d : disk) (u : string) : Prop :=
  exists m size, d_maps d !! u = Some (MapJson m size) /\
    forall id h, m !! id = Some h -> is_Some (chunk_content E d h).

(** The metadata says the backup finished ("duration" is set last). *)
Definition complete (d : disk) (u : string) : Prop :=
  exists rv, d_revs d !! u = Some rv /\ is_clean rv = true.

(** Metadata files are named after the uuid they contain. *)
Definition rev_files_ok (d : disk) : Prop :=
  forall n rv, d_revs d !! n = Some rv -> r_uuid rv = n.

(** Directory and set enumeration: any order, each element once. *)
Definition orders_ok (O : orders) : Prop :=
  (forall m, o_revs O m ≡ₚ map_to_list m) /\
  (forall X, o_set O X ≡ₚ elements X).

(** The disks that a process killed between [s] and [s'] leaves. *)
Definition killed (s s' : rst) (d : disk) : Prop := crash_disk (rs_w s) (rs_w s') d.

(** A process has just scanned the repository. *)
Definition scanned (O : orders) (s : rst) : Prop :=
  rs_hist s = scan_disk O (w_disk (rs_w s)).
End B.

Section B2.
Context (E : env).

(** A backup of the freshly created local revision [r] starts: the store is in
    order, the history has just been read, [r] has metadata but no data yet, and
    the other local revisions that nobody distrusts are intact. *)
Record repo_ok (O : orders) (r : rev) (s : rst) : Prop := {
  ro_good : good_store E (w_disk (rs_w s));
  ro_seen : seen_ok (rs_w s);
  ro_files : rev_files_ok (w_disk (rs_w s));
  ro_scanned : scanned O s;
  ro_new : d_revs (w_disk (rs_w s)) !! r_uuid r = Some r;
  ro_local : r_server r = "";
  ro_trust : r_trust r <> DISTRUSTED;
  ro_unfinished : s_duration (r_stats r) = None;
  ro_nomap : d_maps (w_disk (rs_w s)) !! r_uuid r = None;
  ro_others : forall p, p ∈ rs_hist s -> r_uuid p <> r_uuid r ->
    r_server p = "" -> r_trust p <> DISTRUSTED ->
    exists a, image_is E (w_disk (rs_w s)) (r_uuid p) a /\
      map_complete (w_disk (rs_w s)) (r_uuid p) }.

(** What "rbd export-diff --from-snap [from] [to]" writes, up to the point where
    it may be cut off: a stream describing how to get from [a] to [b]. *)
Definition diff_stream (from to a b stream : bytes) : Prop :=
  exists ms ds k, stream = take k (enc_diff ms ds) /\
    Forall meta_ok ms /\ Forall (names_ok from to) ms /\ Forall data_ok ds /\
    (forall n, MSize n ∈ ms -> n = zlen b) /\
    (MSize (zlen b) ∈ ms \/ zlen a = zlen b) /\
    describes ds a b.

(** Disks after a power loss during the run from [s] to [s']: the machine stops
    after some effects; what was done before the last sync is durable, of the
    rest an arbitrary part is lost.  (Metadata files are written, synced and
    renamed one by one, so each effect is lost or kept as a whole.) *)
Definition power_loss (s s' : rst) (pre : list eff) (d : disk) : Prop :=
  exists l k rest kept, w_log (rs_w s') = w_log (rs_w s) ++ l /\
    take k l = pre ++ rest /\
    (pre = [] \/ last pre = Some ESync) /\ ESync ∉ rest /\
    kept `sublist_of` rest /\ d = replay (pre ++ kept) (w_disk (rs_w s)).
End B2.

Section B3.
Context (E : env).
(** The map of [u] is on disk, and every chunk it names is there, matches its
    name and fits a chunk.  (Other chunks of the store do not matter.) *)
Definition intact (d : disk) (u : string) : Prop :=
  exists m size, d_maps d !! u = Some (MapJson m size) /\
    forall id h, m !! id = Some h ->
      exists c, chunk_content E d h = Some c /\ (zlen c <= CS E)%Z.
(** Some chunk that holds a byte of [u] cannot be read. *)
Definition damaged (d : disk) (u : string) : Prop :=
  exists m size i h, d_maps d !! u = Some (MapJson m size) /\
    (0 <= i < size)%Z /\ m !! (i / CS E)%Z = Some h /\ chunk_content E d h = None.
(** Nobody forged a chunk: what can be read from [d] under a name that the map
    [u] uses is what [d0] has under that name (no hash collisions). *)
Definition not_forged (d0 d : disk) (u : string) : Prop :=
  forall m size id h x x0, d_maps d0 !! u = Some (MapJson m size) -> m !! id = Some h ->
    chunk_content E d h = Some x -> chunk_content E d0 h = Some x0 -> x = x0.
End B3.

(** ** Garbage collection and verification *)
(** A chunk is in use if the map of some local revision in the history names it. *)
Definition used_by (s : rst) (x : rev) (h : Hash) : Prop :=
  exists m z id, d_maps (w_disk (rs_w s)) !! r_uuid x = Some (MapJson m z) /\ m !! id = Some h.
Definition used (s : rst) (h : Hash) : Prop :=
  exists x, x ∈ rs_hist s /\ r_server x = "" /\ used_by s x h.

(** Chunks of complete local revisions that carry the "verified" mark. *)
Definition vouched (s : rst) (h : Hash) : Prop :=
  exists x, x ∈ rs_hist s /\ is_clean x = true /\ r_server x = "" /\ r_trust x = VERIFIED /\
    used_by s x h.

(** Every local revision is distrusted. *)
Definition all_distrusted (d : disk) : Prop :=
  forall n x, d_revs d !! n = Some x -> r_server x = "" -> r_trust x = DISTRUSTED.
(** ... or has been verified and can be read. *)
Definition distrusted_or_read (E : env) (d : disk) : Prop :=
  forall n x, d_revs d !! n = Some x -> r_server x = "" ->
    r_trust x = DISTRUSTED \/ r_trust x = VERIFIED /\ readable E d n.

