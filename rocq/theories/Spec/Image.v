(** Specification: the byte content that a chunk map denotes, read off the disk
    without any cache. *)
From Verif Require Export Model.Chunked.

Section Image.
Context (E : env).

(** The data behind a hash, if the file exists, decompresses and matches. *)
Definition chunk_content (d : disk) (h : Hash) : option bytes :=
  match d_chunks d !! h with
  | None => None
  | Some raw =>
      match decompress E raw with
      | None => None
      | Some c => if decide (hash E c = h) then Some c else None
      end
  end.

(** [image_is d n c]: the map file [n] on disk [d] denotes the content [c]:
    it records the length of [c], and byte i of [c] is byte (i mod CS) of the
    chunk that the map names for position i / CS. *)
Definition image_is (d : disk) (n : string) (c : bytes) : Prop :=
  exists m, d_maps d !! n = Some (MapJson m (zlen c)) /\
    forall (i : nat) b, c !! i = Some b ->
      exists h x, m !! (Z.of_nat i / CS E)%Z = Some h /\
        chunk_content d h = Some x /\
        x !! Z.to_nat (Z.of_nat i mod CS E) = Some b.

(** All chunks named by a map exist. *)
Definition map_complete (d : disk) (n : string) : Prop :=
  match d_maps d !! n with
  | Some (MapJson m _) =>
      forall id h, m !! id = Some h -> is_Some (d_chunks d !! h)
  | _ => False
  end.

(** Every chunk file carries the hash of its content and fits a chunk. *)
Definition good_store (d : disk) : Prop :=
  forall h raw, d_chunks d !! h = Some raw ->
    exists c, decompress E raw = Some c /\ hash E c = h /\ (zlen c <= CS E)%Z.

(** Contents present in a store. *)
Definition stored (d : disk) (c : bytes) : Prop :=
  exists h raw, d_chunks d !! h = Some raw /\ decompress E raw = Some c.

(** No two different contents among those stored in [d] and those flushed in
    the log [l] have the same hash. *)
Definition no_collision (d : disk) (l : list eff) : Prop :=
  forall c1 c2,
    (stored d c1 \/ EFlush c1 ∈ l) -> (stored d c2 \/ EFlush c2 ∈ l) ->
    hash E c1 = hash E c2 -> c1 = c2.

(** The assumption about lzo. *)
Definition lzo_ok : Prop := forall d, decompress E (compress E d) = Some d.
End Image.

Section Image2.
Context (E : env).
(** What a file name stands for when it is opened: nothing yet, or an image
    all of whose chunk files exist. *)
Definition initial_image (d : disk) (n : string) (c : bytes) : Prop :=
  (d_maps d !! n = None /\ c = []) \/ (image_is E d n c /\ map_complete d n).

(** Chunks known to be on disk ([Store.seen]) really are. *)
Definition seen_ok (w : world) : Prop :=
  forall h, h ∈ w_seen w -> is_Some (d_chunks (w_disk w) !! h).

(** Every chunk file decompresses to something whose hash is its name. *)
Definition named_store (d : disk) : Prop :=
  forall h raw, d_chunks d !! h = Some raw ->
    exists c, decompress E raw = Some c /\ hash E c = h.

(** The disks a process killed at an arbitrary moment between [w] and [w'] can
    leave behind: replay any prefix of the effects that were performed. *)
Definition crash_disk (w w' : world) (d : disk) : Prop :=
  exists l k, w_log w' = w_log w ++ l /\ d = replay (take k l) (w_disk w).

(** A new process opens the repository: nothing seen yet. *)
Definition restart (w : world) : world := MkWorld (w_disk w) (w_log w) ∅ false.
End Image2.
