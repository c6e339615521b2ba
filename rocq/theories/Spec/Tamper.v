(** Specification for reads from a store that anybody may tamper with. *)
From Verif Require Export Model.Chunked Model.ChunkedRun.

Section Tamper.
Context (E : env).

(** [authentic m p d]: the bytes [d] read from position [p] are a sequence of
    pieces, each cut at the right offset out of a content whose hash is the one
    that the map [m] records for that position. *)
Inductive authentic (m : gmap Z Hash) : Z -> bytes -> Prop :=
| authentic_nil p : authentic m p []
| authentic_piece p h x d1 d2 :
    m !! (p / CS E)%Z = Some h ->
    hash E x = h ->
    d1 `prefix_of` zdrop (p mod CS E) x ->
    authentic m (p + zlen d1) d2 ->
    authentic m p (d1 ++ d2).

Definition with_chunks (ch : gmap Hash bytes) (w : world) : world :=
  MkWorld (MkDisk ch (d_maps (w_disk w)) (d_revs (w_disk w)))
    (w_log w) (w_seen w) (w_force w).

(** Before every call the whole chunk directory is replaced by arbitrary
    content; the result lists the file position before each call and the
    outcome of the call. *)
Fixpoint tamper_run (s : fst_) (l : list (gmap Hash bytes * fop))
  : list (Z * res fout) :=
  match l with
  | [] => []
  | (ch, o) :: l =>
      let '(s', r) := file_step E o (s.1, with_chunks ch s.2) in
      (f_pos s.1, r) :: tamper_run s' l
  end.
End Tamper.
