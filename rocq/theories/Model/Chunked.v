(** rbd/chunked: Chunk, File, Store. *)
From Verif Require Export Model.Disk.

(** What the chunked code takes from outside: the chunk size
    ([Chunk.CHUNK_SIZE], chunk.py:26; generic here, 4 MiB in the code), the
    flush target (file.py:33), hash and compression (mmh3, lzo) and the clock
    read on every chunk access (file.py:249). *)
Record env := MkEnv {
  CS : Z;
  flush_target : nat;
  hash : bytes -> Hash;
  compress : bytes -> bytes;
  decompress : bytes -> option bytes;
  clock : nat -> Z }.

(** chunk.py:34-41.  [ck_data = None]: not loaded yet. *)
Record chunk := MkChunk {
  ck_hash : option Hash;
  ck_clean : bool;
  ck_data : option bytes }.

Definition new_chunk (h : option Hash) : chunk := MkChunk h true None.

(** file.py:217-236 and chunk.py:97-105, the "chunk_stats" dict. *)
Record fstats := MkFStats {
  fs_bytes_written : Z; fs_write_full : Z; fs_write_partial : Z }.

(** file.py:35-45 and 56-97.  [f_ticks] counts the clock readings. *)
Record file := MkFile {
  f_name : string;
  f_r : bool;
  f_w : bool;
  f_closed : bool;
  f_pos : Z;
  f_size : Z;
  f_map : gmap Z Hash;
  f_chunks : list (Z * chunk);
  f_acc : gmap Z (Z * Z);
  f_stats : fstats;
  f_ticks : nat }.

Definition set_pos (p : Z) (f : file) : file :=
  MkFile (f_name f) (f_r f) (f_w f) (f_closed f) p (f_size f) (f_map f)
    (f_chunks f) (f_acc f) (f_stats f) (f_ticks f).
Definition set_fsize (n : Z) (f : file) : file :=
  MkFile (f_name f) (f_r f) (f_w f) (f_closed f) (f_pos f) n (f_map f)
    (f_chunks f) (f_acc f) (f_stats f) (f_ticks f).
Definition set_mapping (m : gmap Z Hash) (f : file) : file :=
  MkFile (f_name f) (f_r f) (f_w f) (f_closed f) (f_pos f) (f_size f) m
    (f_chunks f) (f_acc f) (f_stats f) (f_ticks f).
Definition set_chunks (c : list (Z * chunk)) (f : file) : file :=
  MkFile (f_name f) (f_r f) (f_w f) (f_closed f) (f_pos f) (f_size f) (f_map f)
    c (f_acc f) (f_stats f) (f_ticks f).
Definition set_stats (s : fstats) (f : file) : file :=
  MkFile (f_name f) (f_r f) (f_w f) (f_closed f) (f_pos f) (f_size f) (f_map f)
    (f_chunks f) (f_acc f) s (f_ticks f).
Definition set_acc (a : gmap Z (Z * Z)) (t : nat) (f : file) : file :=
  MkFile (f_name f) (f_r f) (f_w f) (f_closed f) (f_pos f) (f_size f) (f_map f)
    (f_chunks f) a (f_stats f) t.
Definition set_closed (f : file) : file :=
  MkFile (f_name f) (f_r f) (f_w f) true (f_pos f) (f_size f) (f_map f)
    (f_chunks f) (f_acc f) (f_stats f) (f_ticks f).

(** The state of one open file together with the disk. *)
Definition fst_ := (file * world)%type.

Section WithEnv.
Context (E : env).

(** chunk.py:43-64 [_read_existing].  A missing or unreadable chunk file
    (IOError) and a decompression failure (lzo.error) give BackendException; a
    hash mismatch gives InconsistentHash. *)
Definition read_existing (c : chunk) (w : world) : res chunk :=
  match ck_data c with
  | Some _ => Ok c
  | None =>
      match ck_hash c with
      | None => Ok (MkChunk (ck_hash c) (ck_clean c) (Some []))
      | Some h =>
          match d_chunks (w_disk w) !! h with
          | None => Err BackendException
          | Some raw =>
              match decompress E raw with
              | None => Err BackendException
              | Some d =>
                  if decide (hash E d = h)
                  then Ok (MkChunk (ck_hash c) (ck_clean c) (Some d))
                  else Err InconsistentHash
              end
          end
      end
  end.

(** [BytesIO.seek(offset); BytesIO.read(size)]: a negative size reads to the
    end; reading past the end gives nothing. *)
Definition bio_read (d : bytes) (offset size : Z) : bytes :=
  let rest := zdrop offset d in
  if (size <? 0)%Z then rest else ztake size rest.

(** [BytesIO.seek(offset); BytesIO.write(data)] with non-empty data: a gap
    between the end and the offset is filled with zeroes. *)
Definition bio_write (d : bytes) (offset : Z) (data : bytes) : bytes :=
  ztake offset (d ++ zeros (offset - zlen d)) ++ data
    ++ zdrop (offset + zlen data) d.

(** chunk.py:69-82 [read]. *)
Definition chunk_read (c : chunk) (offset size : Z) (w : world)
  : res (chunk * bytes * Z) :=
  res_bind (read_existing c w) (fun c' =>
  match ck_data c' with
  | None => Err AssertionError
  | Some d =>
      let data := bio_read d offset size in
      let remaining :=
        if (size =? -1)%Z then (-1)%Z else Z.max 0 (size - zlen data) in
      Ok (c', data, remaining)
  end).

(** chunk.py:84-108 [write].  Result: new chunk, amount used, remaining data,
    and whether this was a full write (for the statistics). *)
Definition chunk_write (c : chunk) (offset : Z) (data : bytes) (w : world)
  : res (chunk * Z * bytes * bool) :=
  let remaining := zdrop (CS E - offset) data in
  let data := ztake (CS E - offset) data in
  if (offset =? 0)%Z && (zlen data =? CS E)%Z then
    Ok (MkChunk (ck_hash c) false (Some data), zlen data, remaining, true)
  else
    res_bind (read_existing c w) (fun c' =>
    match ck_data c' with
    | None => Err AssertionError
    | Some d =>
        Ok (MkChunk (ck_hash c') false (Some (bio_write d offset data)),
            zlen data, remaining, false)
    end).

(** chunk.py:110-137 [flush].  The temp file is created, written and renamed;
    [store.seen] and [store.force_writes] decide whether it is written at all.
    OSError from the file system itself is not modelled. *)
Definition chunk_flush (c : chunk) (w : world)
  : world * res (chunk * option Hash) :=
  if ck_clean c then (w, Ok (c, None))
  else
    match ck_data c with
    | None => (w, Err AssertionError)
    | Some d =>
        let h := hash E d in
        let w := do_eff (EFlush d) w in
        let w :=
          if decide (h ∈ w_seen w) then w
          else
            let w :=
              if w_force w || bool_decide (d_chunks (w_disk w) !! h = None)
              then
                do_eff (EChunkPut h (compress E d)) (do_eff ETmp (do_eff ETmp w))
              else w in
            add_seen h w in
        (w, Ok (MkChunk (Some h) true (Some d), Some h))
    end.

(** Ordering of file.py:110: by (count, last access), descending, stable. *)
Definition acc_of (f : file) (id : Z) : Z * Z :=
  default (0, 0)%Z (f_acc f !! id).
Definition acc_geb (a b : Z * Z) : bool :=
  (b.1 <? a.1)%Z || ((b.1 =? a.1)%Z && (b.2 <=? a.2)%Z).

Fixpoint flush_list (l : list (Z * chunk)) : M fst_ unit :=
  match l with
  | [] => ret tt
  | (id, c) :: l' => fun '(f, w) =>
      match chunk_flush c w with
      | (w', Err e) => ((f, w'), Err e)
      | (w', Ok (_, Some h)) =>
          flush_list l' (set_mapping (<[id := h]> (f_map f)) f, w')
      | (w', Ok (_, None)) => flush_list l' (f, w')
      end
  end.

(** file.py:104-120 [_flush_chunks]. *)
Definition flush_chunks (target : nat) : M fst_ unit := fun '(f, w) =>
  if (length (f_chunks f) <? 2 * target)%nat then ((f, w), Ok tt)
  else
    let chunks :=
      isort (fun a b => acc_geb (acc_of f a.1) (acc_of f b.1)) (f_chunks f) in
    let keep := take target chunks in
    let remove := drop target chunks in
    (do_ flush_list remove;
     modify (fun '(f, w) => (set_chunks keep f, w)))%M (f, w).

(** file.py:122-130 [flush]: open(..., "w") truncates the map file first. *)
Definition file_flush : M fst_ unit := fun '(f, w) =>
  if negb (f_w f && negb (f_closed f)) then ((f, w), Err AssertionError)
  else
    (do_ flush_chunks 0;
     modify (fun '(f, w) =>
       (f, do_eff (EMapPut (f_name f) (MapJson (f_map f) (f_size f)))
             (do_eff (EMapPut (f_name f) MapGarbage) w))))%M (f, w).

(** file.py:132-136 [close]. *)
Definition file_close : M fst_ unit := fun '(f, w) =>
  if f_closed f then ((f, w), Err AssertionError)
  else
    (do_ (if f_w f then file_flush else ret tt);
     modify (fun '(f, w) => (set_closed f, w)))%M (f, w).

(** file.py:147-149 [tell]. *)
Definition file_tell : M fst_ Z := fun '(f, w) =>
  if f_closed f then ((f, w), Err AssertionError) else ((f, w), Ok (f_pos f)).

(** file.py:238-250 [_current_chunk]: returns id and offset; the chunk itself
    is found in [f_chunks]. *)
Definition current_chunk : M fst_ (chunk * Z * Z) := fun '(f, w) =>
  let id := (f_pos f / CS E)%Z in
  let offset := (f_pos f mod CS E)%Z in
  (do_ (match alookup id (f_chunks f) with
        | Some _ => ret tt
        | None =>
            do_ flush_chunks (flush_target E);
            modify (fun '(f, w) =>
              (set_chunks (f_chunks f ++ [(id, new_chunk (f_map f !! id))]) f,
               w))
        end);
   do_ modify (fun '(f, w) =>
         (set_acc (<[id := ((acc_of f id).1 + 1, clock E (f_ticks f))%Z]>
                     (f_acc f)) (S (f_ticks f)) f, w));
   let* (f, w) := get in
   match alookup id (f_chunks f) with
   | Some c => ret (c, id, offset)
   | None => raise KeyError
   end)%M (f, w).

(** file.py:227-236 [write]; fuel: each round consumes at least one byte. *)
Fixpoint write_loop (fuel : nat) (data : bytes) : M fst_ unit :=
  match data with
  | [] => ret tt
  | _ :: _ =>
      match fuel with
      | O => raise OutOfFuel
      | S fuel =>
          (let* (c, id, offset) := current_chunk in
           let* (f, w) := get in
           let* (c', written, data', full) := lift (chunk_write c offset data w) in
           let st := f_stats f in
           let f := set_chunks (aset id c' (f_chunks f)) f in
           let f := set_stats
             (MkFStats (fs_bytes_written st)
                (fs_write_full st + if full then 1 else 0)
                (fs_write_partial st + if full then 0 else 1))%Z f in
           let f := set_pos (f_pos f + written)%Z f in
           let f := if (f_size f <? f_pos f)%Z then set_fsize (f_pos f) f else f in
           do_ put (f, w);
           write_loop fuel data')%M
      end
  end.
Definition file_write (data : bytes) : M fst_ unit := fun '(f, w) =>
  if negb (f_w f && negb (f_closed f)) then ((f, w), Err AssertionError)
  else
    let st := f_stats f in
    let f := set_stats (MkFStats (fs_bytes_written st + zlen data)
                          (fs_write_full st) (fs_write_partial st))%Z f in
    write_loop (S (length data)) data (f, w).

(** file.py:205-222 [read].  Fuel: a round either reads a byte or raises. *)
Fixpoint read_loop (fuel : nat) (size : Z) (acc : bytes) : M fst_ bytes :=
  if (size =? 0)%Z then ret acc
  else
    match fuel with
    | O => raise OutOfFuel
    | S fuel =>
        (let* (c, id, offset) := current_chunk in
         let* (f, w) := get in
         let* (c', data, size') := lift (chunk_read c offset size w) in
         let f := set_chunks (aset id c' (f_chunks f)) f in
         do_ put (f, w);
         match data with
         | [] => raise ValueError
         | _ =>
             do_ put (set_pos (f_pos f + zlen data)%Z f, w);
             read_loop fuel size' (acc ++ data)
         end)%M
    end.
Definition file_read (size : Z) : M fst_ bytes := fun '(f, w) =>
  if negb (f_r f && negb (f_closed f)) then ((f, w), Err AssertionError)
  else
    let max_size := (f_size f - f_pos f)%Z in
    let size := if (size =? -1)%Z then max_size else Z.min size max_size in
    read_loop (S (Z.to_nat (Z.max size (CS E)))) size [] (f, w).

(** file.py:154-189 [seek]. *)
Inductive whence := SEEK_SET | SEEK_CUR | SEEK_END | SEEK_BAD.
Fixpoint fill_loop (fuel : nat) (filler : Z) : M fst_ unit :=
  if (0 <? filler)%Z then
    match fuel with
    | O => raise OutOfFuel
    | S fuel =>
        (* chunk = min(filler, 4 * 1024 * 1024) * b"\00": the chunk size *)
        let chunk := zeros (Z.min filler (CS E)) in
        (do_ file_write chunk; fill_loop fuel (filler - zlen chunk)%Z)%M
    end
  else ret tt.
Definition file_seek (offset : Z) (wh : whence) : M fst_ Z := fun '(f, w) =>
  if f_closed f then ((f, w), Err AssertionError)
  else
    match
      (match wh with
       | SEEK_SET => Ok offset
       | SEEK_END => Ok (f_size f - offset)%Z
       | SEEK_CUR => Ok (f_pos f + offset)%Z
       | SEEK_BAD => Err ValueError
       end)
    with
    | Err e => ((f, w), Err e)
    | Ok position =>
        if (position <? 0)%Z then ((f, w), Err ValueError)
        else
          (do_ (if (f_size f <? position)%Z then
                  (* self.seek(self.size) only moves the position *)
                  do_ modify (fun '(f, w) => (set_pos (f_size f) f, w));
                  do_ fill_loop (Z.to_nat (position - f_size f))
                        (position - f_size f)%Z;
                  let* (f, w) := get in
                  do_ massert (f_pos f =? position)%Z AssertionError;
                  massert (f_size f =? position)%Z AssertionError
                else ret tt);
           do_ modify (fun '(f, w) => (set_pos position f, w));
           ret position)%M (f, w)
    end.

(** file.py:191-203 [truncate]: [None] truncates at the current position. *)
Definition file_truncate (size : option Z) : M fst_ unit := fun '(f, w) =>
  if negb (f_w f && negb (f_closed f)) then ((f, w), Err AssertionError)
  else
    let size := default (f_pos f) size in
    let f := set_fsize size f in
    let f := set_mapping (filter (fun '(k, _) => ~ (k * CS E > size)%Z) (f_map f)) f in
    file_flush (f, w).

(** file.py:47-97 [__init__].  [r]/[wr]: the mode string contains "r" /
    contains "w", "+" or "a"; [app]: contains "a". *)
Definition file_open (name : string) (r wr app : bool) (w : world) : res file :=
  let mk pos size m :=
    MkFile name r wr false pos size m [] ∅ (MkFStats 0 0 0) 0 in
  match d_maps (w_disk w) !! name with
  | None =>
      if wr then Ok (mk 0%Z 0%Z ∅) else Err FileNotFound
  | Some MapGarbage => Err ValueError
  | Some (MapJson m size) => Ok (mk (if app then size else 0%Z) size m)
  end.

(** store.py:59-67 [purge] over [ls] (store.py:54-57). *)
Definition store_purge (used : gset Hash) (w : world) : world :=
  fold_left (fun w h =>
    if decide (h ∈ used) then w else discard_seen h (do_eff (EChunkDel h) w))
    (map fst (map_to_list (d_chunks (w_disk w)))) w.

End WithEnv.
