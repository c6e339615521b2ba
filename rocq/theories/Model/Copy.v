(** Copying and comparing plain files (utils.py:246-432, 592-649).

    A file is its byte string.  Simplifications: Python's and the kernel's
    buffers are not modelled (the code flushes before punching and before
    truncating); [posix_fadvise], [fsync], progress reports and logging have no
    effect on contents and are left out.  The [yield]s of [report_status]
    (utils.py:51-82) only drive the progress report. *)
From Verif Require Export Model.Base.

(** [f.seek(p); f.read(n)] on a plain file; at or after the end: b"". *)
Definition read_at (c : bytes) (p n : Z) : bytes := ztake n (zdrop p c).

(** [f.seek(p); f.write(d)] on a plain file: a gap is filled with zeroes;
    writing nothing does not extend the file. *)
Definition write_at (c : bytes) (p : Z) (d : bytes) : bytes :=
  if decide (d = []) then c else
  ztake p c ++ zeros (p - zlen c) ++ d ++ zdrop (p + zlen d) c.

(** [f.truncate(n)]: cuts, or extends with zeroes. *)
Definition truncate_at (c : bytes) (n : Z) : bytes :=
  ztake n c ++ zeros (n - zlen c).

(** How the target behaves: does the kernel support hole punching on it
    (utils.py:645-649), and does [truncate] work (utils.py:287-290)? *)
Record target_kind := MkKind { k_punch : bool; k_trunc : bool }.

(** A target with the list of ranges (offset, length) that were modified. *)
Record target := MkTarget { t_data : bytes; t_touched : list (Z * Z) }.

(** utils.py:639-649 punch_hole.  With fallocate(PUNCH_HOLE|KEEP_SIZE) the part
    of the range inside the file becomes zero and the size stays; otherwise
    [_fake_fallocate] (utils.py:596-608) writes zeroes, which may extend the
    file.  A length <= 0 raises OSError in both (utils.py:598, 621). *)
Definition punch_hole (k : target_kind) (c : bytes) (off len : Z) : res bytes :=
  if (len <=? 0)%Z then Err OSError
  else if k_punch k then
    Ok (ztake off c ++ zeros (Z.min len (zlen c - off)) ++ zdrop (off + len) c)
  else Ok (write_at c off (zeros len)).

(** utils.py:43 PUNCH_SIZE, utils.py:255-259: ten times larger for sources over
    500 GiB. *)
Definition PUNCH_SIZE : Z := 4194304.
Definition punch_size_for (base size : Z) : Z :=
  if (536870912000 <? size)%Z then (base * 10)%Z else base.

(** utils.py:267-283, one turn of the copy loop for the chunk at [start]. *)
Definition co_step (k : target_kind) (psize start : Z) (chunk : bytes)
    (t : target) : res target :=
  let compare := read_at (t_data t) start (zlen chunk) in
  if bool_decide (compare = []) || negb (bool_decide (chunk = compare)) then
    let touched := t_touched t ++ [(start, zlen chunk)] in
    if bool_decide (chunk = zeros psize) then
      res_bind (punch_hole k (t_data t) start (zlen chunk))
        (fun c => Ok (MkTarget c touched))
    else Ok (MkTarget (write_at (t_data t) start chunk) touched)
  else Ok t.

(** utils.py:266-284 [while True]; [fuel] bounds the turns of the loop. *)
Fixpoint co_loop (fuel : nat) (k : target_kind) (psize : Z) (src : bytes)
    (start : Z) (t : target) : res (Z * target) :=
  match fuel with
  | O => Err OutOfFuel
  | Datatypes.S fuel =>
      let chunk := read_at src start psize in
      if decide (chunk = []) then Ok (start, t)
      else res_bind (co_step k psize start chunk t)
             (fun t => co_loop fuel k psize src (start + zlen chunk) t)
  end.

(** utils.py:246-295 copy_overwrite: returns the size and the target.  [base] is
    PUNCH_SIZE (a parameter so that the theorems hold for every block size). *)
Definition copy_overwrite (k : target_kind) (base : Z) (src tgt : bytes)
  : res (Z * target) :=
  let psize := punch_size_for base (zlen src) in
  res_bind (co_loop (Datatypes.S (length src)) k psize src 0 (MkTarget tgt []))
    (fun '(size, t) =>
       Ok (size, if k_trunc k then MkTarget (truncate_at (t_data t) size) (t_touched t)
                 else t)).

(** utils.py:298-335 copy: writes sequentially from the target's current
    position [tpos] (it never seeks the target), then truncates. *)
Fixpoint copy_loop (fuel : nat) (csize : Z) (src : bytes) (start : Z)
    (tpos : Z) (tgt : bytes) : res (Z * bytes) :=
  match fuel with
  | O => Err OutOfFuel
  | Datatypes.S fuel =>
      let chunk := read_at src start csize in
      if decide (chunk = []) then Ok (start, tgt)
      else copy_loop fuel csize src (start + zlen chunk) (tpos + zlen chunk)
             (write_at tgt tpos chunk)
  end.
Definition copy (k : target_kind) (csize : Z) (src tgt : bytes) (tpos : Z)
  : res (Z * bytes) :=
  res_bind (copy_loop (Datatypes.S (length src)) csize src 0 tpos tgt)
    (fun '(size, c) => Ok (size, if k_trunc k then truncate_at c size else c)).

(** utils.py:356-383 files_are_equal, both files read from their start.  The
    reports are the calls of [report(chunk_a, chunk_b, position)]. *)
Fixpoint fae_loop (fuel : nat) (csize : Z) (a b : bytes) (pos : Z)
  : res (list (bytes * bytes * Z)) :=
  match fuel with
  | O => Err OutOfFuel
  | Datatypes.S fuel =>
      let ca := read_at a pos csize in
      let cb := read_at b pos csize in
      let rep := if bool_decide (ca = cb) then [] else [(ca, cb, pos)] in
      if decide (ca = []) then Ok rep
      else res_bind (fae_loop fuel csize a b (pos + csize))
             (fun l => Ok (rep ++ l))
  end.
Definition files_are_equal (csize : Z) (a b : bytes)
  : res (bool * list (bytes * bytes * Z)) :=
  res_bind (fae_loop (Datatypes.S (length a)) csize a b 0)
    (fun l => Ok (bool_decide (l = []), l)).

(** utils.py:386-432 files_are_roughly_equal.  [sample] is what
    [random.sample] returned (utils.py:394-398: distinct elements of
    [range(0, max(blocks, 1))]); [clock i] is the reading of [now()] before the
    i-th sampled block, [started] the one before the loop (utils.py:409-416);
    [limit] is [max_duration]. *)
Definition roughly_blocks (bsize : Z) (a : bytes) : Z := Z.max (zlen a / bsize) 1.
Fixpoint fre_loop (bsize : Z) (a b : bytes) (started limit : Z)
    (i : nat) (clock : nat -> Z) (sample : list Z)
  : bool * list (bytes * bytes * Z) :=
  match sample with
  | [] => (true, [])
  | blk :: rest =>
      if (limit <? clock i - started)%Z then (true, [])
      else
        let ca := read_at a (blk * bsize) bsize in
        let cb := read_at b (blk * bsize) bsize in
        if bool_decide (ca = cb)
        then fre_loop bsize a b started limit (Datatypes.S i) clock rest
        else (false, [(ca, cb, (blk * bsize)%Z)])
  end.
Definition files_are_roughly_equal (bsize : Z) (a b : bytes)
    (started limit : Z) (clock : nat -> Z) (sample : list Z)
  : bool * list (bytes * bytes * Z) :=
  fre_loop bsize a b started limit 0 clock sample.
