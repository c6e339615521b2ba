(** Restoring a revision while other processes change the repository.  The map is
    read when the file is opened (file.py:79-91); every access to a chunk may find
    another disk (chunk.py:43-64).  [f_ticks] counts the accesses of an open file. *)
From Verif Require Export Model.Restore.

Section Overlap.
Context (E : env) (during : nat -> disk).

(** The world at the next access: the disk is what others have made of it. *)
Definition world_now (f : file) (w : world) : world :=
  MkWorld (during (f_ticks f)) (w_log w) (w_seen w) (w_force w).
(** file.py:205-222 [read], as [read_loop] in Model/Chunked.v but for the disk. *)
Fixpoint read_loop_d (fuel : nat) (size : Z) (acc : bytes) : M fst_ bytes :=
  if (size =? 0)%Z then ret acc
  else
    match fuel with
    | O => raise OutOfFuel
    | S fuel =>
        (let* (c, id, offset) := current_chunk E in
         let* (f, w) := get in
         let* (c', data, size') := lift (chunk_read E c offset size (world_now f w)) in
         let f := set_chunks (aset id c' (f_chunks f)) f in
         do_ put (f, w);
         match data with
         | [] => raise ValueError
         | _ =>
             do_ put (set_pos (f_pos f + zlen data)%Z f, w);
             read_loop_d fuel size' (acc ++ data)
         end)%M
    end.
Definition file_read_d (size : Z) : M fst_ bytes := fun '(f, w) =>
  if negb (f_r f && negb (f_closed f)) then ((f, w), Err AssertionError)
  else
    let max_size := (f_size f - f_pos f)%Z in
    let size := if (size =? -1)%Z then max_size else Z.min size max_size in
    read_loop_d (S (Z.to_nat (Z.max size (CS E)))) size [] (f, w).
(** The other methods of a file opened for reading do not look at the disk. *)
Definition file_step_d (o : fop) : M fst_ fout :=
  match o with
  | ORead n => mmap UData (file_read_d n)
  | o => file_step E o
  end.
(** [with File(..., "rb") as f: p], as [session] *)
Definition session_d {A} (n : string) (p : prog A) (w : world) : world * res A :=
  match file_open n true false false w with
  | Err e => (w, Err e)
  | Ok f =>
      let '((f1, w1), r1) := interp file_step_d p (f, w) in
      let '((f2, w2), r2) := file_close E (f1, w1) in
      (w2, match r2 with Err e => Err e | Ok _ => r1 end)
  end.
(** rbd/__init__.py:272-288, 327-337 *)
Definition restore_file_d (chunk_size : Z) (can_truncate : bool) (u : string)
    (target : option bytes) (w : world) : world * res (bytes * Z) :=
  session_d u (copy chunk_size can_truncate (match target with Some t => t | None => [] end)) w.
(** rbd/__init__.py:339-352 *)
Definition restore_stdout_d (chunk_size : Z) (size : nat) (u : string) (w : world)
  : world * res bytes :=
  session_d u (stdout_loop chunk_size (S size) []) w.
End Overlap.
