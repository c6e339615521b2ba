(** Restoring a revision (rbd/__init__.py:267-352, utils.py:297-335). *)
From Verif Require Export Model.Prog.

(** utils.py:319-325: the loop of [copy].  [t] is the content of the target and
    [tp] the position of the (buffered) target stream; the result is the content
    after the flush.  Errors of the target itself (no space, ...) would end the
    restore with an exception and are not modelled.  Fuel: each round reads at
    least one byte. *)
Fixpoint copy_loop (chunk_size : Z) (fuel : nat) (t : bytes) (tp : Z) : prog bytes :=
  match fuel with
  | 0 => PRaise OutOfFuel
  | S fuel =>
      (let^ chunk := p_read chunk_size in
       match chunk with
       | [] => PRet t
       | _ => copy_loop chunk_size fuel (overwrite t tp chunk) (tp + zlen chunk)
       end)%P
  end.
(** utils.py:298-335 [copy].  [can_truncate] is false for special files, whose
    truncate raises OSError (328-331).  Result: target content and size. *)
Definition copy (chunk_size : Z) (can_truncate : bool) (target : bytes) : prog (bytes * Z) :=
  (do^ do_op (OSeek 0 FromEnd);
   let^ total := p_tell in
   do^ do_op (OSeek 0 FromStart);
   let^ t := copy_loop chunk_size (S (Z.to_nat total)) target 0 in
   let^ size := p_tell in
   PRet (if can_truncate then ztake size t ++ zeros (size - zlen t) else t, size))%P.

(** rbd/__init__.py:346-352: the loop of [restore_stdout]; [out] has been
    written so far. *)
Fixpoint stdout_loop (chunk_size : Z) (fuel : nat) (out : bytes) : prog bytes :=
  match fuel with
  | 0 => PRaise OutOfFuel
  | S fuel =>
      (let^ chunk := p_read chunk_size in
       match chunk with
       | [] => PRet out
       | _ => stdout_loop chunk_size fuel (out ++ chunk)
       end)%P
  end.

Section Restore.
Context (E : env).
(** rbd/__init__.py:272-288 [restore] with the Python backend, target a file
    ([restore_file], 327-337; the target is created empty if it is missing). *)
Definition restore_file (chunk_size : Z) (can_truncate : bool) (u : string)
    (target : option bytes) (w : world) : world * res (bytes * Z) :=
  session E u true false
    (copy chunk_size can_truncate (match target with Some t => t | None => [] end)) w.
(** [restore_stdout] (339-352).  The number of rounds is bounded by the size of
    the image. *)
Definition restore_stdout (chunk_size : Z) (size : nat) (u : string) (w : world)
  : world * res bytes :=
  session E u true false (stdout_loop chunk_size (S size) []) w.
End Restore.
