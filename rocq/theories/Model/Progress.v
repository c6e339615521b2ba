(** The progress report of the long operations (utils.py:49-82 [report_status]), and the
    restore to a file (utils.py:298-335 [copy]) and the verification
    (rbd/__init__.py:191-253) as they are decorated with it.

    Simplifications: the numbers are exact, not binary64; times are in microseconds, those of
    the calendar since the beginning of the year 1.  OverflowError is written
    ZeroDivisionError: both are ArithmeticErrors, which nothing on the way catches.  The
    message itself (naturaldelta) cannot fail once the estimate is a date. *)
From Coq Require Export QArith Qround.
From Verif Require Export Model.Restore.
From Verif Require Export Model.Revs Model.RbdBackup.
Local Open Scope Z_scope.

(** The clocks during an operation: time.time() at the beginning, and at the k-th step
    time.time() and datetime.now(). *)
Record clocks := MkClocks { pr_start : Z; pr_time : nat -> Z; pr_now : nat -> Z }.
(** datetime.min and datetime.max *)
Definition min_date : Z := 0.
Definition max_date : Z := 3652059 * 86400 * 1000000 - 1.
(** [int(x)] *)
Definition to_int (x : Q) : Z := if Qle_bool 0 x then Qfloor x else Qceiling x.
(** utils.py:60-80: what happens after the [step]-th yield of an operation that announced
    [steps]. *)
Definition tick (K : clocks) (steps : Q) (step : nat) : res unit :=
  let elapsed := pr_time K step - pr_start K in
  let per_chunk := (inject_Z elapsed / inject_Z (Z.of_nat step))%Q in
  let remaining := ((steps - inject_Z (Z.of_nat step)) * per_chunk)%Q in
  let seconds := to_int (remaining / inject_Z 1000000)%Q in
  let eta := pr_now K step + seconds * 1000000 in
  if negb ((min_date <=? eta) && (eta <=? max_date)) then Err ZeroDivisionError
  else if (bool_decide (step = 5%nat) || bool_decide (Z.of_nat step mod 100 = 0)) && Qeq_bool steps 0
       then Err ZeroDivisionError
  else Ok tt.

(** utils.py:319-325, with the yield at the end of each round. *)
Fixpoint copy_loop_reported (K : clocks) (steps : Q) (chunk_size : Z) (fuel : nat) (step : nat)
    (t : bytes) (tp : Z) : prog bytes :=
  match fuel with
  | 0%nat => PRaise OutOfFuel
  | S fuel =>
      (let^ chunk := p_read chunk_size in
       match chunk with
       | [] => PRet t
       | _ =>
           do^ pres (tick K steps step);
           copy_loop_reported K steps chunk_size fuel (S step) (overwrite t tp chunk) (tp + zlen chunk)
       end)%P
  end.
(** utils.py:298-335 *)
Definition copy_reported (K : clocks) (chunk_size : Z) (can_truncate : bool) (target : bytes)
  : prog (bytes * Z) :=
  (do^ do_op (OSeek 0 FromEnd);
   let^ total := p_tell in
   do^ do_op (OSeek 0 FromStart);
   let^ t := copy_loop_reported K (inject_Z total / inject_Z chunk_size)%Q chunk_size
               (S (Z.to_nat total)) 1 target 0 in
   let^ size := p_tell in
   PRet (if can_truncate then ztake size t ++ zeros (size - zlen t) else t, size))%P.
(** rbd/__init__.py:327-337 *)
Definition restore_reported (E : env) (K : clocks) (chunk_size : Z) (can_truncate : bool) (u : string)
    (target : option bytes) (w : world) : world * res (bytes * Z) :=
  session E u true false
    (copy_reported K chunk_size can_truncate (match target with Some t => t | None => [] end)) w.

Section Verify.
Context (E : env) (O : orders) (K : clocks).
Definition ticked (steps : Q) (step : nat) : M rst unit := fun s => (s, tick K steps step).
(** rbd/__init__.py:215-233: a yield at the beginning of each round. *)
Fixpoint verify_loop_reported (steps : Q) (step : nat) (l : list Hash) : M rst (bool * nat) :=
  match l with
  | [] => ret (false, step)
  | h :: l =>
      (do_ ticked steps step;
       fun s =>
       match read_existing E (new_chunk (Some h)) (rs_w s) with
       | Ok _ => verify_loop_reported steps (S step) l s
       | Err _ =>
           (do_ (if bool_decide (d_chunks (w_disk (rs_w s)) !! h = None)
                 then ret tt else eff_ (EChunkDel h));
            ret (true, S step))%M s
       end)%M
  end.
(** rbd/__init__.py:191-253 *)
Definition verify_reported (r : rev) : M rst unit :=
  (let* s := get in
   let* verified := union_maps
     (filter (fun x => r_trust x = VERIFIED) (get_history true true (rs_hist s))) in
   let* m := open_map r in
   let hashes := o_set O (map_hashes m ∖ verified) in
   let steps := inject_Z (zlen hashes + 2) in
   let* p := verify_loop_reported steps 1 hashes in
   let '(errors, step) := p in
   do_ ticked steps step;
   do_ (if (errors : bool) then rev_remove false r
        else
          do_ massert (is_local r) AssertionError;
          let r' := with_trust VERIFIED r in
          do_ upd r'; write_info r');
   do_ ticked steps (S step);
   gc)%M.
End Verify.
