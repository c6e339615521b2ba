(** The loop of a job and a clock that may be wrong and be set (daemon/scheduler.py:99-105,
    180-286; utils.py:480-488).

    [wall r] is what [now()] returns at the moment [r] (real time, in microseconds): any
    function, so that the clock may be wrong, be set forward and back, stop or drift.
    asyncio.sleep and Event.wait measure real time: the event loop's clock is monotonic. *)
From Verif Require Export Model.JobLoop.

(** A turn as in Model/JobLoop.v, with moments instead of readings. *)
Record cturn := MkCturn {
  ck_listed : gmap string rev;
  ck_now : nat -> gmap string rev;
  ck_read : Z * Z * Z * Z;               (* when the clock is read while planning *)
  ck_retry : Z;
  ck_wait : Z;                           (* when the wait begins *)
  ck_asked : option Z;                   (* asked to run at once *)
  ck_out : jout }.
Definition as_read (wall : Z -> Z) (c : cturn) : turn :=
  let '(r0, r1, r2, r3) := ck_read c in
  MkTurn (ck_listed c) (ck_now c) (wall r0, wall r1, wall r2, wall r3) (wall (ck_retry c))
    (wall (ck_wait c)) None (ck_out c).
(** utils.py:484-488 [time_or_event]: the deadline is compared with the clock once, and the
    remaining time is slept. *)
Definition wakes_really (wall : Z -> Z) (c : cturn) (deadline : Z) : Z :=
  let elapsed := (ck_wait c + Z.max 0 (deadline - wall (ck_wait c)))%Z in
  match ck_asked c with
  | Some a => Z.max (ck_wait c) (Z.min a elapsed)
  | None => elapsed
  end.
(** A run: when it really starts, its tags, how it ends. *)
Record crun := MkCrun { cr_start : Z; cr_tags : gset string; cr_out : jout }.
(** scheduler.py:180-286 *)
Fixpoint clock_life (wall : Z -> Z) (fl : Q -> Q) (O : orders) (S : sched) (spread : Z)
    (turns : list cturn) (s : jstate) : list crun * jend :=
  match turns with
  | [] => ([], Goes s)
  | c :: turns =>
      match plan_run fl O S spread (as_read wall c) s with
      | Err e => ([], GaveUp e)
      | Ok (time, tags) =>
          let r := MkCrun (wakes_really wall c time) tags (ck_out c) in
          match run_ended (ck_out c) s with
          | None => ([r], Cancelled)
          | Some s => let '(rs, e) := clock_life wall fl O S spread turns s in (r :: rs, e)
          end
      end
  end.
