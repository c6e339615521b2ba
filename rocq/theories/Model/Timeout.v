(** Polling timeouts (utils.py:541-586). *)
From Verif Require Export Model.Base.

(** utils.py:556-562 [TimeOut.__init__]: [now] is the clock reading there.
    [self.remaining] and [self.timed_out] are only set by [tick] and read by
    nobody else in the code base. *)
Record timeout := MkTimeout {
  to_cutoff : Z; to_interval : Z; to_raise : bool; to_first : bool }.
Definition timeout_init (now secs interval : Z) (raise_on_timeout : bool)
  : timeout := MkTimeout (now + secs) interval raise_on_timeout true.

(** utils.py:564-586 [tick] with the clock reading [now]: the result, and how
    long the call sleeps before returning. *)
Definition tick (now : Z) (t : timeout) : timeout * Z * res bool :=
  let remaining := (to_cutoff t - now)%Z in
  if (remaining <=? 0)%Z then
    (t, 0%Z, if to_raise t then Err TimeOutError else Ok false)
  else if to_first t then
    (MkTimeout (to_cutoff t) (to_interval t) (to_raise t) false, 0%Z, Ok true)
  else (t, to_interval t, Ok true).

(** [while timeout.tick(): body] (rbd/__init__.py:440-446).  [clock i] is the
    reading in the i-th tick; [body i = true] leaves the loop by [return].
    Result: how many times the body ran, the total time slept, how it ended. *)
Inductive poll_end := PollFound | PollStopped | PollRaised | PollOutOfFuel.
Fixpoint poll (fuel i : nat) (clock : nat -> Z) (body : nat -> bool)
    (slept : Z) (t : timeout) : nat * Z * poll_end :=
  match fuel with
  | O => (i, slept, PollOutOfFuel)
  | Datatypes.S fuel =>
      match tick (clock i) t with
      | (t', s, Ok true) =>
          if body i then (Datatypes.S i, (slept + s)%Z, PollFound)
          else poll fuel (Datatypes.S i) clock body (slept + s) t'
      | (_, s, Ok false) => (i, (slept + s)%Z, PollStopped)
      | (_, s, Err _) => (i, (slept + s)%Z, PollRaised)
      end
  end.
