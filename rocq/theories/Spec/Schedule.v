(** Slots, due tags and service level, stated directly. *)
From Verif Require Export Model.Schedule.

(** A rounding of numbers, such as binary64's: monotone and exact on integers
    of up to 53 bits. *)
Definition rounding (fl : Q -> Q) : Prop :=
  (forall x y, x <= y -> fl x <= fl y)%Q /\
  (forall n, (Z.abs n <= 2 ^ 53)%Z -> (fl (inject_Z n) == inject_Z n)%Q).
(** ... with a relative error of at most 2^-53. *)
Definition accurate (fl : Q -> Q) : Prop :=
  rounding fl /\ (forall x, 0 <= x -> fl x <= x * (1 + (1 # 2 ^ 53)))%Q.
(** Slots of an interval of [i] seconds: multiples of it since the epoch, moved
    by the spread (microseconds). *)
Definition slot (i spread t : Z) : Prop := exists n, t = (1000000 * (n * i + spread))%Z.
Definition next_slot (i spread reference t : Z) : Prop :=
  slot i spread t /\ (reference < t)%Z /\ forall t', slot i spread t' -> (reference < t')%Z -> (t <= t')%Z.
(** What the clock and configuration may be: a whole positive number of seconds,
    the reference not in the very first interval of the calendar, and everything
    within 53 bits. *)
Definition in_range (i spread reference : Z) : Prop :=
  (0 < i)%Z /\ (1000000 * i <= reference)%Z /\ (reference + 2000000 * i <= 1000000 * 2 ^ 52)%Z /\
  (Z.abs spread <= 2 ^ 52)%Z.

(** A duration as text: an optional sign, decimal digits and a unit. *)
Definition is_digit (c : ascii) : Prop := (48 <= N_of_ascii c <= 57)%N.
Definition decimal (ds : list ascii) : Z :=
  fold_left (fun a c => 10 * a + (Z.of_N (N_of_ascii c) - 48))%Z ds 0%Z.
Inductive sign := NoSign | Plus | Minus.
Definition sign_text (s : sign) : string := match s with NoSign => "" | Plus => "+" | Minus => "-" end.
Definition sign_value (s : sign) : Z := match s with Minus => (-1)%Z | _ => 1%Z end.
Definition units : list (string * Z) :=
  [("w", 7 * 24 * 60 * 60); ("d", 24 * 60 * 60); ("h", 60 * 60); ("m", 60); ("s", 1); ("", 1)]%Z.

(** A backup that says how long it took is complete. *)
Definition is_complete (r : rev) : Prop := s_duration (r_stats r) <> None.
(** Tag [t] is due since its interval has passed without a complete revision. *)
Definition is_missed (S : sched) (h : list rev) (now : Z) (t : string) : Prop :=
  exists i, (t, i) ∈ S /\
    ~ exists r, r ∈ h /\ is_complete r /\ t ∈ r_tags r /\ (now - i_interval i < r_ts r)%Z.
Definition shortest (S : sched) (m : Z) : Prop :=
  (exists t i, (t, i) ∈ S /\ i_interval i = m) /\ forall t i, (t, i) ∈ S -> (m <= i_interval i)%Z.
(** A schedule a run can be planned by: it has tags, and none of its intervals is 0. *)
Definition can_plan (S : sched) : Prop := S <> [] /\ forall t i, (t, i) ∈ S -> i_interval i <> 0%Z.
