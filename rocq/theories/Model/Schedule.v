(** Schedules (schedule.py) and the service level (repository.py:104-125). *)
From Coq Require Export QArith.QArith QArith.Qround.
From Verif Require Export Model.Repo.

(** ** Durations (schedule.py:18-37) *)
(** [s.endswith(c)] and [s.replace(c, "")] for a single character. *)
Definition ends_char (c : ascii) (s : string) : bool :=
  match last (chars s) with Some d => Ascii.eqb c d | None => false end.
Definition drop_char (c : ascii) (s : string) : string :=
  unchars (filter (fun d => Ascii.eqb c d = false) (chars s)).
(** In seconds; [timedelta]'s limit of 10^9 days is not modelled. *)
Definition parse_duration (s : string) : res Z :=
  let int (s : string) := match py_int s with Some n => Ok n | None => Err ValueError end in
  if ends_char "w" s then res_bind (int (drop_char "w" s)) (fun n => Ok (n * 604800)%Z)
  else if ends_char "d" s then res_bind (int (drop_char "d" s)) (fun n => Ok (n * 86400)%Z)
  else if ends_char "h" s then res_bind (int (drop_char "h" s)) (fun n => Ok (n * 3600)%Z)
  else if ends_char "m" s then res_bind (int (drop_char "m" s)) (fun n => Ok (n * 60)%Z)
  else if ends_char "s" s then int (drop_char "s" s)
  else int s.
(** schedule.py:62-66 [configure]: intervals become timedeltas (here in
    microseconds, as [r_ts]). *)
Fixpoint configure (c : list (string * (string * Z))) : res sched :=
  match c with
  | [] => Ok []
  | (tag, (interval, keep)) :: c =>
      res_bind (parse_duration interval) (fun i =>
      res_bind (configure c) (fun S => Ok ((tag, MkItem (i * 1000000) keep) :: S)))
  end.

(** ** Slots (schedule.py:40-53) *)
(** Times are microseconds since [min_date] (utils.py:444-445).  [fl] is the
    rounding of floating point operations. *)
Section Float.
Context (fl : Q -> Q).
(** [timedelta.total_seconds] *)
Definition seconds (us : Z) : Q := fl (us # 1000000).
(** Python's [%] with a positive divisor *)
Definition py_mod (a b : Q) : Q := fl (a - inject_Z (Qfloor (a / b)) * b).
(** [int(q)] *)
Definition trunc (q : Q) : Z := Z.quot (Qnum q) (Z.pos (Qden q)).
(** [timedelta(seconds=q)]: the nearest microsecond. *)
Definition to_us (q : Q) : Z := Qfloor (q * 1000000 + (1 # 2)).
Definition next_in_interval (relative interval : Z) (spread : Z) : Z :=
  let r := seconds relative in
  let i := seconds interval in
  let sp := py_mod (inject_Z spread) i in
  let r := fl (r - sp) in
  let cur := trunc (fl (r / i)) in
  to_us (fl (fl (inject_Z (cur + 1) * i) + sp)).

(** ** The next run (schedule.py:80-125) *)
(** [next_times.setdefault(k, set()).add(tag)] *)
Fixpoint add_slot (k : Z) (tag : string) (l : list (Z * gset string)) : list (Z * gset string) :=
  match l with
  | [] => [(k, {[tag]})]
  | (k', X) :: l => if decide (k' = k) then (k', {[tag]} ∪ X) :: l else (k', X) :: add_slot k tag l
  end.
Fixpoint min_slot (l : list (Z * gset string)) : option (Z * gset string) :=
  match l with
  | [] => None
  | (k, X) :: l =>
      match min_slot l with
      | Some (k', X') => if (k <=? k')%Z then Some (k, X) else Some (k', X')
      | None => Some (k, X)
      end
  end.
(** An interval of 0 raises in next_in_interval (schedule.py:45).  Times after the year 9999
    (OverflowError) are not modelled. *)
Definition next_ideal (S : sched) (relative spread : Z) : res (Z * gset string) :=
  if existsb (fun p => (i_interval p.2 =? 0)%Z) S then Err ZeroDivisionError else
  let slots := fold_left (fun l p =>
    add_slot (next_in_interval relative (i_interval p.2) spread) p.1 l) S [] in
  match min_slot slots with Some x => Ok x | None => Err ValueError end.
End Float.

(** repository.py:358-370 [last_by_tag]: of one tag; [min_date] is 0. *)
Definition last_by_tag (h : list rev) (t : string) : option Z :=
  fold_left (fun (o : option Z) r =>
    if bool_decide (t ∈ r_tags r) then Some (Z.max (default 0%Z o) (r_ts r)) else o)
    (get_history true false h) None.
(** schedule.py:113-125 [_missed] *)
Definition missed (S : sched) (h : list rev) (now : Z) : gset string :=
  list_to_set (map fst (filter (fun p =>
    match last_by_tag h p.1 with
    | Some l => (l >? now - i_interval p.2)%Z
    | None => false
    end = false) S)).
(** schedule.py:80-97 [next]; the clock is read up to three times. *)
Definition next (fl : Q -> Q) (S : sched) (h : list rev) (relative spread now1 now2 now3 : Z) : res (Z * gset string) :=
  res_bind (next_ideal fl S relative spread) (fun p =>
  let ms := missed S h now1 in
  if negb (bool_decide (ms = ∅)) && negb (bool_decide (h = [])) && (p.1 >? now2 + 300000000)%Z
  then Ok (now3, ms)
  else Ok (p.1, p.2 ∪ ms)).

(** ** Service level (repository.py:104-125) *)
Fixpoint min_list (l : list Z) : option Z :=
  match l with
  | [] => None
  | x :: l => match min_list l with Some y => Some (Z.min x y) | None => Some x end
  end.
(** In microseconds; 0 when not overdue.  [max_age * 1.5] is exact for whole
    seconds. *)
Definition sla_overdue (S : sched) (h : list rev) (now : Z) : res Z :=
  match last (get_history true false h) with
  | None => Ok 0%Z
  | Some r =>
      let age := (now - r_ts r)%Z in
      match min_list (map (fun p => i_interval p.2) S) with
      | None => Err ValueError
      | Some max_age => if (2 * age >? 3 * max_age)%Z then Ok age else Ok 0%Z
      end
  end.
Definition sla (S : sched) (h : list rev) (now : Z) : res bool :=
  res_bind (sla_overdue S h now) (fun x => Ok (x =? 0)%Z).

(** ** Display (schedule.py:171-180) *)
Definition interval_of (S : sched) (t : string) : Z :=
  match list_find (fun p => p.1 = t) S with Some (_, p) => i_interval p.2 | None => 0%Z end.
(** [tags] without repetitions, in the order of the first occurrences. *)
Fixpoint dedup (seen l : list string) : list string :=
  match l with
  | [] => []
  | t :: l => if decide (t ∈ seen) then dedup seen l else t :: dedup (t :: seen) l
  end.
Definition sorted_tags (S : sched) (tags : list string) : list string :=
  isort (fun a b => (interval_of S a <=? interval_of S b)%Z) (dedup [] tags).
