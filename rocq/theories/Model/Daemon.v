(** The daemon: the loop of a job (daemon/scheduler.py:180-286), the decision to
    leave a backup to a peer (107-178), worker slots, and applying a configuration
    (daemon/__init__.py:70-174, 225-235).

    Not modelled: logging, status texts other than "stopped", the event loop (the
    code between two awaits is one step), YAML. *)
From Verif Require Export Model.Repo.

(** ** One run of a job (scheduler.py:238-286) *)
(** What the run consists of; each may raise. *)
Inductive jstep := JClean | JBackup | JScan | JPull | JExpire | JPush | JGc | JCallback.
Global Instance jstep_eq_dec : EqDecision jstep.
Proof. solve_decision. Defined.
(** How a step ends.  [JBackup] raises also when the subprocess returns non-zero
    (scheduler.py:293-295). *)
Inductive jout := JOk | JFail | JCancelled.
Global Instance jout_eq_dec : EqDecision jout.
Proof. solve_decision. Defined.
(** scheduler.py:238-266: [immediate] is what _wait_for_deadline returned, [leader]
    what _wait_for_leader returns (it raises nothing but CancelledError). *)
Definition run_steps (immediate leader : bool) : list jstep :=
  if negb immediate && leader then [JPull; JCallback]
  else [JClean; JBackup; JScan; JClean; JPull; JExpire; JPush; JGc; JCallback].
(** Performing them until one raises; [o i] is how the [i]-th ends. *)
Fixpoint perform (steps : list jstep) (o : nat -> jout) (i : nat) : list jstep * jout :=
  match steps with
  | [] => ([], JOk)
  | x :: rest =>
      match o i with
      | JOk => let '(p, r) := perform rest o (Datatypes.S i) in (x :: p, r)
      | r => ([x], r)
      end
  end.

(** ** The loop (scheduler.py:194-286) *)
(** Job.errors and Job.backoff (seconds) *)
Record jstate := MkJs { js_errors : Z; js_backoff : Z }.
(** scheduler.py:194-195 *)
Definition loop_start : jstate := MkJs 0 0.
(** scheduler.py:267-286; [None]: the loop ends (CancelledError is raised). *)
Definition run_ended (r : jout) (s : jstate) : option jstate :=
  match r with
  | JCancelled => None
  | JFail => let e := js_errors s + 1 in Some (MkJs e (Z.min (2 ^ e) (6 * 60) * 60))
  | JOk => Some (MkJs 0 0)
  end%Z.
(** scheduler.py:210-224: the time the job then waits for, in microseconds; [sched]
    is what Schedule.next returned, [now] the clock at 222. *)
Definition next_time (sched now : Z) (s : jstate) : Z :=
  if (js_errors s =? 0)%Z then sched else (now + js_backoff s * 1000000)%Z.
Fixpoint job_loop (runs : list jout) (s : jstate) : option jstate :=
  match runs with
  | [] => Some s
  | r :: runs => match run_ended r s with Some s => job_loop runs s | None => None end
  end.

(** ** Leaving the backup to a peer (scheduler.py:107-178) *)
(** The entries of a status reply that are read (daemon/__init__.py:332-384). *)
Record status := MkStatus {
  t_local_revs : Z;
  t_last : option Z;     (* last_time *)
  t_status : string;
  t_next : option Z }.   (* next_time *)
(** The reply to fetch_status; [RClient] is a ClientError, [ROther] any other
    exception. *)
Inductive reply := RStatus (l : list status) | RClient | ROther.
(** scheduler.py:121-135: the loop over the peers.  [None]: IndexError. *)
Fixpoint find_leader (l : list (string * reply)) (best : Z) (leader : option (string * status))
  : option (option (string * status)) :=
  match l with
  | [] => Some leader
  | (server, RClient) :: l | (server, ROther) :: l => find_leader l best leader
  | (server, RStatus []) :: l => None
  | (server, RStatus (st :: _)) :: l =>
      if (best <? t_local_revs st)%Z then find_leader l (t_local_revs st) (Some (server, st))
      else find_leader l best leader
  end.
(** What happens at one pause of 300 seconds (scheduler.py:162-170): the job is asked
    to run at once, or the leader's next reply. *)
Inductive pause := PRun | PReply (r : reply).
(** How the wait ends: a decision with the number of pauses it took, or still
    waiting when [l] is used up. *)
Inductive wait := Decided (b : bool) (pauses : nat) | Waiting.
(** scheduler.py:143-170; times in microseconds. *)
Fixpoint watch (next : Z) (res : status) (l : list pause) (n : nat) : wait :=
  let finished := match t_last res with
                  | Some t => (next - t <? 300 * 1000000)%Z
                  | None => false
                  end in
  let later := match t_next res with
               | Some t => (300 * 1000000 <? t - next)%Z
               | None => false
               end in
  if finished then Decided true n
  else if bool_decide (t_status res = "") then Decided false n
  else if later then Decided false n
  else match l with
       | [] => Waiting
       | PRun :: _ => Decided false (Datatypes.S n)
       | PReply (RStatus (r :: _)) :: l => watch next r l (Datatypes.S n)
       | PReply _ :: _ => Decided false (Datatypes.S n)   (* 168-170, 173-175 *)
       end.
(** scheduler.py:107-178 [_wait_for_leader], with [peers] in the order of the
    configuration; [local] is the number of complete local revisions. *)
Definition wait_for_leader (local next : Z) (peers : list (string * reply)) (l : list pause) : wait :=
  match find_leader peers local None with
  | None => Decided false 0                 (* 173-175 *)
  | Some None => Decided false 0            (* 139-140 *)
  | Some (Some (server, st)) =>
      if bool_decide (server = "") then Decided false 0 else watch next st l 0
  end.

(** ** Worker slots (scheduler.py:246-266, daemon/__init__.py:156-174) *)
(** A semaphore: the generation (how many times they were replaced) and whether it
    is the one for fast jobs. *)
Notation sem := (nat * bool)%type.
Record slots := MkSlots {
  sl_limits : list nat;                  (* limit of each generation, oldest first *)
  sl_value : gmap sem nat;               (* BoundedSemaphore._value *)
  sl_wait : list (nat * sem);            (* task, the semaphore it waits for *)
  sl_run : list (nat * sem) }.           (* tasks inside the "async with" block *)
Definition slots_init : slots := MkSlots [] ∅ [] [].
(** daemon/__init__.py:156-174 *)
Definition set_limit (limit : nat) (s : slots) : slots :=
  if bool_decide (last (sl_limits s) = Some limit) then s
  else let g := length (sl_limits s) in
       MkSlots (sl_limits s ++ [limit])
         (<[(g, false) := limit]> (<[(g, true) := limit]> (sl_value s))) (sl_wait s) (sl_run s).
(** One step of the event loop that concerns slots. *)
Inductive slot_step : slots -> slots -> Prop :=
| st_reload limit s : slot_step s (set_limit limit s)
(* scheduler.py:246-255: the current semaphore for the job's speed is looked up *)
| st_want j fast s :
    sl_limits s <> [] ->
    slot_step s (MkSlots (sl_limits s) (sl_value s)
                   ((j, ((length (sl_limits s) - 1)%nat, fast)) :: sl_wait s) (sl_run s))
(* acquire *)
| st_get a b w s v :
    sl_wait s = a ++ w :: b -> sl_value s !! w.2 = Some (Datatypes.S v) ->
    slot_step s (MkSlots (sl_limits s) (<[w.2 := v]> (sl_value s)) (a ++ b) (w :: sl_run s))
(* cancelled while waiting *)
| st_give_up a b w s :
    sl_wait s = a ++ w :: b ->
    slot_step s (MkSlots (sl_limits s) (sl_value s) (a ++ b) (sl_run s))
(* leaving the block: finished, failed or cancelled *)
| st_leave a b w s v :
    sl_run s = a ++ w :: b -> sl_value s !! w.2 = Some v ->
    slot_step s (MkSlots (sl_limits s) (<[w.2 := Datatypes.S v]> (sl_value s)) (sl_wait s) (a ++ b)).

(** ** Configuration (daemon/__init__.py:70-174) *)
(** A job's configuration; [None]: the key is missing. *)
Record jcfg := MkJcfg { c_schedule : option string; c_source : option string; c_rest : string }.
Global Instance jcfg_eq_dec : EqDecision jcfg.
Proof. solve_decision. Defined.
(** The configuration file: job and schedule sections are YAML mappings; the content
    of a schedule is a text here. *)
Record config := MkConfig {
  cf_jobs : list (string * jcfg);
  cf_schedules : list (string * string) }.
(** A Job object: last_config, _task (an id) and the Schedule object (an id) of its
    repository. *)
Record job := MkJob {
  j_last : option jcfg;
  j_task : option nat;
  j_sched : option nat }.
Inductive jev := EvStop (name : string) (task : nat) | EvStart (name : string) (task : nat).
Definition ev_name (e : jev) : string := match e with EvStop n _ | EvStart n _ => n end.
Record daemon := MkDaemon {
  dm_jobs : gmap string job;
  dm_dead : gset string;                 (* keys of dead_repositories *)
  dm_scheds : gmap string nat;           (* self.schedules *)
  dm_heap : gmap nat string;             (* content of the Schedule objects *)
  dm_next : nat;                         (* ids given out *)
  dm_alive : gset nat;                   (* tasks not cancelled *)
  dm_events : list jev }.
Definition daemon_init : daemon := MkDaemon ∅ ∅ ∅ ∅ 0 ∅ [].

(** daemon/__init__.py:103-110: schedules are updated in place when the name is
    known.  Schedule.configure is taken not to raise. *)
Fixpoint read_schedules (l : list (string * string)) (old : gmap string nat)
    (new : gmap string nat) (heap : gmap nat string) (nxt : nat)
  : gmap string nat * gmap nat string * nat :=
  match l with
  | [] => (new, heap, nxt)
  | (name, content) :: l =>
      match old !! name with
      | Some id => read_schedules l old (<[name := id]> new) (<[id := content]> heap) nxt
      | None => read_schedules l old (<[name := nxt]> new) (<[nxt := content]> heap)
                  (Datatypes.S nxt)
      end
  end.
Definition read_config (c : config) (d : daemon) : daemon :=
  let '(sc, heap, nxt) :=
    read_schedules (cf_schedules c) (dm_scheds d) ∅ (dm_heap d) (dm_next d) in
  MkDaemon (dm_jobs d) (dm_dead d) sc heap nxt (dm_alive d) (dm_events d).

(** scheduler.py:350-357 [stop] *)
Definition stop_job (name : string) (j : job) (d : daemon) : job * daemon :=
  match j_task j with
  | None => (j, d)
  | Some t => (MkJob (j_last j) None (j_sched j),
               MkDaemon (dm_jobs d) (dm_dead d) (dm_scheds d) (dm_heap d) (dm_next d)
                 (dm_alive d ∖ {[t]}) (dm_events d ++ [EvStop name t]))
  end.
(** scheduler.py:60-67 [configure]; [conn] is how Repository(...), connect() and
    source.store() end. *)
Definition configure_job (scheds : gmap string nat) (conn : res unit) (c : jcfg) (j : job) : res job :=
  match c_schedule c with
  | None => Err KeyError
  | Some s =>
      match scheds !! s with
      | None => Err KeyError
      | Some id =>
          match c_source c with
          | None => Err KeyError
          | Some _ => match conn with
                      | Ok _ => Ok (MkJob (Some c) (j_task j) (Some id))
                      | Err e => Err e
                      end
          end
      end
  end.
(** scheduler.py:343-348 [start] *)
Definition start_job (name : string) (j : job) (d : daemon) : daemon :=
  let t := dm_next d in
  MkDaemon (<[name := MkJob (j_last j) (Some t) (j_sched j)]> (dm_jobs d)) (dm_dead d)
    (dm_scheds d) (dm_heap d) (Datatypes.S t) ({[t]} ∪ dm_alive d) (dm_events d ++ [EvStart name t]).
Definition put_job (name : string) (j : job) (d : daemon) : daemon :=
  MkDaemon (<[name := j]> (dm_jobs d)) (dm_dead d) (dm_scheds d) (dm_heap d) (dm_next d)
    (dm_alive d) (dm_events d).
(** daemon/__init__.py:123-132: the first loop of [_apply_config]. *)
Definition apply_job (conn : string -> res unit) (name : string) (c : jcfg) (d : daemon) : daemon * res unit :=
  let j := default (MkJob None None None) (dm_jobs d !! name) in
  if bool_decide (j_last j = Some c) then (d, Ok tt)
  else let '(j, d) := stop_job name j d in
       match configure_job (dm_scheds d) (conn name) c j with
       | Err e => (put_job name j d, Err e)
       | Ok j => (start_job name j d, Ok tt)
       end.
Fixpoint apply_jobs (conn : string -> res unit) (l : list (string * jcfg)) (d : daemon) : daemon * res unit :=
  match l with
  | [] => (d, Ok tt)
  | (name, c) :: l => match apply_job conn name c d with
                      | (d, Ok _) => apply_jobs conn l d
                      | (d, Err e) => (d, Err e)
                      end
  end.
(** daemon/__init__.py:134-138: the second loop, over [list(self.jobs.items())]. *)
Fixpoint drop_jobs (keep : list string) (l : list (string * job)) (d : daemon) : daemon :=
  match l with
  | [] => d
  | (name, j) :: l =>
      if decide (name ∈ keep) then drop_jobs keep l d
      else let d := (stop_job name j d).2 in
           drop_jobs keep l
             (MkDaemon (delete name (dm_jobs d)) (dm_dead d) (dm_scheds d) (dm_heap d)
                (dm_next d) (dm_alive d) (dm_events d))
  end.
(** daemon/__init__.py:140-154: [dirs] is scandir(base_dir) with is_dir.  (Repository()
    raises nothing for a directory.) *)
Definition dead_repos (d : daemon) (dirs : list (string * bool)) : gset string :=
  list_to_set (map fst (filter (fun b => dm_jobs d !! b.1 = None /\ b.2 = true) dirs)).
Definition apply_config (conn : string -> res unit) (c : config) (dirs : list (string * bool))
    (d : daemon) : daemon * res unit :=
  match apply_jobs conn (cf_jobs c) d with
  | (d, Err e) => (d, Err e)
  | (d, Ok _) =>
      let d := drop_jobs (map fst (cf_jobs c)) (map_to_list (dm_jobs d)) d in
      (MkDaemon (dm_jobs d) (dead_repos d dirs) (dm_scheds d) (dm_heap d) (dm_next d)
         (dm_alive d) (dm_events d), Ok tt)
  end.
(** daemon/__init__.py:225-235 [reload]: an exception terminates the daemon, which
    cancels every task (258-272). *)
Definition reload (conn : string -> res unit) (c : config) (dirs : list (string * bool))
    (d : daemon) : daemon * res unit :=
  match apply_config conn c dirs (read_config c d) with
  | (d, Ok _) => (d, Ok tt)
  | (d, Err e) => (MkDaemon (dm_jobs d) (dm_dead d) (dm_scheds d) (dm_heap d) (dm_next d)
                     ∅ (dm_events d), Err e)
  end.
