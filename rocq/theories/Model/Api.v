(** The HTTP API of the daemon (daemon/api.py:38-250), its reconfiguration
    (daemon/__init__.py:241-256) and the processing of purge requests
    (daemon/__init__.py:309-329).

    Not modelled: aiohttp, JSON, the content of replies other than revisions,
    logging. *)
From Verif Require Export Model.Repo.

(** What requests can change.  [a_reload] counts reloads (Model/Daemon.v). *)
Record api := MkApi {
  a_dead : gmap string rst;      (* daemon.dead_repositories *)
  a_jobs : gmap string rst;      (* repositories of daemon.jobs *)
  a_run : gset string;           (* jobs with run_immediately set *)
  a_purge : gset string;         (* repositories with .purge_pending *)
  a_touch : list string;         (* repositories whose directory was touched *)
  a_reload : nat }.

(** The body of a PUT: a JSON object with or without the keys, or anything else (its
    evaluation raises some other exception: status 500). *)
Inductive body := BJson (old new : option (gset string)) | BOther.
(** api.py:52-67: the routes.  [RtNone]: no route matches. *)
Inductive route :=
| RtStatus (regex_ok : bool) | RtReload | RtJobs | RtRun (job : string) | RtBackups
| RtPurge (backup : string) | RtTouch (backup : string)
| RtRevs (backup : string) (only_clean : bool)
| RtTags (backup spec : string) (b : body) (autoremove : bool)
| RtNone.
(** A request; [q_auth] is its Authorization header. *)
Record request := MkReq { q_auth : option string; q_route : route }.
(** A response: the status code, and the revisions for [RtRevs]. *)
Record response := MkResp { p_status : Z; p_revs : list rev }.
Definition resp (code : Z) : response := MkResp code [].

(** api.py:122-135 [require_auth]: the name of the client, or [None] for 401.
    [starts] and [remove_prefix] are str.startswith and str.removeprefix. *)
Definition bearer : string := "Bearer ".
Definition auth (tokens : gmap string string) (q : request) : option string :=
  let token := default "" (q_auth q) in
  if negb (starts bearer token) then None
  else match tokens !! remove_prefix bearer token with
       | Some client => if bool_decide (client = "") then None else Some client
       | None => None
       end.

(** api.py:177-190 [get_backup] *)
Definition get_backup (name : string) (allow_active : bool) (a : api) : rst + Z :=
  match a_dead a !! name with
  | Some r => inl r
  | None => match a_jobs a !! name with
            | Some r => if allow_active then inl r else inr 403%Z
            | None => inr 404%Z
            end
  end.
Definition put_repo (name : string) (r : rst) (a : api) : api :=
  match a_dead a !! name with
  | Some _ => MkApi (<[name := r]> (a_dead a)) (a_jobs a) (a_run a) (a_purge a) (a_touch a) (a_reload a)
  | None => MkApi (a_dead a) (<[name := r]> (a_jobs a)) (a_run a) (a_purge a) (a_touch a) (a_reload a)
  end.

(** api.py:214-250 [put_tags].  [locked]: somebody else holds the repository's .backup
    lock.  The schedule of an inactive repository is empty
    (daemon/__init__.py:145-149) and force is set. *)
Definition put_tags (O : orders) (iso : string -> option Z) (locked : bool)
    (name spec : string) (b : body) (autoremove : bool) (a : api) : api * response :=
  match b with
  | BOther => (a, resp 500)
  | BJson (Some old) (Some new) =>
      match get_backup name false a with
      | inr code => (a, resp code)
      | inl r =>
          let r := (scan O r).1 in
          if locked then (put_repo name r a, resp 503)
          else match repo_tags O iso [] ASet spec new (Some old) autoremove true r with
               | (r, Ok true) => (put_repo name r a, resp 204)
               | (r, Ok false) => (put_repo name r a, resp 412)
               | (r, Err KeyError) => (put_repo name r a, resp 404)
               | (r, Err BlockingIOError) => (put_repo name r a, resp 503)
               | (r, Err _) => (put_repo name r a, resp 500)
               end
      end
  | BJson _ _ => (a, resp 400)
  end.

(** api.py:137-250: the handlers; 96-120 [log_conn] adds nothing. *)
Definition handler (O : orders) (iso : string -> option Z) (locked : bool) (rt : route) (a : api)
  : api * response :=
  match rt with
  | RtStatus ok => (a, resp (if ok then 200 else 500))
  | RtReload => (MkApi (a_dead a) (a_jobs a) (a_run a) (a_purge a) (a_touch a)
                   (Datatypes.S (a_reload a)), resp 204)
  | RtJobs | RtBackups => (a, resp 200)
  | RtRun j =>
      if bool_decide (is_Some (a_jobs a !! j))
      then (MkApi (a_dead a) (a_jobs a) ({[j]} ∪ a_run a) (a_purge a) (a_touch a) (a_reload a), resp 202)
      else (a, resp 404)
  | RtPurge n =>
      match get_backup n false a with
      | inl _ => (MkApi (a_dead a) (a_jobs a) (a_run a) ({[n]} ∪ a_purge a) (a_touch a) (a_reload a), resp 202)
      | inr code => (a, resp code)
      end
  | RtTouch n =>
      match get_backup n true a with
      | inl _ => (MkApi (a_dead a) (a_jobs a) (a_run a) (a_purge a) (n :: a_touch a) (a_reload a), resp 204)
      | inr code => (a, resp code)
      end
  | RtRevs n clean =>
      match get_backup n true a with
      | inl r => let r := (scan O r).1 in
                 (put_repo n r a, MkResp 200 (get_history clean true (rs_hist r)))
      | inr code => (a, resp code)
      end
  | RtTags n spec b autoremove => put_tags O iso locked n spec b autoremove a
  | RtNone => (a, resp 404)
  end.
(** api.py:49-51: the middlewares wrap every handler, also that for unknown routes. *)
Definition serve (tokens : gmap string string) (O : orders) (iso : string -> option Z) (locked : bool)
    (q : request) (a : api) : api * response :=
  match auth tokens q with
  | None => (a, resp 401)
  | Some _ => handler O iso locked (q_route q) a
  end.

(** ** Reconfiguring the API (daemon/__init__.py:225-256, api.py:77-96) *)
(** The daemon's configuration of the API and what the server uses.  [s_busy]: the
    server loop is inside [reconfigure], which waits whenever it starts or stops
    listening on an address. *)
Record srv := MkSrv {
  s_conf : gmap string string;      (* daemon.api_tokens *)
  s_tokens : gmap string string;    (* BackyAPI.tokens *)
  s_event : bool;                   (* reload_api *)
  s_busy : bool }.
Inductive srv_step : srv -> srv -> Prop :=
(* daemon/__init__.py:225-230: reload reads the configuration and sets the event *)
| ss_reload tokens s : srv_step s (MkSrv tokens (s_tokens s) true (s_busy s))
(* the loop wakes up and calls reconfigure, which first sets the tokens (api.py:81) *)
| ss_wake s : s_busy s = false -> s_event s = true ->
    srv_step s (MkSrv (s_conf s) (s_conf s) (s_event s) true)
(* reconfigure ends; then reload_api.clear() (daemon/__init__.py:253) *)
| ss_done s : s_busy s = true -> srv_step s (MkSrv (s_conf s) (s_tokens s) false false).
(** The server after its first reconfigure has begun (daemon/__init__.py:246-252). *)
Definition srv_init (tokens : gmap string string) : srv := MkSrv tokens tokens false true.

(** ** Purge requests (daemon/__init__.py:309-329) *)
(** A directory below base_dir. *)
Record pdir := MkPdir { pd_name : string; pd_dir : bool; pd_pending : bool }.
(** Job.run_gc (scheduler.py:302-304) needs Job.source, which only Job.configure sets
    (scheduler.py:36, 60-67); the Job made here is never configured. *)
Definition run_gc_of (configured : bool) (name : string) : res unit :=
  if configured then Ok tt else Err AttributeError.
(** One pass: the repositories purged, and how the pass ended. *)
Fixpoint purge_pass (jobs : gset string) (l : list pdir) : list string * res unit :=
  match l with
  | [] => ([], Ok tt)
  | c :: l =>
      if bool_decide (pd_name c ∈ jobs) || negb (pd_dir c) || negb (pd_pending c)
      then purge_pass jobs l
      else match run_gc_of false (pd_name c) with
           | Ok _ => let '(p, r) := purge_pass jobs l in (pd_name c :: p, r)
           | Err e => ([], Err e)      (* 327-328 *)
           end
  end.

(** ** Writing a job's configuration file (source.py:312-325) *)
(** [flushed] is how much of the new text has reached the temporary file when it is
    compared: SafeFile.write does not flush.  utils.py:108-131: on an exception the
    temporary file is removed. *)
Definition store_config (new : bytes) (flushed : nat) (old : option bytes) : option bytes * res unit :=
  match old with
  | Some c => if decide (c = take flushed new) then (Some c, Err ValueError) else (Some new, Ok tt)
  | None => (Some new, Ok tt)
  end.
