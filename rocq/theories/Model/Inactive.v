(** Requests for repositories without a job (api.py:173-202, repository.py:224-231),
    over the base directory of Model/PurgeOld.v. *)
From Verif Require Export Model.PurgeOld.

(** api.py:173-175 [list_backups]: GET /v1/backups. *)
Definition api_backups (s : pdaemon) : list string := pd_dead s.

(** repository.py:227-228 [set_purge_pending]: pathlib's [touch] in the directory; a new
    entry changes the time of the directory.  Simplification: an existing ".purge_pending"
    is a file. *)
Definition pending_path (now : Z) (name : string) (base : list (string * node))
  : option (list (string * node)) :=
  match alookup name base with
  | Some (NDir t l) =>
      Some (aset name (match alookup ".purge_pending" l with
                       | Some _ => NDir t (aset ".purge_pending" (NFile now) l)
                       | None => NDir now (l ++ [(".purge_pending"%string, NFile now)])
                       end) base)
  | Some (NLink _) => Some base     (* it is written elsewhere *)
  | Some (NFile _) | None => None   (* NotADirectoryError, FileNotFoundError *)
  end.
(** api.py:192-196, 177-190: POST /v1/backups/name/purge; an exception is answered
    with 500 (aiohttp). *)
Definition api_purge (now : Z) (name : string) (s : pdaemon) : pdaemon * Z :=
  if bool_decide (name ∈ pd_dead s)
  then match pending_path now name (pd_base s) with
       | Some base => (MkPd base (pd_jobs s) (pd_dead s) (pd_up s), 202%Z)
       | None => (s, 500%Z)
       end
  else if bool_decide (name ∈ pd_jobs s) then (s, 403%Z) else (s, 404%Z).

(** Requests to purge, and what else can happen. *)
Inductive qevent :=
| QDo (e : pevent)
| QPurge (now : Z) (name : string).
Definition qstep (s : pdaemon) (e : qevent) : pdaemon :=
  match e with
  | QDo e => pstep s e
  | QPurge now name => if pd_up s then (api_purge now name s).1 else s
  end.
Definition qrun (es : list qevent) (s : pdaemon) : pdaemon := fold_left qstep es s.
