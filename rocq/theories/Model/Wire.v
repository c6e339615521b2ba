(** What the servers send each other: JSON (utils.py:652-661, revision.py:83-128,
    daemon/api.py:32-35, 205-213, 325-377) and how requests end
    (daemon/api.py:296-320, aiohttp), and what that means for a run of a job
    (daemon/scheduler.py:238-286, 359-500).

    Simplifications: JSON is a tree of values (the text and its parser are taken to be
    inverse to each other; a key occurs once in an object); numbers are integers;
    [HReply] is the last reply after redirections. *)
From Verif Require Export Model.Sync Model.Daemon.

Inductive json :=
| JNull | JBool (b : bool) | JNum (z : Z) | JText (s : string)
| JList (l : list json) | JObj (l : list (string * json)).

(** ** Encoding *)
Section Wire.
(** datetime.isoformat and datetime.fromisoformat: instant and offset. *)
Context (iso_text : Z -> Z -> string) (iso : string -> option (Z * Z)).
Definition entry {A} (k : string) (f : A -> json) (o : option A) : list (string * json) :=
  match o with Some x => [(k, f x)] | None => [] end.
(** utils.py:656-657: datetimes. *)
Definition enc_ts (y : yts) : json :=
  match y with YTime i o => JText (iso_text i o) | YText s => JText s end.
Definition enc_texts (l : list string) : json := JList (map JText l).
(** [Revision.stats] is a dict. *)
Definition enc_stats (x : stats) : json :=
  JObj (entry "bytes_written" JNum (Some (s_bytes_written x)) ++ entry "duration" JNum (s_duration x) ++
        entry "ceph-verification" JText (s_verification x)).
(** revision.py:114-128 and utils.py:654-655. *)
Definition enc_meta (m : meta) : json :=
  JObj (entry "uuid" JText (m_uuid m) ++ entry "timestamp" enc_ts (m_ts m) ++
        entry "parent" JText (m_parent m) ++ entry "stats" enc_stats (m_stats m) ++
        entry "trust" JText (m_trust m) ++ entry "tags" enc_texts (m_tags m) ++
        entry "orig_tags" enc_texts (m_orig m) ++ entry "server" JText (m_server m)).
(** api.py:205-213 [get_revs] with [to_json]: [h] is the history of the repository. *)
Definition enc_revs (O : orders) (h : list rev) (l : list rev) : json :=
  JList (map (fun r => enc_meta (to_dict O h r)) l).

(** ** Decoding (revision.py:83-95) *)
Definition field {A} (k : string) (dec : json -> res A) (l : list (string * json)) : res (option A) :=
  match alookup k l with
  | None => Ok None
  | Some j => res_bind (dec j) (fun x => Ok (Some x))
  end.
Definition dec_text (j : json) : res string := match j with JText s => Ok s | _ => Err TypeError end.
Definition dec_num (j : json) : res Z := match j with JNum z => Ok z | _ => Err TypeError end.
Fixpoint dec_all {A} (dec : json -> res A) (l : list json) : res (list A) :=
  match l with
  | [] => Ok []
  | j :: l => res_bind (dec j) (fun x => res_bind (dec_all dec l) (fun xs => Ok (x :: xs)))
  end.
(** [set(..)].  Simplification: anything but a list of texts is refused here (the code
    also takes other iterables). *)
Definition dec_texts (j : json) : res (list string) :=
  match j with JList l => dec_all dec_text l | _ => Err TypeError end.
(** Simplification: the code does not look at "stats" here; something else than a dict
    with these entries is refused (what the code does with it: Model/RawStats.v). *)
Definition dec_stats (j : json) : res stats :=
  match j with
  | JObj l =>
      res_bind (field "bytes_written" dec_num l) (fun b =>
      res_bind (field "duration" dec_num l) (fun d =>
      res_bind (field "ceph-verification" dec_text l) (fun v => Ok (MkStats (default 0%Z b) d v))))
  | _ => Err TypeError
  end.
(** revision.py:85-88: a text, otherwise it has no [tzinfo]. *)
Definition dec_ts (j : json) : res yts := match j with JText s => Ok (YText s) | _ => Err AttributeError end.
(** Revision.from_dict of a JSON value.  Simplification: an identifier that is not a text
    is refused here (the code refuses it a little later, when it makes a path of it). *)
Definition dec_rev (j : json) : res rev :=
  match j with
  | JObj l =>
      res_bind (field "timestamp" dec_ts l) (fun ts =>
      res_bind (field "uuid" dec_text l) (fun u =>
      res_bind (field "stats" dec_stats l) (fun st =>
      res_bind (field "tags" dec_texts l) (fun tags =>
      res_bind (field "orig_tags" dec_texts l) (fun orig =>
      res_bind (field "server" dec_text l) (fun srv =>
      res_bind (field "trust" dec_text l) (fun tr =>
      from_dict iso (MkMeta u ts None st tr tags orig srv))))))))
  | _ => Err TypeError
  end.
(** api.py:373: iterating over an object gives its keys, over a text its characters. *)
Definition dec_revs (j : json) : res (list rev) :=
  match j with
  | JList l => dec_all dec_rev l
  | JObj [] | JText "" => Ok []
  | _ => Err TypeError
  end.

(** ** Requests *)
(** How a request ends: no connection (also when it is not made within 10 seconds, or is
    lost), no complete reply within 30 seconds, a body that is cut off, or a reply with its
    status code, whether its content type is JSON, and its body ([None]: no JSON). *)
Inductive hreply :=
| HNone | HSlow | HCut | HReply (status : Z) (typed : bool) (body : option json).
(** api.py:308-314: [raise_for_status].  asyncio.TimeoutError is the built-in
    TimeoutError, an OSError, and no ClientError; ClientPayloadError is a ClientError. *)
Definition answered (h : hreply) : res (Z * bool * option json) :=
  match h with
  | HNone => Err ClientConnectionError
  | HSlow => Err OSError
  | HCut => Err ClientError
  | HReply c t b => if (400 <=? c)%Z then Err (ClientResponseError c) else Ok (c, t, b)
  end.
(** [response.json()]: ContentTypeError is a ClientResponseError, JSONDecodeError a
    ValueError. *)
Definition read_json (a : Z * bool * option json) : res json :=
  let '(c, t, b) := a in
  if negb t then Err (ClientResponseError c)
  else match b with Some j => Ok j | None => Err ValueError end.
(** api.py:365-377 [get_revs] *)
Definition get_revs (p : string) (h : hreply) : res (list rev) :=
  res_bind (answered h) (fun a => res_bind (read_json a) (fun j =>
  res_bind (dec_revs j) (fun l => Ok (map (mark p) l)))).
(** scheduler.py:457-459: touching, then asking. *)
Definition wire_fetch (p : string) (h1 h2 : hreply) : res (list rev) :=
  res_bind (answered h1) (fun _ => get_revs p h2).

(** What the server of a peer sends (api.py:32-35, 205-213): the response of
    Model/Api.v as it goes over the wire; [h]: the history the parents are looked up in. *)
Definition sent (O : orders) (h : list rev) (a : response) : hreply :=
  HReply (p_status a) true (Some (enc_revs O h (p_revs a))).

(** ** Changing tags: api.py:379-385 [put_tags] of the client, 214-222 of the server *)
Definition enc_tags (O : orders) (old new : gset string) : json :=
  JObj [("old_tags", enc_texts (o_set O old)); ("new_tags", enc_texts (o_set O new))].
Definition dec_body (b : option json) : body :=
  match b with
  | Some (JObj l) =>
      match field "old_tags" dec_texts l with
      | Err _ => BOther
      | Ok None => BJson None None
      | Ok (Some old) =>
          match field "new_tags" dec_texts l with
          | Err _ => BOther
          | Ok new => BJson (Some (list_to_set old)) (list_to_set <$> new)
          end
      end
  | _ => BOther
  end.

(** ** Status reports (daemon/__init__.py:332-384, api.py:136-143, 325-341) *)
Definition enc_time (o : option Z) : json := match o with Some t => JText (iso_text t 0) | None => JNull end.
Definition enc_status (st : status) : json :=
  JObj [("local_revs", JNum (t_local_revs st)); ("last_time", enc_time (t_last st));
        ("status", JText (t_status st)); ("next_time", enc_time (t_next st))].
(** api.py:331-340: what is empty stays; fromisoformat for a text. *)
Definition dec_time (j : json) : res (option Z) :=
  match j with
  | JNull | JBool false | JText "" | JNum 0 | JList [] | JObj [] => Ok None
  | JText s => match iso s with Some p => Ok (Some p.1) | None => Err ValueError end
  | _ => Err TypeError
  end.
Definition must {A} (x : res (option A)) : res A :=
  match x with Ok (Some a) => Ok a | Ok None => Err KeyError | Err e => Err e end.
(** Simplification: the other entries are looked at only later. *)
Definition dec_status (j : json) : res status :=
  match j with
  | JObj l =>
      res_bind (must (field "last_time" dec_time l)) (fun la =>
      res_bind (must (field "next_time" dec_time l)) (fun ne =>
      res_bind (must (field "local_revs" dec_num l)) (fun n =>
      res_bind (must (field "status" dec_text l)) (fun st => Ok (MkStatus n la st ne)))))
  | _ => Err TypeError
  end.
Definition fetch_status (h : hreply) : res (list status) :=
  res_bind (answered h) (fun a => res_bind (read_json a) (fun j =>
  match j with JList l => dec_all dec_status l | JObj [] | JText "" => Ok [] | _ => Err TypeError end)).

(** ** A run with peers (scheduler.py:238-286) *)
Definition ended {A} (x : res A) : jout := match x with Ok _ => JOk | Err _ => JFail end.
(** [own]: how the steps end that ask nobody. *)
Definition peer_run (immediate leader : bool) (own : nat -> jout) (pull push : jout) : list jstep * jout :=
  let steps := run_steps immediate leader in
  perform steps (fun i => match steps !! i with
                          | Some JPull => pull
                          | Some JPush => push
                          | _ => own i
                          end) 0.
(** The pull of such a run: [hs] gives for each peer, in the order in which they are
    done, how its two requests end. *)
Definition wire_pull (O : orders) (same : string -> bool) (peers : list string)
    (hs : list (string * (hreply * hreply))) : M rst Z :=
  pull_metadata O same peers (map (fun x => (x.1, wire_fetch x.1 x.2.1 x.2.2)) hs).
End Wire.
