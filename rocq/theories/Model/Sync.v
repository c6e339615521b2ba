(** Metadata exchange with other backy servers: pulling and pushing
    (daemon/scheduler.py:359-500, the client in daemon/api.py:253-394).

    HTTP and JSON are in Model/Wire.v (C110).  Transporting a revision through [to_dict], JSON and
    [from_dict] returns the same revision (C26_metadata_roundtrip); the network only
    decides whether a request is executed and whether its reply arrives. *)
From Verif Require Export Model.Api.

(** Another server: its tokens, its file system's order, who else holds the lock, and
    the state of its API. *)
Record peer := MkPeer {
  pe_tokens : gmap string string;
  pe_O : orders;
  pe_iso : string -> option Z;
  pe_locked : bool;
  pe_api : api }.
(** What becomes of one request: executed and answered; executed, but the client sees
    the exception; not executed, the client sees the exception. *)
Inductive net := NReply | NLostReply (e : exn) | NLost (e : exn).
(** api.py:306-313: every request carries the token; raise_for_status. *)
Definition ask (token : string) (n : net) (rt : route) (P : peer) : peer * res response :=
  let run := serve (pe_tokens P) (pe_O P) (pe_iso P) (pe_locked P)
               (MkReq (Some ("Bearer " ++ token)%string) rt) (pe_api P) in
  let P' := MkPeer (pe_tokens P) (pe_O P) (pe_iso P) (pe_locked P) run.1 in
  match n with
  | NLost e => (P, Err e)
  | NLostReply e => (P', Err e)
  | NReply => (P', if (400 <=? p_status run.2)%Z then Err (ClientResponseError (p_status run.2)) else Ok run.2)
  end.

(** api.py:365-377 [get_revs]: what becomes of a revision of server [p]. *)
Definition mark (p : string) (r : rev) : rev :=
  MkRev (r_uuid r) (r_ts r) (r_stats r) (r_tags r) (r_tags r) (r_trust r) p.
(** scheduler.py:457-459: the requests of a pull; [name] is the repository. *)
Definition fetch (name p token : string) (n1 n2 : net) (P : peer) : peer * res (list rev) :=
  match ask token n1 (RtTouch name) P with
  | (P, Err e) => (P, Err e)
  | (P, Ok _) =>
      match ask token n2 (RtRevs name true) P with
      | (P, Err e) => (P, Err e)
      | (P, Ok a) => (P, Ok (map (mark p) (p_revs a)))
      end
  end.

(** scheduler.py:431-440 [remove_dead_peer] *)
Definition remove_dead (peers : list string) : M rst unit :=
  (let* s := get in
   mfor (rs_hist s) (fun r =>
     if negb (bool_decide (r_server r = "")) && bool_decide (r_server r ∉ peers)
     then rev_remove true r else ret tt))%M.
(** scheduler.py:480-500: the local part of a pull from [p]; it has no await, so it is
    atomic.  Two equal revisions may still give different dicts, as the order of
    list(self.tags) depends on the history of the set: [same_order] decides. *)
Definition pull_local (O : orders) (same_order : string -> bool) (p : string) (remote : list rev) : M rst unit :=
  (let* s := get in
   let local : gset string := list_to_set (map r_uuid (filter (fun r => r_server r = p) (rs_hist s))) in
   do_ mfor (o_set O (local ∖ list_to_set (map r_uuid remote))) (fun u =>
         let* s := get in
         let* r := lift (find_by_uuid (rs_hist s) u) in
         rev_remove true r);
   mfor remote (fun r =>
     if bool_decide (r_uuid r ∈ local) then
       let* s := get in
       let* x := lift (find_by_uuid (rs_hist s) (r_uuid r)) in
       if bool_decide (r = x) && same_order (r_uuid r) then ret tt else write_info r
     else write_info r))%M.
(** scheduler.py:453-500 [_pull_metadata_single] after the requests: whether there was an
    error. *)
Definition pull_single (O : orders) (same_order : string -> bool) (p : string) (reply : res (list rev)) : M rst bool :=
  match reply with
  | Ok l => (do_ pull_local O same_order p l; ret false)%M
  | Err (ClientResponseError c) =>
      (do_ pull_local O same_order p []; ret (negb (bool_decide (c = 404%Z \/ c = 403%Z))))%M
  | Err ClientConnectionError => ret true
  | Err ClientError => (do_ pull_local O same_order p []; ret true)%M
  | Err e => raise e
  end.
(** scheduler.py:429-450 [pull_metadata]: [remove_dead_peer] runs first (it has no await);
    [replies] are the peers in the order in which their replies arrive.  When one raises,
    so does the gather (the model stops there; the tasks of other peers may still go on).
    The number of errors is returned. *)
Fixpoint pull_all (O : orders) (same_order : string -> bool) (replies : list (string * res (list rev))) : M rst Z :=
  match replies with
  | [] => ret 0%Z
  | (p, a) :: l =>
      (let* e := pull_single O same_order p a in
       let* n := pull_all O same_order l in
       ret (n + if (e : bool) then 1 else 0)%Z)%M
  end.
Definition pull_metadata (O : orders) (same_order : string -> bool) (peers : list string)
    (replies : list (string * res (list rev))) : M rst Z :=
  (do_ remove_dead peers; pull_all O same_order replies)%M.

(** revision.py:130-132 [pending_changes] *)
Definition pending (r : rev) : bool :=
  negb (bool_decide (r_server r = "")) && negb (bool_decide (r_tags r = r_orig r)).
(** scheduler.py:361-364, 372-375: what is pushed. *)
Definition push_work (peers : list string) (h : list rev) : list rev :=
  filter (fun r => (pending r && bool_decide (r_server r ∈ peers)) = true) (get_history true false h).

(** This server and the others. *)
Record cluster := MkCluster { c_local : rst; c_peers : gmap string peer }.
Definition on_local {A} (m : M rst A) : M cluster A := fun c =>
  let '(s, a) := m (c_local c) in (MkCluster s (c_peers c), a).
Definition with_orig (t : gset string) (r : rev) : rev :=
  MkRev (r_uuid r) (r_ts r) (r_stats r) (r_tags r) t (r_trust r) (r_server r).
Definition is_client_error (e : exn) : bool :=
  match e with ClientResponseError _ | ClientConnectionError | ClientError => true | _ => false end.
(** scheduler.py:397-402: the local part for an accepted change. *)
Definition settle (r : rev) : M rst unit :=
  if bool_decide (r_tags r = ∅) then rev_remove true r
  else (do_ upd (with_orig (r_tags r) r); write_info (with_orig (r_tags r) r))%M.
(** scheduler.py:386-413, one revision: whether the peer accepted. *)
Definition push_one (name token : string) (n : net) (r : rev) : M cluster bool := fun c =>
  match c_peers c !! r_server r with
  | None => (c, Err KeyError)
  | Some P =>
      let '(P', a) := ask token n (RtTags name (r_uuid r) (BJson (Some (r_orig r)) (Some (r_tags r))) true) P in
      let c := MkCluster (c_local c) (<[r_server r := P']> (c_peers c)) in
      match a with
      | Ok _ =>
          on_local (do_ settle r; ret true)%M c
      | Err e => if is_client_error e then (c, Ok false) else (c, Err e)
      end
  end.
(** scheduler.py:415-427: the purge request to [p]; whether it was accepted. *)
Definition push_purge (name token : string) (n : net) (p : string) : M cluster bool := fun c =>
  match c_peers c !! p with
  | None => (c, Err KeyError)
  | Some P =>
      let '(P', a) := ask token n (RtPurge name) P in
      let c := MkCluster (c_local c) (<[p := P']> (c_peers c)) in
      match a with
      | Ok _ => (c, Ok true)
      | Err e => if is_client_error e then (c, Ok false) else (c, Err e)
      end
  end.
(** scheduler.py:358-427: the peers are served concurrently, one request at a time each,
    and everything between two awaits is about one revision: a push is a sequence of such
    steps.  [token] gives each peer's token.  The steps and whether they were accepted
    are returned. *)
Inductive push_step := PsTags (r : rev) (n : net) | PsPurge (p : string) (n : net).
Fixpoint push_run (name : string) (token : string -> string) (l : list push_step) : M cluster (list (push_step * bool)) :=
  match l with
  | [] => ret []
  | x :: l =>
      (let* b := match x with
                 | PsTags r n => push_one name (token (r_server r)) n r
                 | PsPurge p n => push_purge name (token p) n p
                 end in
       let* rest := push_run name token l in
       ret ((x, b) :: rest))%M
  end.
(** The revisions of a sequence of steps. *)
Definition pushed (l : list push_step) : list rev :=
  omap (fun x => match x with PsTags r _ => Some r | PsPurge _ _ => None end) l.
