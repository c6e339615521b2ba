(** The settings of the daemon's configuration file (daemon/__init__.py:68-120) and the
    loop that keeps the API server in line with them (daemon/__init__.py:225-256,
    api.py:68-96).

    Not modelled: YAML, [int] of something that is not a number, the schedules and jobs
    (Model/Daemon.v), aiohttp below [TCPSite.start] and [TCPSite.stop]. *)
From stdpp Require Export pretty.
From Verif Require Export Model.RevSpec.

(** The sections global and api of the file; [None]: the key is missing. *)
Record gfile := MkGfile {
  gf_limit : option Z; gf_base : option string; gf_callback : option string;
  gf_addrs : option string; gf_port : option Z; gf_tokens : option (gmap string string);
  gf_url : option string; gf_token : option string }.   (* api: cli-default *)
(** The attributes of BackyDaemon made of them (34-41). *)
Record settings := MkSettings {
  st_limit : Z; st_base : string; st_callback : option string;
  st_addrs : list string; st_port : Z; st_tokens : gmap string string;
  st_url : option string; st_token : option string }.

(** [str.split(",")]; [cur]: the current piece, reversed. *)
Fixpoint split_comma (cur l : list ascii) : list (list ascii) :=
  match l with
  | [] => [reverse cur]
  | c :: l => if Ascii.eqb c "," then reverse cur :: split_comma [] l else split_comma (c :: cur) l
  end.
(** 87-89. *)
Definition parse_addrs (s : string) : list string :=
  map (fun l => unchars (strip_chars l)) (split_comma [] (chars s)).
(** 74-101.  [old] are the attributes before; the defaults are those of the class
    ([type(self)]), not [old].  Path(None) raises TypeError.  The port is printed in
    decimal. *)
Definition read_global (f : gfile) (old : option settings) : res settings :=
  let limit := default 1%Z (gf_limit f) in
  match gf_base f with
  | None => Err TypeError
  | Some base =>
      let callback := match gf_callback f with Some c => if String.eqb c "" then None else Some c | None => None end in
      let addrs := parse_addrs (default "::1, 127.0.0.1" (gf_addrs f)) in
      let port := default 6023%Z (gf_port f) in
      let url :=
        if bool_decide (addrs <> []) && bool_decide (port <> 0%Z) && bool_decide (gf_url f = None)
        then Some ("http://" +:+ hd "" addrs +:+ ":" +:+ pretty port) else gf_url f in
      Ok (MkSettings limit base callback addrs port (default ∅ (gf_tokens f)) url (gf_token f))
  end.

(** ** The server loop *)
Notation bind_addr := (string * Z)%type.
(** api.py:82. *)
Definition binds (c : settings) : list bind_addr :=
  if bool_decide (st_port c = 0%Z) then []
  else map (fun a => (a, st_port c)) (filter (fun a => a <> "") (st_addrs c)).
(** Where api_server_loop is: before its first reconfigure; waiting for [reload_api]; in
    one of the loops of [reconfigure], with what is still to do and [bind_addrs]; ended by
    an exception. *)
Inductive where_ := Starting | Waiting | Adding (todo bs : list bind_addr)
  | Removing (todo bs : list bind_addr) | Dead.
(** [v_conf]: the daemon's attributes; [v_event]: reload_api; [v_tokens], [v_sites]: those of
    BackyAPI.  (An address whose [start] failed stays in [sites], but then the loop has
    ended and nobody looks at it again; it is left out.) *)
Record server := MkServer {
  v_conf : settings; v_event : bool; v_tokens : gmap string string;
  v_sites : list bind_addr; v_at : where_ }.
(** daemon/__init__.py:225-231: a reload, at any time. *)
Definition reload_server (c : settings) (s : server) : server :=
  MkServer c true (v_tokens s) (v_sites s) (v_at s).
(** 250-252, api.py:80-82. *)
Definition begin (s : server) : server :=
  MkServer (v_conf s) (v_event s) (st_tokens (v_conf s)) (v_sites s) (Adding (binds (v_conf s)) (binds (v_conf s))).
Definition at_ (p : where_) (s : server) : server := MkServer (v_conf s) (v_event s) (v_tokens s) (v_sites s) p.
Definition with_sites (l : list bind_addr) (s : server) : server :=
  MkServer (v_conf s) (v_event s) (v_tokens s) l (v_at s).
(** What the loop does by itself. *)
Inductive own : server -> server -> Prop :=
(* daemon/__init__.py:246-250 *)
| own_start s : v_at s = Starting -> own s (begin s)
(* 254 *)
| own_wake s : v_at s = Waiting -> v_event s = true -> own s (begin s)
(* api.py:83-85 *)
| own_known s b l bs : v_at s = Adding (b :: l) bs -> b ∈ v_sites s -> own s (at_ (Adding l bs) s)
(* 86-90 *)
| own_listen s b l bs : v_at s = Adding (b :: l) bs -> b ∉ v_sites s ->
    own s (at_ (Adding l bs) (with_sites (v_sites s ++ [b]) s))
(* 89: the address cannot be bound; daemon/__init__.py:255-256 *)
| own_fail s b l bs : v_at s = Adding (b :: l) bs -> b ∉ v_sites s -> own s (at_ Dead s)
(* api.py:91 *)
| own_added s bs : v_at s = Adding [] bs -> own s (at_ (Removing (v_sites s) bs) s)
(* 92-93 *)
| own_keep s b l bs : v_at s = Removing (b :: l) bs -> b ∈ bs -> own s (at_ (Removing l bs) s)
(* 94-96 *)
| own_stop s b l bs : v_at s = Removing (b :: l) bs -> b ∉ bs ->
    own s (at_ (Removing l bs) (with_sites (filter (fun x => x <> b) (v_sites s)) s))
(* daemon/__init__.py:253 *)
| own_done s bs : v_at s = Removing [] bs ->
    own s (MkServer (v_conf s) false (v_tokens s) (v_sites s) Waiting).
(** When the daemon starts (daemon/__init__.py:185-223, 237-247, 421; api.py:45-48, 68-71). *)
Definition server_init (c : settings) : server := MkServer c false ∅ [] Starting.
