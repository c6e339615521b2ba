(** Creating the snapshot for a backup, through the Consul key-value store or
    directly (rbd/__init__.py:418-484).

    Modelled: the entries below "snapshot/", what the cleanup in the [finally] block
    does with each of them, and which exceptions leave the function.  The polling
    loop is Model/Timeout.v; here only its outcome matters. *)
From Verif Require Export Model.Base.

(** What a value decodes to: a request; a JSON document without usable "vm" or
    "snapshot" (with the exception that indexing it raises); not JSON. *)
Inductive kval :=
| KReq (vm snapshot : string)
| KOther (e : exn)
| KGarbage.

(** [dict] of the key-value store; other prefixes are never touched. *)
Notation kvstore := (gmap string kval).

(** rbd/__init__.py:459-484: the [for] loop of the [finally] block for the VM
    [vm].  [keys] is [list(consul.kv.find("snapshot/"))]; a key that has vanished
    since is skipped (462-463).  After deleting garbage (466-472) there is no
    [continue], so the undecoded string is indexed: TypeError. *)
Fixpoint cleanup (vm : string) (keys : list string) (kv : kvstore)
  : kvstore * res unit :=
  match keys with
  | [] => (kv, Ok tt)
  | key :: rest =>
      match kv !! key with
      | None => cleanup vm rest kv
      | Some KGarbage => (delete key kv, Err TypeError)
      | Some (KOther e) => (kv, Err e)
      | Some (KReq v snap) =>
          if bool_decide (v <> vm) then cleanup vm rest kv
          else if String.prefix "backy-" snap then cleanup vm rest (delete key kv)
          else cleanup vm rest kv
      end
  end.

(** rbd/__init__.py:423-484 create_snapshot with a Consul token and a VM name.
    [key] is the new random key; [tried] is how the [try] block ended: the snapshot
    appeared, or after the timeout it was created locally ([Ok]), or an exception;
    [others] is what other parties did to the store meanwhile. *)
Definition create_snapshot (vm name key : string) (tried : res unit)
    (others : kvstore -> kvstore) (keys : kvstore -> list string) (kv : kvstore)
  : kvstore * res unit :=
  let kv := others (<[key := KReq vm name]> kv) in
  match cleanup vm (keys kv) kv with
  | (kv, Ok _) => (kv, tried)
  | (kv, Err e) => (kv, Err e)
  end.
