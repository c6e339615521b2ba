(** Mapping a snapshot as a block device to read it (rbd/rbd.py:71-116, 153-161). *)
From Verif Require Export Model.Base.

(** One entry of "rbd showmapped": a JSON object with text values. *)
Notation mapping := (gmap string string).
(** What "rbd showmapped --format=json" prints for the devices that are mapped: a list
    since Nautilus, before that an object whose values are the entries (keys are
    numbers). *)
Inductive mappings := MList (l : list mapping) | MDict (l : list mapping).

(** rbd.py:75, 83 ["{pool}/{name}@{snap}".format( **mapping)] *)
Definition spec_of (x : mapping) : res string :=
  match x !! "pool", x !! "name", x !! "snap" with
  | Some p, Some n, Some s => Ok (p +:+ "/" +:+ n +:+ "@" +:+ s)
  | _, _, _ => Err KeyError
  end.
(** rbd.py:74-77, 82-85 *)
Fixpoint search (image : string) (l : list mapping) : res mapping :=
  match l with
  | [] => Err RuntimeError
  | x :: l => res_bind (spec_of x) (fun s => if bool_decide (image = s) then Ok x else search image l)
  end.
(** rbd.py:72-77; a list has no "values". *)
Definition pre_nautilus (image : string) (m : mappings) : res mapping :=
  match m with MDict l => search image l | MList _ => Err AttributeError end.
(** rbd.py:79-86; iterating over an object gives its keys, which are no mappings. *)
Definition since_nautilus (image : string) (m : mappings) : res mapping :=
  match m with
  | MList l => search image l
  | MDict [] => Err RuntimeError
  | MDict _ => Err TypeError
  end.
(** [sub in s] *)
Fixpoint contains (sub s : string) : bool :=
  String.prefix sub s || match s with EmptyString => false | String _ s => contains sub s end.
(** rbd.py:101-114 [scrub_mapping]; the deletion of further keys is left out. *)
Definition scrub (x : mapping) : res mapping :=
  if forallb (fun k => bool_decide (is_Some (x !! k))) ["pool"; "name"; "snap"; "device"] then Ok x
  else Err KeyError.

(** What the commands do.  The state is what the kernel has mapped; "rbd map" adds an
    entry, "rbd unmap" removes that of the device. *)
Record rbdenv := MkRbdEnv {
  rb_version : string;                        (* rbd --version *)
  rb_map : string -> list mapping -> res mapping;   (* rbd map: the new entry, or it fails *)
  rb_show : list mapping -> mappings;         (* rbd showmapped *)
  rb_open : string -> res unit;               (* open(device) *)
  rb_unmap : string -> res unit }.            (* rbd unmap *)
Section Map.
Context (R : rbdenv).
Definition do_map (image : string) : M (list mapping) unit := fun s =>
  match rb_map R image s with Ok x => (s ++ [x], Ok tt) | Err e => (s, Err e) end.
Definition do_unmap (dev : string) : M (list mapping) unit := fun s =>
  match rb_unmap R dev with
  | Ok _ => (filter (fun x => x !! "device" <> Some dev) s, Ok tt)
  | Err e => (s, Err e)
  end.
(** rbd.py:71-116 [map] *)
Definition rbd_map (image : string) : M (list mapping) mapping :=
  (do_ do_map image;
   let* s := get in
   let m := rb_show R s in
   let* x := lift (if contains "nautilus" (rb_version R) then since_nautilus image m
                   else if contains "luminous" (rb_version R) then pre_nautilus image m
                   else pre_nautilus image m) in
   lift (scrub x))%M.
(** rbd.py:153-161 [image_reader]; [body] is what is done with the open device. *)
Definition image_reader {A} (image : string) (body : string -> res A) : M (list mapping) A :=
  (let* x := rbd_map image in
   let dev := default "" (x !! "device") in
   do_ lift (rb_open R dev);
   let r := body dev in
   do_ do_unmap dev;                            (* finally *)
   lift r)%M.
End Map.
