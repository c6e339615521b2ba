(** Specification: a plain file is a byte string and a cursor.  Nothing here
    refers to chunks, hashes, caches or maps. *)
From Verif Require Export Model.Base.

Record flat := MkFlat {
  fl_data : bytes;
  fl_pos : Z;
  fl_r : bool;
  fl_w : bool;
  fl_closed : bool }.

Inductive from := FromStart | FromHere | FromEnd.

Inductive fop :=
| OSeek (off : Z) (wh : from)
| OWrite (data : bytes)
| ORead (n : Z)          (* -1: to the end *)
| OTruncate              (* at the cursor *)
| OFlush
| OTell
| OClose.

Inductive fout := UNone | UPos (z : Z) | UData (b : bytes).

(** Bytes [p, p+|d|) replaced by d; the result may be longer. *)
Definition overwrite (c : bytes) (p : Z) (d : bytes) : bytes :=
  ztake p c ++ d ++ zdrop (p + zlen d) c.

Definition flat_step (s : flat) (o : fop) : flat * res fout :=
  let 'MkFlat c p r w cl := s in
  if cl then (s, Err AssertionError) else
  match o with
  | OSeek off wh =>
      let q := match wh with
               | FromStart => off
               | FromHere => p + off
               | FromEnd => zlen c - off     (* backy counts backwards here *)
               end%Z in
      if (q <? 0)%Z then (s, Err ValueError)
      else if (q <=? zlen c)%Z then (MkFlat c q r w cl, Ok (UPos q))
      else if w then (* seeking past the end fills up with zeroes *)
        (MkFlat (c ++ zeros (q - zlen c)) q r w cl, Ok (UPos q))
      else (MkFlat c (zlen c) r w cl, Err AssertionError)
  | OWrite d =>
      if w then (MkFlat (overwrite c p d) (p + zlen d) r w cl, Ok UNone)
      else (s, Err AssertionError)
  | ORead n =>
      if r then
        let d := if (n =? -1)%Z then zdrop p c else ztake n (zdrop p c) in
        (MkFlat c (p + zlen d) r w cl, Ok (UData d))
      else (s, Err AssertionError)
  | OTruncate =>
      if w then (MkFlat (ztake p c) p r w cl, Ok UNone)
      else (s, Err AssertionError)
  | OFlush => if w then (s, Ok UNone) else (s, Err AssertionError)
  | OTell => (s, Ok (UPos p))
  | OClose => (MkFlat c p r w true, Ok UNone)
  end.

Fixpoint flat_run (s : flat) (ops : list fop) : flat * list (res fout) :=
  match ops with
  | [] => (s, [])
  | o :: ops =>
      let '(s1, r) := flat_step s o in
      let '(s2, rs) := flat_run s1 ops in (s2, r :: rs)
  end.

(** [read] is documented for sizes >= 0 and -1 ("everything"). *)
Definition op_ok (o : fop) : Prop :=
  match o with ORead n => (-1 <= n)%Z | _ => True end.
