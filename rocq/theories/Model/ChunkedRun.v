(** Driving the modelled File through its public methods. *)
From Verif Require Export Model.Chunked Spec.FlatFile.

Section Run.
Context (E : env).

Definition of_from (wh : from) : whence :=
  match wh with FromStart => SEEK_SET | FromHere => SEEK_CUR | FromEnd => SEEK_END end.

Definition mmap {A B} (f : A -> B) (m : M fst_ A) : M fst_ B :=
  bind m (fun a => ret (f a)).

(** One public method call on a chunked file (file.py). *)
Definition file_step (o : fop) : M fst_ fout :=
  match o with
  | OSeek off wh => mmap UPos (file_seek E off (of_from wh))
  | OWrite d => mmap (fun _ => UNone) (file_write E d)
  | ORead n => mmap UData (file_read E n)
  | OTruncate => mmap (fun _ => UNone) (file_truncate E None)
  | OFlush => mmap (fun _ => UNone) (file_flush E)
  | OTell => mmap UPos file_tell
  | OClose => mmap (fun _ => UNone) (file_close E)
  end.

Fixpoint file_run (s : fst_) (ops : list fop) : fst_ * list (res fout) :=
  match ops with
  | [] => (s, [])
  | o :: ops =>
      let '(s1, r) := file_step o s in
      let '(s2, rs) := file_run s1 ops in (s2, r :: rs)
  end.
End Run.
