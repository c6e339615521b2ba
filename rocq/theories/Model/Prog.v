(** Programs that use a file-like object only through its methods.  Python code
    that takes an [IO] argument (rbd.py integrate, utils.py copy, ...) is
    written once as such a program and can then be run against the modelled
    chunked file ([file_step]) or against a plain file ([flat_step]). *)
From Verif Require Export Model.Base Model.ChunkedRun Spec.FlatFile.

Inductive prog (A : Type) :=
| PRet (a : A)
| PRaise (e : exn)
| POp (o : fop) (k : fout -> prog A).
Arguments PRet {A} a.
Arguments PRaise {A} e.
Arguments POp {A} o k.

Fixpoint pbind {A B} (p : prog A) (k : A -> prog B) : prog B :=
  match p with
  | PRet a => k a
  | PRaise e => PRaise e
  | POp o f => POp o (fun x => pbind (f x) k)
  end.
Definition op (o : fop) : prog fout := POp o PRet.
(** A call whose result is ignored. *)
Definition do_op (o : fop) : prog unit := POp o (fun _ => PRet tt).
Definition pres {A} (r : res A) : prog A :=
  match r with Ok a => PRet a | Err e => PRaise e end.
Definition passert (b : bool) : prog unit :=
  if b then PRet tt else PRaise AssertionError.

Declare Scope p_scope.
Delimit Scope p_scope with P.
Notation "'let^' x ':=' m 'in' k" := (pbind m (fun x => k))
  (at level 200, x pattern, m at level 100, k at level 200) : p_scope.
Notation "'do^' m ; k" := (pbind m (fun _ => k))
  (at level 200, m at level 100, k at level 200) : p_scope.

(** Methods that return a position or data. *)
Definition p_tell : prog Z :=
  POp OTell (fun x => match x with UPos z => PRet z | _ => PRaise TypeError end).
Definition p_seek (o : Z) (wh : from) : prog Z :=
  POp (OSeek o wh) (fun x => match x with UPos z => PRet z | _ => PRaise TypeError end).
Definition p_read (n : Z) : prog bytes :=
  POp (ORead n) (fun x => match x with UData b => PRet b | _ => PRaise TypeError end).

(** Running a program against an object with state [S]. *)
Fixpoint interp {S A} (step : fop -> M S fout) (p : prog A) : M S A :=
  match p with
  | PRet a => ret a
  | PRaise e => raise e
  | POp o k => bind (step o) (fun x => interp step (k x))
  end.

Definition run_file {A} (E : env) (p : prog A) : M fst_ A := interp (file_step E) p.
Definition run_flat {A} (p : prog A) : M flat A :=
  interp (fun o s => flat_step s o) p.

(** [with File(name, store, mode) as f: p]: [__exit__] closes the file in any
    case (file.py:252-257); an exception of [close] replaces the one of the
    body. *)
Definition session {A} (E : env) (n : string) (r wr : bool) (p : prog A) (w : world)
  : world * res A :=
  match file_open n r wr false w with
  | Err e => (w, Err e)
  | Ok f =>
      let '((f1, w1), r1) := run_file E p (f, w) in
      let '((f2, w2), r2) := file_close E (f1, w1) in
      (w2, match r2 with Err e => Err e | Ok _ => r1 end)
  end.
