(** Common ground of all models: bytes, exceptions as values, the state monad
    with exceptions, and the few Python list/slice primitives that the code
    uses. *)
From Coq Require Export ZArith Lia.
From Coq.Strings Require Export Byte.
From stdpp Require Export prelude strings gmap sets list sorting.

(** Python [bytes] are lists of octets. *)
Notation byte := Coq.Init.Byte.byte.
Global Instance byte_eq_dec : EqDecision byte := Byte.byte_eq_dec.
Notation bytes := (list byte).
Definition zero_byte : byte := x00.

(** [n * b"\00"] (n <= 0 gives the empty string). *)
Definition zeros (n : Z) : bytes := replicate (Z.to_nat n) zero_byte.

(** Length of a Python sequence as an integer. *)
Definition zlen {A} (l : list A) : Z := Z.of_nat (length l).
(** [l[:n]] and [l[n:]] for n >= 0. *)
Definition ztake {A} (n : Z) (l : list A) : list A := take (Z.to_nat n) l.
Definition zdrop {A} (n : Z) (l : list A) : list A := drop (Z.to_nat n) l.

(** The Python exceptions that the modelled code can raise. *)
Inductive exn :=
| ValueError | AssertionError | KeyError | IndexError | TypeError
| RuntimeError | AttributeError | ZeroDivisionError
| FileNotFound | OSError | BlockingIOError
| BackendException | InconsistentHash   (* rbd/chunked/__init__.py:6-13 *)
| StructError                           (* struct.error *)
| TimeOutError
| NotImplementedError
| ClientResponseError (status : Z) | ClientConnectionError | ClientError
| OutOfFuel.                            (* model artefact, excluded by theorems *)
Global Instance exn_eq_dec : EqDecision exn.
Proof. solve_decision. Defined.

(** [except BackendException] also catches its subclass InconsistentHash
    (rbd/chunked/__init__.py:6-13). *)
Definition is_backend_exn (e : exn) : bool :=
  match e with BackendException | InconsistentHash => true | _ => false end.

Inductive res (A : Type) := Ok (a : A) | Err (e : exn).
Arguments Ok {A} a.
Arguments Err {A} e.

Definition res_bind {A B} (r : res A) (k : A -> res B) : res B :=
  match r with Ok a => k a | Err e => Err e end.
Definition is_ok {A} (r : res A) : bool :=
  match r with Ok _ => true | Err _ => false end.

(** State monad with exceptions: on an exception the state reached so far is
    kept, as in Python. *)
Definition M (S A : Type) := S -> S * res A.
Definition ret {S A} (a : A) : M S A := fun s => (s, Ok a).
Definition raise {S A} (e : exn) : M S A := fun s => (s, Err e).
Definition bind {S A B} (m : M S A) (k : A -> M S B) : M S B :=
  fun s => match m s with (s', Ok a) => k a s' | (s', Err e) => (s', Err e) end.
Definition get {S} : M S S := fun s => (s, Ok s).
Definition put {S} (s : S) : M S unit := fun _ => (s, Ok tt).
Definition modify {S} (f : S -> S) : M S unit := fun s => (f s, Ok tt).
Definition gets {S A} (f : S -> A) : M S A := fun s => (s, Ok (f s)).
Definition massert {S} (b : bool) (e : exn) : M S unit :=
  if b then ret tt else raise e.
Definition lift {S A} (r : res A) : M S A := fun s => (s, r).

Declare Scope m_scope.
Delimit Scope m_scope with M.
Notation "'let*' x ':=' m 'in' k" := (bind m (fun x => k))
  (at level 200, x pattern, m at level 100, k at level 200) : m_scope.
Notation "'do_' m ; k" := (bind m (fun _ => k))
  (at level 200, m at level 100, k at level 200) : m_scope.

(** [for x in l: body(x)] *)
Fixpoint mfor {S A} (l : list A) (body : A -> M S unit) : M S unit :=
  match l with
  | [] => ret tt
  | x :: l' => bind (body x) (fun _ => mfor l' body)
  end.

(** [list.sort(key=..)]: stable.  [le a b] decides "a may stay before b". *)
Fixpoint insert_by {A} (le : A -> A -> bool) (x : A) (l : list A) : list A :=
  match l with
  | [] => [x]
  | y :: l' => if le x y then x :: y :: l' else y :: insert_by le x l'
  end.
Fixpoint isort {A} (le : A -> A -> bool) (l : list A) : list A :=
  match l with
  | [] => []
  | x :: l' => insert_by le x (isort le l')
  end.

(** Association lists model insertion-ordered Python dicts. *)
Fixpoint alookup {K V} `{EqDecision K} (k : K) (l : list (K * V)) : option V :=
  match l with
  | [] => None
  | (k', v) :: l' => if decide (k = k') then Some v else alookup k l'
  end.
(** [d[k] = v]: replaces in place, or appends a new key at the end. *)
Fixpoint aset {K V} `{EqDecision K} (k : K) (v : V) (l : list (K * V))
  : list (K * V) :=
  match l with
  | [] => [(k, v)]
  | (k', v') :: l' =>
      if decide (k = k') then (k, v) :: l' else (k', v') :: aset k v l'
  end.
