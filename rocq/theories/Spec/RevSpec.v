(** What a revision specification means (doc/man-backy.rst:143-192), as a syntax
    tree with a meaning, and how it is written down.  Only [py_int] (which
    strings are integers) and [strip] are shared with the model. *)
From Verif Require Export Model.RevSpec.

Inductive fname := First | Last | Not | Reverse.
Inductive expr :=
| EWord (w : string)              (* a key word, prefix, number or id *)
| ERange (a b : endp)             (* a..b *)
| EGroup (e : expr)               (* ( e ) *)
| EFn (f : fname) (e : expr)      (* f ( e ) *)
| EAnd (l r : expr)               (* l & r *)
| EOr (l r : expr)                (* l , r *)
with endp :=
| POmit
| PWord (w : string)
| PFn (newest : bool) (e : expr). (* first( e ) or last( e ) *)

(** ** Writing *)
Definition fn_name (f : fname) : string :=
  match f with First => "first" | Last => "last" | Not => "not" | Reverse => "reverse" end.
Fixpoint render (e : expr) : list string :=
  match e with
  | EWord w => [w]
  | ERange a b => render_end a ++ [".."] ++ render_end b
  | EGroup e => "(" :: render e ++ [")"]
  | EFn f e => fn_name f :: "(" :: render e ++ [")"]
  | EAnd l r => render l ++ ["&"] ++ render r
  | EOr l r => render l ++ [","] ++ render r
  end
with render_end (p : endp) : list string :=
  match p with
  | POmit => []
  | PWord w => [w]
  | PFn n e => (if n then "last" else "first") :: "(" :: render e ++ [")"]
  end.

(** Words as the tokenizer makes them; "," binds weakest, then "&". *)
Definition word_ok (w : string) : Prop :=
  w <> "" /\ strip w = w /\ w <> "(" /\ w <> ")" /\ w <> "," /\ w <> "&" /\ w <> "..".
Definition level (e : expr) : nat :=
  match e with EOr _ _ => 2 | EAnd _ _ => 1 | _ => 0 end.
Section Wf.
Context (is_date : string -> Prop).
Fixpoint wf (e : expr) : Prop :=
  match e with
  | EWord w => word_ok w
  | ERange a b => wf_end a /\ wf_end b
  | EGroup e | EFn _ e => wf e
  | EAnd l r => level l = 0 /\ level r <= 1 /\ wf l /\ wf r
  | EOr l r => level l <= 1 /\ wf l /\ wf r
  end
with wf_end (p : endp) : Prop :=
  match p with
  | POmit => True
  | PWord w => word_ok w /\ ~ is_date w
  | PFn _ e => wf e
  end.
End Wf.

(** ** Meaning, relative to the history [H], oldest first *)
Section Den.
Context (H : list rev).

(** A number counts back from the newest; a full id; last, latest, first. *)
Definition nth_newest (n : Z) : option rev :=
  if decide (0 <= n < zlen H)%Z then reverse H !! Z.to_nat n else None.
Definition with_id (w : string) : option rev := head (filter (fun r => r_uuid r = w) H).
Definition keyword (w : string) : option rev :=
  if decide (w = "last" \/ w = "latest") then last H
  else if decide (w = "first") then head H else None.
Definition single (w : string) : option rev :=
  match py_int w with
  | Some n =>
      if decide (n < 0)%Z then None
      else match nth_newest n with
           | Some r => Some r
           | None => with_id w         (* an id may consist of digits *)
           end
  | None =>
      match with_id w with Some r => Some r | None => keyword w end
  end.

Definition trust_named (t : Trust) : string :=
  match t with TRUSTED => "trusted" | DISTRUSTED => "distrusted" | VERIFIED => "verified" end.
(** What a word selects; the cases exclude each other. *)
Definition selects (w : string) (l : list rev) : Prop :=
  (exists x, w = ("server:" ++ x)%string /\ l = filter (fun r => r_server r = x) H) \/
  (exists x, w = ("tag:" ++ x)%string /\ l = filter (fun r => x ∈ r_tags r) H) \/
  (exists x t, w = ("trust:" ++ x)%string /\ lower x = trust_named t /\
     l = filter (fun r => r_trust r = t) H) \/
  (w = "all" /\ l = H) \/
  (w = "clean" /\ l = filter (fun r => is_Some (s_duration (r_stats r))) H) \/
  (w = "local" /\ l = filter (fun r => r_server r = "") H) \/
  (w = "remote" /\ l = filter (fun r => r_server r <> "") H) \/
  ((forall x, w <> ("server:" ++ x)%string /\ w <> ("tag:" ++ x)%string /\ w <> ("trust:" ++ x)%string) /\
   w <> "all" /\ w <> "clean" /\ w <> "local" /\ w <> "remote" /\
   exists r, single w = Some r /\ l = [r]).

(** From the one position to the other, inclusively, in either order. *)
Definition between (a b : rev) (l : list rev) : Prop :=
  exists i j, H !! i = Some a /\ H !! j = Some b /\
    l = take (Nat.max i j - Nat.min i j + 1) (drop (Nat.min i j) H).

Inductive den : expr -> list rev -> Prop :=
| den_word w l : selects w l -> den (EWord w) l
| den_range a b x y l :
    den_end a (head H) x -> den_end b (last H) y -> between x y l -> den (ERange a b) l
| den_group e l : den e l -> den (EGroup e) l
| den_first e l r : den e l -> head l = Some r -> den (EFn First e) [r]
| den_last e l r : den e l -> last l = Some r -> den (EFn Last e) [r]
| den_not e l : den e l -> den (EFn Not e) (filter (fun r => r ∉ l) H)
| den_reverse e l : den e l -> den (EFn Reverse e) (reverse l)
| den_and e1 e2 l1 l2 :
    den e1 l1 -> den e2 l2 -> den (EAnd e1 e2) (filter (fun r => r ∈ l2) l1)
| den_or e1 e2 l1 l2 :
    den e1 l1 -> den e2 l2 -> den (EOr e1 e2) (l1 ++ filter (fun r => r ∉ l1) l2)
with den_end : endp -> option rev -> rev -> Prop :=
| den_omit d r : d = Some r -> den_end POmit d r
| den_pword w d r : single w = Some r -> den_end (PWord w) d r
| den_pfn (n : bool) e d l r :
    den e l -> (if n then last l else head l) = Some r -> den_end (PFn n e) d r.
End Den.

(** ** Strings *)
(** A string writes a list of tokens down: every token with optional white
    space around it, words separated from each other by some other token. *)
Definition separator (t : string) : Prop := t ∈ ["("; ")"; ","; "&"; ".."].
Definition blank (s : string) : Prop := forall c, c ∈ chars s -> is_ws c = true.
(** A word that the tokenizer leaves in one piece. *)
Fixpoint no_dots (l : list ascii) : Prop :=
  match l with
  | [] => True
  | c :: l' => (c = "."%char -> exists d l'', l' = d :: l'' /\ d <> "."%char) /\ no_dots l'
  end.
Definition plain (w : string) : Prop :=
  w <> "" /\ strip w = w /\ (forall c, c ∈ chars w -> sep1 c = false) /\ no_dots (chars w).
Inductive writes : list string -> string -> Prop :=
| writes_nil s : blank s -> writes [] s
| writes_sep t ts pad s : separator t -> blank pad -> writes ts s ->
    writes (t :: ts) (pad ++ t ++ s)
| writes_last w pad s : plain w -> blank pad -> blank s -> writes [w] (pad ++ w ++ s)
| writes_word w t ts pad s : plain w -> separator t -> blank pad -> writes (t :: ts) s ->
    writes (w :: t :: ts) (pad ++ w ++ s).

(** ** Dates *)
Section Dates.
Context (H : list rev) (iso : string -> option Z).
(** The point in time an end of a range stands for: its date, or the time of
    its revision; when omitted, the time of the default. *)
Definition time_of (p : option string) (omitted : option rev) (t : Z) : Prop :=
  match p with
  | None => exists r, omitted = Some r /\ r_ts r = t
  | Some w =>
      iso w = Some t \/ (iso w = None /\ exists r, single H w = Some r /\ r_ts r = t)
  end.
End Dates.
