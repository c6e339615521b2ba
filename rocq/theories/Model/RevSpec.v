(** Looking up revisions: repository.py:372-553. *)
From Coq Require Export Strings.String Strings.Ascii.
From Verif Require Export Model.Revs.

(** ** Python strings *)
Notation chars := String.list_ascii_of_string.
Notation unchars := String.string_of_list_ascii.
Definition code (c : ascii) : N := Ascii.N_of_ascii c.
(** Characters that [str.strip] removes; only ASCII is modelled. *)
Definition is_ws (c : ascii) : bool :=
  (N.leb 9 (code c) && N.leb (code c) 13) || (N.leb 28 (code c) && N.leb (code c) 32).
Fixpoint lstrip (l : list ascii) : list ascii :=
  match l with
  | [] => []
  | c :: l' => if is_ws c then lstrip l' else l
  end.
Definition strip_chars (l : list ascii) : list ascii := reverse (lstrip (reverse (lstrip l))).
Definition strip (s : string) : string := unchars (strip_chars (chars s)).
(** [str.startswith], [str.removeprefix], [str.lower]. *)
Definition starts (p s : string) : bool := String.prefix p s.
Definition remove_prefix (p s : string) : string :=
  if starts p s then String.substring (String.length p) (String.length s - String.length p) s else s.
Definition lower_char (c : ascii) : ascii :=
  if N.leb 65 (code c) && N.leb (code c) 90 then Ascii.ascii_of_N (code c + 32) else c.
Definition lower (s : string) : string := unchars (map lower_char (chars s)).
(** [int(s)]: whitespace around, a sign, digits with single underscores between
    them.  (Not modelled: other than ASCII digits, the limit of 4300 digits.) *)
Definition digit (c : ascii) : option Z :=
  if N.leb 48 (code c) && N.leb (code c) 57 then Some (Z.of_N (code c - 48)) else None.
Fixpoint int_digits (acc : Z) (after_digit : bool) (l : list ascii) : option Z :=
  match l with
  | [] => if after_digit then Some acc else None
  | c :: l =>
      match digit c with
      | Some d => int_digits (10 * acc + d) true l
      | None => if Ascii.eqb c "_" && after_digit then int_digits acc false l else None
      end
  end.
Definition py_int (s : string) : option Z :=
  match strip_chars (chars s) with
  | [] => None
  | c :: l =>
      if Ascii.eqb c "-" then Z.opp <$> int_digits 0 false l
      else if Ascii.eqb c "+" then int_digits 0 false l
      else int_digits 0 false (c :: l)
  end.

(** ** Tokens (repository.py:379-386) *)
Definition sep1 (c : ascii) : bool :=
  Ascii.eqb c "(" || Ascii.eqb c ")" || Ascii.eqb c "," || Ascii.eqb c "&".
(** re.split with the separators as captured groups; [cur] is the current
    piece, reversed. *)
Fixpoint re_split (cur : list ascii) (s : list ascii) : list (list ascii) :=
  match s with
  | [] => [reverse cur]
  | c :: s' =>
      if sep1 c then reverse cur :: [c] :: re_split [] s'
      else match s' with
           | c2 :: s'' =>
               if Ascii.eqb c "." && Ascii.eqb c2 "."
               then reverse cur :: [c; c2] :: re_split [] s''
               else re_split (c :: cur) s'
           | [] => re_split (c :: cur) s'
           end
  end.
Definition tokenize (s : string) : list string :=
  map unchars (filter (fun l => l <> []) (map strip_chars (re_split [] (chars s)))).

(** Elements of the token list: a string, a revision or a list of revisions. *)
Inductive token := TStr (s : string) | TRev (r : rev) | TList (l : list rev).
(** [t == "("] and so on: only strings are equal to a string. *)
Definition is_str (w : string) (t : token) : bool :=
  match t with TStr s => bool_decide (s = w) | _ => false end.
Definition has (w : string) (l : list token) : bool := existsb (is_str w) l.

(** Split at the first occurrence ([list.index]). *)
Fixpoint split_first (w : string) (l : list token) : option (list token * list token) :=
  match l with
  | [] => None
  | t :: l =>
      if is_str w t then Some ([], l)
      else match split_first w l with
           | Some (a, b) => Some (t :: a, b)
           | None => None
           end
  end.
(** Split at the last occurrence ([list_rindex], utils.py:513-514). *)
Fixpoint split_last (w : string) (l : list token) : option (list token * list token) :=
  match l with
  | [] => None
  | t :: l =>
      match split_last w l with
      | Some (a, b) => Some (t :: a, b)
      | None => if is_str w t then Some ([], l) else None
      end
  end.
(** utils.py:531-538 [list_split]: res[-1] grows from the back. *)
Fixpoint list_split (w : string) (l : list token) : list (list token) :=
  match l with
  | [] => [[]]
  | t :: l =>
      match list_split w l with
      | [] => []
      | x :: rest => if is_str w t then [] :: x :: rest else (t :: x) :: rest
      end
  end.

(** utils.py:505-510.  Revision has no [__eq__]: equality is identity, and the
    revisions of a history have distinct uuids. *)
Fixpoint unique_from (seen l : list rev) : list rev :=
  match l with
  | [] => []
  | r :: l =>
      if bool_decide (r ∈ seen) then unique_from seen l
      else r :: unique_from (r :: seen) l
  end.
Definition unique (l : list rev) : list rev := unique_from [] l.
Definition duplicates (a b : list rev) : list rev := unique (filter (fun r => r ∈ b) a).

Section Lookup.
(** The history, and [datetime.fromisoformat] including the local time zone for
    dates without one: [None] is ValueError. *)
Context (H : list rev) (iso : string -> option Z).

(** repository.py:490-503 *)
Definition find_by_number (s : string) : res rev :=
  match py_int s with
  | None => Err ValueError
  | Some n =>
      if (n <? 0)%Z then Err KeyError
      else if (n <? zlen H)%Z then
        match H !! Z.to_nat (zlen H - n - 1) with Some r => Ok r | None => Err IndexError end
      else Err IndexError
  end.
(** repository.py:505-514 *)
Definition find_by_tag (s : string) : res rev :=
  if bool_decide (s = "last") || bool_decide (s = "latest") then
    match last H with Some r => Ok r | None => Err IndexError end
  else if bool_decide (s = "first") then
    match H with r :: _ => Ok r | [] => Err IndexError end
  else Err ValueError.
(** repository.py:516-524 *)
Definition find_by_uuid (s : string) : res rev :=
  match list_find (fun r => r_uuid r = s) H with
  | Some (_, r) => Ok r
  | None => Err IndexError
  end.
(** repository.py:532-553 [find]; [fn] is find_by_function. *)
Definition or_else {A} (r k : res A) : res A :=
  match r with Err ValueError | Err IndexError => k | _ => r end.
Definition find_with (fn : string -> res rev) (s : string) : res rev :=
  let s := strip s in
  if bool_decide (s = "") || bool_decide (H = []) then Err KeyError
  else or_else (find_by_number s)
        (or_else (find_by_uuid s)
          (or_else (find_by_tag s)
            (or_else (fn s) (Err KeyError)))).
(** [find] on a token of a specification: such a token contains no parenthesis
    ([tokenize]), so that find_by_function (526-530) raises ValueError. *)
Definition find_token (s : string) : res rev := find_with (fun _ => Err ValueError) s.

(** repository.py:463-488 [index_by_date], twice the index: the last revision
    not after the date and the first one not before it. *)
Definition date_left (date : Z) : Z :=
  match last (filter (fun x => (r_ts x.2 <= date)%Z) (imap (fun i r => (i, r)) H)) with
  | Some (i, _) => Z.of_nat i
  | None => (-1)%Z
  end.
Definition date_right (date : Z) : Z :=
  match filter (fun x => (r_ts x.2 >= date)%Z) (imap (fun i r => (i, r)) H) with
  | (i, _) :: _ => Z.of_nat i
  | [] => zlen H
  end.
Definition index2_by_date (s : string) : res (option Z) :=
  match iso s with
  | None => Ok None
  | Some date =>
      let l := date_left date in
      let r := date_right date in
      if ((0 <=? r - l) && (r - l <=? 1))%Z then Ok (Some (l + r)%Z) else Err AssertionError
  end.
(** [history.index(r)] *)
Definition index_of (r : rev) : res Z :=
  match list_find (fun x => x = r) H with
  | Some (i, _) => Ok (Z.of_nat i)
  | None => Err ValueError
  end.
(** repository.py:452-461 [index_by_token], doubled.  [a or b]: 0.0 is false. *)
Definition index2_by_token (t : token) : res Z :=
  match t with
  | TList _ => Err AssertionError
  | TRev r => res_bind (index_of r) (fun i => Ok (2 * i)%Z)
  | TStr s =>
      res_bind (index2_by_date s) (fun o =>
      let other := res_bind (find_token s) (fun r =>
                   res_bind (index_of r) (fun i => Ok (2 * i)%Z)) in
      match o with
      | Some i => if (i =? 0)%Z then other else Ok i
      | None => other
      end)
  end.
(** repository.py:420-425: history[ceil(min(a, b)) : floor(max(a, b)) + 1] *)
Definition eval_range (tokens : list token) : res (list rev) :=
  match list_split ".." tokens with
  | [ta; tb] =>
      if (1 <? length ta)%nat || (1 <? length tb)%nat then Err AssertionError
      else
        res_bind (index2_by_token (default (TStr "first") (head ta))) (fun a =>
        res_bind (index2_by_token (default (TStr "last") (head tb))) (fun b =>
        let lo := ((Z.min a b + 1) / 2)%Z in
        let hi := (Z.max a b / 2 + 1)%Z in
        Ok (ztake (hi - lo) (zdrop lo H))))
  | _ => Err ValueError
  end.

Definition trust_of (s : string) : option Trust :=
  if bool_decide (s = "trusted") then Some TRUSTED
  else if bool_decide (s = "distrusted") then Some DISTRUSTED
  else if bool_decide (s = "verified") then Some VERIFIED
  else None.
(** repository.py:432-450: a single string token. *)
Definition eval_word (w : string) : res (list rev) :=
  if starts "server:" w then
    Ok (filter (fun r => remove_prefix "server:" w = r_server r) H)
  else if starts "tag:" w then
    Ok (filter (fun r => remove_prefix "tag:" w ∈ r_tags r) H)
  else if starts "trust:" w then
    match trust_of (lower (remove_prefix "trust:" w)) with
    | None => Err ValueError
    | Some t => Ok (filter (fun r => t = r_trust r) H)
    end
  else if bool_decide (w = "all") then Ok H
  else if bool_decide (w = "clean") then Ok (get_history true false H)
  else if bool_decide (w = "local") then Ok (filter (fun r => "" = r_server r) H)
  else if bool_decide (w = "remote") then
    Ok (filter (fun r => r ∉ filter (fun r => "" = r_server r) H) H)
  else res_bind (find_token w) (fun r => Ok [r]).

(** repository.py:392-397: the functions. *)
Inductive func := FFirst | FLast | FNot | FReverse.
Definition func_of (w : string) : option func :=
  if bool_decide (w = "first") then Some FFirst
  else if bool_decide (w = "last") then Some FLast
  else if bool_decide (w = "not") then Some FNot
  else if bool_decide (w = "reverse") then Some FReverse
  else None.
Definition apply_func (f : func) (x : list rev) : res token :=
  match f with
  | FFirst => match x with r :: _ => Ok (TRev r) | [] => Err IndexError end
  | FLast => match last x with Some r => Ok (TRev r) | None => Err IndexError end
  | FNot => Ok (TList (filter (fun r => r ∉ x) H))
  | FReverse => Ok (TList (reverse x))
  end.
(** [prev and isinstance(prev[-1], str) and prev[-1] in functions] *)
Definition ends_with_func (prev : list token) : option (list token * func) :=
  match reverse prev with
  | TStr w :: rest =>
      match func_of w with Some f => Some (reverse rest, f) | None => None end
  | _ => None
  end.

(** repository.py:387-450 [find_revisions] on a token list.  Fuel: every
    recursive call has a shorter list. *)
Fixpoint find_tokens (fuel : nat) (tokens : list token) : res (list rev) :=
  match fuel with
  | 0 => Err OutOfFuel
  | S fuel =>
      if has "(" tokens && has ")" tokens then
        match split_last "(" tokens with
        | None => Err ValueError
        | Some (prev, rest) =>
            match split_first ")" rest with
            | None => Err ValueError
            | Some (middle, next) =>
                res_bind (find_tokens fuel middle) (fun x =>
                match ends_with_func prev with
                | Some (prev', f) =>
                    res_bind (apply_func f x) (fun v => find_tokens fuel (prev' ++ v :: next))
                | None => find_tokens fuel (prev ++ TList x :: next)
                end)
            end
        end
      else if has "," tokens then
        match split_first "," tokens with
        | None => Err ValueError
        | Some (a, b) =>
            res_bind (find_tokens fuel a) (fun x =>
            res_bind (find_tokens fuel b) (fun y => Ok (unique (x ++ y))))
        end
      else if has "&" tokens then
        match split_first "&" tokens with
        | None => Err ValueError
        | Some (a, b) =>
            res_bind (find_tokens fuel a) (fun x =>
            res_bind (find_tokens fuel b) (fun y => Ok (duplicates x y)))
        end
      else if has ".." tokens then eval_range tokens
      else match tokens with
           | [TRev r] => Ok [r]
           | [TList l] => Ok l
           | [TStr w] => eval_word w
           | _ => Err AssertionError
           end
  end.
(** [find_revisions] on a string. *)
Definition find_revisions (s : string) : res (list rev) :=
  let tokens := map TStr (tokenize s) in
  find_tokens (S (length tokens)) tokens.

(** repository.py:526-530: re.fullmatch(r"(\w+)\(.+\)") with group 1 "first" or
    "last".  \w+ cannot match a parenthesis, so group 1 is what precedes the
    first one; "." matches anything but a newline. *)
Definition fn_match (s : string) : bool :=
  let inner (p : string) :=
    starts p s &&
    (let rest := reverse (chars (remove_prefix p s)) in
     match rest with
     | c :: body => Ascii.eqb c ")" && bool_decide (body <> []) &&
         forallb (fun c => negb (N.eqb (code c) 10)) body
     | [] => false
     end) in
  inner "first("%string || inner "last("%string.
Definition find_by_function (s : string) : res rev :=
  if fn_match s then
    res_bind (find_revisions s) (fun l =>
      match l with r :: _ => Ok r | [] => Err IndexError end)
  else Err ValueError.
Definition find (s : string) : res rev := find_with find_by_function s.
End Lookup.
