(** [backy log] and [backy rev-parse] (cli/__init__.py:168-229): what they print.

    Left out: how dates, sizes and durations are put into words, and the layout of the
    table.  The cells of the table are "console markup" of the library rich (13.7:
    markup.py [_parse], [render]); left out of it: backslashes, names of emoji, blanks in
    closing tags, and which style a tag asks for (unknown ones do nothing). *)
From Verif Require Export Model.Sync.

(** ** Markup *)
(** The text of a tag after "[": as short as possible, begins with a small letter or one
    of "#/@" and has no "[". *)
Fixpoint tag_rest (l : list ascii) : option (list ascii * list ascii) :=
  match l with
  | [] => None
  | c :: l =>
      if bool_decide (c = "]"%char) then Some ([], l)
      else if bool_decide (c = "["%char) then None
      else match tag_rest l with Some (n, r) => Some (c :: n, r) | None => None end
  end.
Definition tag_first (c : ascii) : bool :=
  bool_decide (c ∈ ["#"; "/"; "@"]%char) || ((97 <=? N_of_ascii c)%N && (N_of_ascii c <=? 122)%N).
Definition tag_at (l : list ascii) : option (list ascii * list ascii) :=
  match l with
  | c :: l => if tag_first c
              then match tag_rest l with Some (n, r) => Some (c :: n, r) | None => None end
              else None
  | [] => None
  end.
(** "[/name]" closes the last tag of that name, "[/]" the last one. *)
Fixpoint close_tag (n : list ascii) (stack : list (list ascii)) : option (list (list ascii)) :=
  match stack with
  | [] => None
  | x :: stack =>
      if bool_decide (n = []) || bool_decide (n = x) then Some stack
      else match close_tag n stack with Some s => Some (x :: s) | None => None end
  end.
(** rich.markup.render: the text, without styles; closing what is not open raises
    (MarkupError). *)
Fixpoint render_go (fuel : nat) (l : list ascii) (stack : list (list ascii)) : res (list ascii) :=
  match fuel, l with
  | _, [] | Datatypes.O, _ => Ok []
  | Datatypes.S f, c :: l =>
      match (if bool_decide (c = "["%char) then tag_at l else None) with
      | None => res_bind (render_go f l stack) (fun x => Ok (c :: x))
      | Some (name, rest) =>
          match name with
          | "/"%char :: n =>
              match close_tag n stack with
              | None => Err ValueError
              | Some stack => render_go f rest stack
              end
          | _ => render_go f rest (name :: stack)
          end
      end
  end.
Definition render (s : string) : res string :=
  res_bind (render_go (length (chars s)) (chars s) []) (fun x => Ok (unchars x)).

(** ** backy log *)
(** [",".join] *)
Fixpoint commas (l : list string) : string :=
  match l with [] => "" | [w] => w | w :: l => w +:+ String "," (commas l) end.
(** cli/__init__.py:201-207 *)
Definition tags_cell (O : orders) (r : rev) : string :=
  if pending r then
    commas (map (fun t => "+[on green]" +:+ t +:+ "[/]") (o_set O (r_tags r ∖ r_orig r)) ++
            map (fun t => "-[on red]" +:+ t +:+ "[/]") (o_set O (r_orig r ∖ r_tags r)) ++
            o_set O (r_orig r ∩ r_tags r))
  else commas (o_set O (r_tags r)).
(** A row of the table; a duration of 0 is shown as none (195-199). *)
Record lrow := MkLrow { lr_date : Z; lr_id : string; lr_size : Z; lr_duration : option Z;
                        lr_tags : string; lr_trust : Trust; lr_server : string }.
Definition log_row (O : orders) (r : rev) : res lrow :=
  res_bind (render (r_uuid r)) (fun u =>
  res_bind (render (tags_cell O r)) (fun tags =>
  res_bind (render (if pending r then "[underline italic]" +:+ r_server r +:+ "[/]" else r_server r)) (fun srv =>
  Ok (MkLrow (r_ts r) u (s_bytes_written (r_stats r))
        (match s_duration (r_stats r) with Some d => if (d =? 0)%Z then None else Some d | None => None end)
        tags (r_trust r) srv)))).
Fixpoint log_rows (O : orders) (l : list rev) : res (list lrow) :=
  match l with
  | [] => Ok []
  | r :: l => res_bind (log_row O r) (fun x => res_bind (log_rows O l) (fun xs => Ok (x :: xs)))
  end.
(** cli/__init__.py:175-229 without --json: the rows, and the last line: the number of
    revisions and the size of their data. *)
Definition log_table (O : orders) (iso : string -> option Z) (spec : string) (h : list rev)
  : res (list lrow * nat * Z) :=
  res_bind (find_revisions h iso spec) (fun l =>
  res_bind (log_rows O l) (fun rows =>
  Ok (rows, length l, fold_left (fun n r => n + s_bytes_written (r_stats r))%Z l 0%Z))).
(** cli/__init__.py:168-173 rev_parse --uuid *)
Definition rev_parse (iso : string -> option Z) (spec : string) (h : list rev) : res (list string) :=
  res_bind (find_revisions h iso spec) (fun l => Ok (map r_uuid l)).
