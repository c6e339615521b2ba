(** C113: what "backy log" shows. *)
From Verif Require Import Proofs.BackupNc Proofs.RevSpecTok Proofs.RepoProofs.
From Verif Require Import Model.LogCmd Spec.Backup Props.PRepo Props.PBackup Proofs.ExEnv.
From Verif Require Import Model.RbdBackup.

(** ** Markup *)
Lemma tag_rest_shorter l : forall n r, tag_rest l = Some (n, r) -> (length r < length l)%nat.
Proof.
  induction l as [|c l IH]; intros n r; cbn [tag_rest]; [done|].
  destruct (bool_decide _); [intros [= _ <-]; cbn; lia|]. destruct (bool_decide _); [done|].
  destruct (tag_rest l) as [[n' r']|]; [|done]. intros [= _ <-]. specialize (IH _ _ eq_refl). cbn. lia.
Qed.
Lemma tag_at_shorter l n r : tag_at l = Some (n, r) -> (length r < length l)%nat.
Proof.
  destruct l as [|c l]; cbn [tag_at]; [done|]. destruct (tag_first c); [|done].
  destruct (tag_rest l) as [[n' r']|] eqn:E; [|done]. intros [= _ <-]. apply tag_rest_shorter in E. cbn. lia.
Qed.
(** Enough is enough. *)
Lemma render_fuel m : forall l f st, (length l <= m)%nat -> (length l <= f)%nat -> render_go f l st = render_go m l st.
Proof.
  induction m as [|m IH]; intros l f st Hm Hf.
  { destruct l; [|cbn in Hm; lia]. destruct f; done. }
  destruct l as [|c l]; [destruct f; done|]. destruct f as [|f]; [cbn in Hf; lia|]. cbn in Hm, Hf.
  cbn [render_go]. destruct (if bool_decide (c = "["%char) then tag_at l else None) as [[n r]|] eqn:E.
  - assert (length r < length l)%nat by (destruct (bool_decide _); [by eapply tag_at_shorter|done]).
    assert (forall st, render_go f r st = render_go m r st) as Hr by (intros st'; apply IH; lia).
    destruct n as [|a n]; [apply Hr|]. destruct a as [[] [] [] [] [] [] [] []]; try apply Hr.
    destruct (close_tag n st); [apply Hr|done].
  - rewrite (IH l f st); [done|lia|lia].
Qed.
Definition rend (l : list ascii) (st : list (list ascii)) : res (list ascii) := render_go (length l) l st.
Lemma rend_char c l st : c <> "["%char -> rend (c :: l) st = res_bind (rend l st) (fun x => Ok (c :: x)).
Proof. intros H. unfold rend. cbn [length render_go]. by rewrite bool_decide_false. Qed.
Lemma rend_tag l st n r : tag_at l = Some (n, r) ->
  rend ("["%char :: l) st =
    match n with
    | "/"%char :: n => match close_tag n st with None => Err ValueError | Some st => rend r st end
    | _ => rend r (n :: st)
    end.
Proof.
  intros H. unfold rend. cbn [length render_go]. rewrite bool_decide_true by done. rewrite H.
  pose proof (tag_at_shorter _ _ _ H).
  assert (forall st, render_go (length l) r st = render_go (length r) r st) as Hr by (intros st'; apply render_fuel; lia).
  destruct n as [|a n]; [apply Hr|]. destruct a as [[] [] [] [] [] [] [] []]; try apply Hr.
  destruct (close_tag n st); [apply Hr|done].
Qed.
Definition tame_text (s : string) : Prop := "["%char ∉ chars s.
Lemma rend_plain l : forall m st, "["%char ∉ l -> rend (l ++ m) st = res_bind (rend m st) (fun x => Ok (l ++ x)).
Proof.
  induction l as [|c l IH]; intros m st H; cbn [app]; [by destruct (rend m st)|].
  apply not_elem_of_cons in H as [Hc Hl]. rewrite rend_char by done. rewrite IH by done.
  by destruct (rend m st).
Qed.
Lemma render_rend s : render s = res_bind (rend (chars s) []) (fun x => Ok (unchars x)).
Proof. reflexivity. Qed.
Lemma render_tame s : tame_text s -> render s = Ok s.
Proof.
  intros H. rewrite render_rend.
  rewrite <- (app_nil_r (chars s)). rewrite rend_plain by done. cbn. by rewrite app_nil_r, unchars_chars.
Qed.
Lemma rend_styled (style t m : list ascii) (n : list ascii) :
  let rest := t ++ "["%char :: "/"%char :: "]"%char :: m in
  tag_at (style ++ "]"%char :: rest) = Some (n, rest) ->
  head n <> Some "/"%char -> "["%char ∉ t ->
  rend ("["%char :: style ++ "]"%char :: rest) [] = res_bind (rend m []) (fun x => Ok (t ++ x)).
Proof.
  intros rest H Hh Ht. rewrite (rend_tag _ _ _ _ H).
  assert (match n with "/"%char :: n0 => match close_tag n0 [] with None => Err ValueError | Some st => rend rest st end
          | _ => rend rest [n] end = rend rest [n]) as ->.
  { destruct n as [|a n]; [done|]. destruct a as [[] [] [] [] [] [] [] []]; try done. }
  subst rest. rewrite rend_plain by done.
  rewrite (rend_tag ("/"%char :: "]"%char :: m) [n] ["/"%char] m) by done. done.
Qed.

(** ** The tags of a revision *)
Inductive mark := Added | Removed | Kept.
Definition marked (r : rev) (m : mark) (t : string) : Prop :=
  match m with
  | Added => t ∈ r_tags r /\ t ∉ r_orig r
  | Removed => t ∉ r_tags r /\ t ∈ r_orig r
  | Kept => t ∈ r_tags r /\ t ∈ r_orig r
  end.
Definition with_mark (x : mark * string) : string :=
  match x.1 with Added => "+" +:+ x.2 | Removed => "-" +:+ x.2 | Kept => x.2 end.
(** What a row says about its revision: nothing else than the metadata.  Tags that have
    been changed here and not yet at the server they come from are marked. *)
Record row_of (r : rev) (x : lrow) : Prop := {
  ro_date : lr_date x = r_ts r;
  ro_id : lr_id x = r_uuid r;
  ro_duration : forall d, lr_duration x = Some d <-> s_duration (r_stats r) = Some d /\ d <> 0%Z;
  ro_trust : lr_trust x = r_trust r;
  ro_server : lr_server x = r_server r;
  ro_size : lr_size x = s_bytes_written (r_stats r);
  ro_tags : exists l, lr_tags x = String.concat "," (map with_mark l) /\ NoDup l /\
    if decide (r_server r <> "" /\ r_tags r <> r_orig r)
    then forall m t, (m, t) ∈ l <-> marked r m t
    else forall m t, (m, t) ∈ l <-> m = Kept /\ t ∈ r_tags r }.

Definition cell (x : mark * string) : string :=
  match x.1 with
  | Added => "+[on green]" +:+ x.2 +:+ "[/]" | Removed => "-[on red]" +:+ x.2 +:+ "[/]" | Kept => x.2
  end.
Lemma rend_cell x m : tame_text x.2 ->
  rend (chars (cell x) ++ m) [] = res_bind (rend m []) (fun y => Ok (chars (with_mark x) ++ y)).
Proof.
  destruct x as [k t]. cbn [snd]. intros Ht. destruct k; unfold cell, with_mark; cbn [fst snd].
  - rewrite !chars_app. change (chars "+[on green]") with ("+" :: "[" :: chars "on green" ++ ["]"])%char.
    change (chars "[/]") with ["["; "/"; "]"]%char. change (chars "+") with ["+"]%char.
    rewrite <- !app_assoc. cbn [app]. rewrite <- !app_assoc. cbn [app]. rewrite rend_char by done.
    rewrite (rend_styled (chars "on green") (chars t) m (chars "on green")); [|done|done|done].
    by destruct (rend m []).
  - rewrite !chars_app. change (chars "-[on red]") with ("-" :: "[" :: chars "on red" ++ ["]"])%char.
    change (chars "[/]") with ["["; "/"; "]"]%char. change (chars "-") with ["-"]%char.
    rewrite <- !app_assoc. cbn [app]. rewrite <- !app_assoc. cbn [app]. rewrite rend_char by done.
    rewrite (rend_styled (chars "on red") (chars t) m (chars "on red")); [|done|done|done].
    by destruct (rend m []).
  - by apply rend_plain.
Qed.
Lemma commas_concat l : commas l = String.concat "," l.
Proof. induction l as [|a l IH]; [done|]. cbn [commas String.concat]. destruct l; [done|]. by rewrite IH. Qed.
Lemma commas_cons a b l : commas (a :: b :: l) = a +:+ String "," (commas (b :: l)).
Proof. done. Qed.
Lemma chars_string c s : chars (String c s) = c :: chars s.
Proof. done. Qed.
Lemma render_cells l : (forall x, x ∈ l -> tame_text x.2) ->
  rend (chars (commas (map cell l))) [] = Ok (chars (commas (map with_mark l))).
Proof.
  induction l as [|x l IH]; intros H; [done|]. destruct l as [|y l].
  - cbn [map commas]. rewrite <- (app_nil_r (chars (cell x))). rewrite rend_cell by (apply H; by left).
    cbn. by rewrite app_nil_r.
  - cbn [map]. rewrite !commas_cons, !chars_app, !chars_string.
    rewrite rend_cell by (apply H; by left). rewrite rend_char by done. cbn [map] in IH.
    rewrite IH by (intros z Hz; apply H; by right). done.
Qed.
Lemma pending_decide r : pending r = true <-> r_server r <> "" /\ r_tags r <> r_orig r.
Proof. unfold pending. rewrite andb_true_iff, !negb_true_iff, !bool_decide_eq_false. done. Qed.
(** The marks of a revision, in the order of the cell. *)
Definition marks (O : orders) (r : rev) : list (mark * string) :=
  if pending r then
    map (pair Added) (o_set O (r_tags r ∖ r_orig r)) ++ map (pair Removed) (o_set O (r_orig r ∖ r_tags r)) ++
    map (pair Kept) (o_set O (r_orig r ∩ r_tags r))
  else map (pair Kept) (o_set O (r_tags r)).
Lemma tags_cell_marks O r : tags_cell O r = commas (map cell (marks O r)).
Proof.
  unfold tags_cell, marks. destruct (pending r).
  - rewrite !map_app, !map_map. unfold cell. cbn [fst snd]. by rewrite map_id.
  - rewrite map_map. unfold cell. cbn [fst snd]. by rewrite map_id.
Qed.
Lemma in_set O X t : orders_ok O -> t ∈ o_set O X <-> t ∈ X.
Proof. intros [_ H]. rewrite (H X). apply elem_of_elements. Qed.
Lemma nodup_set O X : orders_ok O -> NoDup (o_set O X).
Proof. intros [_ H]. rewrite (H X). apply NoDup_elements. Qed.
Lemma in_mark (k : mark) (l : list string) (m : mark) (t : string) : (m, t) ∈ map (pair k) l <-> m = k /\ t ∈ l.
Proof.
  rewrite elem_of_list_fmap. split.
  - intros (y & [= -> ->] & H). done.
  - intros [-> H]. by exists t.
Qed.
Lemma nodup_mark k (l : list string) : NoDup l -> NoDup (map (pair k : string -> mark * string) l).
Proof. intros H. apply NoDup_fmap; [|done]. intros a b [= ->]. done. Qed.
Lemma log_row_ok O r : orders_ok O ->
  tame_text (r_uuid r) -> tame_text (r_server r) -> (forall t, t ∈ r_tags r \/ t ∈ r_orig r -> tame_text t) ->
  exists x, log_row O r = Ok x /\ row_of r x.
Proof.
  intros HO Hu Hs Ht. unfold log_row. rewrite (render_tame _ Hu). cbn [res_bind].
  assert (Hm : forall m t, (m, t) ∈ marks O r <->
    if decide (r_server r <> "" /\ r_tags r <> r_orig r) then marked r m t else m = Kept /\ t ∈ r_tags r).
  { intros m t. unfold marks. destruct (decide _) as [D|D].
    - rewrite (proj2 (pending_decide r) D). rewrite !elem_of_app, !in_mark, !in_set by done.
      rewrite !elem_of_difference, elem_of_intersection. destruct m; cbn; intuition congruence.
    - destruct (pending r) eqn:E; [apply pending_decide in E; done|]. by rewrite in_mark, in_set. }
  assert (Hr : render (tags_cell O r) = Ok (commas (map with_mark (marks O r)))).
  { rewrite render_rend, tags_cell_marks.
    rewrite render_cells. { cbn. by rewrite unchars_chars. }
    intros [m t] Hin. apply Hm in Hin. cbn [snd]. apply Ht.
    destruct (decide _); [destruct m; cbn in Hin; tauto|tauto]. }
  rewrite Hr. cbn [res_bind].
  assert (Hsv : render (if pending r then "[underline italic]" +:+ r_server r +:+ "[/]" else r_server r) = Ok (r_server r)).
  { destruct (pending r); [|by apply render_tame]. rewrite render_rend, !chars_app.
    change (chars "[underline italic]") with ("[" :: chars "underline italic" ++ ["]"])%char.
    change (chars "[/]") with ["["; "/"; "]"]%char. cbn [app]. rewrite <- !app_assoc. cbn [app].
    rewrite (rend_styled (chars "underline italic") (chars (r_server r)) [] (chars "underline italic")); [|done|done|done].
    cbn. by rewrite app_nil_r, unchars_chars. }
  rewrite Hsv. cbn [res_bind]. eexists. split; [reflexivity|].
  constructor; cbn [lr_size lr_date lr_id lr_duration lr_trust lr_server lr_tags]; try done.
  - intros d. destruct (s_duration (r_stats r)) as [d'|]; [|split; [done|by intros [? _]]].
    destruct (Z.eqb_spec d' 0) as [->|Hd].
    + split; [done|]. intros [[= <-] ?]. done.
    + split; [intros [= <-]; done|]. intros [[= <-] _]. done.
  - exists (marks O r). split; [apply commas_concat|]. split.
    + unfold marks. destruct (pending r); [|by apply nodup_mark, nodup_set].
      apply NoDup_app. split; [by apply nodup_mark, nodup_set|]. split.
      * intros [m t] H1 H2. apply in_mark in H1 as [-> _]. apply elem_of_app in H2 as [H2|H2]; apply in_mark in H2 as [H2 _]; done.
      * apply NoDup_app. split; [by apply nodup_mark, nodup_set|]. split; [|by apply nodup_mark, nodup_set].
        intros [m t] H1 H2. apply in_mark in H1 as [-> _]. apply in_mark in H2 as [H2 _]. done.
    + destruct (decide _); apply Hm.
Qed.
Lemma log_rows_ok O : orders_ok O -> forall l,
  (forall r, r ∈ l -> tame_text (r_uuid r) /\ tame_text (r_server r) /\
     forall t, t ∈ r_tags r \/ t ∈ r_orig r -> tame_text t) ->
  exists rows, log_rows O l = Ok rows /\ Forall2 row_of l rows.
Proof.
  intros HO. induction l as [|r l IH]; intros H; cbn [log_rows]; [by exists []|].
  destruct (H r) as (H1 & H2 & H3); [by left|].
  destruct (log_row_ok O r HO H1 H2 H3) as (x & -> & Hx). cbn [res_bind].
  destruct IH as (rows & -> & Hr). { intros y Hy. apply H. by right. }
  exists (x :: rows). split; [done|]. by constructor.
Qed.
(** "backy log" shows the revisions the specification selects (C27), each with what its
    metadata say, their number and the sum of the sizes shown.  What is missing: texts with a "["
    ([C113_markup_refuted]); that the size is the amount of data written is not so
    ([C113_size_refuted]). *)
Theorem C113_shows_partial O iso spec h l :
  orders_ok O -> find_revisions h iso spec = Ok l ->
  (forall r, r ∈ l -> tame_text (r_uuid r) /\ tame_text (r_server r) /\
     forall t, t ∈ r_tags r \/ t ∈ r_orig r -> tame_text t) ->
  exists rows, log_table O iso spec h = Ok (rows, length l, foldr Z.add 0%Z (map lr_size rows)) /\
    Forall2 row_of l rows /\
    rev_parse iso spec h = Ok (map lr_id rows).
Proof.
  intros HO Hf H. unfold log_table, rev_parse. rewrite Hf. cbn [res_bind].
  destruct (log_rows_ok O HO l H) as (rows & -> & Hr). cbn [res_bind].
  exists rows. split; [|split; [done|]].
  - do 2 f_equal. enough (forall z, fold_left (fun n r => n + s_bytes_written (r_stats r))%Z l z =
      z + foldr Z.add 0 (map lr_size rows))%Z as ->. { lia. }
    clear -Hr. induction Hr as [|r x l rows Hx Hr IH]; intros z; cbn [fold_left foldr map]; [lia|].
    rewrite IH, (ro_size _ _ Hx). lia.
  - f_equal. clear -Hr. induction Hr as [|r x l rows Hx Hr IH]; [done|]. cbn. by rewrite IH, (ro_id _ _ Hx).
Qed.
Print Assumptions C113_shows_partial.

(** ** The size *)
(** Nothing that a backup writes into the directory records an amount of data. *)
Definition no_bytes (r : rev) : Prop := s_bytes_written (r_stats r) = 0%Z.
Lemma HT_bytes E O u af B r : orders_ok O -> no_bytes r ->
  HT (fun _ => True) (U u no_bytes) (nc u no_bytes) (backup E O af B r) (UQ u no_bytes).
Proof.
  intros HO Hr.
  assert (Ht : forall x t, no_bytes x -> no_bytes (with_trust t x)) by done.
  unfold backup.
  apply HT_U_bind; [apply _|grows|by apply HT_U_eff|]. intros _.
  apply HT_U_bind; [apply _|grows|by apply HT_U_eff|]. intros _.
  apply HT_U_if; intros _; [apply HT_raise; done|].
  apply HT_U_bind; [apply _|grows|apply HT_U_guarded; done|]. intros v.
  apply HT_U_bind; [apply _|grows| |].
  { unfold finish_backup. apply HT_U_if; intros _.
    - apply HT_U_bind; [apply _|grows|apply HT_U_upd; done|]. intros _.
      apply HT_U_bind; [apply _|grows|apply HT_U_write; done|]. intros _.
      by apply HT_U_eff.
    - apply HT_U_remove. done. }
  intros _. apply HT_U_bind; [apply _|grows|by apply HT_U_after|]. intros _. apply HT_ret. done.
Qed.
Lemma sizes_zero O l : forall rows, log_rows O l = Ok rows -> (forall y, y ∈ l -> no_bytes y) ->
  forall x, x ∈ rows -> lr_size x = 0%Z.
Proof.
  induction l as [|r l IH]; intros rows H Hl x Hx; cbn [log_rows] in H.
  { injection H as <-. by apply elem_of_nil in Hx. }
  destruct (log_row O r) as [y|] eqn:Ey; [|done]. cbn [res_bind] in H.
  destruct (log_rows O l) as [ys|]; [|done]. cbn [res_bind] in H. injection H as <-.
  apply elem_of_cons in Hx as [->|Hx]; [|eapply IH; [done| |done]; intros z Hz; apply Hl; by right].
  assert (lr_size y = s_bytes_written (r_stats r)) as ->; [|apply Hl; by left].
  unfold log_row in Ey. repeat match goal with H : res_bind ?a _ = Ok _ |- _ => destruct a; [cbn [res_bind] in H|done] end.
  by injection Ey as <-.
Qed.
Lemma total_zero (l : list rev) : forall z, (forall y, y ∈ l -> no_bytes y) ->
  fold_left (fun n r => n + s_bytes_written (r_stats r))%Z l z = z.
Proof.
  induction l as [|y l IH]; intros z H; [done|]. cbn [fold_left].
  assert (s_bytes_written (r_stats y) = 0%Z) as -> by (apply H; by left).
  rewrite IH; [lia|]. intros x Hx. apply H. by right.
Qed.
(** A repository in which no revision says how much was written for it (a new one, say):
    whatever backups are made, wherever they are killed, "backy log" says "0 Bytes" for
    each revision and for all together. *)
Theorem C113_size_refuted E O af B r s s' x :
  orders_ok O -> repo_ok E O r s -> backup E O af B r s = (s', x) ->
  (forall u y, d_revs (w_disk (rs_w s)) !! u = Some y -> no_bytes y) ->
  forall d, killed s s' d ->
  (forall u y, d_revs d !! u = Some y -> no_bytes y) /\
  (forall iso spec rows n total, log_table O iso spec (scan_disk O d) = Ok (rows, n, total) ->
     total = 0%Z /\ forall y, y ∈ rows -> lr_size y = 0%Z).
Proof.
  intros HO HR Hb H0 d Hd.
  assert (Hn : no_bytes r) by (eapply H0, (ro_new _ _ _ _ HR)).
  assert (HU : forall u, U u no_bytes s).
  { intros u. constructor; [apply (ro_files _ _ _ _ HR)|intros y Hy; by eapply H0|].
    intros y Hy _. rewrite (ro_scanned _ _ _ _ HR) in Hy.
    apply scan_disk_elem in Hy; [|done|apply (ro_files _ _ _ _ HR)]. by eapply H0. }
  destruct (Grows_backup E O af B r s) as [l Hl]. rewrite Hb in Hl. cbn [fst] in Hl.
  assert (HF : forall u, Forall (nc u no_bytes) l).
  { intros u. pose proof (HT_bytes E O u af B r HO Hn s l (HU u)) as H. rewrite Hb in H. cbn [fst snd] in H.
    by destruct H as [H _]. }
  destruct (killed_prefix _ _ _ _ Hl Hd) as [k ->].
  assert (HD : forall u, UD u no_bytes (replay (take k l) (w_disk (rs_w s)))).
  { intros u. apply nc_replay; [apply Forall_sub, HF|]. by destruct (HU u). }
  assert (H1 : forall u y, d_revs (replay (take k l) (w_disk (rs_w s))) !! u = Some y -> no_bytes y).
  { intros u y Hy. by apply (HD u). }
  split; [exact H1|]. intros iso spec rows n total. unfold log_table.
  set (d := replay (take k l) (w_disk (rs_w s))) in *. destruct (HD "") as [Hok _].
  destruct (find_revisions (scan_disk O d) iso spec) as [sel|] eqn:Ef; [|done]. cbn [res_bind].
  assert (Hs : forall y, y ∈ sel -> no_bytes y).
  { intros y Hy. apply find_revisions_sub in Ef as [_ Ef]; [|apply (NoDup_fmap_1 r_uuid), scan_disk_nodup].
    apply Ef, scan_disk_elem in Hy; [|done..]. by eapply H1. }
  destruct (log_rows O sel) as [rows'|] eqn:Er; [|done]. cbn [res_bind]. intros [= <- <- <-].
  split; [by apply total_zero|by eapply sizes_zero].
Qed.
Print Assumptions C113_size_refuted.
Example ex_C113_size :
  repo_ok ex_env ex_O ex_new c13_s /\ orders_ok ex_O /\
  (forall u y, d_revs (w_disk (rs_w c13_s)) !! u = Some y -> no_bytes y) /\
  let s' := (backup ex_env ex_O false c13_B ex_new c13_s).1 in
  (backup ex_env ex_O false c13_B ex_new c13_s).2 = Ok true /\
  map fst (map_to_list (d_chunks (w_disk (rs_w s')))) = ["habcd"] /\
  log_table ex_O (fun _ => None) "all" (scan_disk ex_O (w_disk (rs_w s'))) =
    Ok ([MkLrow 2 "new" 0 (Some 7%Z) "daily" TRUSTED ""], 1%nat, 0%Z).
Proof.
  split; [exact c13_repo|]. split; [exact ex_orders|]. split.
  { intros u y H. change (({["new" := ex_new]} : gmap string rev) !! u = Some y) in H.
    apply lookup_singleton_Some in H as [_ <-]. done. }
  vm_compute. done.
Qed.

(** ** Markup in tags *)
Definition nasty : string := "manual:[/]".
Lemma log_rows_fail O r : forall l, r ∈ l -> (exists e, log_row O r = Err e) -> exists e, log_rows O l = Err e.
Proof.
  induction l as [|x l IH]; intros Hr He; [by apply elem_of_nil in Hr|]. cbn [log_rows].
  apply elem_of_cons in Hr as [<-|Hr].
  - destruct He as [e ->]. by exists e.
  - destruct (log_row O x) as [y|e]; [|by exists e]. destruct IH as [e ->]; [done..|]. by exists e.
Qed.
(** A user may give a revision the tag "manual:[/]"; "backy tags" accepts it.  From then on
    "backy log" fails wherever that revision is selected, and shows nothing of the others. *)
Theorem C113_markup_refuted :
  (forall O iso spec h l r, orders_ok O -> find_revisions h iso spec = Ok l -> r ∈ l ->
     r_tags r = {[ nasty ]} -> r_server r = "" -> exists e, log_table O iso spec h = Err e) /\
  exists O iso S s s', orders_ok O /\
    (forall r, r ∈ scan_disk O (w_disk (rs_w s)) -> tame_text (r_uuid r) /\ tame_text (r_server r) /\
       forall t, t ∈ r_tags r \/ t ∈ r_orig r -> tame_text t) /\
    repo_tags O iso S ASet "1" {[ nasty ]} None false false s = (s', Ok true) /\
    (exists rows, log_table O iso "all" (scan_disk O (w_disk (rs_w s))) = Ok rows) /\
    log_table O iso "all" (scan_disk O (w_disk (rs_w s'))) = Err ValueError.
Proof.
  split.
  - intros O iso spec h l r HO Hf Hr Ht Hs. unfold log_table. rewrite Hf. cbn [res_bind].
    destruct (log_rows_fail O r l Hr) as [e ->]; [|by exists e].
    unfold log_row. destruct (render (r_uuid r)) as [u|e]; [|by exists e]. cbn [res_bind].
    assert (tags_cell O r = nasty) as ->; [|by eexists].
    unfold tags_cell, pending. rewrite Hs, bool_decide_true by done. cbn [negb andb].
    rewrite Ht. destruct HO as [_ HO].
    specialize (HO {[nasty]}). rewrite elements_singleton in HO. apply Permutation_singleton_r in HO. by rewrite HO.
  - set (s := PRepo.ex_state PRepo.ex_revs).
    exists PRepo.ex_orders, (fun _ => None), PRepo.ex_sched, s,
      (repo_tags PRepo.ex_orders (fun _ => None) PRepo.ex_sched ASet "1" {[ nasty ]} None false false s).1.
    split; [exact PRepo.ex_orders_ok|]. split.
    { intros r Hr.
      assert (H : Forall (fun r => bool_decide (tame_text (r_uuid r) /\ tame_text (r_server r) /\
          Forall tame_text (elements (r_tags r ∪ r_orig r))) = true) (scan_disk PRepo.ex_orders (w_disk (rs_w s)))).
      { vm_compute. repeat constructor. }
      rewrite Forall_forall in H. specialize (H r Hr). apply bool_decide_eq_true_1 in H as (H1 & H2 & H3).
      split; [done|]. split; [done|]. rewrite Forall_forall in H3. intros t Ht. apply H3.
      rewrite elem_of_elements. set_solver. }
    split; [|split].
    + apply run_is. vm_compute. reflexivity.
    + eexists. vm_compute. reflexivity.
    + vm_compute. reflexivity.
Qed.
Print Assumptions C113_markup_refuted.

(** A revision of another server with tags changed here. *)
Example ex_C113 :
  let r := MkRev "c" 300 (MkStats 7 (Some 5%Z) None) {["daily"; "manual:x"]} {["daily"; "weekly"]} TRUSTED "srv" in
  log_table PRepo.ex_orders (fun _ => None) "all" [PRepo.ex_r "a" 100 ["daily"] ""; r] =
    Ok ([MkLrow 100 "a" 0 (Some 1%Z) "daily" TRUSTED "";
         MkLrow 300 "c" 7 (Some 5%Z) "+manual:x,-weekly,daily" TRUSTED "srv"], 2%nat, 7%Z) /\
  rev_parse (fun _ => None) "all" [PRepo.ex_r "a" 100 ["daily"] ""; r] = Ok ["a"; "c"].
Proof. vm_compute. done. Qed.
