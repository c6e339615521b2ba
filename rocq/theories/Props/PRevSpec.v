(** C27-C29: looking up revisions. *)
From Verif Require Import Spec.Schedule Proofs.SchedProofs2 Proofs.RevSpecTok.
#[local] Arguments String.append !_ _ / : simpl nomatch.

(** [iso] is datetime.fromisoformat with the local time zone: any function that
    does not take the words "first" and "last" for dates. *)
Definition iso_ok (iso : string -> option Z) : Prop := iso "first" = None /\ iso "last" = None.
Definition ids_ok (H : list rev) : Prop :=
  NoDup (map r_uuid H) /\ forall r, r ∈ H -> r_uuid r <> "first" /\ r_uuid r <> "last".
Lemma ids_NoDup H : ids_ok H -> NoDup H.
Proof. intros [Hn _]. apply (NoDup_fmap_1 r_uuid). done. Qed.

(** ** C27 *)
(** Evaluating the written form of an expression gives its meaning, and fails
    when it has none; the evaluator always terminates. *)
Theorem C27_specification_meaning H iso e s :
  ids_ok H -> iso_ok iso -> wf (fun w => iso w <> None) e -> writes (render e) s ->
  (forall l, find_revisions H iso s = Ok l <-> den H e l) /\
  find_revisions H iso s <> Err OutOfFuel.
Proof.
  intros Hids [I1 I2] Hw Hs. split; [|apply no_fuel_string]. intros l. unfold find_revisions.
  rewrite (tokenize_writes _ _ Hs). change (FF H iso (map TStr (render e)) = Ok l <-> den H e l).
  apply eval_render; try done; [apply ids_NoDup; done|apply Hids].
Qed.
(** The meaning is unique. *)
Theorem C27_meaning_unique H e l l' : ids_ok H -> den H e l -> den H e l' -> l = l'.
Proof. intros Hids. apply den_det, ids_NoDup. done. Qed.
(** No revision is listed twice and none is invented. *)
Theorem C27_meaning_sound H e l : ids_ok H -> den H e l -> NoDup l /\ forall r, r ∈ l -> r ∈ H.
Proof. intros Hids Hd. destruct (den_good H (ids_NoDup H Hids) e l Hd). split; [done|]. intros r Hr. auto. Qed.
Print Assumptions C27_specification_meaning.
Print Assumptions C27_meaning_unique.
Print Assumptions C27_meaning_sound.

(** A history of three, and "not( last(tag:daily) ) & tag:daily , 0". *)
Definition ex_rev (u : string) (ts : Z) (tags : list string) : rev :=
  MkRev u ts (MkStats 0 (Some 1%Z) None) (list_to_set tags) ∅ TRUSTED "".
Definition ex_hist : list rev :=
  [ex_rev "a" 100 ["daily"]; ex_rev "b" 200 ["daily"]; ex_rev "c" 300 ["manual:x"]].
Definition ex_iso (s : string) : option Z :=
  if bool_decide (s = "1970-01-01T00:01:40") then Some 100%Z
  else if bool_decide (s = "1970-01-01T00:02:30") then Some 150%Z else None.
Lemma ex_ids : ids_ok ex_hist.
Proof.
  split; [vm_compute; repeat constructor; set_solver|].
  intros r Hr. repeat (apply elem_of_cons in Hr as [->|Hr]; [done|]). apply elem_of_nil in Hr. done.
Qed.
Definition ex_expr : expr :=
  EOr (EAnd (EFn Not (EFn Last (EWord "tag:daily"))) (EWord "tag:daily")) (EWord "0").
Example ex_C27 :
  iso_ok ex_iso /\ ids_ok ex_hist /\ wf (fun w => ex_iso w <> None) ex_expr /\
  writes (render ex_expr) " not( last(tag:daily) ) & tag:daily , 0" /\
  find_revisions ex_hist ex_iso " not( last(tag:daily) ) & tag:daily , 0" =
    Ok [ex_rev "a" 100 ["daily"]; ex_rev "c" 300 ["manual:x"]].
Proof.
  split; [done|]. split; [apply ex_ids|]. split; [cbn; repeat split; try done; lia|].
  split; [|vm_compute; reflexivity].
  assert (Hp : forall w, w <> "" -> strip w = w -> forallb (fun c => negb (sep1 c) && negb (Ascii.eqb c ".")) (chars w) = true -> plain w).
  { intros w H1 H2 H3. split; [done|]. split; [done|]. rewrite forallb_forall in H3.
    assert (H4 : forall c, c ∈ chars w -> sep1 c = false /\ c <> "."%char).
    { intros c Hc. apply elem_of_list_In, H3, andb_true_iff in Hc as [A B].
      split; [destruct (sep1 c); done|]. intros ->. done. }
    split; [intros c Hc; apply H4; done|]. clear -H4. induction (chars w) as [|c l IH]; cbn; [done|].
    split; [intros ->; destruct (H4 "."%char); [left|done]|]. apply IH. intros d Hd. apply H4. right. done. }
  assert (Hb : blank "") by (intros c Hc; apply elem_of_nil in Hc; done).
  assert (Hs : blank " ") by (intros c Hc; apply elem_of_list_singleton in Hc as ->; done).
  unfold ex_expr. cbn [render fn_name app].
  change " not( last(tag:daily) ) & tag:daily , 0" with
    (" " ++ "not" ++ "" ++ "(" ++ " " ++ "last" ++ "" ++ "(" ++ "" ++ "tag:daily" ++ "" ++ ")" ++ " " ++ ")"
      ++ " " ++ "&" ++ " " ++ "tag:daily" ++ " " ++ "," ++ " " ++ "0" ++ "")%string.
  assert (S1 : separator "(") by (unfold separator; set_solver).
  assert (S2 : separator ")") by (unfold separator; set_solver).
  assert (S3 : separator ",") by (unfold separator; set_solver).
  assert (S4 : separator "&") by (unfold separator; set_solver).
  apply writes_word; [apply Hp; done|done|done|]. apply writes_sep; [done|done|].
  apply writes_word; [apply Hp; done|done|done|]. apply writes_sep; [done|done|].
  apply writes_word; [apply Hp; done|done|done|]. apply writes_sep; [done|done|].
  apply writes_sep; [done|done|]. apply writes_sep; [done|done|].
  apply writes_word; [apply Hp; done|done|done|]. apply writes_sep; [done|done|].
  apply writes_last; [apply Hp; done|done|done].
Qed.

(** ** C28 *)
(** Full claim: a range whose ends are dates (or revisions, or omitted) selects
    what lies between the two points in time, in either order. *)
Definition selects_between (H : list rev) (iso : string -> option Z) (a b : option string) (s : string) : Prop :=
  forall ta tb, time_of H iso a (head H) ta -> time_of H iso b (last H) tb ->
  find_revisions H iso s = Ok (filter (fun r => (Z.min ta tb <= r_ts r <= Z.max ta tb)%Z) H).
(** Proved when no date given is exactly the timestamp of the oldest revision. *)
Theorem C28_date_ranges_partial H iso a b s :
  ids_ok H -> iso_ok iso ->
  (forall i j x y, H !! i = Some x -> H !! j = Some y -> i < j -> (r_ts x < r_ts y)%Z) ->
  (forall w, a = Some w \/ b = Some w -> plain w) ->
  writes (option_list a ++ [".."] ++ option_list b) s ->
  (forall w r, a = Some w \/ b = Some w -> head H = Some r -> iso w <> Some (r_ts r)) ->
  selects_between H iso a b s.
Proof.
  intros Hids [I1 I2] Hsort Hpl Hs Hne ta tb Ha Hb. unfold find_revisions. rewrite (tokenize_writes _ _ Hs).
  match goal with |- find_tokens _ _ _ ?t = ?v => change (FF H iso t = v) end.
  pose proof (ids_NoDup H Hids) as HH. destruct Hids as [_ Hids].
  destruct (index2_time H iso Hsort "first" a (head H) ta) as (ka & Ka & Ta & La); try done.
  { apply (single_first H Hids). }
  { intros w Hw. destruct (Hpl w) as (? & ? & _); auto. }
  { intros w r Hw Hr. apply Hne; auto. }
  destruct (index2_time H iso Hsort "last" b (last H) tb) as (kb & Kb & Tb & Lb); try done.
  { apply (single_last H Hids). }
  { intros w Hw. destruct (Hpl w) as (? & ? & _); auto. }
  { intros w r Hw Hr. apply Hne; auto. }
  assert (Hcl : forall p, (forall w, p = Some w -> plain w) ->
    noparen (map TStr (option_list p)) /\ has "," (map TStr (option_list p)) = false /\
    has "&" (map TStr (option_list p)) = false /\ has ".." (map TStr (option_list p)) = false /\
    length (map TStr (option_list p)) <= 1).
  { intros [w|] Hp; cbn [option_list map].
    - assert (Hn : forall x, separator x -> has x [TStr w] = false).
      { intros x Hx. rewrite has_cons, word_not; [done|]. intros ->. apply (sep_not_plain x); auto. }
      unfold noparen. rewrite !Hn by (unfold separator; set_solver). cbn. repeat split; lia.
    - cbn. unfold noparen. repeat split; lia. }
  destruct (Hcl a) as (A1 & A2 & A3 & A4 & A5); [auto|].
  destruct (Hcl b) as (B1 & B2 & B3 & B4 & B5); [auto|].
  rewrite !map_app. cbn [map app]. rewrite FF_range by done.
  unfold eval_range. rewrite list_split_app by done.
  replace (1 <? _)%nat with false by (symmetry; apply Nat.ltb_ge; lia).
  replace (1 <? _)%nat with false by (symmetry; apply Nat.ltb_ge; lia). cbn [orb].
  rewrite Ka, Kb. cbn [res_bind]. f_equal. apply slice_times; done.
Qed.
(** Otherwise position 0 is taken for "no date", the date is looked up as an id
    and the lookup fails. *)
Theorem C28_date_ranges_refuted :
  exists H iso a b s ta tb,
    ids_ok H /\ iso_ok iso /\ H <> [] /\
    (forall i j x y, H !! i = Some x -> H !! j = Some y -> i < j -> (r_ts x < r_ts y)%Z) /\
    tokenize s = [a; ".."; b] /\
    time_of H iso (Some a) (head H) ta /\ time_of H iso (Some b) (last H) tb /\
    find_revisions H iso s = Err KeyError.
Proof.
  exists ex_hist, ex_iso, "1970-01-01T00:01:40", "1970-01-01T00:02:30",
    "1970-01-01T00:01:40..1970-01-01T00:02:30", 100%Z, 150%Z.
  split; [apply ex_ids|]. split; [done|]. split; [done|]. split.
  { intros [|[|[|i]]] [|[|[|j]]] x y Hx Hy Hij; cbn in Hx, Hy; try lia; simplify_eq; cbn; lia. }
  split; [vm_compute; reflexivity|]. split; [left; reflexivity|]. split; [left; reflexivity|].
  vm_compute. reflexivity.
Qed.
Print Assumptions C28_date_ranges_partial.
Print Assumptions C28_date_ranges_refuted.
Example ex_C28 :
  find_revisions ex_hist ex_iso "1970-01-01T00:02:30.." =
    Ok [ex_rev "b" 200 ["daily"]; ex_rev "c" 300 ["manual:x"]] /\
  find_revisions ex_hist ex_iso "b..1970-01-01T00:02:30" = Ok [ex_rev "b" 200 ["daily"]].
Proof. split; vm_compute; reflexivity. Qed.

(** ** C29 *)
(** A number, an id or a key word finds its revision; anything else that is not
    first(...) or last(...) raises KeyError. *)
Theorem C29_find_word H iso s :
  strip s <> "" -> (forall x, strip s <> ("first(" ++ x)%string /\ strip s <> ("last(" ++ x)%string) ->
  (forall r, find H iso s = Ok r <-> single H (strip s) = Some r) /\
  (single H (strip s) = None -> find H iso s = Err KeyError).
Proof.
  intros Hw Hf. assert (Hs : strip (strip s) = strip s).
  { unfold strip at 1 3. f_equal. unfold strip. rewrite chars_unchars. apply strip_idem. }
  assert (Hfn : find_by_function H iso (strip s) = Err ValueError).
  { unfold find_by_function, fn_match.
    destruct (starts "first(" (strip s)) eqn:E1.
    { apply starts_spec in E1 as [x Hx]. destruct (Hf x). done. }
    destruct (starts "last(" (strip s)) eqn:E2.
    { apply starts_spec in E2 as [x Hx]. destruct (Hf x). done. }
    done. }
  assert (He : find H iso s = find_token H (strip s)).
  { unfold find, find_token, find_with. rewrite Hs, Hfn. done. }
  rewrite He. split; [intros r; apply find_token_spec; done|].
  intros Hn. destruct (find_token H (strip s)) as [r|e] eqn:Ht.
  { apply find_token_spec in Ht; [|done|done]. congruence. }
  f_equal. revert Ht. unfold find_token, find_with. rewrite Hs.
  rewrite (bool_decide_eq_false_2 (strip s = "")) by done. cbn [orb].
  destruct (bool_decide (H = [])); [congruence|].
  unfold or_else, find_by_number, find_by_uuid, find_by_tag.
  repeat (case_match; try congruence).
Qed.
(** What these words denote: *)
Theorem C29_number H w n r : py_int w = Some n -> (0 <= n < zlen H)%Z ->
  single H w = Some r <-> H !! Z.to_nat (zlen H - 1 - n) = Some r.
Proof.
  intros Hn Hr. unfold single. rewrite Hn. destruct (decide (n < 0)%Z); [lia|].
  unfold nth_newest. destruct (decide (0 <= n < zlen H)%Z); [|lia].
  rewrite reverse_lookup by (unfold zlen in *; lia).
  replace (length H - S (Z.to_nat n)) with (Z.to_nat (zlen H - 1 - n)) by (unfold zlen in *; lia).
  destruct (lookup_lt_is_Some_2 H (Z.to_nat (zlen H - 1 - n))) as [x Hx]; [unfold zlen in *; lia|].
  rewrite Hx. done.
Qed.
(** Numbers are written in decimal notation; negative ones find nothing. *)
Lemma strip_digits ds : (forall c, c ∈ ds -> is_digit c) -> strip (unchars ds) = unchars ds.
Proof.
  intros Hd. unfold strip. rewrite chars_unchars, strip_solid; [done|]. intros c Hc. apply digit_ws, Hd, Hc.
Qed.
Lemma digits_nonneg ds : (forall c, c ∈ ds -> is_digit c) -> (0 <= decimal ds)%Z.
Proof.
  intros Hd. unfold decimal. assert (forall acc, (0 <= acc)%Z ->
    (0 <= fold_left (fun a c => 10 * a + (Z.of_N (N_of_ascii c) - 48)) ds acc)%Z) as H; [|apply H; lia].
  induction ds as [|c ds IH]; intros acc Ha; cbn; [done|]. apply IH.
  - intros x Hx. apply Hd. by right.
  - specialize (Hd c (elem_of_list_here _ _)). unfold is_digit in Hd. lia.
Qed.
Theorem C29_decimal H iso ds r :
  ds <> [] -> (forall c, c ∈ ds -> is_digit c) -> (decimal ds < zlen H)%Z ->
  find H iso (unchars ds) = Ok r <-> H !! Z.to_nat (zlen H - 1 - decimal ds) = Some r.
Proof.
  intros Hn Hd Hl. pose proof (digits_nonneg ds Hd) as H0.
  assert (Hp : py_int (unchars ds) = Some (decimal ds)).
  { rewrite <- (Z.mul_1_l (decimal ds)). exact (py_int_dec NoSign ds Hn Hd). }
  assert (Hf : forall x, strip (unchars ds) <> ("first(" ++ x)%string /\ strip (unchars ds) <> ("last(" ++ x)%string).
  { intros x. rewrite strip_digits by done. destruct ds as [|c ds]; [done|].
    specialize (Hd c (elem_of_list_here _ _)). unfold is_digit in Hd.
    split; intros E; apply (f_equal chars) in E; rewrite chars_unchars in E; cbn in E;
      injection E as -> _; vm_compute in Hd; destruct Hd; done. }
  assert (Hne : strip (unchars ds) <> "").
  { rewrite strip_digits by done. by destruct ds. }
  destruct (C29_find_word H iso (unchars ds) Hne Hf) as [Hw _]. rewrite Hw, strip_digits by done.
  apply C29_number; [done|lia].
Qed.
Theorem C29_negative H iso ds :
  ds <> [] -> (forall c, c ∈ ds -> is_digit c) -> (0 < decimal ds)%Z ->
  find H iso ("-" ++ unchars ds)%string = Err KeyError.
Proof.
  intros Hn Hd H0.
  assert (Hp : py_int ("-" ++ unchars ds)%string = Some (- decimal ds)%Z).
  { etransitivity; [exact (py_int_dec Minus ds Hn Hd)|]. unfold sign_value.
    replace (-1 * decimal ds)%Z with (- decimal ds)%Z by lia. done. }
  assert (Hs : strip ("-" ++ unchars ds)%string = ("-" ++ unchars ds)%string).
  { assert (E : chars ("-" ++ unchars ds)%string = "-"%char :: ds) by (rewrite chars_app, chars_unchars; done).
    unfold strip. rewrite E, strip_solid, <- E; [apply unchars_chars|].
    intros c Hc. apply elem_of_cons in Hc as [->|Hc]; [done|]. apply digit_ws, Hd, Hc. }
  unfold find, find_with. rewrite Hs. destruct (_ || _); [done|]. unfold find_by_number. rewrite Hp.
  replace (- decimal ds <? 0)%Z with true by (symmetry; apply Z.ltb_lt; lia). done.
Qed.
Theorem C29_id H r : ids_ok H -> r ∈ H -> py_int (r_uuid r) = None -> single H (r_uuid r) = Some r.
Proof.
  intros [Hn _] Hr Hp. unfold single. rewrite Hp.
  assert (Hw : with_id H (r_uuid r) = Some r); [|rewrite Hw; done].
  unfold with_id. apply elem_of_list_split in Hr as (l1 & l2 & ->). rewrite filter_app.
  rewrite map_app in Hn. cbn in Hn. apply NoDup_app in Hn as (_ & Hd & Hn).
  assert (filter (fun x => r_uuid x = r_uuid r) l1 = []) as ->.
  { destruct (filter _ l1) as [|y f] eqn:Hf; [done|].
    assert (Hy : y ∈ filter (fun x => r_uuid x = r_uuid r) l1) by (rewrite Hf; left).
    apply elem_of_list_filter in Hy as [Hy Hin]. exfalso. apply (Hd (r_uuid y)).
    - apply elem_of_list_fmap. eauto.
    - rewrite Hy. left. }
  rewrite filter_cons_True by done. done.
Qed.
Theorem C29_keywords H : (forall r, r ∈ H -> r_uuid r ∉ ["first"; "last"; "latest"]) ->
  single H "last" = last H /\ single H "latest" = last H /\ single H "first" = head H.
Proof.
  intros Hids. assert (Hid : forall w, w ∈ ["first"; "last"; "latest"] -> with_id H w = None).
  { intros w Hw. unfold with_id. destruct (filter _ H) as [|x l] eqn:Hl; [done|].
    assert (Hx : x ∈ filter (fun r => r_uuid r = w) H) by (rewrite Hl; left).
    apply elem_of_list_filter in Hx as [<- Hi]. destruct (Hids x Hi). done. }
  unfold single. change (py_int "last") with (@None Z). change (py_int "latest") with (@None Z).
  change (py_int "first") with (@None Z). cbv iota.
  rewrite !Hid by set_solver. done.
Qed.
(** first(e) and last(e) find the revision the expression denotes. *)
Theorem C29_find_function H iso f e s body r :
  ids_ok H -> iso_ok iso -> wf (fun w => iso w <> None) e -> f = First \/ f = Last ->
  strip s = (fn_name f ++ "(" ++ body ++ ")")%string -> body <> "" -> "010"%char ∉ chars body ->
  writes (render (EFn f e)) (strip s) -> (forall x, x ∈ H -> r_uuid x <> strip s) ->
  find H iso s = Ok r <-> den H (EFn f e) [r].
Proof.
  intros Hids Hiso Hwf Hf Hs Hb Hnl Hw Hid.
  assert (Hfind : forall l, find_revisions H iso (strip s) = Ok l <-> den H (EFn f e) l)
    by (apply C27_specification_meaning; done).
  assert (Hne : den H (EFn f e) [r] -> H <> []).
  { intros Hd ->. destruct (C27_meaning_sound [] _ _ Hids Hd) as [_ Hd']. specialize (Hd' r ltac:(left)).
    apply elem_of_nil in Hd'. done. }
  assert (Hnum : py_int (strip s) = None).
  { unfold py_int. assert (strip_chars (chars (strip s)) = chars (strip s)) as ->.
    { unfold strip. rewrite chars_unchars. apply strip_idem. }
    rewrite Hs. destruct Hf as [->| ->]; reflexivity. }
  assert (Huid : find_by_uuid H (strip s) = Err IndexError).
  { unfold find_by_uuid. destruct (list_find _ H) as [[i x]|] eqn:Hl; [|done].
    apply list_find_Some in Hl as (Hi & Hx & _). apply elem_of_list_lookup_2 in Hi. destruct (Hid x Hi). done. }
  assert (Htag : find_by_tag H (strip s) = Err ValueError).
  { unfold find_by_tag. rewrite Hs. rewrite !bool_decide_eq_false_2; [done| | |]; destruct Hf as [->| ->]; cbn; congruence. }
  assert (Hm : fn_match (strip s) = true).
  { assert (Hin : forall p, strip s = (p ++ body ++ ")")%string ->
      starts p (strip s) &&
      (let rest := reverse (chars (remove_prefix p (strip s))) in
       match rest with
       | c :: body => Ascii.eqb c ")" && bool_decide (body <> []) &&
           forallb (fun c => negb (N.eqb (code c) 10)) body
       | [] => false
       end) = true).
    { intros p Hp. rewrite Hp, starts_app, remove_prefix_app, chars_app. cbn [andb].
      change (chars ")") with [")"%char]. rewrite reverse_snoc. cbv zeta. cbn [Ascii.eqb].
      rewrite bool_decide_eq_true_2.
      2: { destruct body; [done|]. cbn [chars]. rewrite reverse_cons. intros Hx. apply (f_equal length) in Hx.
           rewrite app_length in Hx. cbn in Hx. lia. }
      cbn [andb]. apply forallb_forall. intros c Hc. apply elem_of_list_In in Hc. rewrite elem_of_reverse in Hc.
      apply negb_true_iff, N.eqb_neq. intros Hcode. apply Hnl.
      assert (c = "010"%char) as <-; [|done]. unfold code in Hcode.
      rewrite <- (Ascii.ascii_N_embedding c), Hcode. reflexivity. }
    unfold fn_match. destruct Hf as [->| ->].
    - apply orb_true_iff. left. apply Hin. done.
    - apply orb_true_iff. right. apply Hin. done. }
  assert (Hstrip : strip (strip s) = strip s).
  { unfold strip at 1 3. f_equal. unfold strip. rewrite chars_unchars. apply strip_idem. }
  assert (Hval : find H iso s = if bool_decide (H = []) then Err KeyError
    else or_else (find_by_function H iso (strip s)) (Err KeyError)).
  { unfold find, find_with. rewrite (bool_decide_eq_false_2 (strip s = "")).
    2: { rewrite Hs. destruct Hf as [->| ->]; cbn; congruence. }
    cbn [orb]. destruct (bool_decide (H = [])); [done|].
    unfold find_by_number. rewrite Hnum. cbn [or_else]. rewrite Huid. cbn [or_else]. rewrite Htag. done. }
  rewrite Hval. unfold find_by_function. rewrite Hm.
  assert (Hone : forall l, den H (EFn f e) l -> exists x, l = [x]).
  { intros l Hd. destruct Hf as [->| ->]; inversion Hd; eauto. }
  split.
  - case_bool_decide; [done|]. destruct (find_revisions H iso (strip s)) as [l|x] eqn:Hl.
    + pose proof (proj1 (Hfind l) eq_refl) as Hd. destruct (Hone l Hd) as [y ->]. cbn. intros [= ->]. done.
    + cbn. destruct x; done.
  - intros Hd. rewrite bool_decide_eq_false_2 by auto. rewrite (proj2 (Hfind [r]) Hd). done.
Qed.
Print Assumptions C29_find_word.
Print Assumptions C29_number.
Print Assumptions C29_decimal.
Print Assumptions C29_negative.
Print Assumptions C29_id.
Print Assumptions C29_keywords.
Print Assumptions C29_find_function.
Example ex_C29 :
  find ex_hist ex_iso " 1 " = Ok (ex_rev "b" 200 ["daily"]) /\
  find ex_hist ex_iso "latest" = Ok (ex_rev "c" 300 ["manual:x"]) /\
  find ex_hist ex_iso "a" = Ok (ex_rev "a" 100 ["daily"]) /\
  find ex_hist ex_iso "last(tag:daily)" = Ok (ex_rev "b" 200 ["daily"]) /\
  find ex_hist ex_iso "nope" = Err KeyError /\ find ex_hist ex_iso "-1" = Err KeyError /\
  find ex_hist ex_iso "3" = Err KeyError /\
  (forall c, c ∈ chars "2" -> is_digit c) /\ (decimal (chars "2") < zlen ex_hist)%Z.
Proof.
  assert (forall c, c ∈ chars "2" -> is_digit c).
  { intros c Hc. apply elem_of_list_singleton in Hc as ->. split; vm_compute; discriminate. }
  split_and!; try assumption; vm_compute; reflexivity.
Qed.
