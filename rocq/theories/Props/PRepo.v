(** C25, C26, C30-C33: metadata of a repository. *)
From Verif Require Import Proofs.ScanProofs.
#[local] Arguments String.append !_ _ / : simpl nomatch.

(** ** C25 *)
(** A regular (not linked) file called something.rev with metadata [r]. *)
Definition rev_file (l : list dirent) (r : rev) : Prop :=
  exists e x, e ∈ l /\ de_name e = (x ++ ".rev")%string /\ de_link e = false /\ de_rev e = Some r.
Lemma rev_file_counts l r : rev_file l r <-> exists e, e ∈ l /\ counts e = true /\ de_rev e = Some r.
Proof.
  assert (Hends : forall s, ends ".rev" s = true <-> exists x, s = (x ++ ".rev")%string).
  { intros s. unfold ends. rewrite starts_spec. split.
    - intros [y Hy]. exists (unchars (reverse (chars y))).
      apply (f_equal chars) in Hy. rewrite chars_app, !chars_unchars in Hy. apply (f_equal reverse) in Hy.
      rewrite reverse_involutive, reverse_app, reverse_involutive in Hy.
      rewrite <- (unchars_chars s), Hy, <- (unchars_chars (_ ++ ".rev")), chars_app, chars_unchars. done.
    - intros [x ->]. exists (unchars (reverse (chars x))). rewrite chars_app, reverse_app.
      rewrite <- (unchars_chars (_ ++ unchars (reverse (chars x)))), chars_app, !chars_unchars. done. }
  unfold rev_file, counts. split.
  - intros (e & x & H1 & H2 & H3 & H4). exists e. split; [done|]. split; [|done].
    apply andb_true_iff. rewrite H3. split; [apply Hends; eauto|done].
  - intros (e & H1 & H2 & H3). apply andb_true_iff in H2 as [H2 H4]. apply Hends in H2 as [x Hx].
    exists e, x. apply negb_true_iff in H4. done.
Qed.
Theorem C25_history l h : scan_dir l = Ok h ->
  StronglySorted (fun a b => (r_ts a <= r_ts b)%Z) h /\ NoDup (map r_uuid h) /\
  (forall r, r ∈ h -> rev_file l r) /\
  (forall r, rev_file l r -> exists r', r' ∈ h /\ r_uuid r' = r_uuid r).
Proof.
  unfold scan_dir. destruct (load_all l) as [rs|] eqn:Hl; [|done]. cbn. intros [= <-].
  split; [apply scan_list_sorted|]. unfold scan_list. split; [rewrite isort_perm'; apply first_by_uuid_uniq|].
  split; intros r.
  - rewrite isort_elem. intros Hr. apply first_by_uuid_incl in Hr. apply rev_file_counts.
    eapply load_all_elem; done.
  - intros Hr. apply rev_file_counts in Hr. apply (load_all_elem l rs r Hl) in Hr.
    destruct (first_by_uuid_cover rs [] r Hr) as (y & Hy & Hyu); [intros Hx; apply elem_of_nil in Hx; done|].
    exists y. rewrite isort_elem. done.
Qed.
(** The order of the directory does not matter when no uuid occurs twice, except
    for revisions with the same timestamp. *)
Theorem C25_order l l' h : scan_dir l = Ok h -> l ≡ₚ l' ->
  (forall e1 e2 r1 r2, e1 ∈ l -> e2 ∈ l -> de_rev e1 = Some r1 -> de_rev e2 = Some r2 ->
     r_uuid r1 = r_uuid r2 -> e1 = e2) -> NoDup l ->
  exists h', scan_dir l' = Ok h' /\ h' ≡ₚ h /\ (NoDup (map r_ts h) -> h' = h).
Proof.
  unfold scan_dir. destruct (load_all l) as [rs|] eqn:Hl; [|done]. cbn. intros [= <-] Hp Hu Hn.
  destruct (load_all_perm l l' rs Hp Hl) as (rs' & -> & Hr). cbn. eexists. split; [done|].
  assert (Hd : NoDup (map r_uuid rs)).
  { apply load_all_spec in Hl.
    assert (Hf : NoDup (filter (fun e => counts e = true) l)) by (apply NoDup_filter; done).
    assert (Hsub : forall e, e ∈ filter (fun e => counts e = true) l -> e ∈ l)
      by (intros e He; apply elem_of_list_filter in He; tauto).
    revert Hl Hf Hsub. generalize (filter (fun e => counts e = true) l). clear Hr. intros k. revert rs.
    induction k as [|e k IH]; intros [|r rs] Hl Hf Hsub; try done; [constructor|]. cbn in Hl |- *.
    injection Hl as He Hl. apply NoDup_cons in Hf as [Hf1 Hf2]. apply NoDup_cons. split.
    - intros Hin. apply elem_of_list_fmap in Hin as (r2 & Hr2 & Hin).
      assert (Hs : Some r2 ∈ map de_rev k) by (rewrite Hl; apply elem_of_list_fmap; eauto).
      apply elem_of_list_fmap in Hs as (e2 & He2 & Hin2). apply Hf1.
      rewrite (Hu e e2 r r2); [done|apply Hsub; left|apply Hsub; right; done|done|done|done].
    - apply IH; [done|done|]. intros x Hx. apply Hsub. right. done. }
  assert (Hd' : NoDup (map r_uuid rs')) by (rewrite <- Hr; done).
  assert (Hperm : scan_list rs' ≡ₚ scan_list rs).
  { unfold scan_list. rewrite !isort_perm', !first_by_uuid_id; [done|done| |done|];
      intros x _ Hx; apply elem_of_nil in Hx; done. }
  split; [done|]. intros Hts. symmetry. apply sorted_unique; [apply scan_list_sorted|apply scan_list_sorted|done|done].
Qed.
(** Links are ignored, and other files too. *)
Theorem C25_links l :
  scan_dir l = scan_dir (filter (fun e => de_link e = false) l).
Proof.
  unfold scan_dir. f_equal. induction l as [|e l IH]; [done|]. destruct (de_link e) eqn:He.
  - rewrite filter_cons_False by (rewrite He; done). cbn [load_all]. rewrite He, orb_true_r. done.
  - rewrite filter_cons_True by done. cbn [load_all]. rewrite IH. done.
Qed.
Print Assumptions C25_history.
Print Assumptions C25_order.
Print Assumptions C25_links.
Definition ex_r (u : string) (ts : Z) (tags : list string) (srv : string) : rev :=
  MkRev u ts (MkStats 0 (Some 1%Z) None) (list_to_set tags) ∅ TRUSTED srv.
Definition ex_dir : list dirent :=
  [MkEnt "b.rev" false (Some (ex_r "b" 200 ["daily"] "")); MkEnt "last.rev" true (Some (ex_r "b" 200 ["daily"] ""));
   MkEnt "b" false None; MkEnt "a.rev" false (Some (ex_r "a" 100 ["daily"] ""))].
Example ex_C25 : scan_dir ex_dir = Ok [ex_r "a" 100 ["daily"] ""; ex_r "b" 200 ["daily"] ""] /\
  scan_dir (reverse ex_dir) = scan_dir ex_dir.
Proof. split; vm_compute; reflexivity. Qed.

(** ** C26 *)
(** [dump] and [load] are yaml.safe_dump and yaml.safe_load on such mappings. *)
Theorem C26_metadata_roundtrip (text : Type) (dump : meta -> text) (load : text -> option meta)
    (O : orders) iso h r :
  (forall m, load (dump m) = Some m) -> orders_ok O ->
  exists m, load (dump (to_dict O h r)) = Some m /\ from_dict iso m = Ok r.
Proof.
  intros Hy [_ Hset]. exists (to_dict O h r). split; [apply Hy|].
  unfold to_dict, from_dict. cbn.
  assert (Ht : trust_of (trust_value (r_trust r)) = Some (r_trust r)) by (destruct (r_trust r); reflexivity).
  rewrite Ht.
  assert (Hs : forall X, list_to_set (o_set O X) = X :> gset string).
  { intros X. apply set_eq. intros x. rewrite elem_of_list_to_set, Hset, elem_of_elements. done. }
  rewrite !Hs. destruct r; done.
Qed.
(** After write_info a new scan finds the revision with just that metadata. *)
Theorem C26_written_is_found O r s :
  orders_ok O -> rev_files_ok (w_disk (rs_w s)) ->
  let s' := (scan O (write_info r s).1).1 in
  r ∈ rs_hist s' /\ forall x, x ∈ rs_hist s' -> r_uuid x = r_uuid r -> x = r.
Proof.
  intros HO Hf s'.
  assert (Hd : drevs s' = <[r_uuid r := r]> (drevs s)) by reflexivity.
  assert (Hf' : rev_files_ok (w_disk (rs_w s'))).
  { intros n rv. rewrite Hd. destruct (decide (n = r_uuid r)) as [->|Hn].
    - rewrite lookup_insert. intros [= <-]. done.
    - rewrite lookup_insert_ne by done. apply Hf. }
  assert (Hh : rs_hist s' = scan_disk O (w_disk (rs_w s'))) by reflexivity.
  split.
  - rewrite Hh. apply scan_disk_elem; [done|done|]. rewrite Hd. apply lookup_insert.
  - intros x Hx Hu. rewrite Hh in Hx. apply scan_disk_elem in Hx; [|done|done]. rewrite Hd, Hu, lookup_insert in Hx. congruence.
Qed.
(** Metadata of older versions: whatever is missing but the identifier and the time reads
    as trusted, without tags, on this server, not finished; what is there is read as it is. *)
Theorem C26_old_metadata iso m r : from_dict iso m = Ok r <->
  m_uuid m = Some (r_uuid r) /\
  (m_ts m = Some (YTime (r_ts r) 0) \/ exists s, m_ts m = Some (YText s) /\ iso s = Some (r_ts r, 0%Z)) /\
  match m_stats m with Some x => r_stats r = x | None => r_stats r = MkStats 0 None None end /\
  match m_trust m with
  | Some x => (x = "trusted" /\ r_trust r = TRUSTED) \/ (x = "distrusted" /\ r_trust r = DISTRUSTED) \/
      (x = "verified" /\ r_trust r = VERIFIED)
  | None => r_trust r = TRUSTED
  end /\
  (forall t, t ∈ r_tags r <-> exists l, m_tags m = Some l /\ t ∈ l) /\
  (forall t, t ∈ r_orig r <-> exists l, m_orig m = Some l /\ t ∈ l) /\
  match m_server m with Some x => r_server r = x | None => r_server r = "" end.
Proof.
  assert (Htr : forall x t, trust_of x = Some t <->
    (x = "trusted" /\ t = TRUSTED) \/ (x = "distrusted" /\ t = DISTRUSTED) \/ (x = "verified" /\ t = VERIFIED)).
  { intros x t. unfold trust_of.
    repeat match goal with |- context [decide ?P] => destruct (decide P) | |- context [bool_decide ?P] => destruct (bool_decide_reflect P) end;
      subst; split; intros H; try congruence; try (injection H as <-; auto); try (destruct H as [[? ?]|[[? ?]|[? ?]]]; congruence). }
  assert (Hset : forall (o : option (list string)) (X : gset string), list_to_set (default [] o) = X <->
    forall t, t ∈ X <-> exists l, o = Some l /\ t ∈ l).
  { intros o X. split.
    - intros <- t. rewrite elem_of_list_to_set. destruct o as [l|]; cbn; split; try done; eauto.
      + intros (l' & [= <-] & H). done.
      + intros H. inversion H.
      + intros (l' & ? & _). done.
    - intros H. apply set_eq. intros t. rewrite H, elem_of_list_to_set. destruct o as [l|]; cbn; split; eauto.
      + intros (l' & [= <-] & H'). done.
      + intros H'. inversion H'.
      + intros (l' & ? & _). done. }
  unfold from_dict. destruct m as [mu mt mp ms mtr mtg mo msv], r as [u ts st tg og tr sv]. cbn.
  rewrite <- !Hset. split.
  - destruct mt as [y|]; [|done]. destruct y as [i o|s]; cbn [res_bind].
    + cbn. destruct (o =? 0)%Z eqn:Ho; cbn; [|done]. apply Z.eqb_eq in Ho as ->. destruct mu as [u'|]; [|done].
      destruct (trust_of _) as [t|] eqn:Ht; [|done]. intros [= <- <- <- <- <- <- <-].
      split; [done|]. split; [auto|]. split; [destruct ms; done|]. split; [|split; [done|split; [done|destruct msv; done]]].
      destruct mtr as [x|]; cbn in Ht; [apply Htr; done|]. apply Htr in Ht as [[_ ->]|[[? _]|[? _]]]; done.
    + destruct (iso s) as [[i o]|] eqn:Hi; cbn; [|done]. destruct (o =? 0)%Z eqn:Ho; cbn; [|done]. apply Z.eqb_eq in Ho as ->.
      destruct mu as [u'|]; [|done].
      destruct (trust_of _) as [t|] eqn:Ht; [|done]. intros [= <- <- <- <- <- <- <-].
      split; [done|]. split; [eauto|]. split; [destruct ms; done|]. split; [|split; [done|split; [done|destruct msv; done]]].
      destruct mtr as [x|]; cbn in Ht; [apply Htr; done|]. apply Htr in Ht as [[_ ->]|[[? _]|[? _]]]; done.
  - intros (-> & Hts & Hs & Ht & <- & <- & Hsv).
    assert (trust_of (default "trusted" mtr) = Some tr) as Ht'.
    { destruct mtr as [x|]; cbn; [apply Htr; done|rewrite Ht; reflexivity]. }
    assert (default (MkStats 0 None None) ms = st) as <- by (destruct ms; done).
    assert (default "" msv = sv) as <- by (destruct msv; done).
    destruct Hts as [->|(s & -> & Hi)]; cbn; [|rewrite Hi; cbn]; rewrite Ht'; done.
Qed.
Print Assumptions C26_old_metadata.
Print Assumptions C26_metadata_roundtrip.
Print Assumptions C26_written_is_found.
Definition ex_orders : orders := MkOrders map_to_list elements.
Lemma ex_orders_ok : orders_ok ex_orders.
Proof. split; done. Qed.
Example ex_C26 :
  let r := MkRev "a" 5 (MkStats 3 None (Some "full")) {["daily"; "manual:x"]} {["daily"]} VERIFIED "srv" in
  from_dict (fun _ => None) (to_dict ex_orders [] r) = Ok r /\
  from_dict (fun _ => Some (5, 3600)%Z) (MkMeta (Some "a") (Some (YText "1970")) None None None None None None) = Err AssertionError.
Proof.
  split; [|reflexivity].
  destruct (C26_metadata_roundtrip meta id Some ex_orders (fun _ => None) []
    (MkRev "a" 5 (MkStats 3 None (Some "full")) {["daily"; "manual:x"]} {["daily"]} VERIFIED "srv")) as (m & [= <-] & Hm);
    [done|apply ex_orders_ok|exact Hm].
Qed.

Example ex_C26_old :
  from_dict (fun _ => Some (5, 0)%Z) (MkMeta (Some "a") (Some (YText "1970")) None None None None None None) =
    Ok (MkRev "a" 5 (MkStats 0 None None) ∅ ∅ TRUSTED "").
Proof. reflexivity. Qed.

(** ** C30 *)
Lemma schedule_tags_unknown S tags :
  (schedule_tags tags ∖ sched_keys S = ∅) <-> ~ has_unknown S tags.
Proof.
  unfold schedule_tags, sched_keys, has_unknown. split.
  - intros He (t & Ht & Hm & Hk). assert (Hin : t ∈ filter (fun t => is_manual t = false) tags ∖ list_to_set (map fst S)).
    { apply elem_of_difference. rewrite elem_of_list_to_set. split; [|done]. apply elem_of_filter. split; [|done].
      destruct (is_manual t) eqn:E; [|done]. apply starts_spec in E. exfalso. apply Hm. exact E. }
    rewrite He in Hin. apply elem_of_empty in Hin. done.
  - intros Hn. apply set_eq. intros t. rewrite elem_of_difference, elem_of_filter, elem_of_list_to_set.
    split; [|intros Hx; apply elem_of_empty in Hx; done]. intros [[Hm Ht] Hk]. exfalso. apply Hn. exists t.
    split; [done|]. split; [|done]. intros [x Hx]. assert (is_manual t = true) by (apply starts_spec; eauto). congruence.
Qed.
(** The whole call, computed. *)
Definition rejected (S : sched) (a : action) (tags : gset string) (force : bool) : bool :=
  negb force && negb (match a with ARemove => true | _ => false end) &&
  negb (bool_decide (schedule_tags tags ∖ sched_keys S = ∅)).
Lemma rejected_spec S a tags force :
  rejected S a tags force = true <-> force = false /\ a <> ARemove /\ has_unknown S tags.
Proof.
  unfold rejected. rewrite !andb_true_iff, !negb_true_iff, bool_decide_eq_false, schedule_tags_unknown.
  split.
  - intros [[H1 H2] H3]. split; [done|]. split; [intros ->; done|].
    rewrite <- schedule_tags_unknown in H3. apply set_choose_L in H3 as [t Ht].
    unfold schedule_tags, sched_keys in Ht. rewrite elem_of_difference, elem_of_filter, elem_of_list_to_set in Ht.
    destruct Ht as [[Hm Ht] Hk]. exists t. split; [done|]. split; [|done]. intros [x Hx].
    assert (is_manual t = true) by (apply starts_spec; eauto). congruence.
  - intros (H1 & H2 & H3). split; [|tauto]. split; [done|]. destruct a; done.
Qed.
Lemma repo_tags_eq O iso S a spec tags expect autoremove force s :
  repo_tags O iso S a spec tags expect autoremove force s =
  let s1 := set_hist (scan_disk O (w_disk (rs_w s))) s in
  match find_revisions (scan_disk O (w_disk (rs_w s))) iso spec with
  | Err e => (s1, Err e)
  | Ok revs =>
      if rejected S a tags force then (s1, Err RuntimeError)
      else if existsb (fun r => match expect with Some e => bool_decide (e <> r_tags r) | None => false end) revs
      then (s1, Ok false)
      else match mfor revs (tag_one a tags autoremove) s1 with
           | (s2, Ok _) => (s2, Ok true)
           | (s2, Err e) => (s2, Err e)
           end
  end.
Proof.
  unfold repo_tags, rejected, validate_tags, massert. set (s1 := set_hist _ s).
  assert (Hscan : forall B (k : unit -> M rst B), bind (scan O) k s = k tt s1) by reflexivity.
  rewrite Hscan. unfold bind at 1. cbn [get]. change (rs_hist s1) with (scan_disk O (w_disk (rs_w s))).
  destruct (find_revisions _ iso spec) as [revs|e]; [|reflexivity]. unfold bind at 1. cbn [lift].
  destruct (negb force && _); [destruct (bool_decide _)|]; cbn [negb andb]; unfold bind at 1; cbn;
    try reflexivity; destruct (existsb _ revs); try reflexivity;
    unfold bind; destruct (mfor revs _ s1) as [s2 [[]|]]; reflexivity.
Qed.
(** The outcome is determined by the selection; unless it is a success nothing
    changes; on success exactly the selected revisions change, as asked; in
    between every file is either old or new. *)
Theorem C30_tags O iso S a spec tags expect autoremove force s :
  orders_ok O -> rev_files_ok (w_disk (rs_w s)) -> a <> AOther ->
  let H := scan_disk O (w_disk (rs_w s)) in
  let s' := (repo_tags O iso S a spec tags expect autoremove force s).1 in
  let out := (repo_tags O iso S a spec tags expect autoremove force s).2 in
  let unchanged := drevs s' = drevs s in
  match find_revisions H iso spec with
  | Err e => out = Err e /\ unchanged
  | Ok revs =>
      (force = false -> a <> ARemove -> has_unknown S tags -> out = Err RuntimeError /\ unchanged) /\
      (force = true \/ a = ARemove \/ ~ has_unknown S tags ->
       ((exists r e, r ∈ revs /\ expect = Some e /\ r_tags r <> e) -> out = Ok false /\ unchanged) /\
       ((forall r e, r ∈ revs -> expect = Some e -> r_tags r = e) ->
          out = Ok true /\ changed (drevs s) (drevs s') revs (retagged a tags autoremove)))
  end /\
  data_same (w_disk (rs_w s)) (w_disk (rs_w s')) /\
  forall d, killed s s' d -> data_same (w_disk (rs_w s)) d /\ in_between (drevs s) (drevs s') (d_revs d).
Proof.
  intros HO Hf Ha H.
  rewrite repo_tags_eq. cbv zeta. fold H. set (s1 := set_hist H s).
  assert (Hs1 : scanned O s1) by reflexivity.
  assert (Hn : NoDup (map r_uuid H)) by apply scan_disk_nodup.
  assert (Hkill0 : forall d, killed s s1 d -> data_same (w_disk (rs_w s)) d /\ in_between (drevs s) (drevs s1) (d_revs d)).
  { intros d (l & k & Hl & ->). assert (l = []) as ->.
    { change (w_log (rs_w s1)) with (w_log (rs_w s)) in Hl. rewrite <- (app_nil_r (w_log (rs_w s))) in Hl at 1.
      apply app_inv_head in Hl. done. }
    rewrite take_nil. split; [done|]. intros u. auto. }
  destruct (find_revisions H iso spec) as [revs|e] eqn:Hfr; [|done].
  destruct (find_revisions_uuids H iso spec revs Hn Hfr) as [Hr1 Hr2].
  destruct (rejected S a tags force) eqn:Hrej.
  - apply rejected_spec in Hrej as (R1 & R2 & R3). cbn. split; [|done]. split; [done|]. intros [?|[?|?]]; congruence || done.
  - assert (Hnr : ~ (force = false /\ a <> ARemove /\ has_unknown S tags)) by (rewrite <- rejected_spec; congruence).
    assert (Hfirst : forall P : Prop, force = false -> a <> ARemove -> has_unknown S tags -> P) by tauto.
    destruct (existsb _ revs) eqn:Hex.
    + cbn. split; [|done]. split; [intros; eapply Hfirst; done|]. intros _. split; [done|].
      intros Hall. apply existsb_exists in Hex as (r & Hr & Hx). apply elem_of_list_In in Hr.
      destruct expect as [e|]; [|done]. apply bool_decide_eq_true in Hx. destruct Hx. symmetry. apply (Hall r e); done.
    + destruct (loop_changed (tag_one a tags autoremove) (fun _ => true) (retagged a tags autoremove) revs s1 O)
        as (L1 & L2 & L3 & L4); [apply body_tag; done|done|done|done|done|done|].
      destruct (mfor revs (tag_one a tags autoremove) s1) as [s2 x]. cbn [fst snd] in *. subst x. cbn [fst snd].
      assert (Hall : filter (fun _ : rev => true = true) revs = revs).
      { clear. induction revs as [|x l IH]; [done|]. rewrite filter_cons_True by done. f_equal. exact IH. }
      rewrite Hall in L2.
      split; [|split; [exact L3|exact L4]]. split; [intros; eapply Hfirst; done|]. intros _. split; [|done].
      intros (r & e & Hr & -> & Hne). exfalso.
      assert (Ht : existsb (fun r => bool_decide (e <> r_tags r)) revs = true).
      { apply existsb_exists. exists r. split; [apply elem_of_list_In; done|]. apply bool_decide_eq_true. congruence. }
      congruence.
Qed.
Print Assumptions C30_tags.
Definition ex_disk (l : list rev) : disk := MkDisk ∅ ∅ (list_to_map (map (fun r => (r_uuid r, r)) l)).
Definition ex_state (l : list rev) : rst := MkRst (MkWorld (ex_disk l) [] ∅ false) [] [].
Definition ex_sched : sched := [("daily", MkItem 86400000000 3)].
Definition ex_revs : list rev := [ex_r "a" 100 ["daily"] ""; ex_r "b" 200 [] ""; ex_r "c" 300 ["daily"] "srv"].
Lemma ex_files_ok : rev_files_ok (ex_disk ex_revs).
Proof.
  intros n r Hn. apply elem_of_list_to_map_2 in Hn.
  repeat (apply elem_of_cons in Hn as [[= -> ->]|Hn]; [done|]). apply elem_of_nil in Hn. done.
Qed.
Definition tags_of (d : disk) (u : string) : option (list string) :=
  (fun r => elements (r_tags r)) <$> d_revs d !! u.
Example ex_C30 :
  let run a spec tags expect auto := repo_tags ex_orders (fun _ => None) ex_sched a spec tags expect auto false (ex_state ex_revs) in
  (run AAdd "last(local)" {["manual:x"]} None false).2 = Ok true /\
  tags_of (w_disk (rs_w (run AAdd "last(local)" {["manual:x"]} None false).1)) "b" = Some ["manual:x"] /\
  (run ARemove "tag:daily" {["daily"]} (Some {["daily"]}) true).2 = Ok true /\
  tags_of (w_disk (rs_w (run ARemove "tag:daily" {["daily"]} (Some {["daily"]}) true).1)) "a" = None /\
  (run ASet "all" {["daily"]} (Some {["daily"]}) true).2 = Ok false /\
  (run ASet "all" {["weekly"]} None true).2 = Err RuntimeError.
Proof. repeat split; vm_compute; reflexivity. Qed.

(** ** C31 *)
Theorem C31_rm O iso spec revs s :
  orders_ok O -> rev_files_ok (w_disk (rs_w s)) -> scanned O s ->
  find_revisions (rs_hist s) iso spec = Ok revs ->
  let s' := (repo_rm revs s).1 in
  (repo_rm revs s).2 = Ok tt /\
  changed (drevs s) (drevs s') revs removed /\
  data_same (w_disk (rs_w s)) (w_disk (rs_w s')) /\
  forall d, killed s s' d -> data_same (w_disk (rs_w s)) d /\ in_between (drevs s) (drevs s') (d_revs d).
Proof.
  intros HO Hf Hs Hfr s'.
  assert (Hn : NoDup (map r_uuid (rs_hist s))) by (rewrite Hs; apply scan_disk_nodup).
  destruct (find_revisions_uuids _ iso spec revs Hn Hfr) as [Hr1 Hr2].
  destruct (loop_changed (rev_remove false) (fun _ => true) removed revs s O) as (L1 & L2 & L3 & L4);
    [apply body_rm|done|done|done|done|done|].
  assert (Hall : filter (fun _ : rev => true = true) revs = revs).
  { clear. induction revs as [|x l IH]; [done|]. rewrite filter_cons_True by done. f_equal. exact IH. }
  rewrite Hall in L2. done.
Qed.
Print Assumptions C31_rm.
Example ex_C31 :
  let s := (scan ex_orders (ex_state ex_revs)).1 in
  find_revisions (rs_hist s) (fun _ => None) "tag:daily" = Ok [ex_r "a" 100 ["daily"] ""; ex_r "c" 300 ["daily"] "srv"] /\
  let s' := (repo_rm [ex_r "a" 100 ["daily"] ""; ex_r "c" 300 ["daily"] "srv"] s).1 in
  tags_of (w_disk (rs_w s')) "a" = None /\ tags_of (w_disk (rs_w s')) "b" = Some [] /\
  tags_of (w_disk (rs_w s')) "c" = Some [].
Proof. repeat split; vm_compute; reflexivity. Qed.

(** ** C32 *)
Theorem C32_cleanup O s :
  orders_ok O -> rev_files_ok (w_disk (rs_w s)) -> scanned O s ->
  let s' := (repo_clean s).1 in
  (repo_clean s).2 = Ok tt /\
  (forall u, drevs s' !! u = match drevs s !! u with
     | Some r => if decide (r_server r = "" /\ s_duration (r_stats r) = None) then None else Some r
     | None => None end) /\
  data_same (w_disk (rs_w s)) (w_disk (rs_w s')) /\
  forall d, killed s s' d -> data_same (w_disk (rs_w s)) d /\ in_between (drevs s) (drevs s') (d_revs d).
Proof.
  intros HO Hf Hs s'. unfold s', repo_clean, bind, get. cbn [fst snd].
  assert (Hn : NoDup (map r_uuid (rs_hist s))) by (rewrite Hs; apply scan_disk_nodup).
  assert (Hl : NoDup (map r_uuid (get_history false true (rs_hist s)))).
  { unfold get_history. revert Hn. generalize (rs_hist s). intros h. induction h as [|x h IH]; [done|]. intros Hn.
    cbn in Hn. apply NoDup_cons in Hn as [Hx Hn]. rewrite filter_cons. case_decide; [|auto]. cbn.
    apply NoDup_cons. split; [|auto]. intros Hin. apply Hx. apply elem_of_list_fmap in Hin as (y & Hy & Hin).
    apply elem_of_list_filter in Hin as [_ Hin]. apply elem_of_list_fmap. eauto. }
  destruct (loop_changed _ _ removed (get_history false true (rs_hist s)) s O body_clean HO Hf Hs Hl)
    as (L1 & L2 & L3 & L4).
  { intros r Hr. apply get_history_elem in Hr. tauto. }
  split; [done|]. split; [|split; done]. intros u. rewrite (L2 u).
  destruct (drevs s !! u) as [r|] eqn:Hr; [|done].
  assert (Hin : r ∈ rs_hist s).
  { rewrite Hs. apply scan_disk_elem; [done|done|]. rewrite (Hf _ _ Hr). done. }
  assert (Hiff : r ∈ filter (fun r => negb (is_clean r) = true) (get_history false true (rs_hist s)) <->
    r_server r = "" /\ s_duration (r_stats r) = None).
  { rewrite elem_of_list_filter, get_history_elem. unfold is_clean, is_local.
    rewrite bool_decide_eq_true. destruct (s_duration (r_stats r)); cbn; naive_solver. }
  destruct (decide (r_server r = "" /\ s_duration (r_stats r) = None)) as [Hy|Hy].
  - rewrite decide_True by (apply Hiff; done). unfold removed. rewrite decide_True by tauto. done.
  - rewrite decide_False by (rewrite Hiff; done). done.
Qed.
Print Assumptions C32_cleanup.
Definition ex_inc : rev := MkRev "i" 400 (MkStats 0 None None) {["daily"]} ∅ TRUSTED "".
Example ex_C32 :
  let s := (scan ex_orders (ex_state (ex_inc :: ex_revs))).1 in
  let s' := (repo_clean s).1 in
  tags_of (w_disk (rs_w s')) "i" = None /\ tags_of (w_disk (rs_w s')) "a" = Some ["daily"] /\
  tags_of (w_disk (rs_w s')) "c" = Some ["daily"].
Proof. repeat split; vm_compute; reflexivity. Qed.

(** ** C33 *)
(** Full claim: the selected local revisions, and only they, become distrusted. *)
Definition distrusts_local (s : rst) (revs : list rev) : Prop :=
  let s' := (distrust revs s).1 in
  changed (drevs s) (drevs s') revs
    (fun r => Some (if decide (r_server r = "") then with_trust DISTRUSTED r else r)) /\
  ((distrust revs s).2 = Ok tt <-> forall r, r ∈ revs -> r_server r = "") /\
  data_same (w_disk (rs_w s)) (w_disk (rs_w s')).
Lemma body_distrust : loop_body (fun r => (do_ upd (with_trust DISTRUSTED r); write_info (with_trust DISTRUSTED r))%M)
  (fun _ => true) (fun r => Some (with_trust DISTRUSTED r)).
Proof.
  split; [done|]. intros r _. split; [apply (makes_write (with_trust DISTRUSTED r))|]. intros r' [= <-]. done.
Qed.
Lemma distrust_prefix O s l1 l2 :
  orders_ok O -> rev_files_ok (w_disk (rs_w s)) -> scanned O s -> NoDup (map r_uuid (l1 ++ l2)) ->
  (forall r, r ∈ l1 ++ l2 -> r ∈ rs_hist s) ->
  (forall r, r ∈ l1 -> r_server r = "") -> (forall r, head l2 = Some r -> r_server r <> "") ->
  (distrust (l1 ++ l2) s).2 = (if decide (l2 = []) then Ok tt else Err AssertionError) /\
  changed (drevs s) (drevs (distrust (l1 ++ l2) s).1) l1 (fun r => Some (with_trust DISTRUSTED r)) /\
  data_same (w_disk (rs_w s)) (w_disk (rs_w (distrust (l1 ++ l2) s).1)) /\
  (forall d, killed s (distrust (l1 ++ l2) s).1 d ->
     data_same (w_disk (rs_w s)) d /\ in_between (drevs s) (drevs (distrust (l1 ++ l2) s).1) (d_revs d)).
Proof.
  intros HO Hf Hs Hn Hin Hl1 Hl2. unfold distrust. rewrite mfor_app.
  rewrite (mfor_ext l1 _ (fun r => (do_ upd (with_trust DISTRUSTED r); write_info (with_trust DISTRUSTED r))%M)).
  2: { intros r s0 Hr. unfold is_local. rewrite bool_decide_eq_true_2 by auto. done. }
  assert (Hn1 : NoDup (map r_uuid l1)) by (rewrite map_app in Hn; apply NoDup_app in Hn; tauto).
  destruct (loop_changed _ _ _ l1 s O body_distrust HO Hf Hs Hn1) as (L1 & L2 & L3 & L4).
  { intros r Hr. apply Hin. apply elem_of_app. auto. }
  destruct (mfor l1 _ s) as [s1 x]. cbn [fst snd] in *. subst x.
  assert (Hall : filter (fun _ : rev => true = true) l1 = l1).
  { clear. induction l1 as [|x l IH]; [done|]. rewrite filter_cons_True by done. f_equal. exact IH. }
  rewrite Hall in L2. destruct l2 as [|r l2].
  - cbn. done.
  - rewrite decide_False by done. cbn [mfor]. unfold bind at 1 3 5 7 9. unfold bind at 1. unfold is_local.
    specialize (Hl2 r eq_refl). rewrite bool_decide_eq_false_2 by done. cbn. done.
Qed.
(** When all of them are local, this is what happens. *)
Theorem C33_distrust_partial O iso spec revs s :
  orders_ok O -> rev_files_ok (w_disk (rs_w s)) -> scanned O s ->
  find_revisions (rs_hist s) iso spec = Ok revs ->
  (forall r, r ∈ revs -> r_server r = "") -> distrusts_local s revs.
Proof.
  intros HO Hf Hs Hfr Hl.
  assert (Hn : NoDup (map r_uuid (rs_hist s))) by (rewrite Hs; apply scan_disk_nodup).
  destruct (find_revisions_uuids _ iso spec revs Hn Hfr) as [Hr1 Hr2].
  destruct (distrust_prefix O s revs []) as (D1 & D2 & D3 & _); rewrite ?app_nil_r; try done.
  rewrite app_nil_r in *. split; [|split; [|done]].
  - intros u. rewrite (D2 u). destruct (drevs s !! u) as [r|]; [|done]. destruct (decide (r ∈ revs)) as [Hr|]; [|done].
    rewrite decide_True by auto. done.
  - rewrite D1, decide_True by done. done.
Qed.
(** In any case remote revisions stay as they are, other revisions too, and a
    selection with a remote revision fails. *)
Theorem C33_remote_refused_partial O iso spec revs s :
  orders_ok O -> rev_files_ok (w_disk (rs_w s)) -> scanned O s ->
  find_revisions (rs_hist s) iso spec = Ok revs ->
  (exists r, r ∈ revs /\ r_server r <> "") ->
  let s' := (distrust revs s).1 in
  (distrust revs s).2 = Err AssertionError /\
  (forall u r, drevs s !! u = Some r -> r_server r <> "" \/ r ∉ revs -> drevs s' !! u = Some r) /\
  (forall u r, drevs s !! u = Some r -> drevs s' !! u = Some r \/ drevs s' !! u = Some (with_trust DISTRUSTED r)) /\
  (forall u, drevs s !! u = None -> drevs s' !! u = None).
Proof.
  intros HO Hf Hs Hfr (r0 & Hr0 & Hsrv) s'.
  assert (Hn : NoDup (map r_uuid (rs_hist s))) by (rewrite Hs; apply scan_disk_nodup).
  destruct (find_revisions_uuids _ iso spec revs Hn Hfr) as [Hr1 Hr2].
  assert (Hsplit : exists l1 r l2, revs = l1 ++ r :: l2 /\ (forall x, x ∈ l1 -> r_server x = "") /\ r_server r <> "").
  { clear -Hr0 Hsrv. induction revs as [|x l IH]; [apply elem_of_nil in Hr0; done|].
    destruct (decide (r_server x = "")) as [Hx|Hx].
    - apply elem_of_cons in Hr0 as [->|Hr0]; [done|]. destruct (IH Hr0) as (l1 & r & l2 & -> & H1 & H2).
      exists (x :: l1), r, l2. split; [done|]. split; [|done]. intros y Hy. apply elem_of_cons in Hy as [->|]; auto.
    - exists [], x, l. split; [done|]. split; [|done]. intros y Hy. apply elem_of_nil in Hy. done. }
  destruct Hsplit as (l1 & r & l2 & He & Hl1 & Hr).
  destruct (distrust_prefix O s l1 (r :: l2)) as (D1 & D2 & D3 & _); rewrite <- ?He; try done.
  { intros y [= <-]. done. }
  unfold s'. rewrite <- He in *. split; [rewrite D1, decide_False by done; done|].
  split; [|split].
  - intros u x Hu Hx. rewrite (D2 u), Hu. rewrite decide_False; [done|]. intros Hin. destruct Hx as [Hx|Hx].
    + apply Hx, Hl1. done.
    + apply Hx. rewrite He. apply elem_of_app. auto.
  - intros u x Hu. rewrite (D2 u), Hu. destruct (decide (x ∈ l1)); auto.
  - intros u Hu. rewrite (D2 u), Hu. done.
Qed.
(** But a selection that contains a remote revision stops there: local revisions
    after it keep their trust. *)
Theorem C33_distrust_refuted :
  exists O s iso spec revs, orders_ok O /\ rev_files_ok (w_disk (rs_w s)) /\ scanned O s /\
    find_revisions (rs_hist s) iso spec = Ok revs /\ ~ distrusts_local s revs.
Proof.
  set (l := [ex_r "a" 100 [] "srv"; ex_r "b" 200 [] ""]).
  exists ex_orders, (scan ex_orders (ex_state l)).1, (fun _ => None), "all", l.
  split; [apply ex_orders_ok|]. split.
  { intros n r Hn. change (w_disk (rs_w (scan ex_orders (ex_state l)).1)) with (ex_disk l) in Hn.
    apply elem_of_list_to_map_2 in Hn.
    repeat (apply elem_of_cons in Hn as [[= -> ->]|Hn]; [done|]). apply elem_of_nil in Hn. done. }
  split; [reflexivity|]. split; [vm_compute; reflexivity|].
  intros [Hc _]. specialize (Hc "b"). vm_compute in Hc. discriminate.
Qed.
Print Assumptions C33_distrust_partial.
Print Assumptions C33_remote_refused_partial.
Print Assumptions C33_distrust_refuted.
Example ex_C33 :
  let s := (scan ex_orders (ex_state ex_revs)).1 in
  find_revisions (rs_hist s) (fun _ => None) "local" = Ok [ex_r "a" 100 ["daily"] ""; ex_r "b" 200 [] ""] /\
  r_trust <$> drevs (distrust [ex_r "a" 100 ["daily"] ""; ex_r "b" 200 [] ""] s).1 !! "b" = Some DISTRUSTED.
Proof. split; vm_compute; reflexivity. Qed.
