(** Loops that rewrite or remove metadata files. *)
From Verif Require Export Proofs.RevSpecTok Proofs.RevsProofs Spec.Repo.

(** ** One change *)
Definition put_rev (u : string) (o : option rev) (D : gmap string rev) : gmap string rev :=
  match o with Some r => <[u := r]> D | None => delete u D end.
Definition put_hist (u : string) (o : option rev) (h : list rev) : list rev :=
  match o with Some r => hist_set r h | None => hist_del u h end.
Notation drevs s := (d_revs (w_disk (rs_w s))).

(** [m] makes [o] of the revision with uuid [u]. *)
Definition makes (m : M rst unit) (u : string) (o : option rev) : Prop :=
  forall s, exists l,
    delta s (m s).1 l /\ (m s).2 = Ok tt /\
    drevs (m s).1 = put_rev u o (drevs s) /\ data_same (w_disk (rs_w s)) (w_disk (rs_w (m s).1)) /\
    rs_hist (m s).1 = put_hist u o (rs_hist s) /\
    (forall k, data_same (w_disk (rs_w s)) (replay (take k l) (w_disk (rs_w s))) /\
       (d_revs (replay (take k l) (w_disk (rs_w s))) = drevs s \/
        d_revs (replay (take k l) (w_disk (rs_w s))) = drevs (m s).1)).
Lemma makes_write r : makes (do_ upd r; write_info r)%M (r_uuid r) (Some r).
Proof.
  intros s. exists [ETmp; ETmp; ERevPut (r_uuid r) r]. unfold delta, data_same.
  cbn. rewrite <- !app_assoc. repeat split; try done.
  - destruct k as [|[|[|[|]]]]; done.
  - destruct k as [|[|[|[|]]]]; done.
  - destruct k as [|[|[|k]]]; cbn; [auto|auto|auto|]. right. rewrite take_nil. done.
Qed.
Lemma makes_remove r : makes (rev_remove false r) (r_uuid r) (removed r).
Proof.
  unfold rev_remove, removed, is_local. destruct (decide (r_server r = "")) as [Hl|Hl].
  - rewrite bool_decide_eq_true_2 by done. cbn [negb andb].
    intros s. unfold bind, get. cbn. destruct (bool_decide (is_Some (drevs s !! r_uuid r))) eqn:Hb.
    + exists [ERevDel (r_uuid r)]. unfold delta, data_same. cbn. repeat split; try done.
      * destruct k as [|[|]]; done.
      * destruct k as [|[|]]; done.
      * destruct k as [|k]; cbn; [auto|]. right. rewrite take_nil. done.
    + exists []. unfold delta, data_same. cbn. rewrite app_nil_r.
      assert (Hd : delete (r_uuid r) (drevs s) = drevs s).
      { apply delete_notin. apply bool_decide_eq_false in Hb.
        destruct (drevs s !! r_uuid r); [exfalso; apply Hb; eauto|done]. }
      rewrite Hd. repeat split; try done; rewrite take_nil; auto.
  - rewrite bool_decide_eq_false_2 by done. cbn [negb andb]. apply (makes_write (with_tags ∅ r)).
Qed.
Lemma hist_set_twice a b h : r_uuid a = r_uuid b -> hist_set b (hist_set a h) = hist_set b h.
Proof.
  intros Hu. unfold hist_set. rewrite map_map. apply map_ext. intros x.
  destruct (decide (r_uuid x = r_uuid a)) as [Hx|Hx].
  - rewrite Hu. rewrite !decide_True by congruence. done.
  - done.
Qed.
Lemma hist_del_set a h : hist_del (r_uuid a) (hist_set a h) = hist_del (r_uuid a) h.
Proof.
  unfold hist_del, hist_set. induction h as [|x h IH]; [done|]. cbn [map].
  destruct (decide (r_uuid x = r_uuid a)) as [Hx|Hx].
  - rewrite !filter_cons_False by tauto. done.
  - rewrite !filter_cons_True by done. f_equal. done.
Qed.
(** Changing the object first does not matter. *)
Lemma makes_upd m a o : makes m (r_uuid a) o -> (forall r, o = Some r -> r_uuid r = r_uuid a) ->
  makes (do_ upd a; m)%M (r_uuid a) o.
Proof.
  intros Hm Ho s. unfold bind. cbn. set (s1 := set_hist (hist_set a (rs_hist s)) s).
  change (MkRst (rs_w s) (hist_set a (rs_hist s)) (rs_snaps s)) with s1.
  destruct (Hm s1) as (l & H1 & H2 & H3 & H4 & H5 & H6). destruct (m s1) as [s2 x]. cbn in *.
  exists l. split; [done|]. split; [done|]. split; [done|]. split; [done|]. split; [|done].
  rewrite H5. destruct o as [r|]; cbn.
  - apply hist_set_twice. rewrite (Ho r) by done. done.
  - apply hist_del_set.
Qed.

(** ** Loops *)
Definition after {A} (f : A -> option (option A)) (l : list A) : list A :=
  omap (fun x => match f x with Some o => o | None => Some x end) l.

(** Each element either leaves everything alone or makes something of itself. *)
Definition loop_body (m : rev -> M rst unit) (sel : rev -> bool) (new : rev -> option rev) : Prop :=
  (forall r, sel r = false -> forall s, m r s = (s, Ok tt)) /\
  (forall r, sel r = true -> makes (m r) (r_uuid r) (new r) /\
     (forall r', new r = Some r' -> r_uuid r' = r_uuid r)).
Definition step_hist (sel : rev -> bool) (new : rev -> option rev) (l : list rev) (h : list rev) : list rev :=
  omap (fun x => if decide (x ∈ l /\ sel x = true) then new x else Some x) h.

Lemma hist_put_omap h r o : NoDup (map r_uuid h) -> r ∈ h -> (forall r', o = Some r' -> r_uuid r' = r_uuid r) ->
  put_hist (r_uuid r) o h = omap (fun x => if decide (x = r) then o else Some x) h.
Proof.
  intros Hn Hr Ho.
  assert (Hu : forall x, x ∈ h -> r_uuid x = r_uuid r -> x = r).
  { intros x Hx Hxu. apply elem_of_list_lookup in Hx as [i Hi]. apply elem_of_list_lookup in Hr as [j Hj].
    assert (i = j) as ->; [|congruence]. eapply NoDup_lookup; [exact Hn| |];
      rewrite list_lookup_fmap; [rewrite Hi|rewrite Hj]; cbn; [rewrite Hxu|]; done. }
  clear Hn Hr. unfold put_hist, hist_set, hist_del. destruct o as [r'|].
  - specialize (Ho r' eq_refl). induction h as [|x h IH]; [done|]. cbn [map omap list_omap].
    assert (IH' := IH ltac:(intros; apply Hu; [right; done|done])).
    destruct (decide (x = r)) as [->|Hx].
    + rewrite decide_True by done. cbn. f_equal. exact IH'.
    + rewrite decide_False; [cbn; f_equal; exact IH'|]. rewrite Ho. intros Hxu. apply Hx, Hu; [left|done].
  - induction h as [|x h IH]; [done|]. cbn [omap list_omap].
    assert (IH' := IH ltac:(intros; apply Hu; [right; done|done])).
    destruct (decide (x = r)) as [->|Hx].
    + rewrite filter_cons_False by tauto. exact IH'.
    + rewrite filter_cons_True; [cbn; f_equal; exact IH'|]. intros Hxu. apply Hx, Hu; [left|done].
Qed.
Lemma omap_uuids (f : rev -> option rev) h : (forall x y, x ∈ h -> f x = Some y -> r_uuid y = r_uuid x) ->
  NoDup (map r_uuid h) -> NoDup (map r_uuid (omap f h)) /\
  (forall x, x ∈ omap f h -> exists y, y ∈ h /\ r_uuid y = r_uuid x).
Proof.
  intros Hf. induction h as [|x h IH]; intros Hn; [split; [done|set_solver]|].
  cbn in Hn. apply NoDup_cons in Hn as [Hx Hn].
  destruct IH as [IH1 IH2]; [intros; eapply Hf; [right; done|done]|done|]. cbn [omap list_omap].
  destruct (f x) as [y|] eqn:Hy.
  - cbn. split.
    + apply NoDup_cons. split; [|done]. intros Hin. apply elem_of_list_fmap in Hin as (z & Hz & Hin).
      destruct (IH2 z Hin) as (w & Hw & Hwz). apply Hx. apply elem_of_list_fmap. exists w. split; [|done].
      rewrite Hwz, <- Hz. symmetry. apply (Hf x y); [left|done].
    + intros z Hz. apply elem_of_cons in Hz as [->|Hz].
      * exists x. split; [left|]. symmetry. apply (Hf x y); [left|done].
      * destruct (IH2 z Hz) as (w & Hw & ?). exists w. split; [right; done|done].
  - split; [done|]. intros z Hz. destruct (IH2 z Hz) as (w & Hw & ?). exists w. split; [right; done|done].
Qed.

(** The loop over [l], a list of revisions of the history as they are now. *)
Lemma loop_spec m sel new l s :
  loop_body m sel new -> NoDup (map r_uuid l) -> NoDup (map r_uuid (rs_hist s)) ->
  (forall r, r ∈ l -> r ∈ rs_hist s) ->
  let s' := (mfor l m s).1 in
  (mfor l m s).2 = Ok tt /\
  data_same (w_disk (rs_w s)) (w_disk (rs_w s')) /\
  (forall u, drevs s' !! u =
     match List.find (fun r => bool_decide (r_uuid r = u) && sel r) l with
     | Some r => new r
     | None => drevs s !! u
     end) /\
  rs_hist s' = step_hist sel new l (rs_hist s) /\
  exists e, delta s s' e /\
    forall k, data_same (w_disk (rs_w s)) (replay (take k e) (w_disk (rs_w s))) /\
      in_between (drevs s) (drevs s') (d_revs (replay (take k e) (w_disk (rs_w s)))).
Proof.
  intros [Hb1 Hb2]. revert s. induction l as [|r l IH]; intros s Hl Hn Hin s'.
  - subst s'. cbn. split; [done|]. split; [done|]. split; [done|]. split.
    + unfold step_hist. induction (rs_hist s) as [|x h IH]; [done|]. cbn [omap list_omap].
      rewrite decide_False by (intros [Hx _]; apply elem_of_nil in Hx; done). f_equal.
      cbn in Hn. apply NoDup_cons in Hn as [_ Hn]. apply IH; [done|]. intros ? Hx. apply elem_of_nil in Hx. done.
    + exists []. split; [apply delta_nil; done|]. intros k. rewrite take_nil. split; [done|]. intros u. auto.
  - cbn in Hl. apply NoDup_cons in Hl as [Hr Hl]. subst s'. cbn [mfor]. unfold bind.
    assert (Hfind : forall u, List.find (fun x => bool_decide (r_uuid x = u) && sel x) l = None \/ u <> r_uuid r).
    { intros u. destruct (decide (u = r_uuid r)) as [->|]; [left|auto].
      destruct (List.find _ l) as [x|] eqn:Hx; [|done]. apply find_some in Hx as [Hx Hc].
      apply andb_true_iff in Hc as [Hc _]. apply bool_decide_eq_true in Hc. exfalso. apply Hr.
      apply elem_of_list_fmap. exists x. split; [done|]. apply elem_of_list_In. done. }
    destruct (sel r) eqn:Hsel.
    + destruct (Hb2 r Hsel) as [Hm Ho]. destruct (Hm s) as (e1 & D1 & R1 & V1 & S1 & H1 & C1).
      destruct (m r s) as [s1 x1]. cbn [fst snd] in *. subst x1. cbn [fst snd].
      assert (Hh1 : rs_hist s1 = omap (fun x => if decide (x = r) then new r else Some x) (rs_hist s)).
      { rewrite H1. apply hist_put_omap; [done|apply Hin; left|done]. }
      assert (Hn1 : NoDup (map r_uuid (rs_hist s1))).
      { rewrite Hh1. apply omap_uuids; [|done]. intros x y _ Hy. case_decide as Hx; [subst x|congruence]. auto. }
      assert (Hin1 : forall x, x ∈ l -> x ∈ rs_hist s1).
      { intros x Hx. rewrite Hh1. apply elem_of_list_omap. exists x. split; [apply Hin; right; done|].
        rewrite decide_False; [done|]. intros ->. apply Hr. apply elem_of_list_fmap. eauto. }
      destruct (IH s1 Hl Hn1 Hin1) as (I1 & I2 & I3 & I4 & e2 & I5 & I6).
      split; [exact I1|]. split.
      { unfold data_same in *. destruct I2, S1. split; congruence. }
      assert (Hmid : forall u, drevs s1 !! u = if decide (u = r_uuid r) then new r else drevs s !! u).
      { intros u. rewrite V1. unfold put_rev. case_decide as Hu.
        - subst u. destruct (new r); [apply lookup_insert|apply lookup_delete].
        - destruct (new r); [apply lookup_insert_ne|apply lookup_delete_ne]; done. }
      assert (Hlook : forall u, drevs (mfor l m s1).1 !! u =
        match List.find (fun x => bool_decide (r_uuid x = u) && sel x) (r :: l) with
        | Some x => new x | None => drevs s !! u end).
      { intros u. rewrite I3, Hmid. cbn [List.find]. rewrite Hsel, andb_true_r.
        destruct (decide (u = r_uuid r)) as [->|Hu].
        - rewrite bool_decide_eq_true_2 by done. destruct (Hfind (r_uuid r)) as [->|]; done.
        - rewrite bool_decide_eq_false_2 by congruence. done. }
      split; [exact Hlook|]. split.
      { rewrite I4, Hh1. unfold step_hist.
        assert (Hcase : forall x, x ∈ rs_hist s ->
          (if decide (x = r) then new r else Some x) ≫= (fun y => if decide (y ∈ l /\ sel y = true) then new y else Some y)
          = if decide (x ∈ r :: l /\ sel x = true) then new x else Some x).
        { intros x Hx. destruct (decide (x = r)) as [->|Hxr].
          - rewrite (decide_True (P := r ∈ r :: l /\ _)) by (split; [left|done]).
            destruct (new r) as [r'|] eqn:Hnew; [|done]. cbn. rewrite decide_False; [done|].
            intros [Hr' _]. apply Hr. rewrite <- (Ho r' eq_refl). apply elem_of_list_fmap. eauto.
          - cbn. destruct (decide (x ∈ l /\ sel x = true)) as [[A B]|Hno].
            + rewrite decide_True by (split; [right; done|done]). done.
            + rewrite decide_False; [done|]. intros [A B]. apply elem_of_cons in A as [|A]; auto. }
        clear -Hcase. induction (rs_hist s) as [|x h IH]; [done|]. cbn [omap list_omap].
        pose proof (Hcase x ltac:(left)) as Hx.
        assert (IH' := IH ltac:(intros; apply Hcase; right; done)).
        destruct (decide (x = r)); cbn [omap list_omap];
          [destruct (new r) as [r'|]; cbn [mbind option_bind] in Hx; cbn [omap list_omap]|cbn [mbind option_bind] in Hx; cbn [omap list_omap]];
          rewrite ?Hx, ?IH'; try done; rewrite <- Hx, IH'; done. }
      exists (e1 ++ e2). split; [eapply delta_trans; done|]. intros k.
      destruct D1 as [D1a D1b]. rewrite firstn_app, replay_app.
      destruct (decide (k <= length e1)) as [Hk|Hk].
      * replace (k - length e1) with 0 by lia. rewrite take_0. change (replay [] ?x) with x.
        destruct (C1 k) as [C1a C1b]. split; [done|]. intros u.
        destruct C1b as [C1b|C1b]; [left; rewrite C1b; done|].
        rewrite C1b, Hmid. rewrite Hlook. cbn [List.find]. rewrite Hsel, andb_true_r.
        destruct (decide (u = r_uuid r)) as [->|Hu]; [|auto]. rewrite bool_decide_eq_true_2 by done. auto.
      * rewrite (take_ge e1) by lia. rewrite <- D1b.
        destruct (I6 (k - length e1)) as [I6a I6b]. split.
        { unfold data_same in *. destruct I6a, S1. split; congruence. }
        intros u. destruct (I6b u) as [Hu|Hu]; [|auto]. rewrite Hu, Hmid, Hlook.
        cbn [List.find]. rewrite Hsel, andb_true_r.
        destruct (decide (u = r_uuid r)) as [->|Hu']; [|auto]. rewrite bool_decide_eq_true_2 by done. auto.
    + rewrite (Hb1 r Hsel s). cbn [fst snd].
      destruct (IH s Hl Hn) as (I1 & I2 & I3 & I4 & e2 & I5 & I6); [intros x Hx; apply Hin; right; done|].
      split; [exact I1|]. split; [exact I2|]. split.
      { intros u. rewrite I3. cbn [List.find]. rewrite Hsel, andb_false_r. done. }
      split; [|exists e2; done].
      rewrite I4. unfold step_hist. clear -Hsel. induction (rs_hist s) as [|x h IH]; [done|]. cbn [omap list_omap].
      assert (E : (if decide (x ∈ l /\ sel x = true) then new x else Some x) =
                  (if decide (x ∈ r :: l /\ sel x = true) then new x else Some x)).
      { destruct (decide (x ∈ l /\ sel x = true)) as [[A B]|Hno].
        - rewrite decide_True by (split; [right; done|done]). done.
        - rewrite decide_False; [done|]. intros [A B]. apply elem_of_cons in A as [->|A]; [congruence|auto]. }
      rewrite E, IH. done.
Qed.

(** In terms of [changed]. *)
Lemma loop_changed m sel new l s O :
  loop_body m sel new -> orders_ok O -> rev_files_ok (w_disk (rs_w s)) -> scanned O s ->
  NoDup (map r_uuid l) -> (forall r, r ∈ l -> r ∈ rs_hist s) ->
  (mfor l m s).2 = Ok tt /\
  changed (drevs s) (drevs (mfor l m s).1) (filter (fun r => sel r = true) l) new /\
  data_same (w_disk (rs_w s)) (w_disk (rs_w (mfor l m s).1)) /\
  (forall d, killed s (mfor l m s).1 d ->
     data_same (w_disk (rs_w s)) d /\ in_between (drevs s) (drevs (mfor l m s).1) (d_revs d)).
Proof.
  intros Hb HO Hf Hs Hl Hin.
  assert (Hn : NoDup (map r_uuid (rs_hist s))) by (rewrite Hs; apply scan_disk_nodup).
  destruct (loop_spec m sel new l s Hb Hl Hn Hin) as (R & S & V & Hh & e & D & C).
  split; [done|]. split.
  - intros u. rewrite V. destruct (List.find _ l) as [r|] eqn:Hr.
    + apply find_some in Hr as [Hr Hc]. apply andb_true_iff in Hc as [Hc Hsel]. apply bool_decide_eq_true in Hc.
      apply elem_of_list_In in Hr. pose proof (Hin r Hr) as Hh'. rewrite Hs in Hh'.
      apply scan_disk_elem in Hh'; [|done|done]. rewrite Hc in Hh'. rewrite Hh'.
      rewrite decide_True by (apply elem_of_list_filter; done). done.
    + destruct (drevs s !! u) as [r|] eqn:Hu; [|done].
      rewrite decide_False; [done|]. intros Hx. apply elem_of_list_filter in Hx as [Hsel Hx].
      eapply find_none in Hr; [|apply elem_of_list_In; exact Hx]. cbn in Hr.
      rewrite Hsel, andb_true_r in Hr. apply bool_decide_eq_false in Hr. apply Hr. apply Hf. done.
  - split; [done|]. intros d (e' & k & Hlog & ->).
    assert (e' = e) as ->; [|apply C]. destruct D as [D _]. rewrite D in Hlog. apply app_inv_head in Hlog. done.
Qed.

(** ** Whatever a specification is: what it finds is in the history, once *)
Definition tok_ok (H : list rev) (t : token) : Prop :=
  match t with TStr _ => True | TRev r => r ∈ H | TList l => NoDup l /\ forall r, r ∈ l -> r ∈ H end.
Lemma unique_from_ok seen l : NoDup (unique_from seen l) /\
  (forall r, r ∈ unique_from seen l -> r ∈ l /\ r ∉ seen).
Proof.
  revert seen. induction l as [|x l IH]; intros seen; cbn [unique_from]; [split; [constructor|set_solver]|].
  destruct (bool_decide (x ∈ seen)) eqn:Hx.
  - destruct (IH seen) as [A B]. split; [done|]. intros r Hr. destruct (B r Hr). split; [right|]; done.
  - apply bool_decide_eq_false in Hx. destruct (IH (x :: seen)) as [A B]. split.
    + apply NoDup_cons. split; [|done]. intros Hin. destruct (B x Hin) as [_ Hn]. apply Hn. left.
    + intros r Hr. apply elem_of_cons in Hr as [->|Hr]; [split; [left|done]|].
      destruct (B r Hr) as [B1 B2]. split; [right; done|]. intros Hs. apply B2. right. done.
Qed.
Lemma find_token_in H w r : find_token H w = Ok r -> r ∈ H.
Proof.
  intros Hr. unfold find_token, find_with in Hr. destruct (_ || _); [done|].
  set (x := strip w) in *. clearbody x.
  assert (H1 : forall r, find_by_number H x = Ok r -> r ∈ H).
  { intros y Hy. unfold find_by_number in Hy. repeat case_match; try done. injection Hy as ->.
    eapply elem_of_list_lookup_2; done. }
  assert (H2 : forall r, find_by_uuid H x = Ok r -> r ∈ H).
  { intros y Hy. unfold find_by_uuid in Hy. destruct (list_find _ H) as [[i z]|] eqn:Hz; [|done]. injection Hy as ->.
    apply list_find_Some in Hz as (Hz & _). eapply elem_of_list_lookup_2; done. }
  assert (H3 : forall r, find_by_tag H x = Ok r -> r ∈ H).
  { intros y Hy. unfold find_by_tag in Hy. destruct (_ || _).
    - destruct (last H) eqn:Hl; [|done]. injection Hy as ->. apply last_Some_elem_of. done.
    - destruct (bool_decide _); [|done]. destruct H; [done|]. injection Hy as ->. left. }
  unfold or_else in Hr. destruct (find_by_number H x) as [y|[]] eqn:E1; try done; try (apply H1; congruence);
    destruct (find_by_uuid H x) as [z|[]] eqn:E2; try done; try (apply H2; congruence);
    destruct (find_by_tag H x) as [v|[]] eqn:E3; try done; try (apply H3; congruence).
Qed.
Lemma find_tokens_sub H iso : NoDup H -> forall n t l, Forall (tok_ok H) t -> find_tokens H iso n t = Ok l ->
  NoDup l /\ forall r, r ∈ l -> r ∈ H.
Proof.
  intros HN. induction n as [|n IH]; intros t l Ht Hl; [done|]. cbn [find_tokens] in Hl.
  assert (Hfil : forall (P : rev -> Prop) (HP : forall x, Decision (P x)), NoDup (filter P H) /\ forall r, r ∈ filter P H -> r ∈ H).
  { intros P ?. split; [apply NoDup_filter; done|]. intros r Hr. apply elem_of_list_filter in Hr. tauto. }
  destruct (has "(" t && has ")" t).
  { pose proof (split_last_spec "(" t) as Hs. destruct (split_last "(" t) as [[prev rest]|]; [|done].
    destruct Hs as [-> _]. pose proof (split_first_spec ")" rest) as Hs.
    destruct (split_first ")" rest) as [[mid next]|]; [|done]. destruct Hs as [-> _].
    rewrite Forall_app, Forall_cons, Forall_app, Forall_cons in Ht. destruct Ht as (Hp & _ & Hm & _ & Hx).
    destruct (find_tokens H iso n mid) as [x|] eqn:Ex; [|done]. cbn [res_bind] in Hl.
    destruct (IH _ _ Hm Ex) as [X1 X2]. destruct (ends_with_func prev) as [[prev' f]|] eqn:Hf.
    - assert (Hp' : Forall (tok_ok H) prev').
      { unfold ends_with_func in Hf. assert (Hr : Forall (tok_ok H) (reverse prev)) by (rewrite Forall_reverse; done).
        destruct (reverse prev) as [|[w| |] rs]; try done. destruct (func_of w); [|done]. injection Hf as <- _.
        rewrite Forall_reverse. apply Forall_cons in Hr. tauto. }
      destruct (apply_func H f x) as [v|] eqn:Hv; [|done]. cbn [res_bind] in Hl.
      eapply IH; [|exact Hl]. rewrite Forall_app, Forall_cons. split; [done|]. split; [|done].
      destruct f; cbn in Hv.
      + destruct x; [done|]. injection Hv as <-. cbn. apply X2. left.
      + destruct (last x) eqn:E; [|done]. injection Hv as <-. cbn. apply X2, last_Some_elem_of. done.
      + injection Hv as <-. cbn. apply Hfil.
      + injection Hv as <-. cbn. split; [rewrite reverse_Permutation; done|]. intros r Hr. rewrite elem_of_reverse in Hr. auto.
    - eapply IH; [|exact Hl]. rewrite Forall_app, Forall_cons. split; [done|]. split; [|done]. cbn. done. }
  destruct (has "," t).
  { pose proof (split_first_spec "," t) as Hs. destruct (split_first "," t) as [[a b]|]; [|done].
    destruct Hs as [-> _]. rewrite Forall_app, Forall_cons in Ht. destruct Ht as (Ha & _ & Hb).
    destruct (find_tokens H iso n a) as [x|] eqn:Ex; [|done]. destruct (find_tokens H iso n b) as [y|] eqn:Ey; [|done].
    cbn in Hl. injection Hl as <-. destruct (IH _ _ Ha Ex) as [X1 X2]. destruct (IH _ _ Hb Ey) as [Y1 Y2].
    destruct (unique_from_ok [] (x ++ y)) as [U1 U2]. split; [done|]. intros r Hr. apply U2 in Hr as [Hr _].
    apply elem_of_app in Hr as [|]; auto. }
  destruct (has "&" t).
  { pose proof (split_first_spec "&" t) as Hs. destruct (split_first "&" t) as [[a b]|]; [|done].
    destruct Hs as [-> _]. rewrite Forall_app, Forall_cons in Ht. destruct Ht as (Ha & _ & Hb).
    destruct (find_tokens H iso n a) as [x|] eqn:Ex; [|done]. destruct (find_tokens H iso n b) as [y|] eqn:Ey; [|done].
    cbn in Hl. injection Hl as <-. destruct (IH _ _ Ha Ex) as [X1 X2].
    destruct (unique_from_ok [] (filter (fun r => r ∈ y) x)) as [U1 U2]. split; [done|]. intros r Hr. apply U2 in Hr as [Hr _].
    apply elem_of_list_filter in Hr as [_ Hr]. auto. }
  destruct (has ".." t).
  { unfold eval_range in Hl. destruct (list_split ".." t) as [|ta [|tb [|]]]; try done. destruct (_ || _); [done|].
    destruct (index2_by_token _ _ _) as [a|]; [|done]. destruct (index2_by_token _ _ _) as [b|]; [|done].
    cbn in Hl. injection Hl as <-. unfold ztake, zdrop. split.
    - pose proof HN as Hn. rewrite <- (take_drop (Z.to_nat ((Z.min a b + 1) / 2)) H) in Hn. apply NoDup_app in Hn as (_ & _ & Hn).
      rewrite <- (take_drop (Z.to_nat (Z.max a b / 2 + 1 - (Z.min a b + 1) / 2)) (drop _ H)) in Hn. apply NoDup_app in Hn. tauto.
    - intros r Hr. apply elem_of_take in Hr as (k & Hk & _). rewrite lookup_drop in Hk.
      apply elem_of_list_lookup_2 in Hk. done. }
  destruct t as [|[w|r|l'] [|]]; try done.
  - unfold eval_word in Hl.
    destruct (starts "server:" w); [injection Hl as <-; apply Hfil|].
    destruct (starts "tag:" w); [injection Hl as <-; apply Hfil|].
    destruct (starts "trust:" w). { destruct (trust_of _); [|done]. injection Hl as <-. apply Hfil. }
    destruct (bool_decide (w = "all")); [injection Hl as <-; done|].
    destruct (bool_decide (w = "clean")); [injection Hl as <-; apply Hfil|].
    destruct (bool_decide (w = "local")); [injection Hl as <-; apply Hfil|].
    destruct (bool_decide (w = "remote")); [injection Hl as <-; apply Hfil|].
    destruct (find_token H w) as [r|] eqn:Hr; [|done]. cbn in Hl. injection Hl as <-.
    split; [apply NoDup_singleton|]. intros x Hx. apply elem_of_list_singleton in Hx as ->. eapply find_token_in; done.
  - injection Hl as <-. apply Forall_cons in Ht as [Ht _]. split; [apply NoDup_singleton|].
    intros x Hx. apply elem_of_list_singleton in Hx as ->. done.
  - injection Hl as <-. apply Forall_cons in Ht as [Ht _]. done.
Qed.
Lemma find_revisions_sub H iso s l : NoDup H -> find_revisions H iso s = Ok l ->
  NoDup l /\ forall r, r ∈ l -> r ∈ H.
Proof.
  intros HN Hl. eapply find_tokens_sub; [done| |exact Hl]. apply Forall_fmap, Forall_true. done.
Qed.
Lemma find_revisions_uuids H iso s l : NoDup (map r_uuid H) -> find_revisions H iso s = Ok l ->
  NoDup (map r_uuid l) /\ forall r, r ∈ l -> r ∈ H.
Proof.
  intros HN Hl. destruct (find_revisions_sub H iso s l) as [A B]; [apply (NoDup_fmap_1 r_uuid); done|done|].
  split; [|done]. clear Hl. induction l as [|x l IH]; [constructor|]. apply NoDup_cons in A as [A1 A2]. cbn.
  apply NoDup_cons. split; [|apply IH; [done|intros; apply B; right; done]].
  intros Hx. apply elem_of_list_fmap in Hx as (y & Hy & Hin). apply A1.
  assert (x = y) as ->; [|done].
  assert (Hx : x ∈ H) by (apply B; left). assert (Hy' : y ∈ H) by (apply B; right; done).
  apply elem_of_list_lookup in Hx as [i Hi]. apply elem_of_list_lookup in Hy' as [j Hj].
  assert (i = j) as ->; [|congruence].
  apply (NoDup_lookup (map r_uuid H) i j (r_uuid y) HN); rewrite list_lookup_fmap; [rewrite Hi|rewrite Hj]; cbn; [rewrite Hy|]; done.
Qed.

(** ** Bodies *)
Lemma removed_uuid r r' : removed r = Some r' -> r_uuid r' = r_uuid r.
Proof. unfold removed. destruct (decide (r_server r = "")); [discriminate|]. intros [= <-]. done. Qed.
Lemma body_tag a tags ar : a <> AOther ->
  loop_body (tag_one a tags ar) (fun _ => true) (retagged a tags ar).
Proof.
  intros Ha. split; [done|]. intros r _.
  set (t := match a with ASet => tags | AAdd => r_tags r ∪ tags | ARemove => r_tags r ∖ tags | AOther => r_tags r end).
  assert (Ht : new_tags a tags (r_tags r) = Some t) by (destruct a; done).
  unfold tag_one. rewrite Ht.
  assert (Hre : retagged a tags ar r = if decide (ar = true /\ t = ∅ /\ r_server r = "") then None else Some (with_tags t r))
    by reflexivity.
  clearbody t. split.
  - rewrite Hre. destruct (bool_decide (t = ∅) && ar) eqn:Hb.
    + apply andb_true_iff in Hb as [Hb ->]. apply bool_decide_eq_true in Hb as ->.
      change (r_uuid r) with (r_uuid (with_tags ∅ r)).
      assert (He : (if decide (true = true /\ (∅ : gset string) = ∅ /\ r_server r = "") then None else Some (with_tags ∅ r))
                   = removed (with_tags ∅ r)).
      { unfold removed. cbn. destruct (decide (r_server r = "")).
        - rewrite decide_True by done. done.
        - rewrite decide_False by tauto. reflexivity. }
      rewrite He. apply makes_upd; [apply makes_remove|].
      apply removed_uuid.
    + rewrite decide_False.
      2: { intros (-> & -> & _). rewrite bool_decide_eq_true_2 in Hb by done. done. }
      change (r_uuid r) with (r_uuid (with_tags t r)). apply makes_write.
  - rewrite Hre. intros r'. destruct (decide _); [discriminate|]. intros [= <-]. done.
Qed.
Lemma body_rm : loop_body (rev_remove false) (fun _ => true) removed.
Proof.
  split; [done|]. intros r _. split; [apply makes_remove|]. apply removed_uuid.
Qed.
Lemma body_clean : loop_body (fun r => if is_clean r then ret tt else rev_remove false r)
  (fun r => negb (is_clean r)) removed.
Proof.
  split; intros r Hr; cbn in Hr; destruct (is_clean r); try done. split; [apply makes_remove|].
  apply removed_uuid.
Qed.
Lemma mfor_app {S A} (a b : list A) (m : A -> M S unit) s :
  mfor (a ++ b) m s = match mfor a m s with (s', Ok _) => mfor b m s' | (s', Err e) => (s', Err e) end.
Proof.
  revert s. induction a as [|x a IH]; intros s; [done|]. cbn [app mfor]. unfold bind.
  destruct (m x s) as [s' [[]|e]]; [apply IH|done].
Qed.
Lemma mfor_ext {S A} (l : list A) (m m' : A -> M S unit) s :
  (forall x s, x ∈ l -> m x s = m' x s) -> mfor l m s = mfor l m' s.
Proof.
  revert s. induction l as [|x l IH]; intros s Hm; [done|]. cbn [mfor]. unfold bind. rewrite Hm by left.
  destruct (m' x s) as [s' [[]|]]; [|done]. apply IH. intros; apply Hm; right; done.
Qed.
