(** Expiry (C34-C37). *)
From Verif Require Export Proofs.ScanProofs.
#[local] Arguments String.append !_ _ / : simpl nomatch.

(** ** History and disk agree *)
Definition synced (s : rst) : Prop :=
  NoDup (map r_uuid (rs_hist s)) /\
  forall u r, drevs s !! u = Some r <-> r ∈ rs_hist s /\ r_uuid r = u.
Lemma uuid_inj h (a b : rev) : NoDup (map r_uuid h) -> a ∈ h -> b ∈ h -> r_uuid a = r_uuid b -> a = b.
Proof.
  intros Hn Ha Hb Hu. apply elem_of_list_lookup in Ha as [i Hi]. apply elem_of_list_lookup in Hb as [j Hj].
  assert (i = j) as ->; [|congruence].
  apply (NoDup_lookup (map r_uuid h) i j (r_uuid a) Hn); rewrite list_lookup_fmap; [rewrite Hi|rewrite Hj]; cbn; congruence.
Qed.
Lemma scan_synced O s : orders_ok O -> rev_files_ok (w_disk (rs_w s)) -> synced (scan O s).1.
Proof.
  intros HO Hf. split; [apply scan_disk_nodup|]. intros u r.
  change (drevs s !! u = Some r <-> r ∈ scan_disk O (w_disk (rs_w s)) /\ r_uuid r = u).
  rewrite (scan_disk_elem O _ r HO Hf). split.
  - intros Hr. pose proof (Hf _ _ Hr) as Hu. rewrite Hu. done.
  - intros [Hr <-]. done.
Qed.
Lemma synced_files s : synced s -> rev_files_ok (w_disk (rs_w s)).
Proof. intros [_ Hs] n r Hr. apply Hs in Hr. tauto. Qed.

(** ** Crash points *)
Definition phase (Q : disk -> Prop) (s s' : rst) : Prop :=
  exists e, delta s s' e /\ forall k, Q (replay (take k e) (w_disk (rs_w s))).
Lemma phase_trans Q s s1 s2 : phase Q s s1 -> phase Q s1 s2 -> phase Q s s2.
Proof.
  intros (e1 & D1 & C1) (e2 & D2 & C2). exists (e1 ++ e2). split; [eapply delta_trans; done|]. intros k.
  rewrite firstn_app, replay_app. destruct (decide (k <= length e1)) as [Hk|Hk].
  - replace (k - length e1) with 0 by lia. rewrite take_0. apply C1.
  - rewrite (take_ge e1) by lia. destruct D1 as [_ D1]. rewrite <- D1. apply C2.
Qed.
Lemma phase_killed Q s s' d : phase Q s s' -> killed s s' d -> Q d.
Proof.
  intros (e & D & C) (e' & k & Hlog & ->). assert (e' = e) as ->; [|apply C].
  destruct D as [D _]. rewrite D in Hlog. apply app_inv_head in Hlog. done.
Qed.
Lemma phase_nil (Q : disk -> Prop) s s' : rs_w s' = rs_w s -> Q (w_disk (rs_w s)) -> phase Q s s'.
Proof. intros Hw HQ. exists []. split; [apply delta_nil; done|]. intros k. rewrite take_nil. done. Qed.

(** A loop, when history and disk agree.  [P u o]: file [u] may contain [o]. *)
Lemma loop_phase d0 (P : string -> option rev -> Prop) m sel new l s :
  loop_body m sel new -> NoDup (map r_uuid l) -> synced s -> (forall r, r ∈ l -> r ∈ rs_hist s) ->
  data_same d0 (w_disk (rs_w s)) ->
  (mfor l m s).2 = Ok tt /\ synced (mfor l m s).1 /\
  data_same d0 (w_disk (rs_w (mfor l m s).1)) /\
  rs_hist (mfor l m s).1 = step_hist sel new l (rs_hist s) /\
  ((forall u, P u (drevs s !! u)) -> (forall u, P u (drevs (mfor l m s).1 !! u)) ->
   phase (fun d => data_same d0 d /\ forall u, P u (d_revs d !! u)) s (mfor l m s).1).
Proof.
  intros Hb Hl [Hn Hs] Hin Hd. destruct Hb as [Hb1 Hb2].
  destruct (loop_spec m sel new l s (conj Hb1 Hb2) Hl Hn Hin) as (R & S & V & Hh & e & D & C).
  split; [done|]. split; [|split; [|split; [done|]]].
  - split.
    + rewrite Hh. apply omap_uuids; [|done]. intros x y _ Hy. case_decide as Hx; [|congruence].
      apply Hb2 in Hy; tauto.
    + intros u r. rewrite V, Hh. unfold step_hist. rewrite elem_of_list_omap.
      assert (Hf : forall x, x ∈ rs_hist s -> r_uuid x = u ->
        List.find (fun r => bool_decide (r_uuid r = u) && sel r) l = if decide (x ∈ l /\ sel x = true) then Some x else None).
      { intros x Hx Hu. destruct (List.find _ l) as [y|] eqn:Hy.
        - apply find_some in Hy as [Hy Hc]. apply andb_true_iff in Hc as [Hc Hsel]. apply bool_decide_eq_true in Hc.
          apply elem_of_list_In in Hy. assert (y = x) as -> by (apply (uuid_inj (rs_hist s)); auto; congruence).
          rewrite decide_True by done. done.
        - destruct (decide (x ∈ l /\ sel x = true)) as [[A B]|]; [|done].
          eapply find_none in Hy; [|apply elem_of_list_In; exact A]. cbn in Hy.
          rewrite B, andb_true_r in Hy. apply bool_decide_eq_false in Hy. done. }
      split.
      * destruct (List.find _ l) as [x|] eqn:Hx.
        -- intros Hr. apply find_some in Hx as [Hx Hc]. apply andb_true_iff in Hc as [Hc Hsel]. apply bool_decide_eq_true in Hc.
           apply elem_of_list_In in Hx. split.
           ++ exists x. split; [auto|]. rewrite decide_True by done. done.
           ++ destruct (Hb2 x Hsel) as [_ Ho]. rewrite (Ho r Hr). done.
        -- intros Hr. apply Hs in Hr as [Hr Hu]. split; [|done]. exists r. split; [done|].
           specialize (Hf r Hr Hu). destruct (decide (r ∈ l /\ sel r = true)); done.
      * intros [(x & Hx & Hy) Hu].
        assert (Hxu : r_uuid x = u).
        { destruct (decide (x ∈ l /\ sel x = true)) as [[A B]|]; [|congruence].
          destruct (Hb2 x B) as [_ Ho]. rewrite <- (Ho r Hy). done. }
        rewrite (Hf x Hx Hxu). destruct (decide (x ∈ l /\ sel x = true)); [done|].
        injection Hy as ->. apply Hs. done.
  - unfold data_same in *. destruct Hd, S. split; congruence.
  - intros P1 P2. exists e. split; [done|]. intros k. destruct (C k) as [C1 C2]. split.
    + unfold data_same in *. destruct Hd, C1. split; congruence.
    + intros u. destruct (C2 u) as [->| ->]; auto.
Qed.

(** ** Newer copies, counted *)
Fixpoint tail_after (u : string) (h : list rev) : list rev :=
  match h with
  | [] => []
  | x :: h => if decide (r_uuid x = u) then h else tail_after u h
  end.
Lemma tail_after_split a r b : NoDup (map r_uuid (a ++ r :: b)) -> tail_after (r_uuid r) (a ++ r :: b) = b.
Proof.
  induction a as [|x a IH]; cbn; intros Hn.
  - rewrite decide_True by done. done.
  - apply NoDup_cons in Hn as [Hx Hn]. rewrite decide_False; [auto|]. intros Hu. apply Hx. rewrite Hu.
    rewrite map_app. apply elem_of_app. right. cbn. left.
Qed.
Lemma newer_copies_tail h t r n : NoDup (map r_uuid h) -> r ∈ h ->
  newer_copies h t r n <-> (n <= zlen (filter (fun x => t ∈ r_tags x) (tail_after (r_uuid r) h)))%Z.
Proof.
  intros Hn Hr. split.
  - intros (a & b & -> & Hb). rewrite tail_after_split by done. done.
  - intros Hle. apply elem_of_list_split in Hr as (a & b & ->). exists a, b. split; [done|].
    rewrite tail_after_split in Hle by done. done.
Qed.
Definition obs (h : list rev) (now : Z) (t : string) (i : item) (r : rev) : bool :=
  bool_decide (t ∈ r_tags r) && (0 <? i_keep i)%Z &&
  (i_keep i <=? zlen (filter (fun x => t ∈ r_tags x) (tail_after (r_uuid r) h)))%Z &&
  (r_ts r <? now - i_keep i * i_interval i)%Z.
Lemma obs_spec h now t i r : NoDup (map r_uuid h) -> r ∈ h ->
  obs h now t i r = true <-> outdated h now t i r.
Proof.
  intros Hn Hr. unfold obs, outdated. rewrite (newer_copies_tail h t r) by done.
  rewrite !andb_true_iff, bool_decide_eq_true, Z.ltb_lt, Z.leb_le, Z.ltb_lt. tauto.
Qed.
Lemma tail_after_map (f : rev -> rev) u h : (forall x, r_uuid (f x) = r_uuid x) ->
  tail_after u (map f h) = map f (tail_after u h).
Proof.
  intros Hf. induction h as [|x h IH]; [done|]. cbn. rewrite Hf. destruct (decide (r_uuid x = u)); auto.
Qed.
Lemma tail_after_sub u h x : x ∈ tail_after u h -> x ∈ h.
Proof.
  induction h as [|y h IH]; [done|]. cbn. case_decide; intros Hx; right; auto.
Qed.
Lemma tail_after_filter (P : rev -> Prop) (HP : forall x, Decision (P x)) r h : NoDup (map r_uuid h) -> r ∈ h -> P r ->
  tail_after (r_uuid r) (filter P h) = filter P (tail_after (r_uuid r) h).
Proof.
  intros Hn Hr Hp. apply elem_of_list_split in Hr as (a & b & ->). rewrite (tail_after_split a r b) by done.
  rewrite filter_app, filter_cons_True by done. apply tail_after_split.
  rewrite map_app in Hn. cbn in Hn. rewrite map_app. cbn.
  assert (Hsub : forall l x, x ∈ map r_uuid (filter P l) -> x ∈ map r_uuid l).
  { intros l x Hx. apply elem_of_list_fmap in Hx as (y & -> & Hy). apply elem_of_list_filter in Hy as [_ Hy].
    apply elem_of_list_fmap. eauto. }
  assert (Hnd : forall l, NoDup (map r_uuid l) -> NoDup (map r_uuid (filter P l))).
  { induction l as [|y l IH]; [done|]. intros Hy. cbn in Hy. apply NoDup_cons in Hy as [Hy1 Hy2]. rewrite filter_cons.
    destruct (decide (P y)); [|auto]. cbn. apply NoDup_cons. split; [|auto]. intros Hx. apply Hy1, Hsub. done. }
  apply NoDup_app in Hn as (H1 & H2 & H3). apply NoDup_cons in H3 as [H3 H4].
  apply NoDup_app. split; [auto|]. split.
  - intros x Hx Hx'. apply (H2 x); [auto|]. apply elem_of_cons in Hx' as [->|Hx']; [left|right; auto].
  - apply NoDup_cons. auto.
Qed.
Lemma slice_elem keep l r : (0 < keep)%Z -> NoDup (map r_uuid l) ->
  r ∈ slice_to keep l <-> r ∈ l /\ (keep <= zlen (tail_after (r_uuid r) l))%Z.
Proof.
  intros Hk Hn. unfold slice_to. replace (keep =? 0)%Z with false by lia. replace (0 <? keep)%Z with true by lia.
  unfold ztake. split.
  - intros Hr. assert (Hin : r ∈ l) by (rewrite <- (take_drop (Z.to_nat (zlen l - keep)) l); apply elem_of_app; auto).
    split; [done|]. apply elem_of_list_split in Hr as (a & b & Ht).
    set (n := Z.to_nat (zlen l - keep)) in *. pose proof (take_drop n l) as Hl. rewrite Ht, <- app_assoc in Hl.
    cbn [app] in Hl. rewrite <- Hl. rewrite tail_after_split by (rewrite Hl; done).
    unfold zlen. rewrite app_length, drop_length. unfold n, zlen in *.
    assert (length (take (Z.to_nat (Z.of_nat (length l) - keep)) l) > 0) as Hgt by (rewrite Ht, app_length; cbn; lia).
    rewrite take_length in Hgt. lia.
  - intros [Hr Hle]. apply elem_of_list_split in Hr as (a & b & ->).
    rewrite tail_after_split in Hle by done. unfold zlen in *. rewrite app_length. cbn [length].
    rewrite take_app_ge by lia. apply elem_of_app. right.
    destruct (Z.to_nat (Z.of_nat (length a + S (length b)) - keep) - length a) eqn:E; [lia|]. cbn. left.
Qed.
Lemma slice_sub keep l x : x ∈ slice_to keep l -> x ∈ l.
Proof.
  unfold slice_to, ztake. intros Hx. destruct (keep =? 0)%Z; [apply elem_of_nil in Hx; done|].
  destruct (0 <? keep)%Z; [rewrite <- (take_drop (Z.to_nat (zlen l - keep)) l)|rewrite <- (take_drop (Z.to_nat (- keep)) l)];
    apply elem_of_app; auto.
Qed.
Lemma slice_nodup keep l : NoDup (map r_uuid l) -> NoDup (map r_uuid (slice_to keep l)).
Proof.
  unfold slice_to, ztake. intros Hn. destruct (keep =? 0)%Z; [constructor|].
  destruct (0 <? keep)%Z;
    [rewrite <- (take_drop (Z.to_nat (zlen l - keep)) l) in Hn|rewrite <- (take_drop (Z.to_nat (- keep)) l) in Hn];
    rewrite map_app in Hn; apply NoDup_app in Hn; tauto.
Qed.

(** ** The lookup by tag *)
Lemma find_tag H iso t : plain ("tag:" ++ t)%string ->
  find_revisions H iso ("tag:" ++ t)%string = Ok (filter (fun r => t ∈ r_tags r) H).
Proof.
  intros Hp. unfold find_revisions.
  assert (Hw : writes [("tag:" ++ t)%string] ("tag:" ++ t)%string).
  { replace ("tag:" ++ t)%string with ("" ++ ("tag:" ++ t) ++ "")%string at 2.
    - apply writes_last; [done| |]; intros c Hc; apply elem_of_nil in Hc; done.
    - cbn. rewrite <- (unchars_chars (t ++ "")%string), chars_app. cbn. rewrite app_nil_r, unchars_chars. done. }
  rewrite (tokenize_writes _ _ Hw). cbn [map length find_tokens has existsb is_str].
  rewrite !bool_decide_eq_false_2 by done. cbn [orb andb]. unfold eval_word.
  replace (starts "server:" ("tag:" ++ t)%string) with false by done. rewrite starts_app, remove_prefix_app. done.
Qed.

(** ** Phase 1 *)
Definition retag (g : rev -> gset string) (h : list rev) : list rev := map (fun r => with_tags (g r) r) h.
Lemma retag_ext g g' h : (forall r, r ∈ h -> g r = g' r) -> retag g h = retag g' h.
Proof.
  intros Hg. apply map_ext_in. intros r Hr. rewrite Hg; [done|]. apply elem_of_list_In. done.
Qed.
Lemma retag_id h : retag r_tags h = h.
Proof. induction h as [|[] h IH]; [done|]. unfold retag in *. cbn. rewrite IH. done. Qed.
Lemma retag_uuids g h : map r_uuid (retag g h) = map r_uuid h.
Proof. unfold retag. rewrite map_map. done. Qed.
Lemma retag_retag g g' h : retag g' (retag g h) = retag (fun r => g' (with_tags (g r) r)) h.
Proof. unfold retag. rewrite map_map. done. Qed.

Lemma body_expire now t i : loop_body (fun r =>
     if (r_ts r >=? now - i_keep i * i_interval i)%Z then ret tt
     else let r' := with_tags (r_tags r ∖ {[t]}) r in (do_ upd r'; write_info r')%M)
  (fun r => (r_ts r <? now - i_keep i * i_interval i)%Z) (fun r => Some (with_tags (r_tags r ∖ {[t]}) r)).
Proof.
  split.
  - intros r Hr s. replace (r_ts r >=? _)%Z with true by lia. done.
  - intros r Hr. replace (r_ts r >=? _)%Z with false by lia. split; [|intros r' [= <-]; done].
    apply (makes_write (with_tags (r_tags r ∖ {[t]}) r)).
Qed.
Lemma expire_tag_eq iso now t i s : plain ("tag:" ++ t)%string -> (0 <= i_keep i)%Z ->
  expire_tag iso now t i s =
  mfor (slice_to (i_keep i) (filter (fun r => t ∈ r_tags r) (rs_hist s))) (fun r =>
     if (r_ts r >=? now - i_keep i * i_interval i)%Z then ret tt
     else let r' := with_tags (r_tags r ∖ {[t]}) r in (do_ upd r'; write_info r')%M) s.
Proof.
  intros Hp Hk. unfold expire_tag. unfold bind at 1. cbn [get]. unfold bind at 1. rewrite find_tag by done. cbn [lift].
  set (l := filter _ (rs_hist s)). assert (H0 : (0 <= zlen l)%Z) by (unfold zlen; lia). destruct (zlen l <? i_keep i)%Z eqn:Hlt.
  - replace (slice_to (i_keep i) l) with (@nil rev); [done|]. unfold slice_to. replace (i_keep i =? 0)%Z with false by lia.
    replace (0 <? i_keep i)%Z with true by lia. unfold ztake. replace (Z.to_nat _) with 0 by lia. done.
  - apply mfor_ext. intros x s' Hx. apply slice_sub in Hx. apply elem_of_list_filter in Hx as [Hx _].
    destruct (r_ts x >=? _)%Z; [done|]. rewrite bool_decide_eq_false_2 by tauto. done.
Qed.
Lemma step_retag (sel : rev -> bool) new l g g' h :
  (forall r, r ∈ h -> (if decide (with_tags (g r) r ∈ l /\ sel (with_tags (g r) r) = true)
     then new (with_tags (g r) r) else Some (with_tags (g r) r)) = Some (with_tags (g' r) r)) ->
  step_hist sel new l (retag g h) = retag g' h.
Proof.
  unfold step_hist, retag. induction h as [|x h IH]; intros Hx; [done|]. cbn [map omap list_omap].
  rewrite (Hx x) by left. f_equal. apply IH. intros r Hr. apply Hx. right. done.
Qed.
Lemma elem_retag g h r : NoDup (map r_uuid h) -> r ∈ h ->
  forall x, x ∈ retag g h -> r_uuid x = r_uuid r -> x = with_tags (g r) r.
Proof.
  intros Hn Hr x Hx Hu. apply elem_of_list_fmap in Hx as (y & -> & Hy). cbn in Hu.
  rewrite (uuid_inj h y r); done.
Qed.
(** The tags of [r] after the tag [t] has been dealt with. *)
Definition untag h now t i (g : rev -> gset string) (r : rev) : gset string :=
  if obs h now t i r then g r ∖ {[t]} else g r.
Lemma expire_tag_hist now t i g h :
  NoDup (map r_uuid h) -> (0 <= i_keep i)%Z ->
  (forall r, r ∈ h -> t ∈ g r <-> t ∈ r_tags r) ->
  step_hist (fun r => (r_ts r <? now - i_keep i * i_interval i)%Z) (fun r => Some (with_tags (r_tags r ∖ {[t]}) r))
    (slice_to (i_keep i) (filter (fun r => t ∈ r_tags r) (retag g h))) (retag g h)
  = retag (untag h now t i g) h.
Proof.
  intros Hn Hk Hg. apply step_retag. intros r Hr. unfold untag.
  assert (Hrr : with_tags (g r) r ∈ retag g h) by (apply elem_of_list_fmap; eauto).
  assert (Hnr : NoDup (map r_uuid (retag g h))) by (rewrite retag_uuids; done).
  assert (Hiff : with_tags (g r) r ∈ slice_to (i_keep i) (filter (fun r => t ∈ r_tags r) (retag g h)) /\
    (r_ts (with_tags (g r) r) <? now - i_keep i * i_interval i)%Z = true <-> obs h now t i r = true).
  { unfold obs. rewrite !andb_true_iff, bool_decide_eq_true. cbn [r_ts with_tags].
    destruct (decide (i_keep i = 0%Z)) as [H0|H0].
    - unfold slice_to. replace (i_keep i =? 0)%Z with true by lia. split; [|lia].
      intros [Hx _]. apply elem_of_nil in Hx. done.
    - rewrite slice_elem; [|lia|].
      2: { clear -Hnr. revert Hnr. generalize (retag g h). intros k. induction k as [|x k IH]; [done|].
           intros Hn. cbn in Hn. apply NoDup_cons in Hn as [Hx Hn]. rewrite filter_cons. destruct (decide (t ∈ r_tags x)); [|auto].
           cbn. apply NoDup_cons. split; [|auto]. intros Hin. apply Hx. apply elem_of_list_fmap in Hin as (y & -> & Hy).
           apply elem_of_list_filter in Hy as [_ Hy]. apply elem_of_list_fmap. eauto. }
      rewrite elem_of_list_filter. cbn [r_tags with_tags r_uuid]. rewrite Hg by done.
      destruct (decide (t ∈ r_tags r)) as [Ht|Ht]; [|tauto].
      assert (Hlen : zlen (tail_after (r_uuid r) (filter (fun r => t ∈ r_tags r) (retag g h))) =
        zlen (filter (fun x => t ∈ r_tags x) (tail_after (r_uuid r) h))).
      { change (r_uuid r) with (r_uuid (with_tags (g r) r)) at 1.
        rewrite tail_after_filter; [|done|done|cbn; apply Hg; done]. cbn [r_uuid with_tags].
        unfold retag. rewrite tail_after_map by done.
        assert (Hsub : forall x, x ∈ tail_after (r_uuid r) h -> x ∈ h) by apply tail_after_sub.
        revert Hsub. generalize (tail_after (r_uuid r) h). intros k Hsub. unfold zlen. f_equal.
        induction k as [|x k IH]; [done|]. cbn [map]. rewrite !filter_cons. cbn [r_tags with_tags].
        assert (IH' := IH ltac:(intros; apply Hsub; right; done)).
        destruct (decide (t ∈ g x)) as [A|A], (decide (t ∈ r_tags x)) as [B|B]; cbn; try congruence;
          exfalso; rewrite (Hg x) in A by (apply Hsub; left); done. }
      rewrite Hlen. split; [intros [[_ A] B]; repeat split; [done|lia|lia|lia]|intros [[[A B] C] D]; repeat split; [done|done|lia|lia]]. }
  destruct (obs h now t i r).
  - rewrite decide_True by tauto. done.
  - rewrite decide_False by (rewrite Hiff; done). done.
Qed.

(** All tags. *)
Fixpoint strip_tags (S : sched) (h : list rev) (now : string -> Z) (g : rev -> gset string) : rev -> gset string :=
  match S with
  | [] => g
  | (t, i) :: S0 => strip_tags S0 h now (untag h (now t) t i g)
  end.
Lemma strip_elem S h now g r x :
  x ∈ strip_tags S h now g r <-> x ∈ g r /\ ~ exists i, (x, i) ∈ S /\ obs h (now x) x i r = true.
Proof.
  revert g. induction S as [|[t i] S IH]; intros g; cbn.
  - split; [|tauto]. intros Hx. split; [done|]. intros (i & Hi & _). apply elem_of_nil in Hi. done.
  - rewrite IH. unfold untag. destruct (obs h (now t) t i r) eqn:Ho.
    + rewrite elem_of_difference, elem_of_singleton. split.
      * intros [[A B] C]. split; [done|]. intros (j & Hj & Hj'). apply elem_of_cons in Hj as [[= -> ->]|Hj]; [done|]. eauto.
      * intros [A B]. split; [split; [done|]|].
        -- intros ->. apply B. exists i. split; [left|done].
        -- intros (j & Hj & Hj'). apply B. exists j. split; [right; done|done].
    + split.
      * intros [A C]. split; [done|]. intros (j & Hj & Hj'). apply elem_of_cons in Hj as [[= -> ->]|Hj]; [congruence|]. eauto.
      * intros [A B]. split; [done|]. intros (j & Hj & Hj'). apply B. exists j. split; [right; done|done].
Qed.

(** ** Phase 2 *)
Definition foreign (S : sched) (T : gset string) : gset string := schedule_tags T ∖ sched_keys S.
Lemma body_foreign S : loop_body (expire_foreign S) (fun r => negb (bool_decide (foreign S (r_tags r) = ∅)))
  (fun r => Some (with_tags (r_tags r ∖ foreign S (r_tags r)) r)).
Proof.
  split.
  - intros r Hr s. apply negb_false_iff in Hr. unfold expire_foreign. unfold foreign in Hr. rewrite Hr. done.
  - intros r Hr. apply negb_true_iff in Hr. split; [|intros r' [= <-]; done].
    unfold expire_foreign. unfold foreign in *. rewrite Hr.
    apply (makes_write (with_tags (r_tags r ∖ (schedule_tags (r_tags r) ∖ sched_keys S)) r)).
Qed.
Lemma foreign_hist S h :
  step_hist (fun r => negb (bool_decide (foreign S (r_tags r) = ∅)))
    (fun r => Some (with_tags (r_tags r ∖ foreign S (r_tags r)) r)) h h
  = retag (fun r => r_tags r ∖ foreign S (r_tags r)) h.
Proof.
  rewrite <- (retag_id h) at 2. apply step_retag. intros r Hr.
  assert (Hid : with_tags (r_tags r) r = r) by (destruct r; done). rewrite Hid.
  destruct (decide (r ∈ h /\ negb (bool_decide (foreign S (r_tags r) = ∅)) = true)) as [|Hno]; [done|].
  destruct (decide (foreign S (r_tags r) = ∅)) as [He|He].
  - rewrite He, difference_empty_L, Hid. done.
  - exfalso. apply Hno. split; [done|]. rewrite bool_decide_eq_false_2 by done. done.
Qed.

(** ** Phase 3 *)
Lemma body_untagged : loop_body expire_untagged (fun r => bool_decide (r_tags r = ∅)) removed.
Proof.
  split.
  - intros r Hr s. unfold expire_untagged. rewrite Hr. done.
  - intros r Hr. unfold expire_untagged. rewrite Hr. split; [apply makes_remove|]. intros r' Hr'. apply removed_uuid. done.
Qed.

Lemma omap_map_ext (f : rev -> rev) (F G : rev -> option rev) l :
  (forall x, x ∈ l -> F (f x) = G x) -> omap F (map f l) = omap G l.
Proof.
  induction l as [|x l IH]; intros Hx; [done|]. cbn [map omap list_omap]. rewrite (Hx x) by left.
  rewrite IH by (intros; apply Hx; right; done). done.
Qed.
(** ** The whole *)
Definition kept (S : sched) (h : list rev) (now : string -> Z) (r : rev) : gset string :=
  strip_tags S h now r_tags r ∖ foreign S (strip_tags S h now r_tags r).
Lemma kept_elem S h now r x : sched_ok S -> NoDup (map r_uuid h) -> r ∈ h ->
  x ∈ kept S h now r <-> tag_kept S h now r x.
Proof.
  intros [HS1 HS2] Hn Hr. unfold kept, foreign, schedule_tags, sched_keys, tag_kept.
  rewrite elem_of_difference, elem_of_difference, elem_of_filter, elem_of_list_to_set, strip_elem.
  assert (Hkey : forall i j, (x, i) ∈ S -> (x, j) ∈ S -> i = j).
  { intros i j Hi Hj. apply elem_of_list_lookup in Hi as [a Ha]. apply elem_of_list_lookup in Hj as [b Hb].
    assert (a = b) as ->; [|congruence].
    apply (NoDup_lookup (map fst S) a b x HS1); rewrite list_lookup_fmap; [rewrite Ha|rewrite Hb]; done. }
  split.
  - intros [[A B] C]. split; [done|]. destruct (is_manual x) eqn:Hm; [left; apply starts_spec; done|]. right.
    destruct (decide (x ∈ map fst S)) as [Hk|Hk]; [|tauto].
    apply elem_of_list_fmap in Hk as ([x' i] & Hx & Hk). cbn in Hx. subst x'. exists i. split; [done|].
    intros Ho. apply B. exists i. split; [done|]. apply obs_spec; done.
  - intros [A [Hm|(i & Hi & Ho)]].
    + split.
      * split; [done|]. intros (i & Hi & _). destruct (HS2 x i Hi) as (_ & Hnm & _). done.
      * intros [[Hm' _] _]. apply starts_spec in Hm. unfold is_manual in Hm'. congruence.
    + split.
      * split; [done|]. intros (j & Hj & Hj'). rewrite (Hkey j i Hj Hi) in Hj'. apply Ho. apply obs_spec in Hj'; done.
      * intros [_ Hk]. apply Hk. apply elem_of_list_fmap. exists (x, i). done.
Qed.
Lemma strip_sub S h now g r : strip_tags S h now g r ⊆ g r.
Proof. intros x Hx. apply strip_elem in Hx. tauto. Qed.

Section Main.
Context (O : orders) (iso : string -> option Z) (now : string -> Z) (S : sched) (s : rst).
Context (HO : orders_ok O) (Hf : rev_files_ok (w_disk (rs_w s))) (HS : sched_ok S).
Notation h := (scan_disk O (w_disk (rs_w s))).
Notation K := (kept S h now).
Let Hn : NoDup (map r_uuid h) := scan_disk_nodup O _.

(** What a file may contain while expiry runs. *)
Definition partway (u : string) (o : option rev) : Prop :=
  match o, drevs s !! u with
  | Some r', Some r => exists T, r' = with_tags T r /\ K r ⊆ T /\ T ⊆ r_tags r
  | None, Some r => K r = ∅ /\ r_server r = ""
  | Some _, None => False
  | None, None => True
  end.
Lemma hist_lookup u r : drevs s !! u = Some r <-> r ∈ h /\ r_uuid r = u.
Proof. apply (scan_synced O s HO Hf). Qed.
Lemma retag_partway s1 g : synced s1 -> rs_hist s1 = retag g h ->
  (forall r, r ∈ h -> K r ⊆ g r /\ g r ⊆ r_tags r) -> forall u, partway u (drevs s1 !! u).
Proof.
  intros [_ Hs] Hh Hg u. unfold partway. destruct (drevs s1 !! u) as [r'|] eqn:Hr'.
  - apply Hs in Hr' as [Hr' Hu]. rewrite Hh in Hr'. apply elem_of_list_fmap in Hr' as (r & -> & Hr).
    assert (Hd : drevs s !! u = Some r) by (apply hist_lookup; done). rewrite Hd. exists (g r).
    destruct (Hg r Hr). done.
  - destruct (drevs s !! u) as [r|] eqn:Hd; [|done]. exfalso. apply hist_lookup in Hd as [Hr Hu].
    assert (Hx : drevs s1 !! u = Some (with_tags (g r) r)); [|congruence].
    apply Hs. split; [|done]. rewrite Hh. apply elem_of_list_fmap. eauto.
Qed.
Notation Q := (fun d => data_same (w_disk (rs_w s)) d /\ forall u, partway u (d_revs d !! u)).

Lemma phase1 S1 g s1 :
  NoDup (map fst S1) -> (forall t i, (t, i) ∈ S1 -> (t, i) ∈ S) ->
  (forall t i r, (t, i) ∈ S1 -> r ∈ h -> t ∈ g r <-> t ∈ r_tags r) ->
  (forall r, r ∈ h -> K r ⊆ strip_tags S1 h now g r /\ g r ⊆ r_tags r) ->
  synced s1 -> rs_hist s1 = retag g h -> data_same (w_disk (rs_w s)) (w_disk (rs_w s1)) ->
  let s2 := (mfor S1 (fun p => expire_tag iso (now p.1) p.1 p.2) s1).1 in
  (mfor S1 (fun p => expire_tag iso (now p.1) p.1 p.2) s1).2 = Ok tt /\ synced s2 /\
  rs_hist s2 = retag (strip_tags S1 h now g) h /\ data_same (w_disk (rs_w s)) (w_disk (rs_w s2)) /\
  phase Q s1 s2.
Proof.
  revert g s1. induction S1 as [|[t i] S1 IH]; intros g s1 N1 Hin Hg Hk Hs Hh Hd; cbn [mfor].
  - cbn. split; [done|]. split; [done|]. split; [done|]. split; [done|]. apply phase_nil; [done|]. split; [done|].
    eapply retag_partway; done.
  - cbn [map] in N1. apply NoDup_cons in N1 as [N1 N2]. destruct HS as [_ HS2].
    destruct (HS2 t i (Hin t i ltac:(left))) as (Hp & _ & Hkeep). unfold bind. cbn [fst snd].
    rewrite expire_tag_eq by done.
    set (l := slice_to _ _). match goal with |- context [mfor l ?f s1] => set (m := f) end.
    assert (Hl : NoDup (map r_uuid l) /\ forall r, r ∈ l -> r ∈ rs_hist s1).
    { assert (Hnf : NoDup (map r_uuid (filter (fun r => t ∈ r_tags r) (rs_hist s1)))).
      { destruct Hs as [Hs _]. revert Hs. generalize (rs_hist s1). intros k. induction k as [|x k IHk]; [done|].
        intros Hk'. cbn in Hk'. apply NoDup_cons in Hk' as [Hx Hk']. rewrite filter_cons. destruct (decide (t ∈ r_tags x)); [|auto].
        cbn. apply NoDup_cons. split; [|auto]. intros Hx'. apply Hx. apply elem_of_list_fmap in Hx' as (y & -> & Hy).
        apply elem_of_list_filter in Hy as [_ Hy]. apply elem_of_list_fmap. eauto. }
      split; [apply slice_nodup; done|]. intros r Hr. apply slice_sub in Hr. apply elem_of_list_filter in Hr. tauto. }
    destruct Hl as [Hl1 Hl2].
    destruct (loop_phase (w_disk (rs_w s)) partway _ _ _ l s1 (body_expire (now t) t i) Hl1 Hs Hl2 Hd) as (R & Sy & Da & Hi & Ph).
    change (mfor l _ s1) with (mfor l m s1) in R, Sy, Da, Hi, Ph. destruct (mfor l m s1) as [s2 x]. cbn [fst snd] in *. subst x.
    assert (Hh2 : rs_hist s2 = retag (untag h (now t) t i g) h).
    { rewrite Hi, Hh. unfold l. rewrite Hh. apply expire_tag_hist; [done|done|]. intros r Hr. apply (Hg t i r); [left|done]. }
    assert (Hut : forall r, untag h (now t) t i g r ⊆ g r) by (intros r; unfold untag; destruct (obs _ _ _ _ _); set_solver).
    destruct (IH (untag h (now t) t i g) s2) as (I1 & I2 & I3 & I4 & I5); try done.
    { intros t' i' Hx. apply Hin. right. done. }
    { intros t' i' r Hx Hr. rewrite <- (Hg t' i' r) by (try right; done). unfold untag.
      destruct (obs h (now t) t i r); [|done]. rewrite elem_of_difference, elem_of_singleton.
      assert (t' <> t); [|tauto]. intros ->. apply N1. apply elem_of_list_fmap. exists (t, i'). done. }
    { intros r Hr. destruct (Hk r Hr) as [Hk1 Hk2]. split; [exact Hk1|]. rewrite Hut. done. }
    split; [done|]. split; [done|]. split; [done|]. split; [done|]. eapply phase_trans; [|exact I5]. apply Ph.
    + apply (retag_partway s1 g); [done|done|]. intros r Hr. destruct (Hk r Hr) as [Hk1 Hk2]. split; [|done].
      rewrite Hk1. cbn. rewrite strip_sub. apply Hut.
    + apply (retag_partway s2 (untag h (now t) t i g)); [done|done|]. intros r Hr. destruct (Hk r Hr) as [Hk1 Hk2].
      split; [|rewrite Hut; done]. rewrite Hk1. cbn. apply strip_sub.
Qed.

Definition final (r : rev) : option rev := if decide (K r = ∅ /\ r_server r = "") then None else Some (with_tags (K r) r).
Theorem expire_spec :
  exists s', expire O iso now S s = (s', Ok tt) /\
  data_same (w_disk (rs_w s)) (w_disk (rs_w s')) /\ synced s' /\ rs_hist s' = omap final h /\
  (forall d, killed s s' d -> data_same (w_disk (rs_w s)) d /\ forall u, partway u (d_revs d !! u)).
Proof.
  unfold expire. unfold bind at 1. set (s1 := (scan O s).1).
  assert (Hsc : scan O s = (s1, Ok tt)) by reflexivity. rewrite Hsc.
  assert (Hs1 : synced s1) by (apply scan_synced; done).
  assert (Hh1 : rs_hist s1 = retag r_tags h) by (rewrite retag_id; reflexivity).
  assert (Hd1 : data_same (w_disk (rs_w s)) (w_disk (rs_w s1))) by done.
  assert (Hk1 : forall r, r ∈ h -> K r ⊆ strip_tags S h now r_tags r /\ r_tags r ⊆ r_tags r).
  { intros r Hr. split; [|done]. unfold kept. set_solver. }
  destruct (phase1 S r_tags s1) as (R2 & S2 & H2 & D2 & P2); try done; [apply HS|].
  unfold bind at 1. destruct (mfor S _ s1) as [s2 x2]. cbn [fst snd] in *. subst x2.
  unfold bind at 1. cbn [get].
  assert (L2 : NoDup (map r_uuid (rs_hist s2))) by apply S2.
  destruct (loop_phase (w_disk (rs_w s)) partway _ _ _ (rs_hist s2) s2 (body_foreign S) L2 S2 ltac:(done) D2) as (R3 & S3 & D3 & H3 & P3).
  unfold bind at 1. destruct (mfor (rs_hist s2) (expire_foreign S) s2) as [s3 x3]. cbn [fst snd] in *. subst x3.
  rewrite foreign_hist, H2, retag_retag in H3. cbn [r_tags with_tags] in H3. change (rs_hist s3 = retag K h) in H3.
  assert (HK : forall r, r ∈ h -> K r ⊆ K r /\ K r ⊆ r_tags r).
  { intros r Hr. split; [done|]. unfold kept. intros x Hx. apply elem_of_difference in Hx as [Hx _].
    apply strip_sub in Hx. done. }
  specialize (P3 (retag_partway s2 _ S2 H2 ltac:(intros r Hr; split; [apply Hk1; done|apply strip_sub]))
                 (retag_partway s3 _ S3 H3 HK)).
  unfold bind at 1. cbn [get].
  assert (L3 : NoDup (map r_uuid (rs_hist s3))) by apply S3.
  destruct (loop_phase (w_disk (rs_w s)) partway _ _ _ (rs_hist s3) s3 body_untagged L3 S3 ltac:(done) D3) as (R4 & S4 & D4 & H4 & P4).
  destruct (mfor (rs_hist s3) expire_untagged s3) as [s4 x4]. cbn [fst snd] in *. subst x4.
  assert (Hfin : rs_hist s4 = omap final h).
  { rewrite H4. unfold step_hist. rewrite H3.
    assert (Hx : forall x, x ∈ h -> (if decide (with_tags (K x) x ∈ retag K h /\ bool_decide (r_tags (with_tags (K x) x) = ∅) = true)
       then removed (with_tags (K x) x) else Some (with_tags (K x) x)) = final x).
    { intros x Hx. unfold final, removed. cbn [r_tags with_tags r_server].
      assert (Hin : with_tags (K x) x ∈ retag K h) by (apply elem_of_list_fmap; eauto).
      destruct (decide (K x = ∅)) as [He|He].
      - rewrite (decide_True (P := _ ∈ _ /\ _)) by (rewrite bool_decide_eq_true; done).
        destruct (decide (r_server x = "")) as [Hsv|Hsv].
        + rewrite decide_True by done. done.
        + rewrite decide_False by tauto. rewrite He. done.
      - rewrite (decide_False (P := _ ∈ _ /\ _)) by (rewrite bool_decide_eq_true; tauto).
        rewrite decide_False by tauto. done. }
    apply (omap_map_ext (fun r => with_tags (K r) r)). exact Hx. }
  exists s4. split; [done|]. split; [done|]. split; [done|]. split; [done|].
  assert (Hpw : forall u, partway u (drevs s4 !! u)).
  { intros u. destruct S4 as [_ S4]. unfold partway. destruct (drevs s4 !! u) as [r'|] eqn:Hr'.
    - apply S4 in Hr' as [Hr' Hu]. rewrite Hfin in Hr'. apply elem_of_list_omap in Hr' as (r & Hr & Hx).
      unfold final in Hx. destruct (decide _); [done|]. injection Hx as <-.
      assert (Hl : drevs s !! u = Some r) by (apply hist_lookup; done). rewrite Hl. exists (K r).
      split; [done|]. apply HK. done.
    - destruct (drevs s !! u) as [r|] eqn:Hl; [|done]. apply hist_lookup in Hl as [Hr Hu].
      destruct (decide (K r = ∅ /\ r_server r = "")) as [|Hno]; [done|]. exfalso.
      assert (Hx : drevs s4 !! u = Some (with_tags (K r) r)); [|congruence]. apply S4. split; [|done].
      rewrite Hfin. apply elem_of_list_omap. exists r. split; [done|]. unfold final. rewrite decide_False by done. done. }
  specialize (P4 (retag_partway s3 _ S3 H3 HK) Hpw).
  intros d Hd. apply (phase_killed Q s s4); [|done].
  apply (phase_trans Q s s1).
  { apply phase_nil; [done|]. split; [done|]. apply (retag_partway s1 r_tags); [done|done|]. intros r Hr.
    split; [|done]. apply HK. done. }
  eapply phase_trans; [exact P2|]. eapply phase_trans; done.
Qed.
End Main.
