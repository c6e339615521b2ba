(** gc (C07), verify (C17) and what they leave. *)
From Verif Require Export Proofs.BackupThms.

(** ** gc *)
Lemma union_maps_exact revs s us :
  (union_maps revs s).2 = Ok us ->
  forall h, h ∈ us <-> exists x, x ∈ revs /\ used_by s x h.
Proof.
  revert us. induction revs as [|y revs IH]; intros us Hu h; cbn [union_maps] in Hu.
  { cbn in Hu. injection Hu as <-. split; [set_solver|]. intros (x & Hx & _). inversion Hx. }
  unfold bind, open_map in Hu.
  destruct (file_open (r_uuid y) true false false (rs_w s)) as [f|e] eqn:Ho; [|done].
  pose proof (union_maps_pure revs s) as Hp.
  destruct (union_maps revs s) as [s2 [us2|e]] eqn:Hun; [|done]. cbn in Hp. subst s2.
  cbn in Hu. injection Hu as <-.
  assert (Hf : exists z, d_maps (w_disk (rs_w s)) !! r_uuid y = Some (MapJson (f_map f) z)).
  { unfold file_open in Ho. destruct (d_maps _ !! _) as [[mm z|]|]; try done.
    simplify_eq. cbn. eauto. }
  destruct Hf as [z Hz]. rewrite elem_of_union, map_hashes_elem, (IH us2 eq_refl). split.
  - intros [[id Hid]|(x & Hx & Hux)].
    + exists y. split; [left|]. exists (f_map f), z, id. done.
    + exists x. split; [right; done|done].
  - intros (x & [->|Hx]%elem_of_cons & m & z' & id & Hm & Hid).
    + left. rewrite Hz in Hm. simplify_eq. eauto.
    + right. exists x. split; [done|]. exists m, z', id. done.
Qed.
Lemma used_history s h :
  (exists x, x ∈ get_history false true (rs_hist s) /\ used_by s x h) <-> used s h.
Proof.
  unfold used. split; intros (x & Hx & H).
  - apply get_history_elem in Hx as (H1 & _ & H3). exists x. split; [done|]. split; [|done].
    specialize (H3 eq_refl). unfold is_local in H3. apply bool_decide_eq_true in H3. done.
  - destruct H as [H1 H2]. exists x. split; [|done]. apply get_history_elem. split; [done|].
    split; [done|]. intros _. unfold is_local. rewrite H1. done.
Qed.

#[local] Instance del_dec h (l : list eff) : Decision (EChunkDel h ∈ l).
Proof.
  induction l as [|e l IH]; [right; apply not_elem_of_nil|].
  destruct IH as [H|H]; [left; right; done|].
  destruct e as [| | | h' | | | |]; try (right; intros [?|?]%elem_of_cons; done).
  destruct (decide (h' = h)) as [->|Hn]; [left; left|right; intros [?|?]%elem_of_cons; congruence].
Qed.
Lemma replay_dels (us : gset Hash) l d :
  Forall (fun e => exists h, e = EChunkDel h /\ h ∉ us) l ->
  d_maps (replay l d) = d_maps d /\ d_revs (replay l d) = d_revs d /\
  (forall h, h ∈ us -> d_chunks (replay l d) !! h = d_chunks d !! h) /\
  (forall h, EChunkDel h ∈ l -> d_chunks (replay l d) !! h = None) /\
  (forall h, EChunkDel h ∉ l -> d_chunks (replay l d) !! h = d_chunks d !! h).
Proof.
  revert d. induction l as [|e l IH]; intros d Hf.
  { cbn. repeat split; try done. intros h Hh. inversion Hh. }
  apply Forall_cons in Hf as [(h0 & -> & Hh0) Hf].
  change (replay (EChunkDel h0 :: l) d) with (replay l (apply_eff (EChunkDel h0) d)).
  destruct (IH (apply_eff (EChunkDel h0) d) Hf) as (H1 & H2 & H3 & H4 & H5).
  split; [rewrite H1; done|]. split; [rewrite H2; done|].
  split. { intros h Hh. rewrite H3 by done. cbn. rewrite lookup_delete_ne; [done|]. intros ->. done. }
  split.
  - intros h Hin. destruct (decide (EChunkDel h ∈ l)) as [Hl|Hl]; [auto|].
    apply elem_of_cons in Hin as [Heq|Hin]; [|done]. injection Heq as ->.
    rewrite H5 by done. cbn. apply lookup_delete.
  - intros h Hin. apply not_elem_of_cons in Hin as [Hne Hin]. rewrite H5 by done.
    cbn. rewrite lookup_delete_ne; [done|]. congruence.
Qed.

Lemma gc_run s :
  (exists e, gc s = (s, Err e)) \/
  exists s' l (us : gset Hash), gc s = (s', Ok tt) /\ delta s s' (l ++ [ETmp]) /\
    (forall h, h ∈ us <-> used s h) /\
    Forall (fun e => exists h, e = EChunkDel h /\ h ∉ us) l /\
    (forall h, h ∉ us -> is_Some (d_chunks (w_disk (rs_w s)) !! h) -> EChunkDel h ∈ l) /\
    rs_hist s' = rs_hist s /\ rs_snaps s' = rs_snaps s.
Proof.
  unfold gc, bind, get. cbn [fst snd].
  pose proof (union_maps_pure (get_history false true (rs_hist s)) s) as Hp.
  pose proof (union_maps_exact (get_history false true (rs_hist s)) s) as Hex.
  destruct (union_maps (get_history false true (rs_hist s)) s) as [s1 [us|e]].
  2:{ left. exists e. cbn in Hp. subst. done. }
  cbn in Hp. subst s1. right.
  destruct (purge_delta us (rs_w s)) as (l & G1 & G2 & G3 & G4).
  eexists _, l, us. split; [reflexivity|].
  split. { split; cbn; rewrite ?G1, ?G2, ?replay_app, <- ?app_assoc; done. }
  split. { intros h. rewrite (Hex us eq_refl h). apply used_history. }
  done.
Qed.

Lemma gc_ok s s' : gc s = (s', Ok tt) ->
  d_maps (w_disk (rs_w s')) = d_maps (w_disk (rs_w s)) /\
  d_revs (w_disk (rs_w s')) = d_revs (w_disk (rs_w s)) /\
  (forall h, used s h -> d_chunks (w_disk (rs_w s')) !! h = d_chunks (w_disk (rs_w s)) !! h) /\
  (forall h, ~ used s h -> d_chunks (w_disk (rs_w s')) !! h = None).
Proof.
  intros Hgc. destruct (gc_run s) as [[e He]|(s2 & l & us & Hr & [_ Hd] & Hus & Hf & Hall & _)];
    [congruence|].
  rewrite Hgc in Hr. injection Hr as <-. rewrite replay_app in Hd.
  change (replay [ETmp] ?x) with x in Hd.
  destruct (replay_dels us l (w_disk (rs_w s)) Hf) as (H1 & H2 & H3 & H4 & H5).
  rewrite Hd. split; [done|]. split; [done|]. split.
  - intros h Hh. apply H3, Hus, Hh.
  - intros h Hh. rewrite <- Hus in Hh.
    destruct (d_chunks (w_disk (rs_w s)) !! h) eqn:Hc.
    + apply H4, Hall; eauto.
    + destruct (decide (EChunkDel h ∈ l)); [auto|]. rewrite H5; done.
Qed.
Lemma gc_err s s' e : gc s = (s', Err e) -> s' = s.
Proof.
  intros Hgc. destruct (gc_run s) as [[e' He]|(s2 & l & us & Hr & _)];
    [|congruence]. rewrite Hgc in He. injection He as -> _. done.
Qed.
(** Killed in between: used chunks are untouched, nothing is created. *)
Lemma gc_killed s s' x d : gc s = (s', x) -> killed s s' d ->
  d_maps d = d_maps (w_disk (rs_w s)) /\ d_revs d = d_revs (w_disk (rs_w s)) /\
  (forall h, used s h -> d_chunks d !! h = d_chunks (w_disk (rs_w s)) !! h) /\
  (forall h, d_chunks d !! h = None \/ d_chunks d !! h = d_chunks (w_disk (rs_w s)) !! h).
Proof.
  intros Hgc Hk. destruct (gc_run s) as [[e He]|(s2 & l & us & Hr & Hd & Hus & Hf & _)].
  - rewrite Hgc in He. injection He as -> _.
    destruct (killed_prefix s s [] d (delta_nil s s eq_refl) Hk) as [k ->]. rewrite take_nil. cbn. auto.
  - rewrite Hgc in Hr. injection Hr as <- _. destruct (killed_prefix _ _ _ _ Hd Hk) as [k ->].
    assert (Hrep : exists l', replay (take k (l ++ [ETmp])) (w_disk (rs_w s)) =
       replay l' (w_disk (rs_w s)) /\ Forall (fun e => exists h, e = EChunkDel h /\ h ∉ us) l').
    { destruct (decide (k <= length l)) as [Hle|Hgt].
      - exists (take k l). rewrite take_app_le by done. split; [done|]. apply Forall_take. done.
      - exists l. rewrite take_ge by (rewrite app_length; cbn; lia). rewrite replay_app. done. }
    destruct Hrep as (l' & -> & Hf').
    destruct (replay_dels us l' (w_disk (rs_w s)) Hf') as (H1 & H2 & H3 & H4 & H5).
    split; [done|]. split; [done|]. split; [intros h Hh; apply H3, Hus, Hh|].
    intros h. destruct (decide (EChunkDel h ∈ l')); [left; auto|right; auto].
Qed.

(** Whatever happens. *)
Lemma gc_any s s' x : gc s = (s', x) ->
  d_maps (w_disk (rs_w s')) = d_maps (w_disk (rs_w s)) /\
  d_revs (w_disk (rs_w s')) = d_revs (w_disk (rs_w s)) /\
  (forall h, used s h -> d_chunks (w_disk (rs_w s')) !! h = d_chunks (w_disk (rs_w s)) !! h) /\
  (forall h, d_chunks (w_disk (rs_w s')) !! h = None \/
             d_chunks (w_disk (rs_w s')) !! h = d_chunks (w_disk (rs_w s)) !! h).
Proof.
  intros Hgc. apply (gc_killed s s' x); [done|].
  destruct (gc_run s) as [[e He]|(s2 & l & us & Hr & Hd & _)].
  - rewrite Hgc in He. injection He as -> _. exists [], 0. rewrite app_nil_r. done.
  - rewrite Hgc in Hr. injection Hr as -> _. destruct Hd as [H1 H2].
    exists (l ++ [ETmp]), (length (l ++ [ETmp])). rewrite firstn_all. done.
Qed.

(** ** verify *)
Lemma read_existing_content E h w :
  (exists x, read_existing E (new_chunk (Some h)) w = Ok x) <->
  is_Some (chunk_content E (w_disk w) h).
Proof.
  unfold read_existing, chunk_content. cbn. split.
  - intros [x Hx]. destruct (d_chunks _ !! h); [|done]. destruct (decompress E _); [|done].
    case_decide; [eauto|done].
  - intros [x Hx]. destruct (d_chunks _ !! h); [|done]. destruct (decompress E _); [|done].
    case_decide; [eauto|done].
Qed.
Lemma vloop_run E l s :
  (verify_loop E l s = (s, Ok false) /\ forall h, h ∈ l -> is_Some (chunk_content E (w_disk (rs_w s)) h)) \/
  exists h s1, h ∈ l /\ chunk_content E (w_disk (rs_w s)) h = None /\
    verify_loop E l s = (s1, Ok true) /\
    rs_hist s1 = rs_hist s /\ rs_snaps s1 = rs_snaps s /\
    d_maps (w_disk (rs_w s1)) = d_maps (w_disk (rs_w s)) /\
    d_revs (w_disk (rs_w s1)) = d_revs (w_disk (rs_w s)) /\
    d_chunks (w_disk (rs_w s1)) = delete h (d_chunks (w_disk (rs_w s))).
Proof.
  induction l as [|h l IH]; cbn [verify_loop].
  { left. split; [done|]. intros h Hh. inversion Hh. }
  destruct (read_existing E (new_chunk (Some h)) (rs_w s)) as [x|e] eqn:Hr.
  - assert (Hc : is_Some (chunk_content E (w_disk (rs_w s)) h)) by (apply read_existing_content; eauto).
    destruct IH as [[H1 H2]|(h' & s1 & H1 & H2)].
    + left. split; [done|]. intros h' [->|Hh']%elem_of_cons; auto.
    + right. exists h', s1. split; [right; done|done].
  - assert (Hc : chunk_content E (w_disk (rs_w s)) h = None).
    { destruct (chunk_content E (w_disk (rs_w s)) h) eqn:Hcc; [|done].
      destruct (proj2 (read_existing_content E h (rs_w s))) as [x Hx]; [rewrite Hcc; eauto|]. congruence. }
    right. unfold bind. case_bool_decide as Hn; cbn.
    + exists h, s. split; [left|]. split; [done|]. split; [done|]. split; [done|]. split; [done|].
      split; [done|]. split; [done|]. rewrite delete_notin; done.
    + eexists h, _. split; [left|]. split; [done|]. split; [reflexivity|]. done.
Qed.

Lemma verify_run E O r s s' res : orders_ok O -> is_local r = true ->
  verify E O r s = (s', res) ->
  (s' = s /\ res <> Ok tt) \/
  exists m z, d_maps (w_disk (rs_w s)) !! r_uuid r = Some (MapJson m z) /\
  d_maps (w_disk (rs_w s')) = d_maps (w_disk (rs_w s)) /\
  (((forall id h, m !! id = Some h -> ~ vouched s h ->
       is_Some (chunk_content E (w_disk (rs_w s)) h)) /\
    d_revs (w_disk (rs_w s')) = <[r_uuid r := with_trust VERIFIED r]> (d_revs (w_disk (rs_w s))) /\
    (forall h, used s h -> d_chunks (w_disk (rs_w s')) !! h = d_chunks (w_disk (rs_w s)) !! h)) \/
   (exists id h, m !! id = Some h /\ ~ vouched s h /\
      chunk_content E (w_disk (rs_w s)) h = None /\
      d_chunks (w_disk (rs_w s')) !! h = None /\
      d_revs (w_disk (rs_w s')) = delete (r_uuid r) (d_revs (w_disk (rs_w s))))).
Proof.
  intros HO Hloc Hrun. unfold verify, bind at 1, get in Hrun. unfold bind at 1 in Hrun.
  set (vs := filter (fun x => r_trust x = VERIFIED) (get_history true true (rs_hist s))) in Hrun.
  pose proof (union_maps_pure vs s) as Hp. pose proof (union_maps_exact vs s) as Hex.
  destruct (union_maps vs s) as [s1 [us|e]]; cbn in Hp; subst s1;
    [|left; injection Hrun as <- <-; done].
  specialize (Hex us eq_refl).
  assert (Hus : forall h, h ∈ us <-> vouched s h).
  { intros h. rewrite Hex. unfold vouched, vs. split.
    - intros (x & [Ht Hx]%elem_of_list_filter & Hu). apply get_history_elem in Hx as (H1 & H2 & H3).
      exists x. split; [done|]. split; [auto|]. split; [|done].
      specialize (H3 eq_refl). unfold is_local in H3. apply bool_decide_eq_true in H3. done.
    - intros (x & H1 & H2 & H3 & H4 & Hu). exists x. split; [|done].
      apply elem_of_list_filter. split; [done|]. apply get_history_elem. split; [done|].
      split; [done|]. intros _. unfold is_local. rewrite H3. done. }
  unfold bind at 1, open_map in Hrun.
  destruct (file_open (r_uuid r) true false false (rs_w s)) as [f|e] eqn:Ho;
    [|left; injection Hrun as <- <-; done].
  right.
  assert (Hf : exists z, d_maps (w_disk (rs_w s)) !! r_uuid r = Some (MapJson (f_map f) z)).
  { unfold file_open in Ho. destruct (d_maps _ !! _) as [[mm z|]|]; try done.
    simplify_eq. cbn. eauto. }
  destruct Hf as [z Hz]. exists (f_map f), z. split; [done|].
  unfold bind at 1 in Hrun.
  set (hs := map_hashes (f_map f) ∖ us) in Hrun.
  assert (Hhs : forall h, h ∈ o_set O hs <-> (exists id, f_map f !! id = Some h) /\ ~ vouched s h).
  { intros h. rewrite (proj2 HO hs), elem_of_elements. unfold hs.
    rewrite elem_of_difference, map_hashes_elem, Hus. done. }
  destruct (vloop_run E (o_set O hs) s) as [[Hvl Hall]|(h & s1 & Hh & Hbad & Hvl & V1 & V2 & V3 & V4 & V5)];
    rewrite Hvl in Hrun.
  - unfold bind in Hrun. rewrite Hloc in Hrun. cbn [massert ret] in Hrun.
    set (r' := with_trust VERIFIED r) in *.
    set (s2 := (write_info r' (set_hist (hist_set r' (rs_hist s)) s)).1).
    assert (Hw : write_info r' (set_hist (hist_set r' (rs_hist s)) s) = (s2, Ok tt)) by done.
    unfold upd, modify in Hrun. rewrite Hw in Hrun.
    assert (H2m : d_maps (w_disk (rs_w s2)) = d_maps (w_disk (rs_w s))) by done.
    assert (H2c : d_chunks (w_disk (rs_w s2)) = d_chunks (w_disk (rs_w s))) by done.
    destruct (gc_any s2 s' res Hrun) as (G1 & G2 & G3 & G4).
    split; [congruence|]. left. split.
    + intros id h Hid Hnv. apply Hall. apply Hhs. eauto.
    + split; [rewrite G2; done|]. intros h (x & Hx & Hxl & m' & z' & id & Hm' & Hid).
      rewrite G3; [rewrite H2c; done|].
      destruct (decide (r_uuid x = r_uuid r)) as [Heq|Hne].
      * exists r'. split; [change (rs_hist s2) with (hist_set r' (rs_hist s)); eapply hist_set_in; done|].
        split; [unfold is_local in Hloc; apply bool_decide_eq_true in Hloc; done|].
        exists m', z', id. rewrite H2m. cbn. rewrite <- Heq. done.
      * exists x. split; [change (rs_hist s2) with (hist_set r' (rs_hist s)); apply hist_set_keep; done|].
        split; [done|]. exists m', z', id. rewrite H2m. done.
  - unfold bind at 1 in Hrun.
    assert (Hrm : exists s2, rev_remove false r s1 = (s2, Ok tt) /\
       d_maps (w_disk (rs_w s2)) = d_maps (w_disk (rs_w s1)) /\
       d_chunks (w_disk (rs_w s2)) = d_chunks (w_disk (rs_w s1)) /\
       d_revs (w_disk (rs_w s2)) = delete (r_uuid r) (d_revs (w_disk (rs_w s1)))).
    { unfold rev_remove. rewrite Hloc. cbn [negb andb]. unfold bind, get. case_bool_decide as Hn.
      - eexists. split; [reflexivity|]. done.
      - eexists. split; [reflexivity|]. split; [done|]. split; [done|]. cbn.
        rewrite delete_notin; [done|]. apply eq_None_not_Some. done. }
    destruct Hrm as (s2 & Hrm & R1 & R2 & R3). rewrite Hrm in Hrun.
    destruct (gc_any s2 s' res Hrun) as (G1 & G2 & G3 & G4).
    split; [congruence|]. right. apply Hhs in Hh as [[id Hid] Hnv].
    exists id, h. split; [done|]. split; [done|]. split; [done|]. split; [|congruence].
    assert (Hnone : d_chunks (w_disk (rs_w s2)) !! h = None) by (rewrite R2, V5, lookup_delete; done).
    destruct (G4 h) as [->| ->]; done.
Qed.
