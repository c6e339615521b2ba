(** Top-level statements about chunked files. *)
From Verif Require Import Proofs.ChunkedLog Proofs.ChunkedProofs.
From Verif Require Export Spec.Image Spec.FlatFile Model.ChunkedRun.

Definition flat0 (c : bytes) (r wr app : bool) : flat :=
  MkFlat c (if app then zlen c else 0%Z) r wr false.

Section Top.
Context (E : env).

Lemma WI_init w0 (l : list eff) :
  good_store E (w_disk w0) -> seen_ok w0 ->
  WI E (fun c => stored E (w_disk w0) c \/ EFlush c ∈ l) w0.
Proof.
  intros Hg Hs. constructor; [|done].
  intros h raw Hr. destruct (Hg h raw Hr) as (c & Hd & Hh & Hl).
  exists c. split_and!; try done. left. exists h, raw. done.
Qed.

Lemma WI_good D w : WI E D w -> good_store E (w_disk w).
Proof.
  intros HW h raw Hr. destruct (wi_good E D w HW h raw Hr) as (c & ? & ? & ? & _).
  eauto.
Qed.

Lemma open_R D w0 n r wr app f0 c0 :
  (0 < CS E)%Z -> WI E D w0 ->
  initial_image E (w_disk w0) n c0 ->
  file_open n r wr app w0 = Ok f0 ->
  R E D f0 w0 (flat0 c0 r wr app) /\ f_name f0 = n.
Proof.
  intros HCS HW Hi Ho. unfold file_open in Ho.
  destruct Hi as [[Hn ->]|[(m & Hm & Hb) Hc]].
  - rewrite Hn in Ho. destruct wr; [|done]. simplify_eq. split; [|done].
    constructor; cbn; try done.
    + constructor; cbn; [done| | |lia].
      * constructor; cbn; try done.
        -- constructor.
        -- intros id c Hin. inversion Hin.
        -- intros id c Hin. inversion Hin.
      * constructor; done.
    + destruct app; done.
  - rewrite Hm in Ho. simplify_eq. split; [|done].
    unfold map_complete in Hc. rewrite Hm in Hc.
    constructor; cbn; try done.
    constructor; cbn; [done| | |pose proof (zlen_nonneg c0); destruct app; lia].
    * constructor; cbn; try done.
      -- constructor.
      -- intros id c Hin. inversion Hin.
      -- intros id c Hin. inversion Hin.
    * constructor; cbn; [done|].
      intros i b Hi. destruct (Hb i b Hi) as (h & x & Hh & Hx & Hxb).
      exists x. split; [|done]. unfold view. cbn [alookup f_chunks f_map].
      rewrite Hh. done.
Qed.

Lemma run_refines w0 n r wr app f0 c0 ops f' w' rs :
  (0 < CS E)%Z -> lzo_ok E -> good_store E (w_disk w0) -> seen_ok w0 ->
  initial_image E (w_disk w0) n c0 ->
  file_open n r wr app w0 = Ok f0 ->
  Forall op_ok ops ->
  file_run E (f0, w0) ops = ((f', w'), rs) ->
  no_collision E (w_disk w0) (w_log w') ->
  let D := fun c => stored E (w_disk w0) c \/ EFlush c ∈ w_log w' in
  rs = (flat_run (flat0 c0 r wr app) ops).2 /\
  R E D f' w' (flat_run (flat0 c0 r wr app) ops).1 /\
  ext E n w0 w' /\ f_name f' = n.
Proof.
  intros HCS Hlzo Hg Hs Hi Ho Hok Hrun Hnc D.
  assert (HW : WI E D w0) by (apply WI_init; done).
  destruct (open_R D w0 n r wr app f0 c0 HCS HW Hi Ho) as [HR Hn].
  pose proof (file_run_spec E D HCS Hlzo Hnc ops f0 w0 _ Hok HR) as H.
  rewrite Hrun in H. specialize (H ltac:(intros d Hd; right; done)).
  destruct (flat_run (flat0 c0 r wr app) ops) as [s' rs'].
  destruct H as (f1 & w1 & Heq & HR' & He & Hn'). simplify_eq. done.
Qed.

(** C01 *)
Lemma flat_file w0 n r wr app f0 c0 ops f' w' rs :
  (0 < CS E)%Z -> lzo_ok E -> good_store E (w_disk w0) -> seen_ok w0 ->
  initial_image E (w_disk w0) n c0 ->
  file_open n r wr app w0 = Ok f0 ->
  Forall op_ok ops ->
  file_run E (f0, w0) ops = ((f', w'), rs) ->
  no_collision E (w_disk w0) (w_log w') ->
  rs = (flat_run (flat0 c0 r wr app) ops).2.
Proof. intros. eapply run_refines; done. Qed.

Lemma stored_mono w w' c :
  (forall h c, content E w h = Some c -> content E w' h = Some c) ->
  good_store E (w_disk w) -> stored E (w_disk w) c -> stored E (w_disk w') c.
Proof.
  intros H Hg (h & raw & Hr & Hd).
  destruct (Hg h raw Hr) as (c' & Hd' & Hh & _).
  assert (Hc : content E w h = Some c).
  { unfold content, chunk_content. rewrite Hr, Hd.
    rewrite decide_True; [done|]. congruence. }
  apply H in Hc. unfold content, chunk_content in Hc.
  destruct (d_chunks (w_disk w') !! h) as [raw'|] eqn:Hr'; [|done].
  destruct (decompress E raw') as [x|] eqn:Hx; [|done]. case_decide; [|done].
  simplify_eq. exists (hash E c), raw'. done.
Qed.

(** C02 *)
Lemma reopen w0 n r wr app f0 c0 ops f' w' rs r2 wr2 app2 ops2 :
  (0 < CS E)%Z -> lzo_ok E -> good_store E (w_disk w0) -> seen_ok w0 ->
  initial_image E (w_disk w0) n c0 ->
  file_open n r wr app w0 = Ok f0 ->
  Forall op_ok ops ->
  file_run E (f0, w0) ops = ((f', w'), rs) ->
  fl_closed (flat_run (flat0 c0 r wr app) ops).1 = true ->
  wr = true ->
  no_collision E (w_disk w0) (w_log w') ->
  let c := fl_data (flat_run (flat0 c0 r wr app) ops).1 in
  image_is E (w_disk w') n c /\
  exists f2, file_open n r2 wr2 app2 (restart w') = Ok f2 /\
    (Forall op_ok ops2 ->
     forall f3 w3 rs3, file_run E (f2, restart w') ops2 = ((f3, w3), rs3) ->
     no_collision E (w_disk w') (w_log w3) ->
     rs3 = (flat_run (flat0 c r2 wr2 app2) ops2).2).
Proof.
  intros HCS Hlzo Hg Hs Hi Ho Hok Hrun Hcl Hwr Hnc c.
  destruct (run_refines _ _ _ _ _ _ _ _ _ _ _ HCS Hlzo Hg Hs Hi Ho Hok Hrun Hnc)
    as (_ & HR & He & Hn).
  assert (Hfw : fl_w (flat_run (flat0 c0 r wr app) ops).1 = true).
  { assert (Hgen : forall ops s, fl_w (flat_run s ops).1 = fl_w s).
    { clear. induction ops as [|o ops IH]; intros s; cbn; [done|].
      assert (Hw : fl_w (flat_step s o).1 = fl_w s).
      { destruct s as [c p r w cl], o; cbn; destruct cl; try done;
          repeat case_match; done. }
      destruct (flat_step s o) as [s1 x]. specialize (IH s1).
      destruct (flat_run s1 ops) as [s2 xs]. cbn in *. congruence. }
    rewrite Hgen. done. }
  destruct (R_image _ _ _ _ _ HR Hcl Hfw) as [Him Hmc]. rewrite Hn in Him, Hmc.
  split; [done|].
  destruct Him as (m & Hm & Hb).
  eexists. split.
  { unfold file_open. cbn. rewrite Hm. reflexivity. }
  intros Hok2 f3 w3 rs3 Hrun2 Hnc2.
  eapply (flat_file (restart w') n); try done.
  - exact (WI_good _ w' (st_wi _ _ _ _ _ (R_st _ _ _ _ _ HR))).
  - right. split; [exists m; done|]. done.
  - unfold file_open. cbn. rewrite Hm. done.
Qed.

(** C02, second half: a successful flush alone makes the content durable. *)
Lemma flushed w0 n r app f0 c0 ops f' w' rs w2 f2 :
  (0 < CS E)%Z -> lzo_ok E -> good_store E (w_disk w0) -> seen_ok w0 ->
  initial_image E (w_disk w0) n c0 ->
  file_open n r true app w0 = Ok f0 ->
  Forall op_ok ops ->
  file_run E (f0, w0) ops = ((f', w'), rs) ->
  file_step E OFlush (f', w') = ((f2, w2), Ok UNone) ->
  no_collision E (w_disk w0) (w_log w2) ->
  image_is E (w_disk w2) n (fl_data (flat_run (flat0 c0 r true app) ops).1) /\
  map_complete (w_disk w2) n.
Proof.
  intros HCS Hlzo Hg Hs Hi Ho Hok Hrun Hfl Hnc.
  assert (Hext : wext E (f_name f') w' w2).
  { pose proof (file_step_mono E OFlush f' w') as [H _]. rewrite Hfl in H. done. }
  assert (Hnc' : no_collision E (w_disk w0) (w_log w')).
  { intros c1 c2 H1 H2. apply Hnc.
    - destruct H1 as [|H1]; [auto|]. right. eapply wext_log; done.
    - destruct H2 as [|H2]; [auto|]. right. eapply wext_log; done. }
  destruct (run_refines _ _ _ _ _ _ _ _ _ _ _ HCS Hlzo Hg Hs Hi Ho Hok Hrun Hnc')
    as (_ & HR & _ & Hn).
  set (s := (flat_run (flat0 c0 r true app) ops).1) in *.
  set (D := fun c => stored E (w_disk w0) c \/ EFlush c ∈ w_log w2).
  destruct HR as [HS Rp Rr Rw Rc Ri].
  assert (HS2 : St E D f' w' (fl_data s)).
  { destruct HS as [[H1 H2] HF HD Hp]. constructor; try done.
    constructor; [|done]. intros h raw Hr. destruct (H1 h raw Hr) as (c & ? & ? & ? & HDc).
    exists c. split_and!; try done. destruct HDc as [|HDc]; [left; done|].
    right. eapply wext_log; done. }
  cbn [file_step] in Hfl. unfold mmap, bind in Hfl.
  destruct (file_flush E (f', w')) as [[f3 w3] [[]|e]] eqn:Heq; [|done].
  unfold ret in Hfl. simplify_eq.
  assert (Hwc : f_w f' = true /\ f_closed f' = false).
  { unfold file_flush in Heq. destruct (f_w f'), (f_closed f'); done. }
  destruct Hwc as [Hw Hc].
  destruct (file_flush_spec E D HCS Hlzo Hnc f' w' (fl_data s) Hw Hc HS2)
    as (f4 & w4 & Heq4 & _ & _ & _ & Him & Hmc & _).
  { rewrite Heq. intros d Hd. right. done. }
  rewrite Heq in Heq4. simplify_eq. done.
Qed.

(** C06, the part that holds: truncating to a length between the cursor and
    the end of the file. *)
Lemma truncate_to w0 n r app f0 c0 ops f' w' rs k f2 w2 res2 :
  (0 < CS E)%Z -> lzo_ok E -> good_store E (w_disk w0) -> seen_ok w0 ->
  initial_image E (w_disk w0) n c0 ->
  file_open n r true app w0 = Ok f0 ->
  Forall op_ok ops ->
  file_run E (f0, w0) ops = ((f', w'), rs) ->
  let s := (flat_run (flat0 c0 r true app) ops).1 in
  fl_closed s = false ->
  (fl_pos s <= k <= zlen (fl_data s))%Z ->
  file_truncate E (Some k) (f', w') = ((f2, w2), res2) ->
  no_collision E (w_disk w0) (w_log w2) ->
  res2 = Ok tt /\ image_is E (w_disk w2) n (ztake k (fl_data s)) /\
  (forall ops2 f3 w3 rs3,
     Forall op_ok ops2 -> file_run E (f2, w2) ops2 = ((f3, w3), rs3) ->
     no_collision E (w_disk w0) (w_log w3) ->
     rs3 = (flat_run (MkFlat (ztake k (fl_data s)) (fl_pos s) r true false) ops2).2).
Proof.
  intros HCS Hlzo Hg Hs Hi Ho Hok Hrun s Hcl Hk Htr Hnc.
  assert (Hext : wext E (f_name f') w' w2).
  { pose proof (file_truncate_mono E (Some k) f' w') as [H _]. rewrite Htr in H. done. }
  assert (Hnc' : no_collision E (w_disk w0) (w_log w')).
  { intros c1 c2 H1 H2. apply Hnc.
    - destruct H1 as [|H1]; [auto|]. right. eapply wext_log; done.
    - destruct H2 as [|H2]; [auto|]. right. eapply wext_log; done. }
  destruct (run_refines _ _ _ _ _ _ _ _ _ _ _ HCS Hlzo Hg Hs Hi Ho Hok Hrun Hnc')
    as (_ & HR & _ & Hn).
  fold s in HR.
  assert (Hwr : fl_w s = true /\ fl_r s = r).
  { assert (Hgen : forall ops s, fl_w (flat_run s ops).1 = fl_w s /\ fl_r (flat_run s ops).1 = fl_r s).
    { clear. induction ops as [|o ops IH]; intros s; cbn; [done|].
      assert (Hw : fl_w (flat_step s o).1 = fl_w s /\ fl_r (flat_step s o).1 = fl_r s).
      { destruct s as [c p r w cl], o; cbn; destruct cl; try done;
          repeat case_match; done. }
      destruct (flat_step s o) as [s1 x]. specialize (IH s1).
      destruct (flat_run s1 ops) as [s2 xs]. cbn in *. destruct IH, Hw. split; congruence. }
    unfold s. destruct (Hgen ops (flat0 c0 r true app)) as [-> ->]. done. }
  destruct Hwr as [Hfw Hfr]. destruct HR as [HS Rp Rr Rw Rc Ri].
  assert (Hlift : forall l : list eff, (forall e, e ∈ w_log w' -> e ∈ l) ->
     St E (fun c => stored E (w_disk w0) c \/ EFlush c ∈ l) f' w' (fl_data s)).
  { intros l Hl. destruct HS as [[H1 H2] HF HD Hp]. constructor; try done.
    constructor; [|done]. intros h raw Hr. destruct (H1 h raw Hr) as (c & ? & ? & ? & HDc).
    exists c. split_and!; try done. destruct HDc as [|HDc]; [left; done|].
    right. apply Hl. done. }
  assert (Hsz : f_size f' = zlen (fl_data s)) by apply HS.
  assert (Hgo : forall l : list eff, (forall e, e ∈ w_log w2 -> e ∈ l) ->
     no_collision E (w_disk w0) l ->
     res2 = Ok tt /\
     St E (fun c => stored E (w_disk w0) c \/ EFlush c ∈ l) f2 w2 (ztake k (fl_data s)) /\
     same_mode f' f2 /\ f_pos f2 = f_pos f' /\ image_is E (w_disk w2) n (ztake k (fl_data s))).
  { intros l Hl Hncl.
    destruct (file_truncate_to_spec E (fun c => stored E (w_disk w0) c \/ EFlush c ∈ l)
      HCS Hlzo Hncl (Some k) f' w' (fl_data s) k)
      as (f4 & w4 & Heq4 & HS4 & _ & Hm4 & Hp4 & Him); try done; try congruence.
    - apply Hlift. intros e He. apply Hl. eapply wext_log; done.
    - rewrite Htr. intros d Hd. right. auto.
    - rewrite Hn in Him. rewrite Htr in Heq4. injection Heq4 as -> -> ->. done. }
  destruct (Hgo (w_log w2) ltac:(auto) Hnc) as (-> & _ & _ & _ & Him).
  split_and!; [done|done|].
  intros ops2 f3 w3 rs3 Hok2 Hrun2 Hnc3.
  assert (Hext2 : wext E (f_name f2) w2 w3).
  { pose proof (file_run_mono E ops2 f2 w2) as [H _]. rewrite Hrun2 in H. done. }
  destruct (Hgo (w_log w3) ltac:(intros e He; eapply wext_log; done) Hnc3)
    as (_ & HS2 & (Mn & Mr & Mw & Mc) & Mp & _).
  pose proof (file_run_spec E _ HCS Hlzo Hnc3 ops2 f2 w2
    (MkFlat (ztake k (fl_data s)) (fl_pos s) r true false) Hok2) as H.
  rewrite Hrun2 in H.
  assert (HR2 : R E (fun c => stored E (w_disk w0) c \/ EFlush c ∈ w_log w3) f2 w2
    (MkFlat (ztake k (fl_data s)) (fl_pos s) r true false)).
  { constructor; cbn; try congruence; done. }
  specialize (H HR2 ltac:(intros d Hd; right; done)).
  destruct (flat_run _ ops2) as [s3 rs4]. destruct H as (f5 & w5 & Heq5 & _).
  simplify_eq. done.
Qed.

(** Effects of safe logs on the chunk store, at every prefix. *)
Lemma safe_prefix_named n l d k :
  lzo_ok E -> safe_log E n l -> named_store E d ->
  named_store E (replay (take k l) d).
Proof.
  intros Hlzo Hsafe. revert d.
  assert (Hgen : forall l1, (forall e, e ∈ l1 -> e ∈ l) -> forall d,
            named_store E d -> named_store E (replay l1 d)).
  { induction l1 as [|e l1 IH]; intros Hin d Hd; cbn; [done|].
    apply IH; [intros; apply Hin; right; done|].
    specialize (Hsafe e (Hin e ltac:(left))).
    destruct e; cbn; try done.
    destruct Hsafe as (x & -> & -> & _).
    intros h raw0. cbn. destruct (decide (h = hash E x)) as [->|Hne].
    - rewrite lookup_insert. intros ?; simplify_eq. exists x. rewrite Hlzo. done.
    - rewrite lookup_insert_ne by done. apply Hd. }
  intros d Hd. apply Hgen; [|done]. intros e He.
  rewrite <- (take_drop k l). apply elem_of_app. auto.
Qed.

Lemma safe_prefix_other n l d0 k (D : bytes -> Prop) :
  lzo_ok E -> safe_log E n l ->
  (forall c, stored E d0 c -> D c) -> (forall c, EFlush c ∈ l -> D c) ->
  (forall c1 c2, D c1 -> D c2 -> hash E c1 = hash E c2 -> c1 = c2) ->
  (forall h c, chunk_content E d0 h = Some c ->
     chunk_content E (replay (take k l) d0) h = Some c) /\
  (forall m, m <> n -> d_maps (replay (take k l) d0) !! m = d_maps d0 !! m) /\
  d_revs (replay (take k l) d0) = d_revs d0.
Proof.
  intros Hlzo Hsafe HD0 HDl Dinj.
  assert (Hgen : forall l1, (forall e, e ∈ l1 -> e ∈ l) -> forall d,
    (forall h c, chunk_content E d0 h = Some c -> chunk_content E d h = Some c) ->
    (forall h c, chunk_content E d0 h = Some c ->
       chunk_content E (replay l1 d) h = Some c) /\
    (forall m, m <> n -> d_maps (replay l1 d) !! m = d_maps d !! m) /\
    d_revs (replay l1 d) = d_revs d).
  { induction l1 as [|e l1 IH]; intros Hin d Hd; cbn; [done|].
    assert (Hc1 : forall h c, chunk_content E d0 h = Some c ->
              chunk_content E (apply_eff e d) h = Some c).
    { intros h c Hc. specialize (Hsafe e (Hin e ltac:(left))).
      pose proof (Hd h c Hc) as Hdc.
      destruct e; cbn; try done.
      destruct Hsafe as (x & -> & -> & Hx).
      unfold chunk_content. cbn. destruct (decide (h = hash E x)) as [->|Hne].
      - rewrite lookup_insert, Hlzo, decide_True by done. f_equal.
        apply Dinj; [auto| |].
        + apply HD0. unfold chunk_content in Hc.
          destruct (d_chunks d0 !! _) as [raw|] eqn:Hr; [|done].
          destruct (decompress E raw) eqn:Hdec; [|done]. case_decide; [|done].
          simplify_eq. exists (hash E x), raw. done.
        + unfold chunk_content in Hc.
          destruct (d_chunks d0 !! _) as [raw|] eqn:Hr; [|done].
          destruct (decompress E raw) eqn:Hdec; [|done]. case_decide; [|done].
          simplify_eq. done.
      - rewrite lookup_insert_ne by done. done. }
    destruct (IH ltac:(intros; apply Hin; right; done) (apply_eff e d) Hc1)
      as (H1 & H2 & H3).
    specialize (Hsafe e (Hin e ltac:(left))).
    split_and!; [exact H1| |].
    - intros m Hm. change (fold_left _ l1 _) with (replay l1 (apply_eff e d)).
      rewrite H2 by done. destruct e; cbn; try done.
      subst n. rewrite lookup_insert_ne; done.
    - change (fold_left _ l1 _) with (replay l1 (apply_eff e d)).
      rewrite H3. destruct e; done. }
  apply Hgen; [|done]. intros e He.
  rewrite <- (take_drop k l). apply elem_of_app. auto.
Qed.

Lemma crash_prefix w w' d n :
  wext E n w w' -> crash_disk w w' d ->
  exists l k, w_log w' = w_log w ++ l /\ safe_log E n l /\ d = replay (take k l) (w_disk w).
Proof.
  intros (l1 & H1 & _ & Hsafe) (l & k & H2 & ->).
  rewrite H1 in H2. apply app_inv_head in H2. subst l1.
  exists l, k. auto.
Qed.

Lemma open_name w n r wr app f : file_open n r wr app w = Ok f -> f_name f = n.
Proof. unfold file_open. intros H. repeat case_match; by simplify_eq. Qed.

(** C03 *)
Lemma isolation w0 n r wr app f0 ops f' w' rs :
  lzo_ok E ->
  file_open n r wr app w0 = Ok f0 ->
  file_run E (f0, w0) ops = ((f', w'), rs) ->
  no_collision E (w_disk w0) (w_log w') ->
  forall d, crash_disk w0 w' d ->
    (forall m c, m <> n -> image_is E (w_disk w0) m c -> image_is E d m c) /\
    (forall m, m <> n -> d_maps d !! m = d_maps (w_disk w0) !! m) /\
    d_revs d = d_revs (w_disk w0).
Proof.
  intros Hlzo Ho Hrun Hnc d Hcr.
  pose proof (file_run_mono E ops f0 w0) as [Hext _]. rewrite Hrun in Hext.
  rewrite (open_name _ _ _ _ _ _ Ho) in Hext. cbn in Hext.
  destruct (crash_prefix _ _ _ _ Hext Hcr) as (l & k & Hl & Hsafe & ->).
  destruct (safe_prefix_other n l (w_disk w0) k
     (fun c => stored E (w_disk w0) c \/ EFlush c ∈ w_log w') Hlzo Hsafe)
    as (H1 & H2 & H3).
  { auto. }
  { intros c Hc. right. rewrite Hl. apply elem_of_app. auto. }
  { apply Hnc. }
  split_and!; [|done|done].
  intros m c Hm (mp & Hmp & Hb). exists mp. rewrite H2 by done. split; [done|].
  intros i b Hi. destruct (Hb i b Hi) as (h & x & ? & ? & ?).
  exists h, x. auto.
Qed.

(** C05 *)
Lemma chunk_names w0 n r wr app f0 ops f' w' rs :
  lzo_ok E -> named_store E (w_disk w0) ->
  file_open n r wr app w0 = Ok f0 ->
  file_run E (f0, w0) ops = ((f', w'), rs) ->
  forall d, crash_disk w0 w' d -> named_store E d.
Proof.
  intros Hlzo Hnamed Ho Hrun d Hcr.
  pose proof (file_run_mono E ops f0 w0) as [Hext _]. rewrite Hrun in Hext. cbn in Hext.
  destruct (crash_prefix _ _ _ _ Hext Hcr) as (l & k & Hl & Hsafe & ->).
  eapply safe_prefix_named; done.
Qed.
End Top.
