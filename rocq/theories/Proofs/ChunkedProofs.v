(** Refinement of the chunked file to a flat file. *)
From Verif Require Import Proofs.ChunkedLog Spec.Image Spec.FlatFile.
Ltac Zify.zify_post_hook ::= Z.div_mod_to_equations.

(** ** Byte-string lemmas *)
Lemma lookup_bio_write d off data j :
  (0 <= off)%Z ->
  bio_write d off data !! j =
    if decide (Z.of_nat j < off)%Z then (d ++ zeros (off - zlen d)) !! j
    else if decide (Z.of_nat j < off + zlen data)%Z
         then data !! (j - Z.to_nat off)%nat
         else d !! j.
Proof.
  intros Hoff. unfold bio_write.
  assert (Hl : length (ztake off (d ++ zeros (off - zlen d))) = Z.to_nat off).
  { pose proof (zlen_ztake off (d ++ zeros (off - zlen d))) as H.
    rewrite zlen_app, zlen_zeros in H. pose proof (zlen_nonneg d).
    unfold zlen in *. lia. }
  case_decide as H1.
  - rewrite lookup_app_l by lia. rewrite lookup_ztake, decide_True by lia. done.
  - rewrite lookup_app_r by lia. rewrite Hl. case_decide as H2.
    + rewrite lookup_app_l; [done|]. unfold zlen in *. lia.
    + rewrite lookup_app_r by (unfold zlen in *; lia).
      rewrite lookup_zdrop. f_equal. unfold zlen in *. lia.
Qed.
Lemma zlen_bio_write d off data :
  (0 <= off)%Z ->
  zlen (bio_write d off data) = Z.max (off + zlen data) (zlen d).
Proof.
  intros Hoff. unfold bio_write.
  rewrite !zlen_app, zlen_ztake, zlen_zdrop, zlen_app, zlen_zeros.
  pose proof (zlen_nonneg d). pose proof (zlen_nonneg data). lia.
Qed.
Lemma zlen_overwrite c p d :
  (0 <= p <= zlen c)%Z ->
  zlen (overwrite c p d) = Z.max (p + zlen d) (zlen c).
Proof.
  intros H. unfold overwrite. rewrite !zlen_app, zlen_ztake, zlen_zdrop.
  pose proof (zlen_nonneg d). lia.
Qed.
Lemma lookup_overwrite c p d j :
  (0 <= p <= zlen c)%Z ->
  overwrite c p d !! j =
    if decide (p <= Z.of_nat j < p + zlen d)%Z
    then d !! (j - Z.to_nat p)%nat else c !! j.
Proof.
  intros H. unfold overwrite.
  assert (Hl : length (ztake p c) = Z.to_nat p).
  { pose proof (zlen_ztake p c) as Hz. unfold zlen in *. lia. }
  destruct (decide (Z.of_nat j < p)%Z) as [H1|H1].
  - rewrite decide_False by lia. rewrite lookup_app_l by lia.
    rewrite lookup_ztake, decide_True by lia. done.
  - rewrite lookup_app_r by lia. rewrite Hl. case_decide as H2.
    + rewrite lookup_app_l; [done|]. unfold zlen in *. lia.
    + rewrite lookup_app_r by (unfold zlen in *; lia).
      rewrite lookup_zdrop. f_equal. unfold zlen in *. lia.
Qed.
Lemma list_eq_zlen {A} (l k : list A) :
  zlen l = zlen k ->
  (forall i x, l !! i = Some x -> k !! i = Some x) -> l = k.
Proof.
  intros Hl H. apply list_eq. intros i. destruct (l !! i) as [x|] eqn:Hx.
  - symmetry. auto.
  - apply lookup_ge_None in Hx. symmetry. apply lookup_ge_None.
    unfold zlen in Hl. lia.
Qed.
Lemma overwrite_app c p d1 d2 :
  (0 <= p <= zlen c)%Z ->
  overwrite (overwrite c p d1) (p + zlen d1) d2 = overwrite c p (d1 ++ d2).
Proof.
  intros H. pose proof (zlen_nonneg d1). pose proof (zlen_nonneg d2).
  assert (Hw : zlen (overwrite c p d1) = Z.max (p + zlen d1) (zlen c))
    by (apply zlen_overwrite; lia).
  apply list_eq. intros j.
  rewrite !lookup_overwrite by lia. rewrite zlen_app.
  destruct (decide (p + zlen d1 <= Z.of_nat j < p + zlen d1 + zlen d2)%Z).
  - rewrite decide_True by lia. rewrite lookup_app_r by (unfold zlen in *; lia).
    f_equal. unfold zlen in *. lia.
  - repeat case_decide; try lia; try done.
    rewrite lookup_app_l by (unfold zlen in *; lia). done.
Qed.
Lemma overwrite_nil c p : (0 <= p <= zlen c)%Z -> overwrite c p [] = c.
Proof.
  intros H. unfold overwrite. rewrite zlen_nil, Z.add_0_r. apply ztake_zdrop.
Qed.
Lemma overwrite_end c d : overwrite c (zlen c) d = c ++ d.
Proof.
  unfold overwrite. rewrite ztake_all, zdrop_all by (pose proof (zlen_nonneg d); lia).
  rewrite app_nil_r. done.
Qed.

Section Ref.
Context (E : env) (D : bytes -> Prop).
Context (HCS : (0 < CS E)%Z) (Hlzo : lzo_ok E).
Context (Dinj : forall c1 c2, D c1 -> D c2 -> hash E c1 = hash E c2 -> c1 = c2).

Definition content (w : world) (h : Hash) := chunk_content E (w_disk w) h.
Definition mview (o : option Hash) (w : world) : option bytes :=
  match o with None => Some [] | Some h => content w h end.
Definition cview (c : chunk) (w : world) : option bytes :=
  match ck_data c with Some d => Some d | None => mview (ck_hash c) w end.
Definition view (f : file) (w : world) (id : Z) : option bytes :=
  match alookup id (f_chunks f) with
  | Some c => cview c w
  | None => mview (f_map f !! id) w
  end.

Record WI (w : world) : Prop := {
  wi_good : forall h raw, d_chunks (w_disk w) !! h = Some raw ->
    exists c, decompress E raw = Some c /\ hash E c = h /\ (zlen c <= CS E)%Z /\ D c;
  wi_seen : forall h, h ∈ w_seen w -> is_Some (d_chunks (w_disk w) !! h) }.

Lemma wi_content w h :
  WI w -> is_Some (d_chunks (w_disk w) !! h) ->
  exists c, content w h = Some c /\ hash E c = h /\ (zlen c <= CS E)%Z /\ D c.
Proof.
  intros HW [raw Hr]. destruct (wi_good w HW h raw Hr) as (c & Hd & Hh & Hl & HD).
  exists c. unfold content, chunk_content. rewrite Hr, Hd, decide_True by done. done.
Qed.
Lemma content_some w h c :
  content w h = Some c -> is_Some (d_chunks (w_disk w) !! h).
Proof. unfold content, chunk_content. destruct (_ !! h); eauto; done. Qed.

Record sle (w w' : world) : Prop := {
  sle_content : forall h c, content w h = Some c -> content w' h = Some c;
  sle_maps : d_maps (w_disk w') = d_maps (w_disk w);
  sle_revs : d_revs (w_disk w') = d_revs (w_disk w);
  sle_force : w_force w' = w_force w }.
Lemma sle_refl w : sle w w.
Proof. constructor; done. Qed.
Lemma sle_trans w1 w2 w3 : sle w1 w2 -> sle w2 w3 -> sle w1 w3.
Proof.
  intros [A1 A2 A3 A4] [B1 B2 B3 B4]. constructor; [auto|congruence..].
Qed.
Lemma sle_mview o w w' d : sle w w' -> mview o w = Some d -> mview o w' = Some d.
Proof. intros H. destruct o; cbn; [apply H|done]. Qed.
Lemma sle_cview c w w' d : sle w w' -> cview c w = Some d -> cview c w' = Some d.
Proof. intros H. unfold cview. destruct (ck_data c); [done|]. apply sle_mview, H. Qed.
Lemma sle_present w w' h :
  WI w -> sle w w' -> is_Some (d_chunks (w_disk w) !! h) ->
  is_Some (d_chunks (w_disk w') !! h).
Proof.
  intros HW Hs Hh. destruct (wi_content w h HW Hh) as (c & Hc & _).
  eapply content_some, Hs, Hc.
Qed.

Definition LogD (w : world) : Prop := forall d, EFlush d ∈ w_log w -> D d.
Lemma LogD_mono n w w' : wext E n w w' -> LogD w' -> LogD w.
Proof. intros H HL d Hd. apply HL. eapply wext_log; done. Qed.

(** ** One chunk *)
Definition cok (c : chunk) (w : world) : Prop :=
  (exists d, cview c w = Some d /\ (zlen d <= CS E)%Z) /\
  (ck_data c = None -> ck_clean c = true).
Lemma cok_sle c w w' : sle w w' -> cok c w -> cok c w'.
Proof.
  intros Hs [(d & Hd & Hl) H]. split; [|done]. exists d. split; [|done].
  eapply sle_cview; done.
Qed.

Lemma put_chunk_WI w d :
  WI w -> D d -> (zlen d <= CS E)%Z ->
  let w' := add_seen (hash E d)
              (do_eff (EChunkPut (hash E d) (compress E d)) w) in
  WI w' /\ sle w w' /\ content w' (hash E d) = Some d.
Proof.
  intros HW HD Hlen w'.
  assert (Hc : content w' (hash E d) = Some d).
  { unfold content, chunk_content, w'. cbn. rewrite lookup_insert.
    rewrite Hlzo, decide_True; done. }
  split_and!; [| |done].
  - constructor.
    + intros h raw. cbn. destruct (decide (h = hash E d)) as [->|Hne].
      * rewrite lookup_insert. intros ?; simplify_eq. exists d. rewrite Hlzo. done.
      * rewrite lookup_insert_ne by done. apply HW.
    + intros h. cbn. rewrite elem_of_union, elem_of_singleton.
      destruct (decide (h = hash E d)) as [->|Hne].
      * rewrite lookup_insert. eauto.
      * rewrite lookup_insert_ne by done. intros [?|?]; [done|]. apply HW. done.
  - constructor; [|done..]. intros h c Hh.
    destruct (decide (h = hash E d)) as [->|Hne].
    + rewrite Hc. f_equal. symmetry. pose proof (content_some _ _ _ Hh) as Hp.
      destruct (wi_content w _ HW Hp) as (c' & Hc' & Hhash & _ & HD').
      rewrite Hh in Hc'. simplify_eq. apply Dinj; done.
    + unfold content, chunk_content in *. cbn. rewrite lookup_insert_ne; done.
Qed.

Lemma WI_eff_id w e :
  apply_eff e (w_disk w) = w_disk w -> WI w -> WI (do_eff e w).
Proof. intros He [H1 H2]. constructor; cbn [do_eff w_disk w_seen]; rewrite He; done. Qed.
Lemma sle_eff_id w e :
  apply_eff e (w_disk w) = w_disk w -> sle w (do_eff e w).
Proof. intros He. constructor; unfold content; cbn [do_eff w_disk w_force]; rewrite ?He; done. Qed.

Lemma chunk_flush_spec c w :
  WI w -> cok c w -> LogD (chunk_flush E c w).1 ->
  exists w' c' o, chunk_flush E c w = (w', Ok (c', o)) /\ WI w' /\ sle w w' /\
    match o with
    | None => ck_clean c = true /\ w' = w
    | Some h => ck_clean c = false /\ content w' h = cview c w
    end.
Proof.
  intros HW [(d & Hd & Hlen) Hload] HL. unfold chunk_flush in *.
  destruct (ck_clean c) eqn:Hcl.
  { exists w, c, None. split_and!; auto using sle_refl. }
  unfold cview in *. destruct (ck_data c) as [d'|] eqn:Hdata; [|naive_solver].
  simplify_eq. cbn zeta in *.
  assert (HD : D d).
  { apply HL. cbn [fst]. case_decide; [|destruct (_ || _)]; cbn;
      rewrite ?elem_of_app, ?elem_of_list_singleton; auto. }
  clear HL.
  set (w1 := do_eff (EFlush d) w) in *.
  assert (HW1 : WI w1) by (apply WI_eff_id; done).
  assert (Hs1 : sle w w1) by (apply sle_eff_id; done).
  case_decide as Hseen.
  { eexists _, _, _. split; [reflexivity|]. split_and!; try done.
    pose proof (wi_seen w1 HW1 _ Hseen) as Hp.
    destruct (wi_content w1 _ HW1 Hp) as (c' & Hc' & Hhash & _ & HD').
    rewrite Hc'. f_equal. apply Dinj; done. }
  destruct (w_force w1 || _) eqn:Hf.
  - set (w2 := do_eff ETmp (do_eff ETmp w1)).
    assert (HW2 : WI w2) by (do 2 (apply WI_eff_id; [done|]); done).
    assert (Hs2 : sle w1 w2)
      by (eapply sle_trans; apply sle_eff_id; done).
    destruct (put_chunk_WI w2 d HW2 HD Hlen) as (HW3 & Hs3 & Hc3).
    eexists _, _, _. split; [reflexivity|].
    split_and!; [done| |done|done].
    eapply sle_trans; [done|]. eapply sle_trans; done.
  - apply orb_false_iff in Hf as [_ Hp]. apply bool_decide_eq_false in Hp.
    assert (Hp' : is_Some (d_chunks (w_disk w1) !! hash E d))
      by (destruct (d_chunks (w_disk w1) !! hash E d); eauto; done).
    destruct (wi_content w1 _ HW1 Hp') as (c' & Hc' & Hhash & _ & HD').
    assert (c' = d) as -> by (apply Dinj; done).
    eexists _, _, _. split; [reflexivity|]. split_and!.
    + constructor; [apply HW1|]. intros h. cbn.
      rewrite elem_of_union, elem_of_singleton. intros [->|Hh]; [done|].
      apply HW1. done.
    + eapply sle_trans; [done|]. constructor; done.
    + done.
    + done.
Qed.

Definition mapok (m : gmap Z Hash) (w : world) : Prop :=
  forall id h, m !! id = Some h -> is_Some (d_chunks (w_disk w) !! h).
Lemma mapok_sle m w w' : WI w -> sle w w' -> mapok m w -> mapok m w'.
Proof. intros HW Hs H id h Hh. eapply sle_present; eauto. Qed.
Lemma mapok_view m w id :
  WI w -> mapok m w -> exists d, mview (m !! id) w = Some d /\ (zlen d <= CS E)%Z.
Proof.
  intros HW Hm. destruct (m !! id) as [h|] eqn:Hh; cbn.
  - destruct (wi_content w h HW (Hm _ _ Hh)) as (c & Hc & _ & Hl & _). eauto.
  - exists []. rewrite zlen_nil. split; [done|lia].
Qed.

Lemma flush_list_spec l : forall f w,
  WI w -> mapok (f_map f) w -> NoDup (map fst l) ->
  (forall id c, (id, c) ∈ l -> cok c w) ->
  LogD (flush_list E l (f, w)).1.2 ->
  exists m' w', flush_list E l (f, w) = ((set_mapping m' f, w'), Ok tt) /\
    WI w' /\ sle w w' /\ mapok m' w' /\
    (forall id, id ∉ map fst l -> m' !! id = f_map f !! id) /\
    (forall id c, (id, c) ∈ l ->
       if ck_clean c then m' !! id = f_map f !! id
       else mview (m' !! id) w' = cview c w).
Proof.
  induction l as [|[id c] l IH]; intros f w HW Hm Hnd Hok HL; cbn [flush_list] in *.
  { exists (f_map f), w. split_and!; auto using sle_refl.
    - destruct f; done.
    - intros id c Hin. inversion Hin. }
  apply NoDup_cons in Hnd as [Hn Hnd]. cbn [map fst] in Hn.
  assert (Hokc : cok c w) by (apply (Hok id); left).
  assert (Hext : LogD (chunk_flush E c w).1).
  { destruct (chunk_flush E c w) as [w1 [[c1 [h|]]|e]]; cbn [fst snd] in *; [| |done];
      (eapply LogD_mono; [|exact HL]); apply flush_list_mono. }
  destruct (chunk_flush_spec c w HW Hokc Hext)
    as (w1 & c1 & o & Heq & HW1 & Hs1 & Ho). rewrite Heq in *. clear Heq.
  assert (Hok1 : forall id0 c0, (id0, c0) ∈ l -> cok c0 w1).
  { intros id0 c0 Hin. eapply cok_sle; [exact Hs1|]. apply (Hok id0). right. done. }
  assert (Hcv : forall c0 d, (exists id0, (id0, c0) ∈ l) -> cview c0 w = Some d -> cview c0 w1 = cview c0 w).
  { intros c0 d _ Hd. rewrite Hd. eapply sle_cview; done. }
  destruct o as [h|].
  - destruct Ho as [Hdirty Hc].
    destruct Hokc as [(d & Hd & Hlen) _]. rewrite Hd in Hc.
    destruct (IH (set_mapping (<[id:=h]> (f_map f)) f) w1)
      as (m' & w' & Heq & HW' & Hs' & Hm' & Hother & Hin'); auto.
    { intros id0 h0. cbn. destruct (decide (id0 = id)) as [->|Hne].
      - rewrite lookup_insert. intros ?; simplify_eq. eapply content_some; done.
      - rewrite lookup_insert_ne by done. apply (mapok_sle _ _ _ HW Hs1 Hm). }
    exists m', w'. rewrite Heq. cbn in Hother, Hin'. split_and!; auto.
    + eapply sle_trans; done.
    + intros id0 Hnin. rewrite Hother by (intros ?; apply Hnin; right; done).
      apply lookup_insert_ne. intros ->. apply Hnin. left.
    + intros id0 c0 Hin0. apply elem_of_cons in Hin0 as [Heq0|Hin0].
      * simplify_eq. rewrite Hdirty, Hd. rewrite (Hother id Hn), lookup_insert.
        cbn. eapply Hs'. done.
      * assert (Hne : id0 <> id).
        { intros ->. apply Hn. change id with (fst (id, c0)).
          apply elem_of_list_fmap_1. done. }
        specialize (Hin' id0 c0 Hin0). rewrite lookup_insert_ne in Hin' by done.
        destruct (ck_clean c0); [done|]. rewrite Hin'.
        destruct (Hok id0 c0) as [(d0 & Hd0 & _) _]; [right; done|].
        eapply Hcv; eauto.
  - destruct Ho as [Hclean ->].
    destruct (IH f w) as (m' & w' & Heq & HW' & Hs' & Hm' & Hother & Hin'); auto.
    exists m', w'. rewrite Heq. split_and!; auto.
    + intros id0 Hnin. apply Hother. intros ?. apply Hnin. right. done.
    + intros id0 c0 Hin0. apply elem_of_cons in Hin0 as [Heq0|Hin0].
      * simplify_eq. rewrite Hclean. apply Hother. done.
      * apply Hin'. done.
Qed.

(** ** The cache of one file *)
Record FI (f : file) (w : world) : Prop := {
  fi_nodup : NoDup (map fst (f_chunks f));
  fi_map : mapok (f_map f) w;
  fi_ok : forall id c, (id, c) ∈ f_chunks f -> cok c w;
  fi_cons : forall id c, (id, c) ∈ f_chunks f -> ck_clean c = true ->
    (id * CS E < f_size f)%Z -> cview c w = mview (f_map f !! id) w }.

Record same_meta (f f' : file) : Prop := {
  sm_name : f_name f' = f_name f;
  sm_r : f_r f' = f_r f;
  sm_w : f_w f' = f_w f;
  sm_closed : f_closed f' = f_closed f;
  sm_pos : f_pos f' = f_pos f;
  sm_size : f_size f' = f_size f }.
Lemma same_meta_refl f : same_meta f f.
Proof. constructor; done. Qed.
Lemma same_meta_trans f1 f2 f3 :
  same_meta f1 f2 -> same_meta f2 f3 -> same_meta f1 f3.
Proof. intros [] []. constructor; congruence. Qed.

Lemma view_some f w id :
  WI w -> FI f w -> exists d, view f w id = Some d /\ (zlen d <= CS E)%Z.
Proof.
  intros HW HF. unfold view. destruct (alookup id (f_chunks f)) as [c|] eqn:Hc.
  - apply alookup_elem_1 in Hc. apply (fi_ok f w HF id c Hc).
  - apply mapok_view; [done|apply HF].
Qed.

Lemma flush_chunks_spec t f w :
  WI w -> FI f w -> LogD (flush_chunks E t (f, w)).1.2 ->
  exists f' w', flush_chunks E t (f, w) = ((f', w'), Ok tt) /\
    WI w' /\ sle w w' /\ FI f' w' /\ same_meta f f' /\
    (t = 0%nat -> f_chunks f' = []) /\
    (forall id, (id * CS E < f_size f)%Z -> view f' w' id = view f w id) /\
    (forall id c, alookup id (f_chunks f') = Some c ->
       alookup id (f_chunks f) = Some c).
Proof.
  intros HW HF HL. unfold flush_chunks in *.
  destruct (length (f_chunks f) <? 2 * t)%nat eqn:Hlen.
  { exists f, w. split_and!; auto using sle_refl, same_meta_refl. lia. }
  set (le := fun a b : Z * chunk => acc_geb (acc_of f a.1) (acc_of f b.1)) in *.
  set (chunks := isort le (f_chunks f)) in *.
  assert (Hperm : chunks ≡ₚ f_chunks f) by apply isort_perm.
  assert (Hkr : take t chunks ++ drop t chunks = chunks) by apply take_drop.
  assert (Hnd : NoDup (map fst (take t chunks ++ drop t chunks))).
  { rewrite Hkr. change (map fst chunks) with (fst <$> chunks).
    rewrite Hperm. apply HF. }
  rewrite map_app in Hnd. apply NoDup_app in Hnd as (Hndk & Hdisj & Hndr).
  assert (Hin : forall x, x ∈ take t chunks \/ x ∈ drop t chunks <-> x ∈ f_chunks f).
  { intros x. rewrite <- elem_of_app, Hkr, Hperm. done. }
  assert (Hfst : forall (l : list (Z * chunk)) id c, (id, c) ∈ l -> id ∈ map fst l).
  { intros l id c H. change id with (fst (id, c)). apply elem_of_list_fmap_1. done. }
  assert (HL' : LogD (flush_list E (drop t chunks) (f, w)).1.2).
  { unfold bind in HL.
    destruct (flush_list E (drop t chunks) (f, w)) as [[f1 w1] [[]|e]]; done. }
  destruct (flush_list_spec (drop t chunks) f w)
    as (m' & w' & Heq & HW' & Hs' & Hm' & Hother & Hrem); auto; [apply HF| |].
  { intros id c Hc. apply (fi_ok f w HF id). apply Hin. auto. }
  unfold bind, modify. rewrite Heq.
  eexists _, w'. split; [reflexivity|].
  assert (Hkeep : forall id c, (id, c) ∈ take t chunks -> m' !! id = f_map f !! id).
  { intros id c Hc. apply Hother. apply Hdisj. eapply Hfst; done. }
  split_and!; auto.
  - constructor; cbn.
    + done.
    + done.
    + intros id c Hc. eapply cok_sle; [done|]. apply (fi_ok f w HF id).
      apply Hin. auto.
    + intros id c Hc Hcl Hsz. rewrite (Hkeep id c Hc).
      assert (Hc0 : (id, c) ∈ f_chunks f) by (apply Hin; auto).
      pose proof (fi_cons f w HF id c Hc0 Hcl Hsz) as Hcons.
      destruct (fi_ok f w HF id c Hc0) as [(d & Hd & _) _].
      rewrite (sle_cview c w w' d) by done. symmetry.
      eapply sle_mview; [done|]. congruence.
  - constructor; done.
  - intros ->. done.
  - intros id Hsz. unfold view. cbn.
    destruct (alookup id (take t chunks)) as [c|] eqn:Hc.
    + apply alookup_elem_1 in Hc.
      assert (Hc0 : (id, c) ∈ f_chunks f) by (apply Hin; auto).
      rewrite (alookup_elem_2 id c (f_chunks f)); [|apply HF|done].
      destruct (fi_ok f w HF id c Hc0) as [(d & Hd & _) _].
      rewrite Hd. eapply sle_cview; done.
    + destruct (alookup id (f_chunks f)) as [c|] eqn:Hc0.
      * apply alookup_elem_1 in Hc0.
        destruct (fi_ok f w HF id c Hc0) as [(d & Hd & _) _].
        assert (Hr : (id, c) ∈ drop t chunks).
        { apply Hin in Hc0 as [Hk|Hr]; [|done].
          apply alookup_None in Hc. destruct Hc. eapply Hfst; done. }
        specialize (Hrem id c Hr). destruct (ck_clean c) eqn:Hcl.
        -- rewrite Hrem, Hd. eapply sle_mview; [done|].
           rewrite <- (fi_cons f w HF id c); done.
        -- done.
      * rewrite Hother.
        -- destruct (mapok_view (f_map f) w id HW) as (d & Hd & _); [apply HF|].
           rewrite Hd. eapply sle_mview; done.
        -- intros Hi. apply alookup_None in Hc0. apply Hc0.
           apply elem_of_list_fmap in Hi as ([id' c'] & -> & Hi). cbn.
           eapply Hfst. apply Hin. right. exact Hi.
  - cbn. intros id c Hc. apply alookup_elem_1 in Hc.
    apply alookup_elem_2; [apply HF|]. apply Hin. auto.
Qed.

Lemma FI_acc f w a t : FI f w -> FI (set_acc a t f) w.
Proof. intros [? ? ? ?]. constructor; done. Qed.

Lemma current_chunk_spec f w :
  WI w -> FI f w -> LogD (current_chunk E (f, w)).1.2 ->
  exists f' w' c, current_chunk E (f, w)
      = ((f', w'), Ok (c, f_pos f / CS E, f_pos f mod CS E)%Z) /\
    WI w' /\ sle w w' /\ FI f' w' /\ same_meta f f' /\
    alookup (f_pos f / CS E)%Z (f_chunks f') = Some c /\
    (forall id, (id * CS E < f_size f)%Z -> view f' w' id = view f w id).
Proof.
  intros HW HF HL. unfold current_chunk in *.
  set (id := (f_pos f / CS E)%Z) in *.
  destruct (alookup id (f_chunks f)) as [c|] eqn:Hc.
  - unfold bind, ret, modify, get. cbn [f_chunks set_acc].
    rewrite Hc. eexists _, w, c. split; [reflexivity|].
    split_and!; auto using sle_refl, FI_acc. constructor; done.
  - assert (HL1 : LogD (flush_chunks E (flush_target E) (f, w)).1.2).
    { unfold bind, modify, get in HL.
      destruct (flush_chunks E (flush_target E) (f, w)) as [[f1 w1] [[]|e]];
        cbn [fst snd] in *; [|done].
      revert HL. cbn. clear. destruct (alookup _ _); cbn; done. }
    destruct (flush_chunks_spec (flush_target E) f w HW HF HL1)
      as (f1 & w1 & Heq & HW1 & Hs1 & HF1 & Hm1 & _ & Hv1 & Hk1).
    unfold bind, modify, get. rewrite Heq. cbn [f_chunks set_acc set_chunks].
    assert (Hc1 : alookup id (f_chunks f1) = None).
    { destruct (alookup id (f_chunks f1)) eqn:Hx; [|done].
      apply Hk1 in Hx. congruence. }
    rewrite alookup_app, Hc1. cbn [alookup].
    rewrite decide_True by done.
    eexists _, w1, _. split; [reflexivity|].
    assert (Hnew : cview (new_chunk (f_map f1 !! id)) w1 = mview (f_map f1 !! id) w1).
    { unfold cview, new_chunk. cbn. done. }
    split_and!; auto.
    + apply FI_acc. constructor; cbn.
      * rewrite map_app. cbn. apply NoDup_app. split_and!; [apply HF1| |].
        -- intros x Hx Hx2. apply elem_of_list_singleton in Hx2 as ->.
           apply alookup_None in Hc1. done.
        -- apply NoDup_singleton.
      * apply HF1.
      * intros id0 c0 Hin. apply elem_of_app in Hin as [Hin|Hin].
        -- apply (fi_ok f1 w1 HF1 id0 c0 Hin).
        -- apply elem_of_list_singleton in Hin. simplify_eq.
           split; [|done]. rewrite Hnew. apply mapok_view; [done|apply HF1].
      * intros id0 c0 Hin Hcl Hsz. apply elem_of_app in Hin as [Hin|Hin].
        -- apply (fi_cons f1 w1 HF1 id0 c0 Hin Hcl Hsz).
        -- apply elem_of_list_singleton in Hin. simplify_eq. done.
    + destruct Hm1. constructor; done.
    + cbn. rewrite alookup_app, Hc1. cbn. rewrite decide_True by done. done.
    + intros id0 Hsz. rewrite <- Hv1 by done. unfold view. cbn.
      rewrite alookup_app. destruct (alookup id0 (f_chunks f1)) eqn:Hx; [done|].
      cbn [alookup]. case_decide; subst; done.
Qed.

(** ** Contents *)
Record Den (f : file) (w : world) (c : bytes) : Prop := {
  den_size : f_size f = zlen c;
  den_byte : forall (i : nat) b, c !! i = Some b ->
    exists d, view f w (Z.of_nat i / CS E)%Z = Some d /\
      d !! Z.to_nat (Z.of_nat i mod CS E) = Some b }.

Lemma in_range (i n : Z) : (0 <= i < n)%Z -> (i / CS E * CS E < n)%Z.
Proof. intros H. nia. Qed.

Lemma den_view f w f' w' c :
  f_size f' = f_size f ->
  (forall id, (id * CS E < f_size f)%Z -> view f' w' id = view f w id) ->
  Den f w c -> Den f' w' c.
Proof.
  intros Hs Hv [Hsz Hb]. constructor; [congruence|].
  intros i b Hi. destruct (Hb i b Hi) as (d & Hd & Hdb). exists d.
  split; [|done]. rewrite Hv; [done|]. apply in_range.
  apply lookup_Some_zlen in Hi. lia.
Qed.

Lemma read_existing_ok c w d :
  cview c w = Some d ->
  read_existing E c w = Ok (MkChunk (ck_hash c) (ck_clean c) (Some d)).
Proof.
  unfold cview, read_existing. destruct c as [h cl [d'|]]; cbn.
  - intros ?; simplify_eq. done.
  - destruct h as [h|]; cbn; [|intros; simplify_eq; done].
    unfold content, chunk_content. destruct (_ !! h) as [raw|]; [|done].
    destruct (decompress E raw) as [x|]; [|done]. case_decide; [|done].
    intros; simplify_eq. done.
Qed.

Lemma chunk_write_ok c off data w d :
  cview c w = Some d -> (zlen d <= CS E)%Z -> (0 <= off < CS E)%Z ->
  exists h full, chunk_write E c off data w =
    Ok (MkChunk h false (Some (bio_write d off (ztake (CS E - off) data))),
        zlen (ztake (CS E - off) data), zdrop (CS E - off) data, full).
Proof.
  intros Hd Hl Ho. unfold chunk_write.
  destruct (_ && _) eqn:Hfull.
  - apply andb_true_iff in Hfull as [H1 H2].
    assert (off = 0)%Z as -> by lia.
    set (x := ztake (CS E - 0) data) in *.
    assert (bio_write d 0 x = x) as ->; [|eauto].
    unfold bio_write. rewrite ztake_neg by lia. rewrite zdrop_all by lia.
    apply app_nil_r.
  - rewrite (read_existing_ok c w d Hd). cbn. eauto.
Qed.

(** Replacing the cached chunk [id] by one with content [d']. *)
Lemma view_aset id c' f w id0 :
  is_Some (alookup id (f_chunks f)) ->
  view (set_chunks (aset id c' (f_chunks f)) f) w id0 =
    if decide (id0 = id) then cview c' w else view f w id0.
Proof.
  intros Hc. unfold view. cbn. rewrite alookup_aset. case_decide; done.
Qed.
Lemma aset_elem {V} (id : Z) (c' : V) l id0 c0 :
  NoDup (map fst l) -> is_Some (alookup id l) ->
  (id0, c0) ∈ aset id c' l -> (id0 = id /\ c0 = c') \/ (id0 <> id /\ (id0, c0) ∈ l).
Proof.
  intros Hnd Hs Hin.
  assert (Hl : alookup id0 (aset id c' l) = Some c0).
  { apply alookup_elem_2; [|done]. rewrite aset_keys; done. }
  rewrite alookup_aset in Hl. case_decide.
  - simplify_eq. auto.
  - right. split; [done|]. apply alookup_elem_1. done.
Qed.
Lemma FI_aset f w id c c' :
  FI f w -> alookup id (f_chunks f) = Some c -> cok c' w ->
  (ck_clean c' = true -> ck_clean c = true /\ cview c' w = cview c w) ->
  FI (set_chunks (aset id c' (f_chunks f)) f) w.
Proof.
  intros HF Hc Hok Hcl. assert (Hs : is_Some (alookup id (f_chunks f))) by eauto.
  constructor; cbn.
  - rewrite aset_keys by done. apply HF.
  - apply HF.
  - intros id0 c0 Hin. apply aset_elem in Hin as [[-> ->]|[Hne Hin]];
      [done| |apply HF|done]. apply (fi_ok f w HF id0 c0 Hin).
  - intros id0 c0 Hin Hc0 Hsz. apply aset_elem in Hin as [[-> ->]|[Hne Hin]];
      [| |apply HF|done].
    + destruct (Hcl Hc0) as [Hcl' ->]. apply (fi_cons f w HF id c); [|done|done].
      apply alookup_elem_1. done.
    + apply (fi_cons f w HF id0 c0 Hin Hc0 Hsz).
Qed.

Lemma LogD_bind {A B} (m : M fst_ A) (k : A -> M fst_ B) s :
  (forall a, mono E (k a)) -> LogD (bind m k s).1.2 -> LogD (m s).1.2.
Proof.
  intros Hk HL. unfold bind in HL. destruct (m s) as [[f1 w1] [a|e]]; cbn in *; [|done].
  eapply LogD_mono; [|exact HL]. apply Hk.
Qed.

(** ** write *)
Record St (f : file) (w : world) (c : bytes) : Prop := {
  st_wi : WI w;
  st_fi : FI f w;
  st_den : Den f w c;
  st_pos : (0 <= f_pos f <= f_size f)%Z }.
Definition same_mode (f f' : file) : Prop :=
  f_name f' = f_name f /\ f_r f' = f_r f /\ f_w f' = f_w f /\
  f_closed f' = f_closed f.

Lemma FI_stats f w s : FI f w -> FI (set_stats s f) w.
Proof. intros [? ? ? ?]. constructor; done. Qed.
Lemma FI_pos f w p : FI f w -> FI (set_pos p f) w.
Proof. intros [? ? ? ?]. constructor; done. Qed.

Lemma write_step f w c data cc :
  St f w c -> data <> [] ->
  alookup (f_pos f / CS E)%Z (f_chunks f) = Some cc ->
  let id := (f_pos f / CS E)%Z in
  let off := (f_pos f mod CS E)%Z in
  let d1 := ztake (CS E - off) data in
  forall d, cview cc w = Some d -> (zlen d <= CS E)%Z ->
  forall h st f1,
  f1 = set_stats st (set_chunks (aset id (MkChunk h false (Some (bio_write d off d1)))
               (f_chunks f)) f) ->
  let f2 := set_pos (f_pos f1 + zlen d1)%Z f1 in
  let f3 := if (f_size f2 <? f_pos f2)%Z then set_fsize (f_pos f2) f2 else f2 in
  St f3 w (overwrite c (f_pos f) d1) /\ f_pos f3 = (f_pos f + zlen d1)%Z /\
  same_mode f f3.
Proof.
  intros [HW HF HD Hpos] Hne Hcc id off d1 d Hd Hlen h st f1 -> f2 f3.
  assert (Hoff : (0 <= off < CS E)%Z) by (unfold off; lia).
  assert (Hpid : (f_pos f = id * CS E + off)%Z) by (unfold id, off; lia).
  assert (Hd1 : (0 < zlen d1 <= CS E - off)%Z).
  { unfold d1. rewrite zlen_ztake. destruct data; [done|]. rewrite zlen_cons.
    pose proof (zlen_nonneg data). lia. }
  set (c' := MkChunk h false (Some (bio_write d off d1))) in *.
  assert (Hok : cok c' w).
  { split; [|done]. exists (bio_write d off d1). split; [done|].
    rewrite zlen_bio_write by lia. lia. }
  assert (HF1 : FI (set_chunks (aset id c' (f_chunks f)) f) w)
    by (eapply FI_aset; done).
  assert (Hsz := den_size f w c HD).
  assert (Hp3 : f_pos f3 = (f_pos f + zlen d1)%Z)
    by (unfold f3; destruct (_ <? _)%Z; done).
  assert (Hs3 : f_size f3 = Z.max (f_pos f + zlen d1) (f_size f)).
  { unfold f3. destruct (Z.ltb_spec (f_size f2) (f_pos f2)) as [Hx|Hx]; cbn in Hx |- *; lia. }
  assert (Hc3 : f_chunks f3 = aset id c' (f_chunks f))
    by (unfold f3; destruct (_ <? _)%Z; done).
  assert (Hm3 : f_map f3 = f_map f)
    by (unfold f3; destruct (_ <? _)%Z; done).
  assert (Hv3 : forall id0, view f3 w id0 =
            if decide (id0 = id) then Some (bio_write d off d1) else view f w id0).
  { intros id0. unfold view. rewrite Hc3, Hm3, alookup_aset.
    case_decide; done. }
  split_and!; [| done | unfold f3, same_mode; destruct (_ <? _)%Z; done].
  constructor; [done| | |lia].
  - destruct HF1 as [F1 F2 F3 F4]. cbn in *. constructor.
    + rewrite Hc3. done.
    + rewrite Hm3. done.
    + rewrite Hc3. done.
    + rewrite Hc3, Hm3, Hs3. intros id0 c0 Hin Hcl Hr.
      destruct (decide (id0 * CS E < f_size f)%Z) as [Hlt|Hge];
        [apply (F4 id0 c0); done|].
      (* grown into a new chunk: that is the dirty one *)
      exfalso. apply aset_elem in Hin as [[-> ->]|[Hne' Hin]];
        [done| |apply HF|eauto].
      assert (id < id0)%Z by nia.
      assert (id0 * CS E >= (id + 1) * CS E)%Z by nia. nia.
  - constructor; [rewrite Hs3, zlen_overwrite by lia; lia|].
    intros i b. rewrite lookup_overwrite by lia.
    case_decide as Hi; intros Hib.
    + (* freshly written *)
      set (j := (Z.of_nat i - f_pos f)%Z).
      assert (Hq : (Z.of_nat i / CS E = id)%Z).
      { symmetry. apply (Z.div_unique _ _ _ (off + j)); unfold j; [left|]; lia. }
      assert (Hr : (Z.of_nat i mod CS E = off + j)%Z).
      { symmetry. apply (Z.mod_unique _ _ id); unfold j; [left|]; lia. }
      rewrite Hq, Hr, Hv3, decide_True by done. eexists. split; [done|].
      rewrite lookup_bio_write by lia. rewrite decide_False by lia.
      rewrite decide_True by (unfold j; lia). rewrite <- Hib. f_equal. unfold j. lia.
    + destruct (den_byte f w c HD i b Hib) as (dd & Hdd & Hb).
      rewrite Hv3. case_decide as Hq; [|eauto].
      assert (dd = d) as ->.
      { unfold view in Hdd. rewrite Hq in Hdd. unfold id in Hdd.
        rewrite Hcc in Hdd. congruence. }
      eexists. split; [done|].
      assert (Hr : (Z.of_nat i = id * CS E + Z.of_nat i mod CS E)%Z) by lia.
      assert (Hr2 : (0 <= Z.of_nat i mod CS E < CS E)%Z) by lia.
      set (r := (Z.of_nat i mod CS E)%Z) in *.
      rewrite lookup_bio_write by lia. case_decide.
      * rewrite lookup_app_l; [done|]. apply lookup_lt_Some in Hb. lia.
      * rewrite decide_False by lia. done.
Qed.

Lemma write_loop_spec n : forall data f w c,
  (length data <= n)%nat -> St f w c -> LogD (write_loop E n data (f, w)).1.2 ->
  exists f' w', write_loop E n data (f, w) = ((f', w'), Ok tt) /\
    St f' w' (overwrite c (f_pos f) data) /\ sle w w' /\
    f_pos f' = (f_pos f + zlen data)%Z /\ same_mode f f'.
Proof.
  induction n as [|n IH]; intros data f w c Hn HS HL.
  { destruct data as [|? ?]; [|cbn in Hn; lia]. exists f, w.
    assert (Hsz := den_size _ _ _ (st_den _ _ _ HS)).
    assert (Hp := st_pos _ _ _ HS).
    rewrite overwrite_nil by lia. rewrite zlen_nil.
    split_and!; auto using sle_refl; [lia|done]. }
  destruct data as [|b data].
  { exists f, w. assert (Hsz := den_size _ _ _ (st_den _ _ _ HS)).
    assert (Hp := st_pos _ _ _ HS).
    rewrite overwrite_nil by lia. rewrite zlen_nil.
    split_and!; auto using sle_refl; [lia|done]. }
  assert (Hsz := den_size _ _ _ (st_den _ _ _ HS)).
  assert (Hp := st_pos _ _ _ HS).
  cbn [write_loop] in *.
  assert (HLc : LogD (current_chunk E (f, w)).1.2).
  { eapply LogD_bind; [|exact HL]. clear HL. intros [[c0 id0] off0].
    apply mono_with. intros f0 w0. unfold bind, lift, put.
    destruct (chunk_write E c0 off0 _ w0) as [[[[c' wr] data'] full]|e]; cbn;
      [|split; [apply wext_refl|done]].
    apply mono_at; [apply write_loop_mono|]. destruct (_ <? _)%Z; done. }
  destruct (current_chunk_spec f w (st_wi _ _ _ HS) (st_fi _ _ _ HS) HLc)
    as (f1 & w1 & cc & Hcc & HW1 & Hs1 & HF1 & Hm1 & Hal & Hv1).
  destruct Hm1 as [Mn Mr Mw Mc Mp Ms].
  assert (HS1 : St f1 w1 c).
  { constructor; [done|done| |lia]. eapply den_view; [done|done|apply HS]. }
  destruct (fi_ok f1 w1 HF1 _ cc (alookup_elem_1 _ _ _ Hal))
    as [(d & Hd & Hdl) _].
  rewrite <- Mp in Hcc, Hal.
  assert (Hoff : (0 <= f_pos f1 mod CS E < CS E)%Z) by lia.
  destruct (chunk_write_ok cc (f_pos f1 mod CS E)%Z (b :: data) w1 d Hd Hdl Hoff)
    as (h & full & Hcw).
  unfold bind, lift, put, get in HL |- *. rewrite Hcc in HL |- *.
  cbn zeta beta iota in HL |- *. rewrite Hcw in HL |- *.
  cbn zeta beta iota in HL |- *.
  set (off := (f_pos f1 mod CS E)%Z) in *.
  set (st := MkFStats _ _ _) in *.
  pose proof (write_step f1 w1 c (b :: data) cc HS1 ltac:(done) Hal d Hd Hdl h st _ eq_refl) as Hstep.
  cbn zeta in Hstep. fold off in Hstep.
  match type of Hstep with St ?x _ _ /\ _ => set (f3 := x) in Hstep end.
  match type of HL with LogD (write_loop E n ?d2 _).1.2 =>
    change (LogD (write_loop E n d2 (f3, w1)).1.2) in HL end.
  match goal with |- exists f' w', write_loop E n ?d2 _ = _ /\ _ =>
    change (exists f' w', write_loop E n d2 (f3, w1) = ((f', w'), Ok tt) /\
    St f' w' (overwrite c (f_pos f) (b :: data)) /\ sle w w' /\
    f_pos f' = (f_pos f + zlen (b :: data))%Z /\ same_mode f f') end.
  destruct Hstep as (HS3 & Hp3 & Hmode3).
  set (d1 := ztake (CS E - off) (b :: data)) in *.
  set (d2 := zdrop (CS E - off) (b :: data)) in *.
  assert (Hsplit : d1 ++ d2 = b :: data) by apply ztake_zdrop.
  assert (Hl2 : (length d2 <= n)%nat).
  { unfold d2, zdrop. rewrite drop_length. cbn [length] in Hn |- *. lia. }
  destruct (IH d2 f3 w1 _ Hl2 HS3 HL) as (f' & w' & Heq & HS' & Hs' & Hp' & Hmode').
  exists f', w'. split; [exact Heq|].
  rewrite Hp3, Mp in *. rewrite overwrite_app, Hsplit in HS' by lia.
  assert (zlen (b :: data) = zlen d1 + zlen d2)%Z
    by (rewrite <- Hsplit; apply zlen_app).
  split_and!; [done|eapply sle_trans; done|lia|].
  destruct Hmode' as (? & ? & ? & ?), Hmode3 as (? & ? & ? & ?).
  unfold same_mode. split_and!; congruence.
Qed.

Lemma file_write_spec data f w c :
  f_w f = true -> f_closed f = false ->
  St f w c -> LogD (file_write E data (f, w)).1.2 ->
  exists f' w', file_write E data (f, w) = ((f', w'), Ok tt) /\
    St f' w' (overwrite c (f_pos f) data) /\ sle w w' /\
    f_pos f' = (f_pos f + zlen data)%Z /\ same_mode f f'.
Proof.
  intros Hw Hcl [HW HF HD Hp] HL. unfold file_write in *. rewrite Hw, Hcl in *.
  cbn [andb negb] in *.
  eapply (write_loop_spec (S (length data)) data (set_stats _ f)) in HL; [exact HL|lia|].
  constructor; [done|apply FI_stats; done| |done].
  eapply den_view; [..|exact HD]; done.
Qed.

(** ** read *)
Lemma chunk_read_ok c off size w d :
  cview c w = Some d -> (0 < size)%Z ->
  chunk_read E c off size w =
    Ok (MkChunk (ck_hash c) (ck_clean c) (Some d), ztake size (zdrop off d),
        Z.max 0 (size - zlen (ztake size (zdrop off d)))).
Proof.
  intros Hd Hs. unfold chunk_read. rewrite (read_existing_ok c w d Hd). cbn.
  unfold bio_read. destruct (size <? 0)%Z eqn:Hx; [lia|].
  destruct (size =? -1)%Z eqn:Hy; [lia|]. done.
Qed.

Lemma read_loop_spec n : forall size acc f w c,
  (0 <= size <= f_size f - f_pos f)%Z -> (size <= Z.of_nat n)%Z ->
  St f w c -> LogD (read_loop E n size acc (f, w)).1.2 ->
  exists f' w', read_loop E n size acc (f, w)
      = ((f', w'), Ok (acc ++ ztake size (zdrop (f_pos f) c))) /\
    St f' w' c /\ sle w w' /\ f_pos f' = (f_pos f + size)%Z /\ same_mode f f'.
Proof.
  induction n as [|n IH]; intros size acc f w c Hsize Hn HS HL.
  { assert (size = 0)%Z as -> by lia. cbn [read_loop Z.eqb]. exists f, w.
    rewrite ztake_neg, app_nil_r by lia.
    split_and!; auto using sle_refl; [lia|done]. }
  cbn [read_loop] in *. destruct (size =? 0)%Z eqn:Hz.
  { assert (size = 0)%Z as -> by lia. exists f, w.
    rewrite ztake_neg, app_nil_r by lia.
    split_and!; auto using sle_refl; [lia|done]. }
  assert (Hsz := den_size _ _ _ (st_den _ _ _ HS)).
  assert (Hp := st_pos _ _ _ HS).
  assert (HLc : LogD (current_chunk E (f, w)).1.2).
  { eapply LogD_bind; [|exact HL]. clear HL. intros [[c0 id0] off0].
    apply mono_with. intros f0 w0. unfold bind, lift, put.
    destruct (chunk_read E c0 off0 _ w0) as [[[c' data] size']|e]; cbn;
      [|split; [apply wext_refl|done]].
    destruct data as [|b data]; cbn; [split; [apply wext_refl|done]|].
    apply mono_at; [apply read_loop_mono|done]. }
  destruct (current_chunk_spec f w (st_wi _ _ _ HS) (st_fi _ _ _ HS) HLc)
    as (f1 & w1 & cc & Hcc & HW1 & Hs1 & HF1 & Hm1 & Hal & Hv1).
  destruct Hm1 as [Mn Mr Mw Mc Mp Ms].
  assert (HD1 : Den f1 w1 c) by (eapply den_view; [done|done|apply HS]).
  destruct (fi_ok f1 w1 HF1 _ cc (alookup_elem_1 _ _ _ Hal))
    as [(d & Hd & Hdl) Hld].
  set (id := (f_pos f / CS E)%Z) in *. set (off := (f_pos f mod CS E)%Z) in *.
  assert (Hoff : (0 <= off < CS E)%Z) by (unfold off; lia).
  assert (Hpid : (f_pos f = id * CS E + off)%Z) by (unfold id, off; lia).
  pose proof (chunk_read_ok cc off size w1 d Hd ltac:(lia)) as Hcr.
  unfold bind, lift, put, get in HL |- *. rewrite Hcc in HL |- *.
  cbn zeta beta iota in HL |- *. rewrite Hcr in HL |- *.
  cbn zeta beta iota in HL |- *. clear Hcc Hcr.
  set (data := ztake size (zdrop off d)) in *.
  set (c1 := MkChunk (ck_hash cc) (ck_clean cc) (Some d)) in *.
  assert (Hview : view f1 w1 id = Some d)
    by (unfold view; rewrite Hal; done).
  (* the bytes read are the bytes of the file *)
  assert (Hbytes : forall j b, data !! j = Some b -> c !! (Z.to_nat (f_pos f) + j)%nat = Some b).
  { intros j b Hj. unfold data in Hj. rewrite lookup_ztake in Hj.
    case_decide as Hjs; [|done]. rewrite lookup_zdrop in Hj.
    assert (Hrange : is_Some (c !! (Z.to_nat (f_pos f) + j)%nat)).
    { apply lookup_zlen. lia. }
    destruct Hrange as [b' Hb']. rewrite Hb'.
    destruct (den_byte f1 w1 c HD1 _ _ Hb') as (dd & Hdd & Hbb).
    pose proof (lookup_lt_Some _ _ _ Hj) as Hjd. unfold zlen in Hdl.
    assert (Hq : (Z.of_nat (Z.to_nat (f_pos f) + j) / CS E = id)%Z).
    { symmetry. apply (Z.div_unique _ _ _ (off + Z.of_nat j)); [left|]; lia. }
    assert (Hr : (Z.of_nat (Z.to_nat (f_pos f) + j) mod CS E = off + Z.of_nat j)%Z).
    { symmetry. apply (Z.mod_unique _ _ id); [left|]; lia. }
    rewrite Hq in Hdd. rewrite Hr in Hbb. rewrite Hview in Hdd. simplify_eq.
    rewrite <- Hbb, <- Hj. f_equal. lia. }
  assert (Hne : data <> []).
  { assert (Hrange : is_Some (c !! Z.to_nat (f_pos f))) by (apply lookup_zlen; lia).
    destruct Hrange as [b' Hb'].
    destruct (den_byte f1 w1 c HD1 _ _ Hb') as (dd & Hdd & Hbb).
    rewrite Z2Nat.id in Hdd, Hbb by lia. fold id in Hdd. fold off in Hbb.
    rewrite Hview in Hdd. simplify_eq.
    intros Hnil. assert (Hx : data !! 0%nat = Some b').
    { unfold data. rewrite lookup_ztake, decide_True by lia.
      rewrite lookup_zdrop, Nat.add_0_r. done. }
    rewrite Hnil in Hx. done. }
  assert (Hlen : (zlen data <= size)%Z)
    by (unfold data; rewrite zlen_ztake; lia).
  assert (Hlen0 : (0 < zlen data)%Z)
    by (destruct data; [done|rewrite zlen_cons; pose proof (zlen_nonneg data); lia]).
  assert (Hpre : data = ztake (zlen data) (zdrop (f_pos f) c)).
  { apply list_eq_zlen.
    - rewrite zlen_ztake, zlen_zdrop. lia.
    - intros j b Hj. pose proof (lookup_Some_zlen _ _ _ Hj).
      rewrite lookup_ztake, decide_True by lia. rewrite lookup_zdrop. auto. }
  set (f2 := set_pos (f_pos f1 + zlen data)%Z
               (set_chunks (aset id c1 (f_chunks f1)) f1)).
  assert (HS2 : St f2 w1 c).
  { constructor; [done| | |cbn; lia].
    - apply FI_pos. eapply FI_aset; [done|done| |].
      + split; [|done]. exists d. done.
      + cbn. intros ?. unfold cview at 1. cbn. done.
    - eapply (den_view f1 w1); [done| |done].
      intros id0 _. change (view f2 w1 id0) with
        (view (set_chunks (aset id c1 (f_chunks f1)) f1) w1 id0).
      rewrite view_aset by eauto. case_decide as Hx; [|done]. subst id0.
      rewrite Hview. done. }
  assert (Hgoal : exists f' w', read_loop E n (Z.max 0 (size - zlen data)) (acc ++ data) (f2, w1)
      = ((f', w'), Ok (acc ++ ztake size (zdrop (f_pos f) c))) /\
    St f' w' c /\ sle w w' /\ f_pos f' = (f_pos f + size)%Z /\ same_mode f f').
  { assert (HL2 : LogD (read_loop E n (Z.max 0 (size - zlen data)) (acc ++ data) (f2, w1)).1.2).
    { destruct data; [done|]. exact HL. }
    edestruct (IH (Z.max 0 (size - zlen data)) (acc ++ data) f2 w1 c)
      as (f' & w' & Heq & HS' & Hs' & Hp' & Hmode'); [cbn; lia|lia|done|done|].
    exists f', w'. rewrite Heq. split_and!; [|done|eapply sle_trans; done| |].
    - do 2 f_equal. rewrite <- app_assoc. f_equal.
      rewrite Hpre at 1. cbn [f_pos f2 set_pos]. rewrite Mp.
      unfold ztake, zdrop. rewrite !drop_drop || idtac.
      replace (Z.to_nat (f_pos f + zlen data)) with (Z.to_nat (f_pos f) + Z.to_nat (zlen data))%nat by lia.
      rewrite <- drop_drop.
      replace (Z.to_nat (Z.max 0 (size - zlen data))) with (Z.to_nat size - Z.to_nat (zlen data))%nat by lia.
      set (l := drop (Z.to_nat (f_pos f)) c).
      rewrite <- (take_drop (Z.to_nat (zlen data)) (take (Z.to_nat size) l)).
      rewrite take_take, skipn_firstn_comm. do 2 f_equal. lia.
    - rewrite Hp'. cbn. lia.
    - destruct Hmode' as (? & ? & ? & ?). cbn in *.
      unfold same_mode. split_and!; congruence. }
  destruct data; [done|]. exact Hgoal.
Qed.

Lemma file_read_spec n f w c :
  f_r f = true -> f_closed f = false -> (-1 <= n)%Z ->
  St f w c -> LogD (file_read E n (f, w)).1.2 ->
  let d := if (n =? -1)%Z then zdrop (f_pos f) c else ztake n (zdrop (f_pos f) c) in
  exists f' w', file_read E n (f, w) = ((f', w'), Ok d) /\
    St f' w' c /\ sle w w' /\ f_pos f' = (f_pos f + zlen d)%Z /\ same_mode f f'.
Proof.
  intros Hr Hcl Hn HS HL d. unfold file_read in *. rewrite Hr, Hcl in *.
  cbn [andb negb] in *.
  assert (Hsz := den_size _ _ _ (st_den _ _ _ HS)).
  assert (Hp := st_pos _ _ _ HS).
  set (size := if (n =? -1)%Z then _ else _) in *.
  assert (Hsize : (0 <= size <= f_size f - f_pos f)%Z)
    by (unfold size; destruct (n =? -1)%Z eqn:?; lia).
  apply (read_loop_spec (S (Z.to_nat (Z.max size (CS E)))) size [] f w c) in HL
    as (f' & w' & Heq & HS' & Hs' & Hp' & Hmode'); [|lia|lia|done].
  exists f', w'. rewrite Heq.
  assert (Hd : ztake size (zdrop (f_pos f) c) = d).
  { unfold d, size. destruct (n =? -1)%Z eqn:Hx.
    - apply ztake_all. rewrite zlen_zdrop. lia.
    - apply list_eq_zlen.
      + rewrite !zlen_ztake, !zlen_zdrop. lia.
      + intros i x. rewrite !lookup_ztake.
        case_decide; [|done]. rewrite decide_True by lia. done. }
  assert (Hdl : zlen d = size) by (rewrite <- Hd, zlen_ztake, zlen_zdrop; lia).
  split_and!; try done.
  - rewrite app_nil_l, Hd. done.
  - lia.
Qed.

(** ** Frame for operations that write the map *)
Record ext (n : string) (w w' : world) : Prop := {
  ext_content : forall h c, content w h = Some c -> content w' h = Some c;
  ext_maps : forall k, k <> n -> d_maps (w_disk w') !! k = d_maps (w_disk w) !! k;
  ext_revs : d_revs (w_disk w') = d_revs (w_disk w);
  ext_force : w_force w' = w_force w }.
Lemma sle_ext n w w' : sle w w' -> ext n w w'.
Proof. intros [A B C F]. constructor; [done| |done|done]. intros k _. rewrite B. done. Qed.
Lemma ext_trans n w1 w2 w3 : ext n w1 w2 -> ext n w2 w3 -> ext n w1 w3.
Proof.
  intros [A1 A2 A3 A4] [B1 B2 B3 B4]. constructor; [auto| |congruence..].
  intros k Hk. rewrite B2, A2; done.
Qed.

Lemma file_flush_spec f w c :
  f_w f = true -> f_closed f = false ->
  St f w c -> LogD (file_flush E (f, w)).1.2 ->
  exists f' w', file_flush E (f, w) = ((f', w'), Ok tt) /\
    St f' w' c /\ ext (f_name f) w w' /\ same_meta f f' /\
    image_is E (w_disk w') (f_name f) c /\ map_complete (w_disk w') (f_name f) /\
    f_chunks f' = [].
Proof.
  intros Hw Hcl [HW HF HD Hp] HL. unfold file_flush in *. rewrite Hw, Hcl in *.
  cbn [andb negb] in *.
  assert (HL1 : LogD (flush_chunks E 0 (f, w)).1.2).
  { unfold bind, modify in HL.
    destruct (flush_chunks E 0 (f, w)) as [[f1 w1] [[]|e]]; cbn in *; [|done].
    intros d Hd. apply HL. cbn. rewrite !elem_of_app. auto. }
  destruct (flush_chunks_spec 0 f w HW HF HL1)
    as (f1 & w1 & Heq & HW1 & Hs1 & HF1 & Hm1 & Hempty & Hv1 & _).
  specialize (Hempty eq_refl).
  unfold bind, modify. rewrite Heq. destruct Hm1 as [Mn Mr Mw Mc Mp Ms].
  eexists f1, _. split; [reflexivity|].
  assert (HD1 : Den f1 w1 c) by (eapply den_view; done).
  split_and!; try done.
  - constructor; [| |eapply den_view; [..|exact HD1]; done|lia].
    + destruct HW1. constructor; done.
    + destruct HF1 as [F1 F2 F3 F4]. constructor; done.
  - eapply ext_trans; [apply sle_ext; done|]. constructor; try done.
    intros k Hk. cbn. rewrite Mn.
    rewrite !lookup_insert_ne by done. done.
  - exists (f_map f1). cbn. rewrite Mn, lookup_insert. split.
    + rewrite (den_size _ _ _ HD1). done.
    + intros i b Hi. destruct (den_byte _ _ _ HD1 i b Hi) as (d & Hd & Hb).
      unfold view in Hd. rewrite Hempty in Hd. cbn [alookup] in Hd.
      destruct (f_map f1 !! _) as [h|]; cbn in Hd; [|simplify_eq; done].
      exists h, d. split_and!; try done.
  - unfold map_complete. cbn. rewrite Mn, lookup_insert. apply HF1.
Qed.

(** truncate to any length that the file already has *)
Lemma file_truncate_to_spec o f w c n :
  n = default (f_pos f) o ->
  f_w f = true -> f_closed f = false -> (f_pos f <= n <= f_size f)%Z ->
  St f w c -> LogD (file_truncate E o (f, w)).1.2 ->
  exists f' w', file_truncate E o (f, w) = ((f', w'), Ok tt) /\
    St f' w' (ztake n c) /\ ext (f_name f) w w' /\ same_mode f f' /\
    f_pos f' = f_pos f /\ image_is E (w_disk w') (f_name f) (ztake n c).
Proof.
  intros Ho Hw Hcl Hn [HW HF HD Hp] HL. unfold file_truncate in *.
  rewrite Hw, Hcl in HL |- *. cbn [andb negb] in *. rewrite <- Ho in *. clear Ho.
  set (f1 := set_mapping _ _) in *.
  assert (Hsz := den_size _ _ _ HD).
  assert (Hmap : forall id, (id * CS E < n)%Z -> f_map f1 !! id = f_map f !! id).
  { intros id Hid. cbn. destruct (f_map f !! id) as [h|] eqn:Hh.
    - apply map_filter_lookup_Some. split; [done|]. lia.
    - apply map_filter_lookup_None. auto. }
  assert (HS1 : St f1 w (ztake n c)).
  { constructor; [done| | |cbn; lia].
    - destruct HF as [F1 F2 F3 F4]. constructor; [done| |done|].
      + intros id h Hh. cbn in Hh. apply map_filter_lookup_Some in Hh as [Hh _]. eauto.
      + intros id cc Hin Hcc Hid. cbn in Hid. rewrite Hmap by done.
        apply F4; [done|done|lia].
    - constructor.
      + cbn. rewrite zlen_ztake. lia.
      + intros i b. rewrite lookup_ztake. case_decide as Hi; [|done]. intros Hb.
        destruct (den_byte _ _ _ HD i b Hb) as (d & Hd & Hdb). exists d.
        split; [|done]. rewrite <- Hd. unfold view.
        change (f_chunks f1) with (f_chunks f). rewrite Hmap; [done|].
        apply in_range. lia. }
  destruct (file_flush_spec f1 w _ Hw Hcl HS1 HL)
    as (f' & w' & Heq & HS' & Hext & Hm & Him & _ & _).
  exists f', w'. destruct Hm. unfold same_mode. split_and!; done.
Qed.
Lemma file_truncate_spec f w c :
  f_w f = true -> f_closed f = false ->
  St f w c -> LogD (file_truncate E None (f, w)).1.2 ->
  exists f' w', file_truncate E None (f, w) = ((f', w'), Ok tt) /\
    St f' w' (ztake (f_pos f) c) /\ ext (f_name f) w w' /\ same_mode f f' /\
    f_pos f' = f_pos f /\ image_is E (w_disk w') (f_name f) (ztake (f_pos f) c).
Proof.
  intros Hw Hcl HS HL. apply (file_truncate_to_spec None); auto.
  pose proof (st_pos _ _ _ HS). lia.
Qed.

Lemma zeros_app a b : (0 <= a)%Z -> (0 <= b)%Z -> zeros (a + b) = zeros a ++ zeros b.
Proof. intros Ha Hb. unfold zeros. rewrite Z2Nat.inj_add by done. apply replicate_add. Qed.

Lemma fill_loop_spec n : forall filler f w c,
  f_w f = true -> f_closed f = false -> (0 <= filler <= Z.of_nat n)%Z ->
  f_pos f = f_size f -> St f w c -> LogD (fill_loop E n filler (f, w)).1.2 ->
  exists f' w', fill_loop E n filler (f, w) = ((f', w'), Ok tt) /\
    St f' w' (c ++ zeros filler) /\ sle w w' /\ f_pos f' = f_size f' /\ same_mode f f'.
Proof.
  induction n as [|n IH]; intros filler f w c Hw Hcl Hn Hps HS HL.
  { assert (filler = 0)%Z as -> by lia. exists f, w.
    change (zeros 0) with (@nil byte). rewrite app_nil_r.
    split_and!; auto using sle_refl; done. }
  cbn [fill_loop] in *. destruct (0 <? filler)%Z eqn:Hf.
  2: { assert (filler = 0)%Z as -> by lia. exists f, w.
    change (zeros 0) with (@nil byte). rewrite app_nil_r.
    split_and!; auto using sle_refl; done. }
  set (ch := zeros (Z.min filler (CS E))) in *.
  assert (Hch : zlen ch = Z.min filler (CS E)) by (unfold ch; rewrite zlen_zeros; lia).
  assert (HL1 : LogD (file_write E ch (f, w)).1.2).
  { eapply LogD_bind; [|exact HL]. intros ?. cbn beta. apply fill_loop_mono. }
  destruct (file_write_spec ch f w c Hw Hcl HS HL1)
    as (f1 & w1 & Heq & HS1 & Hs1 & Hp1 & Hm1).
  unfold bind in HL |- *. rewrite Heq in HL |- *.
  assert (Hsz := den_size _ _ _ (st_den _ _ _ HS)).
  rewrite Hps, Hsz, overwrite_end in HS1.
  assert (Hsz1 := den_size _ _ _ (st_den _ _ _ HS1)). rewrite zlen_app in Hsz1.
  destruct Hm1 as (Mn & Mr & Mw & Mc).
  assert (exists f' w', fill_loop E n (filler - zlen ch) (f1, w1) = ((f', w'), Ok tt) /\
    St f' w' ((c ++ ch) ++ zeros (filler - zlen ch)) /\ sle w1 w' /\
    f_pos f' = f_size f' /\ same_mode f1 f') as (f' & w' & Heq' & HS' & Hs' & Hp' & Hm').
  { apply IH; try congruence; try done; lia. }
  exists f', w'. split_and!; [done| |eapply sle_trans; done|done|].
  - rewrite <- app_assoc in HS'. unfold ch in HS'.
    rewrite <- zeros_app in HS' by (fold ch; lia).
    rewrite zlen_zeros in HS'.
    replace (Z.min filler (CS E) + (filler - Z.max 0 (Z.min filler (CS E))))%Z
      with filler in HS' by lia. done.
  - destruct Hm' as (? & ? & ? & ?). unfold same_mode. split_and!; congruence.
Qed.

(** ** One method call *)
Record R (f : file) (w : world) (s : flat) : Prop := {
  R_st : St f w (fl_data s);
  R_pos : f_pos f = fl_pos s;
  R_r : f_r f = fl_r s;
  R_w : f_w f = fl_w s;
  R_closed : f_closed f = fl_closed s;
  R_image : fl_closed s = true -> fl_w s = true ->
    image_is E (w_disk w) (f_name f) (fl_data s) /\
    map_complete (w_disk w) (f_name f) }.

Lemma St_set_pos f w c p : (0 <= p <= f_size f)%Z -> St f w c -> St (set_pos p f) w c.
Proof.
  intros Hp [HW HF HD _]. constructor; [done|apply FI_pos; done| |done].
  eapply den_view; [..|exact HD]; done.
Qed.

Lemma LogD_mmap {A B} (g : A -> B) (m : M fst_ A) s :
  LogD (mmap g m s).1.2 -> LogD (m s).1.2.
Proof. unfold mmap. apply LogD_bind. intros a. apply mono_ret. Qed.
Lemma mmap_eq {A B} (g : A -> B) (m : M fst_ A) s s' r :
  m s = (s', r) ->
  mmap g m s = (s', match r with Ok a => Ok (g a) | Err e => Err e end).
Proof. intros H. unfold mmap, bind. rewrite H. destruct r; done. Qed.

Lemma closed_ops o f w :
  f_closed f = true -> file_step E o (f, w) = ((f, w), Err AssertionError).
Proof.
  intros Hc. destruct o; cbn [file_step]; unfold mmap, bind;
    unfold file_seek, file_write, file_read, file_truncate, file_flush,
      file_tell, file_close; rewrite Hc, ?andb_false_r; done.
Qed.

Lemma file_seek_spec off wh f w s :
  R f w s -> fl_closed s = false ->
  LogD (file_seek E off (of_from wh) (f, w)).1.2 ->
  let '(s', r) := flat_step s (OSeek off wh) in
  exists f' w', mmap UPos (file_seek E off (of_from wh)) (f, w) = ((f', w'), r) /\
    R f' w' s' /\ sle w w' /\ same_mode f f'.
Proof.
  intros HR Hcl HL. destruct s as [c p r wr cl]. cbn in Hcl. subst cl.
  destruct HR as [HS Rp Rr Rw Rc Ri]. cbn in *.
  assert (Hsz := den_size _ _ _ (st_den _ _ _ HS)).
  assert (Hp := st_pos _ _ _ HS).
  set (q := match wh with FromStart => off | FromHere => (p + off)%Z
            | FromEnd => (zlen c - off)%Z end).
  assert (Hq : match of_from wh with
     | SEEK_SET => Ok off | SEEK_END => Ok (f_size f - off)%Z
     | SEEK_CUR => Ok (f_pos f + off)%Z | SEEK_BAD => Err ValueError end = Ok q).
  { unfold q. destruct wh; cbn; do 2 f_equal; lia. }
  unfold file_seek in HL. rewrite Rc, Hq in HL.
  destruct (q <? 0)%Z eqn:Hneg.
  { exists f, w.
    assert (Hres : file_seek E off (of_from wh) (f, w) = ((f, w), Err ValueError))
      by (unfold file_seek; rewrite Rc, Hq, Hneg; done).
    rewrite (mmap_eq _ _ _ _ _ Hres).
    split_and!; auto using sle_refl; [|done]. constructor; done. }
  destruct (q <=? zlen c)%Z eqn:Hle.
  { destruct (f_size f <? q)%Z eqn:Hlt; [lia|].
    assert (Hres : file_seek E off (of_from wh) (f, w) = ((set_pos q f, w), Ok q))
      by (unfold file_seek; rewrite Rc, Hq, Hneg, Hlt; done).
    eexists _, _. rewrite (mmap_eq _ _ _ _ _ Hres). split; [reflexivity|].
    split_and!; auto using sle_refl; [|done].
    constructor; cbn; try done. apply St_set_pos; [lia|done]. }
  destruct (f_size f <? q)%Z eqn:Hlt; [|lia].
  destruct wr.
  - set (m1 := fill_loop E (Z.to_nat (q - f_size f)) (q - f_size f)%Z) in *.
    assert (HL1 : LogD (m1 (set_pos (f_size f) f, w)).1.2).
    { revert HL. unfold bind, modify. clear.
      destruct (m1 (set_pos (f_size f) f, w)) as [[f1 w1] [[]|e]]; [|done].
      cbn. unfold massert. destruct (f_pos f1 =? q)%Z; cbn; [|done].
      destruct (f_size f1 =? q)%Z; done. }
    destruct (fill_loop_spec (Z.to_nat (q - f_size f)) (q - f_size f) (set_pos (f_size f) f) w c)
      as (f1 & w1 & Heq & HS1 & Hs1 & Hp1 & Hm1); try done; [lia| |].
    { apply St_set_pos; [lia|done]. }
    assert (Hsz1 := den_size _ _ _ (st_den _ _ _ HS1)).
    rewrite zlen_app, zlen_zeros in Hsz1.
    assert (Hq1 : f_size f1 = q) by lia.
    exists (set_pos q f1), w1.
    assert (Hres : file_seek E off (of_from wh) (f, w) = ((set_pos q f1, w1), Ok q)).
    { unfold file_seek. rewrite Rc, Hq, Hneg, Hlt.
      unfold bind, modify, get. fold m1. unfold m1. rewrite Heq.
      rewrite Hp1, Hq1, Z.eqb_refl. done. }
    rewrite (mmap_eq _ _ _ _ _ Hres). split; [done|].
    destruct Hm1 as (Mn & Mr & Mw & Mc). cbn in *.
    split_and!; [|done|done].
    rewrite <- Hsz. constructor; cbn; try congruence.
    apply St_set_pos; [lia|done].
  - exists (set_pos (f_size f) f), w.
    assert (Hres : file_seek E off (of_from wh) (f, w)
                   = ((set_pos (f_size f) f, w), Err AssertionError)).
    { unfold file_seek. rewrite Rc, Hq, Hneg, Hlt.
      unfold bind, modify, get.
      destruct (Z.to_nat (q - f_size f)) as [|k] eqn:Hk; [lia|]. cbn [fill_loop].
      destruct (0 <? q - f_size f)%Z eqn:Hx; [|lia].
      unfold bind, file_write. cbn [f_w set_pos]. rewrite Rw. done. }
    rewrite (mmap_eq _ _ _ _ _ Hres).
    split_and!; auto using sle_refl; [|done].
    constructor; cbn; try done. apply St_set_pos; [lia|done].
Qed.

Lemma file_step_spec o f w s :
  op_ok o -> R f w s -> LogD (file_step E o (f, w)).1.2 ->
  let '(s', r) := flat_step s o in
  exists f' w', file_step E o (f, w) = ((f', w'), r) /\
    R f' w' s' /\ ext (f_name f) w w' /\ f_name f' = f_name f.
Proof.
  intros Hop HR HL. destruct (fl_closed s) eqn:Hcl.
  { assert (Hc : f_closed f = true) by (rewrite (R_closed _ _ _ HR); done).
    rewrite (closed_ops o f w Hc). destruct s as [c p r wr cl]; cbn in Hcl; subst cl.
    cbn. exists f, w. split_and!; auto. apply sle_ext, sle_refl. }
  pose proof HR as [HS Rp Rr Rw Rc Ri].
  assert (Hsz := den_size _ _ _ (st_den _ _ _ HS)).
  assert (Hp := st_pos _ _ _ HS).
  destruct o as [off wh|d|n| | | |]; cbn [file_step] in *; try apply LogD_mmap in HL.
  - pose proof (file_seek_spec off wh f w s HR Hcl HL) as H.
    destruct (flat_step s (OSeek off wh)) as [s' r].
    destruct H as (f' & w' & ? & ? & ? & ?). exists f', w'.
    split_and!; [done|done|apply sle_ext; done|]. apply H2.
  - destruct s as [c p r wr cl]; cbn in *; subst cl. destruct wr.
    + destruct (file_write_spec d f w c Rw ltac:(congruence) HS HL)
        as (f' & w' & Heq & HS' & Hs' & Hp' & Hm').
      exists f', w'. rewrite (mmap_eq _ _ _ _ _ Heq). rewrite Rp in *.
      destruct Hm' as (Mn & Mr & Mw & Mc).
      split_and!; [done| |apply sle_ext; done|done].
      constructor; cbn; try congruence.
    + exists f, w. unfold mmap, bind, file_write. rewrite Rw. cbn.
      split_and!; auto. apply sle_ext, sle_refl.
  - destruct s as [c p r wr cl]; cbn in *; subst cl. destruct r.
    + destruct (file_read_spec n f w c Rr ltac:(congruence) Hop HS HL)
        as (f' & w' & Heq & HS' & Hs' & Hp' & Hm').
      exists f', w'. rewrite (mmap_eq _ _ _ _ _ Heq). rewrite Rp in *.
      destruct Hm' as (Mn & Mr & Mw & Mc).
      split_and!; [done| |apply sle_ext; done|done].
      constructor; cbn; try congruence.
    + exists f, w. unfold mmap, bind, file_read. rewrite Rr. cbn.
      split_and!; auto. apply sle_ext, sle_refl.
  - destruct s as [c p r wr cl]; cbn in *; subst cl. destruct wr.
    + destruct (file_truncate_spec f w c Rw ltac:(congruence) HS HL)
        as (f' & w' & Heq & HS' & Hs' & Hm' & Hp' & Him).
      exists f', w'. rewrite (mmap_eq _ _ _ _ _ Heq). rewrite Rp in *.
      destruct Hm' as (Mn & Mr & Mw & Mc).
      split_and!; [done| |done|done].
      constructor; cbn; try congruence.
    + exists f, w. unfold mmap, bind, file_truncate. rewrite Rw. cbn.
      split_and!; auto. apply sle_ext, sle_refl.
  - destruct s as [c p r wr cl]; cbn in *; subst cl. destruct wr.
    + destruct (file_flush_spec f w c Rw ltac:(congruence) HS HL)
        as (f' & w' & Heq & HS' & Hs' & Hm' & Him & _).
      exists f', w'. rewrite (mmap_eq _ _ _ _ _ Heq).
      destruct Hm' as [Mn Mr Mw Mc Mp Ms].
      split_and!; [done| |done|done].
      constructor; cbn; try congruence.
    + exists f, w. unfold mmap, bind, file_flush. rewrite Rw. cbn.
      split_and!; auto. apply sle_ext, sle_refl.
  - destruct s as [c p r wr cl]; cbn in *; subst cl.
    exists f, w. unfold mmap, bind, file_tell. rewrite Rc, Rp. cbn.
    split_and!; auto. apply sle_ext, sle_refl.
  - destruct s as [c p r wr cl]; cbn in *; subst cl.
    unfold file_close in *. rewrite Rc in *. rewrite Rw in *. destruct wr.
    + assert (HL1 : LogD (file_flush E (f, w)).1.2).
      { eapply LogD_bind; [|exact HL]. intros ?. cbn beta. apply mono_modify_f. done. }
      destruct (file_flush_spec f w c Rw ltac:(congruence) HS HL1)
        as (f' & w' & Heq & HS' & Hs' & Hm' & Him & Hmc & _).
      destruct Hm' as [Mn Mr Mw Mc Mp Ms].
      exists (set_closed f'), w'. unfold mmap, bind, modify. rewrite Rc, Rw, Heq. cbn.
      split_and!; [done| |done|done].
      constructor; cbn; try congruence.
      * destruct HS' as [HW HF HD Hpos]. constructor; [done| | |done].
        -- destruct HF. constructor; done.
        -- eapply den_view; [..|exact HD]; done.
      * intros _ _. rewrite Mn. done.
    + exists (set_closed f), w. unfold mmap, bind, modify. rewrite Rc, Rw. cbn.
      split_and!; [done| |apply sle_ext, sle_refl|done].
      constructor; cbn; try congruence.
      destruct HS as [HW HF HD Hpos]. constructor; [done| | |done].
      * destruct HF. constructor; done.
      * eapply den_view; [..|exact HD]; done.
Qed.

Lemma file_run_spec ops : forall f w s,
  Forall op_ok ops -> R f w s -> LogD (file_run E (f, w) ops).1.2 ->
  let '(s', rs) := flat_run s ops in
  exists f' w', file_run E (f, w) ops = ((f', w'), rs) /\
    R f' w' s' /\ ext (f_name f) w w' /\ f_name f' = f_name f.
Proof.
  induction ops as [|o ops IH]; intros f w s Hok HR HL; cbn [file_run flat_run] in *.
  { exists f, w. split_and!; auto. apply sle_ext, sle_refl. }
  apply Forall_cons in Hok as [Ho Hok].
  assert (HL1 : LogD (file_step E o (f, w)).1.2).
  { destruct (file_step E o (f, w)) as [[f1 w1] r].
    eapply LogD_mono; [apply (file_run_mono E ops f1 w1)|].
    destruct (file_run E (f1, w1) ops) as [[f2 w2] rs]. exact HL. }
  pose proof (file_step_spec o f w s Ho HR HL1) as Hstep.
  destruct (flat_step s o) as [s1 r]. destruct Hstep as (f1 & w1 & Heq & HR1 & He1 & Hn1).
  rewrite Heq in *.
  assert (HL2 : LogD (file_run E (f1, w1) ops).1.2).
  { destruct (file_run E (f1, w1) ops) as [[f2 w2] rs]. exact HL. }
  specialize (IH f1 w1 s1 Hok HR1 HL2).
  destruct (flat_run s1 ops) as [s2 rs]. destruct IH as (f2 & w2 & Heq2 & HR2 & He2 & Hn2).
  exists f2, w2. rewrite Heq2. split_and!; [done|done| |congruence].
  rewrite Hn1 in He2. eapply ext_trans; done.
Qed.
End Ref.
