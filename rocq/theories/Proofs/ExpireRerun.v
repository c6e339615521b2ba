(** Counting copies, and running expiry again (C36, C37). *)
From Verif Require Export Proofs.ExpireProofs.

Lemma NoDup_filter_uuid (P : rev -> Prop) (HP : forall x, Decision (P x)) l :
  NoDup (map r_uuid l) -> NoDup (map r_uuid (filter P l)).
Proof.
  induction l as [|y l IH]; [done|]. intros Hy. cbn in Hy. apply NoDup_cons in Hy as [Hy1 Hy2]. rewrite filter_cons.
  destruct (decide (P y)); [|auto]. cbn. apply NoDup_cons. split; [|auto]. intros Hx. apply Hy1.
  apply elem_of_list_fmap in Hx as (z & -> & Hz). apply elem_of_list_filter in Hz as [_ Hz]. apply elem_of_list_fmap. eauto.
Qed.
Lemma filter_all (P : rev -> Prop) (HP : forall x, Decision (P x)) (l : list rev) : (forall x, x ∈ l -> P x) -> filter P l = l.
Proof.
  induction l as [|x l IH]; intros Hl; [done|]. rewrite filter_cons_True by (apply Hl; left).
  f_equal. apply IH. intros y Hy. apply Hl. right. done.
Qed.
Lemma length_uuid_le (a b : list rev) : NoDup (map r_uuid a) ->
  (forall x, x ∈ a -> exists y, y ∈ b /\ r_uuid y = r_uuid x) -> length a <= length b.
Proof.
  intros Hn Hs. rewrite <- (map_length r_uuid a), <- (map_length r_uuid b). apply NoDup_incl_length.
  - apply NoDup_ListNoDup. done.
  - intros u Hu. apply elem_of_list_In, elem_of_list_fmap in Hu as (x & -> & Hx). destruct (Hs x Hx) as (y & Hy & Hyu).
    apply elem_of_list_In, elem_of_list_fmap. eauto.
Qed.

(** The newest [n] copies: at least min([n], all) have fewer than [n] newer copies. *)
Definition tailcount (h : list rev) (t : string) (r : rev) : Z :=
  zlen (filter (fun x => t ∈ r_tags x) (tail_after (r_uuid r) h)).
Lemma newest_count h t n : (0 <= n)%Z -> NoDup (map r_uuid h) ->
  (Z.min n (zlen (filter (fun x => t ∈ r_tags x) h)) <=
   zlen (filter (fun x => t ∈ r_tags x /\ (tailcount h t x < n)%Z) h))%Z.
Proof.
  intros Hn. induction h as [|x h IH]; intros Hd; [cbn; lia|]. cbn in Hd. apply NoDup_cons in Hd as [Hx Hd].
  specialize (IH Hd).
  assert (Hrest : filter (fun y => t ∈ r_tags y /\ (tailcount (x :: h) t y < n)%Z) h =
                  filter (fun y => t ∈ r_tags y /\ (tailcount h t y < n)%Z) h).
  { apply RevSpecProofs.filter_ext_in. intros y Hy. unfold tailcount. cbn. rewrite decide_False; [done|]. intros He. apply Hx.
    rewrite He. apply elem_of_list_fmap. eauto. }
  rewrite !filter_cons. destruct (decide (t ∈ r_tags x)) as [Ht|Ht].
  - destruct (decide (zlen (filter (fun y => t ∈ r_tags y) h) < n)%Z) as [Hlt|Hge].
    + rewrite (decide_True (P := t ∈ r_tags x /\ _)).
      2: { split; [done|]. unfold tailcount. cbn. rewrite decide_True by done. done. }
      rewrite Hrest. unfold zlen in *. cbn [length]. lia.
    + assert (Hle : (zlen (filter (fun y => t ∈ r_tags y /\ (tailcount (x :: h) t y < n)%Z) h) <=
        zlen (if decide (t ∈ r_tags x /\ (tailcount (x :: h) t x < n)%Z)
              then x :: filter (fun y => t ∈ r_tags y /\ (tailcount (x :: h) t y < n)%Z) h
              else filter (fun y => t ∈ r_tags y /\ (tailcount (x :: h) t y < n)%Z) h))%Z).
      { destruct (decide _); unfold zlen; cbn [length]; lia. }
      rewrite Hrest in Hle at 1. lia.
  - rewrite (decide_False (P := t ∈ r_tags x /\ _)) by tauto. rewrite Hrest. exact IH.
Qed.
Lemma tailcount_suffix a b t r : NoDup (map r_uuid (a ++ b)) -> r ∈ b -> tailcount (a ++ b) t r = tailcount b t r.
Proof.
  unfold tailcount. intros Hn Hr. do 2 f_equal. revert Hn. induction a as [|x a IH]; [done|]. cbn. intros Hn.
  apply NoDup_cons in Hn as [Hx Hn]. rewrite decide_False; [auto|]. intros He. apply Hx. rewrite He, map_app.
  apply elem_of_app. right. apply elem_of_list_fmap. eauto.
Qed.
Lemma obs_tailcount h now t i r : obs h now t i r = true <->
  t ∈ r_tags r /\ (0 < i_keep i)%Z /\ (i_keep i <= tailcount h t r)%Z /\ (r_ts r < now - i_keep i * i_interval i)%Z.
Proof.
  unfold obs, tailcount. rewrite !andb_true_iff, bool_decide_eq_true, Z.ltb_lt, Z.leb_le, Z.ltb_lt. tauto.
Qed.

(** With distinct timestamps, newer means later. *)
Lemma tail_after_ts h r : StronglySorted by_time h -> NoDup (map r_ts h) -> NoDup (map r_uuid h) -> r ∈ h ->
  tail_after (r_uuid r) h = filter (fun x => (r_ts r < r_ts x)%Z) h.
Proof.
  intros Hs Ht Hu Hr. apply elem_of_list_split in Hr as (a & b & ->). rewrite tail_after_split by done.
  rewrite filter_app. rewrite filter_cons_False by lia.
  assert (Ha : filter (fun x => (r_ts r < r_ts x)%Z) a = []).
  { clear Ht Hu. induction a as [|x a IH]; [done|]. cbn in Hs. apply StronglySorted_inv in Hs as [Hs Hx].
    rewrite filter_cons_False; [auto|]. rewrite Forall_forall in Hx. specialize (Hx r).
    assert (r ∈ a ++ r :: b) as Hin by (apply elem_of_app; right; left). apply Hx in Hin. unfold by_time in Hin. lia. }
  rewrite Ha. cbn. symmetry. apply filter_all. intros x Hx.
  assert (Hsb : StronglySorted by_time (r :: b)).
  { clear -Hs. induction a as [|y a IH]; [done|]. cbn in Hs. apply StronglySorted_inv in Hs as [Hs _]. auto. }
  apply StronglySorted_inv in Hsb as [_ Hf]. rewrite Forall_forall in Hf. specialize (Hf x Hx). unfold by_time in Hf.
  assert (r_ts r <> r_ts x); [|lia]. intros He. rewrite map_app in Ht. apply NoDup_app in Ht as (_ & _ & Ht).
  cbn in Ht. apply NoDup_cons in Ht as [Ht _]. apply Ht. rewrite He. apply elem_of_list_fmap. eauto.
Qed.

Lemma first_copy (Kf : rev -> gset string) t r k : r ∈ k -> StronglySorted by_time k -> t ∈ Kf r ->
  exists a q b, k = a ++ q :: b /\ t ∈ Kf q /\ (forall x, x ∈ a -> t ∉ Kf x) /\ (r_ts q <= r_ts r)%Z /\ (q = r \/ r ∈ b).
Proof.
  intros Hr Hs Ht. induction k as [|x k IH]; [apply elem_of_nil in Hr; done|].
  apply StronglySorted_inv in Hs as [Hs1 Hs2]. destruct (decide (t ∈ Kf x)) as [Hx|Hx].
  - exists [], x, k. split; [done|]. split; [done|]. split; [intros y Hy; apply elem_of_nil in Hy; done|].
    apply elem_of_cons in Hr as [->|Hr]; [auto with lia|]. split; [|auto]. rewrite Forall_forall in Hs2.
    specialize (Hs2 r Hr). exact Hs2.
  - apply elem_of_cons in Hr as [->|Hr]; [done|]. destruct (IH Hr Hs1) as (a & q & b & -> & Q1 & Q2 & Q3 & Q4).
    exists (x :: a), q, b. split; [done|]. split; [done|]. split; [|done].
    intros y Hy. apply elem_of_cons in Hy as [->|Hy]; auto.
Qed.
(** ** Running again *)
Section Rerun.
Context (O : orders) (now : string -> Z) (S : sched) (s : rst).
Context (HO : orders_ok O) (Hf : rev_files_ok (w_disk (rs_w s))) (HS : sched_ok S).
Notation h := (scan_disk O (w_disk (rs_w s))).
Notation K := (kept S h now).
Let Hn : NoDup (map r_uuid h) := scan_disk_nodup O _.
Context (O2 : orders) (s2 : rst) (HO2 : orders_ok O2) (Hf2 : rev_files_ok (w_disk (rs_w s2))).
Notation h2 := (scan_disk O2 (w_disk (rs_w s2))).
Notation K2 := (kept S h2 now).
Let Hn2 : NoDup (map r_uuid h2) := scan_disk_nodup O2 _.
Notation partway := (partway O now S s).

Context (Hpart : forall u, partway u (drevs s2 !! u)).

Lemma h2_origin r2 : r2 ∈ h2 -> exists r T, r ∈ h /\ r2 = with_tags T r /\ K r ⊆ T /\ T ⊆ r_tags r.
Proof.
  intros Hr. apply (scan_disk_elem O2 _ r2 HO2 Hf2) in Hr. specialize (Hpart (r_uuid r2)). rewrite Hr in Hpart.
  unfold ExpireProofs.partway in Hpart. destruct (drevs s !! r_uuid r2) as [r|] eqn:Hd; [|done].
  destruct Hpart as (T & HT & H1 & H2). exists r, T. split; [|done].
  apply (scan_disk_elem O _ r HO Hf). pose proof (Hf _ _ Hd) as Hu. rewrite Hu. done.
Qed.
Lemma h_survives r t : r ∈ h -> t ∈ K r -> exists T, with_tags T r ∈ h2 /\ t ∈ T.
Proof.
  intros Hr Ht. apply (scan_disk_elem O _ r HO Hf) in Hr. specialize (Hpart (r_uuid r)).
  unfold ExpireProofs.partway in Hpart. rewrite Hr in Hpart.
  destruct (drevs s2 !! r_uuid r) as [r2|] eqn:Hd; [|destruct Hpart as [He _]; rewrite He in Ht; apply elem_of_empty in Ht; done].
  destruct Hpart as (T & -> & H1 & H2). exists T. split; [|auto]. apply (scan_disk_elem O2 _ _ HO2 Hf2). done.
Qed.

(** When the second run keeps the same tags, the result is the same. *)
Lemma rerun_same iso :
  (forall r T, r ∈ h -> with_tags T r ∈ h2 -> K r ⊆ T -> T ⊆ r_tags r -> K2 (with_tags T r) = K r) ->
  exists s' s2', expire O iso now S s = (s', Ok tt) /\ expire O2 iso now S s2 = (s2', Ok tt) /\ drevs s2' = drevs s'.
Proof.
  intros HK. destruct (expire_spec O iso now S s HO Hf HS) as (s' & E1 & _ & [_ S1] & H1 & _).
  destruct (expire_spec O2 iso now S s2 HO2 Hf2 HS) as (s2' & E2 & _ & [_ S2] & H2 & _).
  exists s', s2'. split; [done|]. split; [done|]. apply map_eq. intros u.
  assert (Hfin : forall r T, r ∈ h -> with_tags T r ∈ h2 -> K r ⊆ T -> T ⊆ r_tags r ->
    final O2 now S s2 (with_tags T r) = final O now S s r).
  { intros r T Hr Hr2 HT1 HT2. unfold final. rewrite HK by done. cbn [r_server with_tags]. done. }
  apply option_eq. intros x. rewrite S1, S2, H1, H2, !elem_of_list_omap. split.
  - intros [(r2 & Hr2 & Hx) Hu]. split; [|done]. destruct (h2_origin r2 Hr2) as (r & T & Hr & -> & HT1 & HT2).
    exists r. split; [done|]. rewrite <- (Hfin r T) by done. done.
  - intros [(r & Hr & Hx) Hu]. split; [|done].
    pose proof Hr as Hd. apply (scan_disk_elem O _ r HO Hf) in Hd. specialize (Hpart (r_uuid r)).
    unfold ExpireProofs.partway in Hpart. rewrite Hd in Hpart.
    destruct (drevs s2 !! r_uuid r) as [r2|] eqn:Hd2.
    + destruct Hpart as (T & -> & HT1 & HT2). exists (with_tags T r).
      assert (Hr2 : with_tags T r ∈ h2) by (apply (scan_disk_elem O2 _ _ HO2 Hf2); done).
      split; [done|]. rewrite Hfin by done. done.
    + unfold final in Hx. rewrite decide_True in Hx by done. done.
Qed.
Lemma kept_same r T :
  r ∈ h -> with_tags T r ∈ h2 -> K r ⊆ T -> T ⊆ r_tags r ->
  (forall t i, (t, i) ∈ S -> t ∈ K r -> outdated h2 (now t) t i (with_tags T r) -> outdated h (now t) t i r) ->
  (forall t i, (t, i) ∈ S -> t ∈ T -> outdated h (now t) t i r -> outdated h2 (now t) t i (with_tags T r)) ->
  K2 (with_tags T r) = K r.
Proof.
  intros Hr Hr2 HT1 HT2 HA HB. apply set_eq. intros t. rewrite (kept_elem S h2 now) by done.
  split.
  - intros [Ht Hc]. cbn [r_tags with_tags] in Ht. apply (kept_elem S h now); [done..|]. split; [auto|].
    destruct Hc as [Hm|(i & Hi & Ho)]; [auto|]. right. exists i. split; [done|]. intros Hx. apply Ho. apply HB; done.
  - intros Ht. split; [cbn; auto|]. pose proof Ht as Ht'. apply (kept_elem S h now) in Ht'; [|done..]. destruct Ht' as [_ Hc].
    destruct Hc as [Hm|(i & Hi & Ho)]; [auto|]. right. exists i. split; [done|]. intros Hx. apply Ho. apply HA; done.
Qed.

(** Interrupted: with distinct timestamps. *)
Lemma rerun_kept r T : NoDup (map r_ts h) ->
  r ∈ h -> with_tags T r ∈ h2 -> K r ⊆ T -> T ⊆ r_tags r -> K2 (with_tags T r) = K r.
Proof.
  intros Hts Hr Hr2 HT1 HT2.
  assert (Hts2 : NoDup (map r_ts h2)).
  { assert (Hx : forall l, NoDup (map r_uuid l) -> (forall x, x ∈ l -> x ∈ h2) -> NoDup (map r_ts l)); [|apply Hx; done].
    induction l as [|x l IH]; intros Hu Hl; [constructor|]. cbn in *. apply NoDup_cons in Hu as [Hu1 Hu2].
    apply NoDup_cons. split; [|apply IH; [done|]; intros y Hy; apply Hl; right; done].
    intros Hin. apply elem_of_list_fmap in Hin as (y & Hxy & Hy). apply Hu1.
    destruct (h2_origin x) as (a & Ta & Ha & -> & _); [apply Hl; left|].
    destruct (h2_origin y) as (b & Tb & Hb & -> & _); [apply Hl; right; done|]. cbn in *.
    assert (a = b) as ->; [|apply elem_of_list_fmap; exists (with_tags Tb b); done].
    apply elem_of_list_lookup in Ha as [i Hi]. apply elem_of_list_lookup in Hb as [j Hj].
    assert (i = j) as ->; [|congruence].
    apply (NoDup_lookup (map r_ts h) i j (r_ts a) Hts); rewrite list_lookup_fmap; [rewrite Hi|rewrite Hj]; cbn; congruence. }


  assert (C1 : forall t n, newer_copies h t r n <->
    (n <= zlen (filter (fun x => t ∈ r_tags x) (filter (fun x => (r_ts r < r_ts x)%Z) h)))%Z).
  { intros t n. rewrite (newer_copies_tail h t r n) by done. rewrite (tail_after_ts h r); try done. apply scan_list_sorted. }
  assert (C2 : forall t n, newer_copies h2 t (with_tags T r) n <->
    (n <= zlen (filter (fun x => t ∈ r_tags x) (filter (fun x => (r_ts r < r_ts x)%Z) h2)))%Z).
  { intros t n. rewrite (newer_copies_tail h2 t _ n) by done. rewrite (tail_after_ts h2 (with_tags T r)); try done. apply scan_list_sorted. }
  assert (Hnf : forall (P : rev -> Prop) (HP : forall x, Decision (P x)) t,
    NoDup (map r_uuid (filter (fun x => t ∈ r_tags x) (filter P h)))) by (intros; apply NoDup_filter_uuid, NoDup_filter_uuid; done).
  assert (Hnf2 : forall (P : rev -> Prop) (HP : forall x, Decision (P x)) t,
    NoDup (map r_uuid (filter (fun x => t ∈ r_tags x) (filter P h2)))) by (intros; apply NoDup_filter_uuid, NoDup_filter_uuid; done).
  apply kept_same; try done.
  - intros t i Hi Ht (A1 & A2 & A3 & A4). split; [auto|]. split; [done|]. split; [|done].
    rewrite C2 in A3. rewrite C1. etrans; [exact A3|]. unfold zlen. apply inj_le. apply length_uuid_le; [apply Hnf2|].
    intros x Hx. apply elem_of_list_filter in Hx as [Hx1 Hx]. apply elem_of_list_filter in Hx as [Hx2 Hx].
    destruct (h2_origin x Hx) as (y & Ty & Hy & -> & HT3 & HT4). exists y. split; [|done]. cbn in Hx1, Hx2.
    apply elem_of_list_filter. split; [auto|]. apply elem_of_list_filter. done.
  - intros t i Hi Ht (A1 & A2 & A3 & A4). split; [done|]. split; [done|]. split; [|done].
    rewrite C2. destruct A3 as (a & b & Hab & Hb).
    assert (Hnb : NoDup (map r_uuid b)).
    { rewrite Hab in Hn. rewrite map_app in Hn. apply NoDup_app in Hn as (_ & _ & Hn'). cbn in Hn'. apply NoDup_cons in Hn'. tauto. }
    assert (Htail : b = filter (fun x => (r_ts r < r_ts x)%Z) h).
    { rewrite <- (tail_after_ts h r); try done; [|apply scan_list_sorted]. rewrite Hab at 1. rewrite tail_after_split; [done|].
      rewrite <- Hab. done. }
    pose proof (newest_count b t (i_keep i) ltac:(lia) Hnb) as Hc. rewrite Z.min_l in Hc by done. etrans; [exact Hc|].
    unfold zlen. apply inj_le. apply length_uuid_le; [apply NoDup_filter_uuid; done|].
    intros x Hx. apply elem_of_list_filter in Hx as [[Hx1 Hx2] Hxb].
    assert (Hxh : x ∈ h) by (rewrite Hab; apply elem_of_app; right; right; done).
    assert (Hxk : t ∈ K x).
    { apply (kept_elem S h now); [done..|]. split; [done|]. right. exists i. split; [done|]. intros Ho.
      apply obs_spec in Ho; [|done..]. apply obs_tailcount in Ho as (_ & _ & Ho & _).
      rewrite Hab in Ho. change (a ++ r :: b) with (a ++ [r] ++ b) in Ho. rewrite app_assoc in Ho.
      rewrite tailcount_suffix in Ho; [lia| |done]. rewrite <- app_assoc. cbn. rewrite <- Hab. done. }
    destruct (h_survives x t Hxh Hxk) as (Tx & Htx & Htt). exists (with_tags Tx x). split; [|done].
    apply elem_of_list_filter. split; [done|]. apply elem_of_list_filter. split; [|done]. cbn.
    rewrite Htail in Hxb. apply elem_of_list_filter in Hxb. tauto.
Qed.
(** Complete: any order of revisions with the same timestamp. *)
Lemma twice_kept r : (forall r T, r ∈ h -> with_tags T r ∈ h2 -> T = K r) ->
  r ∈ h -> with_tags (K r) r ∈ h2 -> K r ⊆ r_tags r -> K2 (with_tags (K r) r) = K r.
Proof.
  intros HT Hr Hr2 Hsub. apply kept_same; try done.
  - intros t i Hi Ht (A1 & A2 & A3 & A4). cbn [r_ts with_tags] in A4. split; [auto|]. split; [done|]. split; [|done].
    destruct (decide (i_keep i <= tailcount h t r)%Z) as [Hle|Hgt]; [apply newer_copies_tail; done|]. exfalso.
    assert (Htot : (i_keep i + 1 <= zlen (filter (fun x => t ∈ r_tags x) h2))%Z).
    { destruct A3 as (a & b & -> & Hb). rewrite filter_app, filter_cons_True by (cbn; done).
      unfold zlen in *. rewrite app_length. cbn [length]. lia. }
    (* the first kept copy *)
    assert (Hfirst : exists a q b, h = a ++ q :: b /\ t ∈ K q /\ (forall x, x ∈ a -> t ∉ K x) /\ (r_ts q <= r_ts r)%Z /\
              (q = r \/ r ∈ b)).
    { apply first_copy; [done|apply scan_list_sorted|done]. }
    destruct Hfirst as (a & q & b & Hh & Q1 & Q2 & Q3 & Q4).
    assert (Hq : q ∈ h) by (rewrite Hh; apply elem_of_app; right; left).
    assert (Hqc : (tailcount h t q < i_keep i)%Z).
    { pose proof Q1 as Q1'. apply (kept_elem S h now) in Q1'; [|done..]. destruct Q1' as [Htq [Hm|(j & Hj & Ho)]].
      - destruct HS as [_ HS2]. destruct (HS2 t i Hi) as (_ & Hnm & _). done.
      - assert (j = i) as ->.
        { destruct HS as [HS1 _]. apply elem_of_list_lookup in Hi as [x Hx]. apply elem_of_list_lookup in Hj as [y Hy].
          assert (x = y) as ->; [|congruence].
          apply (NoDup_lookup (map fst S) x y t HS1); rewrite list_lookup_fmap; [rewrite Hx|rewrite Hy]; done. }
        apply Z.nle_gt. intros Hle. apply Ho. apply obs_spec; [done..|]. apply obs_tailcount.
        split; [done|]. split; [done|]. split; [done|]. lia. }
    assert (Hbound : length (filter (fun x => t ∈ r_tags x) h2) <= length (q :: filter (fun x => t ∈ r_tags x) b)).
    { apply length_uuid_le; [apply NoDup_filter_uuid; done|]. intros x Hx. apply elem_of_list_filter in Hx as [Hx1 Hx].
      destruct (h2_origin x Hx) as (y & Ty & Hy & -> & HT3 & HT4). exists y. split; [|done].
      assert (Ty = K y) as -> by (apply HT; done). cbn in Hx1. rewrite Hh in Hy.
      apply elem_of_app in Hy as [Hy|Hy]; [exfalso; apply (Q2 y); done|].
      apply elem_of_cons in Hy as [->|Hy]; [left|right]. apply elem_of_list_filter. split; [auto|done]. }
    assert (Htb : tailcount h t q = zlen (filter (fun x => t ∈ r_tags x) b)).
    { unfold tailcount. rewrite Hh at 1. rewrite tail_after_split; [done|]. rewrite <- Hh. done. }
    unfold zlen in *. cbn [length] in Hbound. lia.
  - intros t i Hi Ht Ho. exfalso. apply (kept_elem S h now) in Ht; [|done..]. destruct Ht as [_ [Hm|(j & Hj & Hno)]].
    + destruct HS as [_ HS2]. destruct (HS2 t i Hi) as (_ & Hnm & _). done.
    + assert (j = i) as ->; [|done].
      destruct HS as [HS1 _]. apply elem_of_list_lookup in Hi as [x Hx]. apply elem_of_list_lookup in Hj as [y Hy].
      assert (x = y) as ->; [|congruence].
      apply (NoDup_lookup (map fst S) x y t HS1); rewrite list_lookup_fmap; [rewrite Hx|rewrite Hy]; done.
Qed.
End Rerun.
