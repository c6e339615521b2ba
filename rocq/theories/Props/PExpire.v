(** C34-C37: expiry. *)
From Verif Require Import Proofs.ExpireRerun.
#[local] Arguments String.append !_ _ / : simpl nomatch.

(** Everything that expiry does, in one statement. *)
Theorem expire_result O iso now S s :
  orders_ok O -> rev_files_ok (w_disk (rs_w s)) -> sched_ok S ->
  exists s', expire O iso now S s = (s', Ok tt) /\
    data_same (w_disk (rs_w s)) (w_disk (rs_w s')) /\
    forall u, match drevs s !! u with
              | Some r => expired_to S (scan_disk O (w_disk (rs_w s))) now r (drevs s' !! u)
              | None => drevs s' !! u = None
              end.
Proof.
  intros HO Hf HS. destruct (expire_spec O iso now S s HO Hf HS) as (s' & E1 & D1 & [_ S1] & H1 & _).
  exists s'. split; [done|]. split; [done|]. intros u.
  pose proof (scan_disk_nodup O (w_disk (rs_w s))) as Hn.
  destruct (drevs s !! u) as [r|] eqn:Hr.
  - apply (hist_lookup O s HO Hf) in Hr as [Hr Hu].
    exists (kept S (scan_disk O (w_disk (rs_w s))) now r). split; [intros t; apply kept_elem; done|].
    fold (final O now S s r). apply option_eq. intros x. rewrite S1, H1, elem_of_list_omap. split.
    + intros [(y & Hy & Hx) Hxu]. assert (y = r) as ->; [|done].
      apply (uuid_inj _ y r Hn Hy Hr). unfold final in Hx. destruct (decide _); [done|]. injection Hx as <-. cbn in Hxu. congruence.
    + intros Hx. split; [eauto|]. unfold final in Hx. destruct (decide _); [done|]. injection Hx as <-. done.
  - destruct (drevs s' !! u) as [x|] eqn:Hx; [|done]. apply S1 in Hx as [Hx Hu]. rewrite H1 in Hx.
    apply elem_of_list_omap in Hx as (y & Hy & Hyx). exfalso.
    assert (Hc : drevs s !! u = Some y); [|congruence]. apply (hist_lookup O s HO Hf). split; [done|].
    unfold final in Hyx. destruct (decide _); [done|]. injection Hyx as <-. done.
Qed.
Print Assumptions expire_result.

(** Tag [t] is on file [u]. *)
Definition tagged (s : rst) (u t : string) : Prop := exists r, drevs s !! u = Some r /\ t ∈ r_tags r.

(** ** C34 *)
Theorem C34_expire_only_outdated O iso now S s t i u r :
  orders_ok O -> rev_files_ok (w_disk (rs_w s)) -> sched_ok S -> (t, i) ∈ S ->
  drevs s !! u = Some r -> t ∈ r_tags r ->
  exists s', expire O iso now S s = (s', Ok tt) /\
    (~ tagged s' u t <-> outdated (scan_disk O (w_disk (rs_w s))) (now t) t i r).
Proof.
  intros HO Hf HS Hi Hu Ht. destruct (expire_result O iso now S s HO Hf HS) as (s' & E & _ & R).
  exists s'. split; [done|]. specialize (R u). rewrite Hu in R. destruct R as (K & HK & Ho).
  assert (HtK : tagged s' u t <-> t ∈ K).
  { unfold tagged. rewrite Ho. split.
    - intros (x & Hx & Hxt). destruct (decide _) as [|Hno]; [done|]. injection Hx as <-. done.
    - intros HtK. rewrite decide_False; [eauto|]. intros [-> _]. apply elem_of_empty in HtK. done. }
  rewrite HtK, HK. unfold tag_kept.
  assert (Hkey : forall j, (t, j) ∈ S -> j = i).
  { intros j Hj. destruct HS as [HS1 _]. apply elem_of_list_lookup in Hi as [x Hx]. apply elem_of_list_lookup in Hj as [y Hy].
    assert (x = y) as ->; [|congruence].
    apply (NoDup_lookup (map fst S) x y t HS1); rewrite list_lookup_fmap; [rewrite Hx|rewrite Hy]; done. }
  destruct (proj2 HS t i Hi) as (_ & Hnm & _).
  pose proof (scan_disk_nodup O (w_disk (rs_w s))) as Hn.
  assert (Hr : r ∈ scan_disk O (w_disk (rs_w s))) by (apply (hist_lookup O s HO Hf) in Hu; tauto).
  pose proof (obs_spec (scan_disk O (w_disk (rs_w s))) (now t) t i r Hn Hr) as Hobs.
  destruct (obs (scan_disk O (w_disk (rs_w s))) (now t) t i r).
  - split; [intros _; apply Hobs; done|]. intros Hx [_ [Hm|(j & Hj & Hno)]]; [done|]. rewrite (Hkey j Hj) in Hno. done.
  - split; [|intros Hx; apply Hobs in Hx; done]. intros Hno. exfalso. apply Hno. split; [done|]. right. exists i.
    split; [done|]. intros Hx. apply Hobs in Hx. done.
Qed.
Print Assumptions C34_expire_only_outdated.

(** ** C35 *)
Theorem C35_expire_manual_and_removal O iso now S s :
  orders_ok O -> rev_files_ok (w_disk (rs_w s)) -> sched_ok S ->
  exists s', expire O iso now S s = (s', Ok tt) /\
    (forall u t, manual t -> tagged s u t -> tagged s' u t) /\
    (forall u t, ~ manual t -> t ∉ map fst S -> ~ tagged s' u t) /\
    (forall u r, drevs s !! u = Some r ->
       (drevs s' !! u = None <-> r_server r = "" /\ forall t, ~ tag_kept S (scan_disk O (w_disk (rs_w s))) now r t) /\
       (forall r', drevs s' !! u = Some r' -> exists K, K ⊆ r_tags r /\ r' = with_tags K r)) /\
    (forall u, drevs s !! u = None -> drevs s' !! u = None) /\
    data_same (w_disk (rs_w s)) (w_disk (rs_w s')).
Proof.
  intros HO Hf HS. destruct (expire_result O iso now S s HO Hf HS) as (s' & E & D & R).
  exists s'. split; [done|].
  assert (Hsome : forall u r, drevs s !! u = Some r -> expired_to S (scan_disk O (w_disk (rs_w s))) now r (drevs s' !! u)).
  { intros u r Hu. specialize (R u). rewrite Hu in R. done. }
  assert (Hnone : forall u, drevs s !! u = None -> drevs s' !! u = None).
  { intros u Hu. specialize (R u). rewrite Hu in R. done. }
  split; [|split; [|split; [|done]]].
  - intros u t Hm (r & Hu & Ht). destruct (Hsome u r Hu) as (K & HK & Ho). unfold tagged. rewrite Ho.
    assert (HtK : t ∈ K) by (apply HK; split; auto). rewrite decide_False; [eauto|].
    intros [-> _]. apply elem_of_empty in HtK. done.
  - intros u t Hm Hk (r' & Hu' & Ht). destruct (drevs s !! u) as [r|] eqn:Hu.
    + destruct (Hsome u r Hu) as (K & HK & Ho). rewrite Hu' in Ho. destruct (decide _); [done|]. injection Ho as ->.
      apply HK in Ht as [_ [?|(i & Hi & _)]]; [done|]. apply Hk. apply elem_of_list_fmap. exists (t, i). done.
    + rewrite (Hnone u Hu) in Hu'. done.
  - intros u r Hu. destruct (Hsome u r Hu) as (K & HK & Ho). rewrite Ho. split.
    + destruct (decide (K = ∅ /\ r_server r = "")) as [[He Hs]|Hno].
      * split; [|done]. intros _. split; [done|]. intros t Ht. apply HK in Ht. rewrite He in Ht. apply elem_of_empty in Ht. done.
      * split; [done|]. intros [Hs Hall]. exfalso. apply Hno. split; [|done]. apply set_eq. intros t. split; [|intros Hx; apply elem_of_empty in Hx; done].
        intros Ht. apply HK in Ht. destruct (Hall t Ht).
    + intros r' Hr'. destruct (decide _); [done|]. injection Hr' as <-. exists K. split; [|done]. intros t Ht. apply HK in Ht. apply Ht.
Qed.
Print Assumptions C35_expire_manual_and_removal.

Definition ex_orders : orders := MkOrders map_to_list elements.
Lemma ex_orders_ok : orders_ok ex_orders.
Proof. split; done. Qed.
Definition ex_e (u : string) (ts : Z) (dur : option Z) (tags : list string) : rev :=
  MkRev u ts (MkStats 0 dur None) (list_to_set tags) ∅ TRUSTED "".
Definition ex_st (l : list rev) : rst :=
  MkRst (MkWorld (MkDisk ∅ ∅ (list_to_map (map (fun r => (r_uuid r, r)) l))) [] ∅ false) [] [].
Definition ex_S : sched := [("daily", MkItem 100 2); ("weekly", MkItem 700 1)].
Lemma ex_S_ok : sched_ok ex_S.
Proof.
  split.
  - cbn. apply NoDup_cons. split; [|apply NoDup_cons; split; [|constructor]]; intros Hx;
      repeat (apply elem_of_cons in Hx as [Hx|Hx]; [discriminate|]); apply elem_of_nil in Hx; done.
  - intros t i Hi. unfold ex_S in Hi.
    assert (Hm : forall x, starts "manual:" x = false -> ~ manual x).
    { intros x Hx Hm. apply starts_spec in Hm. congruence. }
    repeat (apply elem_of_cons in Hi as [[= -> ->]|Hi]; [|]); [..|apply elem_of_nil in Hi; done];
      (split; [|split; [apply Hm; reflexivity|cbn; lia]]);
      (split; [done|]; split; [reflexivity|]; split;
       [intros c Hc; cbn in Hc; repeat (apply elem_of_cons in Hc as [->|Hc]; [reflexivity|]); apply elem_of_nil in Hc; done
       |cbn; repeat split; intros He; discriminate He]).
Qed.
Definition ex_l : list rev :=
  [ex_e "a" 100 (Some 1%Z) ["daily"]; ex_e "b" 200 (Some 1%Z) ["daily"; "weekly"; "yearly"];
   ex_e "c" 300 (Some 1%Z) ["daily"; "manual:keep"]; ex_e "d" 900 (Some 1%Z) ["daily"]; ex_e "e" 1000 (Some 1%Z) ["daily"]].
Definition ex_tags (s : rst) (u : string) : option (list string) := (fun r => elements (r_tags r)) <$> drevs s !! u.
(** a, b, c lose "daily"; a goes; the foreign tag "yearly" goes; "weekly" is the only copy. *)
Example ex_C34_C35 :
  let s' := (expire ex_orders (fun _ => None) (fun _ => 1000%Z) ex_S (ex_st ex_l)).1 in
  map (ex_tags s') ["a"; "b"; "c"; "d"; "e"] = [None; Some ["weekly"]; Some ["manual:keep"]; Some ["daily"]; Some ["daily"]].
Proof. vm_compute. reflexivity. Qed.
Lemma ex_st_ok l : rev_files_ok (w_disk (rs_w (ex_st l))).
Proof.
  intros n r Hn. change ((list_to_map (map (fun r => (r_uuid r, r)) l) : gmap string rev) !! n = Some r) in Hn.
  apply elem_of_list_to_map_2, elem_of_list_fmap in Hn as (y & [= -> ->] & _). done.
Qed.
(** Names of tags must be plain: a tag with a comma makes expiry fail ... *)
Example ex_comma :
  (expire ex_orders (fun _ => None) (fun _ => 1000%Z) [("a,x", MkItem 100 1)] (ex_st ex_l)).2 = Err KeyError.
Proof. vm_compute. reflexivity. Qed.
(** ... and keep = 0 keeps everything. *)
Example ex_keep0 :
  let s' := (expire ex_orders (fun _ => None) (fun _ => 1000%Z) [("daily", MkItem 1 0)] (ex_st ex_l)).1 in
  ex_tags s' "a" = Some ["daily"].
Proof. vm_compute. reflexivity. Qed.

(** ** C36 *)
(** Revisions with tag [t] and property [P] on disk. *)
Definition copies (O : orders) (P : rev -> bool) (t : string) (d : disk) : Z :=
  zlen (filter (fun r => t ∈ r_tags r /\ P r = true) (scan_disk O d)).
Definition is_complete (r : rev) : bool := match s_duration (r_stats r) with Some _ => true | None => false end.
Definition keeps_complete (O : orders) (iso : string -> option Z) (now : string -> Z) (S : sched) (s : rst) : Prop :=
  forall t i, (t, i) ∈ S ->
    (Z.min (i_keep i) (copies O is_complete t (w_disk (rs_w s))) <=
     copies O is_complete t (w_disk (rs_w (expire O iso now S s).1)))%Z.
Theorem C36_keep_complete_refuted :
  exists O iso now S s, orders_ok O /\ rev_files_ok (w_disk (rs_w s)) /\ sched_ok S /\ ~ keeps_complete O iso now S s.
Proof.
  exists ex_orders, (fun _ => None), (fun _ => 10000%Z), ex_S,
    (ex_st [ex_e "a" 100 (Some 1%Z) ["weekly"; "manual:x"]; ex_e "b" 200 None ["weekly"]]).
  split; [apply ex_orders_ok|]. split; [apply ex_st_ok|]. split; [apply ex_S_ok|].
  intros Hk. specialize (Hk "weekly" (MkItem 700 1) ltac:(right; left)). vm_compute in Hk. apply Hk. reflexivity.
Qed.
(** Counting all copies, complete or not, it holds; hence also when all copies
    with the tag are complete. *)
Theorem C36_keep_copies_partial O iso now S s t i :
  orders_ok O -> rev_files_ok (w_disk (rs_w s)) -> sched_ok S -> (t, i) ∈ S ->
  let d := w_disk (rs_w s) in
  let d' := w_disk (rs_w (expire O iso now S s).1) in
  (Z.min (i_keep i) (copies O (fun _ => true) t d) <= copies O (fun _ => true) t d')%Z /\
  ((forall r, r ∈ scan_disk O d -> t ∈ r_tags r -> is_complete r = true) ->
   Z.min (i_keep i) (copies O is_complete t d) <= copies O is_complete t d')%Z.
Proof.
  intros HO Hf HS Hi d d'.
  destruct (expire_spec O iso now S s HO Hf HS) as (s' & E1 & _ & Hsy & H1 & _).
  assert (Hd' : d' = w_disk (rs_w s')) by (unfold d'; rewrite E1; done).
  pose proof (scan_disk_nodup O d) as Hn. destruct (proj2 HS t i Hi) as (_ & Hnm & Hk).
  assert (Hcount : forall P : rev -> bool, (forall r T, P (with_tags T r) = P r) ->
    (forall r, r ∈ scan_disk O d -> t ∈ r_tags r -> P r = true) ->
    (Z.min (i_keep i) (copies O P t d) <= copies O P t d')%Z).
  { intros P HP Hall. unfold copies.
    assert (Hle : (Z.min (i_keep i) (zlen (filter (fun x => t ∈ r_tags x) (scan_disk O d))) <=
      zlen (filter (fun x => t ∈ r_tags x /\ (tailcount (scan_disk O d) t x < i_keep i)%Z) (scan_disk O d)))%Z)
      by (apply newest_count; done).
    assert (Heq : filter (fun r => t ∈ r_tags r /\ P r = true) (scan_disk O d) = filter (fun x => t ∈ r_tags x) (scan_disk O d)).
    { apply RevSpecProofs.filter_ext_in. intros x Hx. split; [tauto|]. intros Ht. split; [done|]. apply Hall; done. }
    rewrite Heq. etrans; [exact Hle|]. unfold zlen. apply inj_le. apply length_uuid_le; [apply NoDup_filter_uuid; done|].
    intros x Hx. apply elem_of_list_filter in Hx as [[Hx1 Hx2] Hx].
    assert (HK : t ∈ kept S (scan_disk O d) now x).
    { apply kept_elem; [done..|]. split; [done|]. right. exists i. split; [done|]. intros Ho.
      apply obs_spec in Ho; [|done..]. apply obs_tailcount in Ho as (_ & _ & Ho & _). lia. }
    exists (with_tags (kept S (scan_disk O d) now x) x). split; [|done].
    apply elem_of_list_filter. split; [split; [done|]; rewrite HP; apply Hall; done|].
    rewrite Hd'. apply scan_disk_elem; [done|apply synced_files; done|].
    destruct Hsy as [_ Hsy]. apply Hsy. split; [|done]. rewrite H1. apply elem_of_list_omap. exists x. split; [done|].
    unfold final. rewrite decide_False; [done|]. intros [He _]. fold d in He. rewrite He in HK. apply elem_of_empty in HK. done. }
  split; [apply Hcount; done|]. intros Hall. apply Hcount; done.
Qed.
Print Assumptions C36_keep_complete_refuted.
Print Assumptions C36_keep_copies_partial.
Example ex_C36 :
  copies ex_orders is_complete "daily" (w_disk (rs_w (ex_st ex_l))) = 5%Z /\
  copies ex_orders is_complete "daily" (w_disk (rs_w (expire ex_orders (fun _ => None) (fun _ => 1000%Z) ex_S (ex_st ex_l)).1)) = 2%Z.
Proof. vm_compute. split; reflexivity. Qed.

(** ** C37 *)
(** Again at the same time of the clock, with any enumeration of the directory. *)
Theorem C37_twice O O2 iso now S s s' s2 :
  orders_ok O -> orders_ok O2 -> rev_files_ok (w_disk (rs_w s)) -> sched_ok S ->
  expire O iso now S s = (s', Ok tt) ->
  w_disk (rs_w s2) = w_disk (rs_w s') ->
  exists s2', expire O2 iso now S s2 = (s2', Ok tt) /\ drevs s2' = drevs s'.
Proof.
  intros HO HO2 Hf HS E Hd2.
  destruct (expire_spec O iso now S s HO Hf HS) as (s1 & E1 & D1 & Hsy & H1 & P1).
  assert (s1 = s') as -> by congruence.
  assert (Hf2 : rev_files_ok (w_disk (rs_w s2))) by (rewrite Hd2; apply synced_files; done).
  assert (Hlook : forall r T, with_tags T r ∈ scan_disk O2 (w_disk (rs_w s2)) -> r ∈ scan_disk O (w_disk (rs_w s)) ->
    T = kept S (scan_disk O (w_disk (rs_w s))) now r).
  { intros r T Hr2 Hr. apply (scan_disk_elem O2 _ _ HO2 Hf2) in Hr2. rewrite Hd2 in Hr2. apply Hsy in Hr2 as [Hr2 _].
    rewrite H1 in Hr2. apply elem_of_list_omap in Hr2 as (y & Hy & Hx). unfold final in Hx. destruct (decide _); [done|].
    apply (inj Some) in Hx. assert (y = r) as ->.
    { apply (uuid_inj _ y r (scan_disk_nodup O (w_disk (rs_w s))) Hy Hr).
      apply (f_equal r_uuid) in Hx. done. }
    apply (f_equal r_tags) in Hx. done. }
  assert (Hpart : forall u, partway O now S s u (drevs s2 !! u)).
  { intros u. rewrite Hd2. destruct Hsy as [Hsy1 Hsy2]. unfold partway. destruct (drevs s' !! u) as [x|] eqn:Hx.
    - apply Hsy2 in Hx as [Hx Hu]. rewrite H1 in Hx. apply elem_of_list_omap in Hx as (y & Hy & Hyx).
      unfold final in Hyx. destruct (decide _); [done|]. injection Hyx as <-.
      assert (Hl : drevs s !! u = Some y) by (apply (hist_lookup O s HO Hf); done). rewrite Hl.
      eexists. split; [done|]. split; [done|]. unfold kept. intros t Ht. apply elem_of_difference in Ht as [Ht _].
      apply strip_sub in Ht. done.
    - destruct (drevs s !! u) as [r|] eqn:Hl; [|done]. apply (hist_lookup O s HO Hf) in Hl as [Hr Hu].
      destruct (decide (kept S (scan_disk O (w_disk (rs_w s))) now r = ∅ /\ r_server r = "")) as [|Hno]; [done|]. exfalso.
      assert (Hx' : drevs s' !! u = Some (with_tags (kept S (scan_disk O (w_disk (rs_w s))) now r) r)); [|congruence].
      apply Hsy2. split; [|done]. rewrite H1. apply elem_of_list_omap. exists r. split; [done|]. unfold final.
      rewrite decide_False by done. done. }
  destruct (rerun_same O now S s HO Hf HS O2 s2 HO2 Hf2 Hpart iso) as (a & b & A & B & C).
  { intros r T Hr Hr2 HT1 HT2. pose proof (Hlook r T Hr2 Hr) as HTK. subst T.
    apply twice_kept; try done. intros x T' Hx Hx2. apply Hlook; done. }
  exists b. split; [done|]. congruence.
Qed.
(** Killed anywhere, and run again at the same time of the clock: the outcome is
    the one of an undisturbed run.  Timestamps must differ: of two revisions
    with the same one, either may count as the newer one in the second run. *)
Theorem C37_interrupted O O2 iso now S s s' d s2 :
  orders_ok O -> orders_ok O2 -> rev_files_ok (w_disk (rs_w s)) -> sched_ok S ->
  NoDup (map r_ts (scan_disk O (w_disk (rs_w s)))) ->
  expire O iso now S s = (s', Ok tt) -> killed s s' d ->
  w_disk (rs_w s2) = d ->
  data_same (w_disk (rs_w s)) d /\
  exists s2', expire O2 iso now S s2 = (s2', Ok tt) /\ drevs s2' = drevs s'.
Proof.
  intros HO HO2 Hf HS Hts E Hk Hd2.
  destruct (expire_spec O iso now S s HO Hf HS) as (s1 & E1 & D1 & Hsy & H1 & P1).
  assert (s1 = s') as -> by congruence. destruct (P1 d Hk) as [Q1 Q2]. split; [done|].
  assert (Hpart : forall u, partway O now S s u (drevs s2 !! u)) by (rewrite Hd2; done).
  assert (Hf2 : rev_files_ok (w_disk (rs_w s2))).
  { intros n r Hr. specialize (Hpart n). rewrite Hr in Hpart. unfold partway in Hpart.
    destruct (drevs s !! n) as [y|] eqn:Hy; [|done]. destruct Hpart as (T & -> & _). cbn. apply Hf. done. }
  destruct (rerun_same O now S s HO Hf HS O2 s2 HO2 Hf2 Hpart iso) as (a & b & A & B & C).
  { intros r T Hr Hr2 HT1 HT2. eapply rerun_kept; done. }
  exists b. split; [done|]. congruence.
Qed.
Print Assumptions C37_twice.
Print Assumptions C37_interrupted.
(** Killed after the first of the five metadata changes (each three effects). *)
Example ex_C37 :
  let run s := (expire ex_orders (fun _ => None) (fun _ => 1000%Z) ex_S s).1 in
  let s0 := ex_st ex_l in
  let d := replay (take 3 (w_log (rs_w (run s0)))) (w_disk (rs_w s0)) in
  let s2 := MkRst (MkWorld d [] ∅ false) [] [] in
  ex_tags s2 "a" = Some [] /\ ex_tags s2 "b" = Some ["daily"; "yearly"; "weekly"] /\
  map (ex_tags (run s2)) ["a"; "b"; "c"; "d"; "e"] = map (ex_tags (run s0)) ["a"; "b"; "c"; "d"; "e"] /\
  map (ex_tags (run (run s0))) ["a"; "b"; "c"; "d"; "e"] = map (ex_tags (run s0)) ["a"; "b"; "c"; "d"; "e"].
Proof. vm_compute. repeat split; reflexivity. Qed.
