(** After a backend error everything is distrusted (C14); snapshots (C19). *)
From Verif Require Export Proofs.VerifyProofs.

(** ** The body of a backup leaves metadata files alone *)
Definition part_rev (r : rev) : rev :=
  with_rstats (MkStats (s_bytes_written (r_stats r)) (s_duration (r_stats r))
    (Some "partial"%string)) r.
Section Quiet.
Context (E : env) (r : rev) (R : gmap string rev) (H : list rev) (S : list (string * bytes)).
Record Q (s : rst) : Prop := {
  q_revs : d_revs (w_disk (rs_w s)) = R;
  q_hist : rs_hist s = H \/ rs_hist s = hist_set (part_rev r) H;
  q_snaps : rs_snaps s = S }.
Definition keepsQ {A} (m : M rst A) : Prop := forall s, Q s -> Q (m s).1.
Lemma keepsQ_bind {A B} (m : M rst A) (k : A -> M rst B) :
  keepsQ m -> (forall a, keepsQ (k a)) -> keepsQ (bind m k).
Proof.
  intros H1 H2 s Hs. unfold bind. specialize (H1 s Hs).
  destruct (m s) as [s1 [a|e]]; [apply H2|]; done.
Qed.
Lemma keepsQ_same {A} (m : M rst A) : (forall s, (m s).1 = s) -> keepsQ m.
Proof. intros Hm s Hs. rewrite Hm. done. Qed.
Lemma keepsQ_eff e : (forall n x, e <> ERevPut n x) -> (forall n, e <> ERevDel n) -> keepsQ (eff_ e).
Proof.
  intros H1 H2 s [? ? ?]. constructor; [|done|done]. cbn -[apply_eff].
  destruct e; try done; [destruct (H1 n r0 eq_refl)|destruct (H2 n eq_refl)].
Qed.
Lemma keepsQ_file {A} n wr (p : prog A) : keepsQ (with_file E n wr p).
Proof.
  intros s Hs. unfold with_file. destruct (file_open _ _ _ _ _); [|done].
  set (w := if wr && contains_distrusted (rs_hist s) then _ else _) in *.
  assert (Hw : w_disk w = w_disk (rs_w s))
    by (unfold w; destruct (wr && contains_distrusted (rs_hist s)); done).
  destruct (session_delta E n (negb wr) wr p w) as (l' & G1 & G2 & G3).
  destruct (session E n (negb wr) wr p w) as [w2 x]. cbn [fst] in *. destruct Hs as [? ? ?].
  constructor; [|done|done]. cbn. rewrite G2, Hw.
  assert (Hr : forall l d, (forall e, e ∈ l -> match e with ERevPut _ _ | ERevDel _ => False | _ => True end) ->
     d_revs (replay l d) = d_revs d).
  { induction l as [|e l IH]; intros d Hl; [done|].
    change (replay (e :: l) d) with (replay l (apply_eff e d)). rewrite IH.
    - specialize (Hl e (elem_of_list_here _ _)). destruct e; done.
    - intros e' He'. apply Hl. right. done. }
  rewrite Hr; [done|]. intros e He. specialize (G3 e He). destruct e; done.
Qed.
Lemma keepsQ_body af B : keepsQ (backup_body E af B r).
Proof.
  unfold backup_body. apply keepsQ_bind. { apply keepsQ_same. intros s. unfold ceph_parent. destruct af; done. }
  intros parent. apply keepsQ_bind.
  { destruct parent as [p|]; [|apply keepsQ_same; done]. intros s Hs. cbn [copy_parent].
    destruct (bool_decide _); [|done]. revert s Hs. apply keepsQ_bind; [apply keepsQ_eff; done|]. intros _.
    apply keepsQ_bind; [apply keepsQ_same; done|]. intros s1.
    destruct (d_maps _ !! _); [apply keepsQ_eff; done|apply keepsQ_same; done]. }
  intros _. apply keepsQ_bind; [apply keepsQ_file|]. intros _.
  apply keepsQ_bind; [apply keepsQ_same; done|]. intros s0.
  destruct (file_open _ _ _ _ _); [|apply keepsQ_same; done].
  apply keepsQ_bind.
  { intros s [? Hh ?]. constructor; [done| |done]. right. cbn. fold (part_rev r).
    destruct Hh as [-> | ->]; [done|]. unfold hist_set. rewrite map_map. apply map_ext.
    intros x. cbn. repeat case_decide; done. }
  intros _. apply keepsQ_bind; [apply keepsQ_same; done|]. intros a0. apply keepsQ_file.
Qed.
End Quiet.

(** ** distrust *)
Lemma distrust_run l : (forall x, x ∈ l -> is_local x = true) -> forall s,
  exists s', distrust l s = (s', Ok tt) /\ rs_snaps s' = rs_snaps s /\
    d_maps (w_disk (rs_w s')) = d_maps (w_disk (rs_w s)) /\
    d_chunks (w_disk (rs_w s')) = d_chunks (w_disk (rs_w s)) /\
    (forall n x, d_revs (w_disk (rs_w s')) !! n = Some x ->
       (exists y, y ∈ l /\ r_uuid y = n /\ x = with_trust DISTRUSTED y) \/
       (d_revs (w_disk (rs_w s)) !! n = Some x /\ forall y, y ∈ l -> r_uuid y <> n)) /\
    (forall n, (forall y, y ∈ l -> r_uuid y <> n) ->
       d_revs (w_disk (rs_w s')) !! n = d_revs (w_disk (rs_w s)) !! n).
Proof.
  induction l as [|a l IH]; intros Hl s.
  { exists s. cbn. split; [done|]. split; [done|]. split; [done|]. split; [done|].
    split; [|done]. intros n x Hx. right. split; [done|]. intros y Hy. inversion Hy. }
  unfold distrust. cbn [mfor]. unfold bind at 1.
  assert (Ha : is_local a = true) by (apply Hl; left).
  rewrite Ha. cbn [massert]. unfold bind at 1, bind at 1, ret at 1.
  set (a' := with_trust DISTRUSTED a).
  set (s1 := (write_info a' (set_hist (hist_set a' (rs_hist s)) s)).1).
  assert (Hw : (let '(s', r) := upd a' s in match r with Ok _ => write_info a' s' | Err e => (s', Err e) end)
     = (s1, Ok tt)) by done.
  rewrite Hw.
  destruct (IH ltac:(intros x Hx; apply Hl; right; done) s1) as (s' & H1 & H2 & H3 & H4 & H5 & H6).
  exists s'. split; [exact H1|]. split; [rewrite H2; done|]. split; [rewrite H3; done|].
  split; [rewrite H4; done|].
  assert (Hs1 : d_revs (w_disk (rs_w s1)) = <[r_uuid a := a']> (d_revs (w_disk (rs_w s)))) by done.
  split.
  - intros n x Hx. destruct (H5 n x Hx) as [(y & Hy & Hn & ->)|[Hx1 Hno]].
    + left. exists y. split; [right; done|done].
    + rewrite Hs1 in Hx1. destruct (decide (r_uuid a = n)) as [<-|Hne].
      * rewrite lookup_insert in Hx1. injection Hx1 as <-. left. exists a. split; [left|done].
      * rewrite lookup_insert_ne in Hx1 by done. right. split; [done|].
        intros y [->|Hy]%elem_of_cons; auto.
  - intros n Hno. rewrite H6; [|intros y Hy; apply Hno; right; done].
    rewrite Hs1, lookup_insert_ne; [done|]. apply Hno. left.
Qed.

Lemma after_distrusted E O s s' res : orders_ok O -> rev_files_ok (w_disk (rs_w s)) ->
  all_distrusted (w_disk (rs_w s)) -> after_backup E O s = (s', res) ->
  distrusted_or_read E (w_disk (rs_w s')).
Proof.
  intros HO Hf Had Hrun. unfold after_backup in Hrun. unfold bind at 1 2, bind at 1 in Hrun.
  cbn [eff_ modify scan get] in Hrun.
  set (s1 := set_hist _ _) in Hrun.
  assert (Hd1 : w_disk (rs_w s1) = w_disk (rs_w s)) by done.
  assert (Hh1 : forall x, x ∈ rs_hist s1 <-> d_revs (w_disk (rs_w s1)) !! r_uuid x = Some x).
  { intros x. apply scan_disk_elem; [done|]. rewrite Hd1. done. }
  destruct (list_find _ _) as [[i x]|] eqn:Hfind.
  2:{ injection Hrun as <- <-. intros n y Hy Hl. left. rewrite Hd1 in Hy. eauto. }
  apply list_find_Some in Hfind as (Hin & Htr & _).
  apply elem_of_list_lookup_2, elem_of_reverse, get_history_elem in Hin as (Hin & Hc & Hloc).
  specialize (Hloc eq_refl).
  destruct (verify_run E O x s1 s' res HO Hloc Hrun) as [[-> _]|(m & z & Hm & Hmm & Hcase)].
  { intros n y Hy Hl. left. rewrite Hd1 in Hy. eauto. }
  destruct Hcase as [(Hall & Hrevs & Hch)|(id & h & _ & _ & _ & _ & Hrevs)].
  - intros n y Hy Hl. rewrite Hrevs in Hy. destruct (decide (r_uuid x = n)) as [<-|Hne].
    + rewrite lookup_insert in Hy. injection Hy as <-. right. split; [done|].
      exists m, z. rewrite Hmm. split; [done|]. intros id h Hid.
      assert (Hnv : ~ vouched s1 h).
      { intros (v & Hv & _ & Hvl & Hvt & _). apply Hh1 in Hv. rewrite Hd1 in Hv.
        rewrite (Had _ _ Hv Hvl) in Hvt. done. }
      specialize (Hall id h Hid Hnv). unfold chunk_content in *. rewrite Hch; [done|].
      exists x. split; [done|]. split; [unfold is_local in Hloc; apply bool_decide_eq_true in Hloc; done|].
      exists m, z, id. done.
    + rewrite lookup_insert_ne in Hy by done. left. rewrite Hd1 in Hy. eauto.
  - intros n y Hy Hl. rewrite Hrevs in Hy. apply lookup_delete_Some in Hy as [_ Hy].
    left. rewrite Hd1 in Hy. eauto.
Qed.

Section T.
Context (E : env) (O : orders) (af : bool) (B : bk) (r : rev) (s s' : rst) (rb : res bool).
Hypothesis HO : orders_ok O.
Hypothesis Hrepo : repo_ok E O r s.
Hypothesis Hrun : backup E O af B r s = (s', rb).

Let s0 := set_w (do_eff ETmp (do_eff ETmp (rs_w s))) s.
Lemma try_quiet : exists s1 x, backup_try E af B r s0 = (s1, x) /\
  d_revs (w_disk (rs_w s1)) = d_revs (w_disk (rs_w s)) /\
  (rs_hist s1 = rs_hist s \/ rs_hist s1 = hist_set (part_rev r) (rs_hist s)).
Proof.
  unfold backup_try. destruct (bk_snap B) as [c|e].
  2:{ eexists _, _. split; [reflexivity|]. split; [done|left; done]. }
  set (s2 := set_snaps _ s0).
  pose proof (keepsQ_body E r (d_revs (w_disk (rs_w s))) (rs_hist s) (rs_snaps s2) af B s2) as HQ.
  destruct (backup_body E af B r s2) as [s3 r3]. cbn [fst] in HQ.
  destruct HQ as [Q1 Q2 Q3]; [constructor; [done|left; done|done]|].
  unfold delete_old_snapshots. destruct (bk_ls B); eexists _, _; (split; [reflexivity|]); done.
Qed.

(** A run whose try statement ended with a backend error. *)
Lemma backend_error e :
  bk_ready B = true ->
  (backup_try E af B r s0).2 = Err e -> is_backend_exn e = true ->
  rb <> Ok true /\ d_revs (w_disk (rs_w s')) !! r_uuid r = None /\
  distrusted_or_read E (w_disk (rs_w s')) .
Proof.
  intros Hready He Hbe. destruct Hrepo as [R1 R2 R3 R4 R5 R6 R7 R8 R9 R10].
  assert (Hrl : is_local r = true) by (unfold is_local; rewrite R6; done).
  pose proof Hrun as Hrun'. unfold backup in Hrun'. unfold bind at 1 2 in Hrun'.
  cbn [eff_ modify] in Hrun'. rewrite Hready in Hrun'. cbn [negb] in Hrun'.
  change (set_w (do_eff ETmp (rs_w (set_w (do_eff ETmp (rs_w s)) s))) (set_w (do_eff ETmp (rs_w s)) s))
    with s0 in Hrun'.
  destruct try_quiet as (s1 & x & Htry & Hrevs & Hhist).
  rewrite Htry in He. cbn in He. subst x.
  assert (Hex : forall n x, d_revs (w_disk (rs_w s)) !! n = Some x -> r_server x = "" ->
    exists y, y ∈ filter (fun x => is_local x = true) (rs_hist s1) /\ r_uuid y = n).
  { intros n x Hx Hsx. assert (Hxh : x ∈ rs_hist s).
    { rewrite R4. apply scan_disk_elem; try done. rewrite (R3 n x Hx). done. }
    assert (Hxl : is_local x = true) by (unfold is_local; rewrite Hsx; done).
    destruct Hhist as [Hh|Hh]; rewrite Hh.
    - exists x. rewrite elem_of_list_filter. split; [done|]. apply R3. done.
    - destruct (decide (r_uuid x = r_uuid r)) as [Hxr|Hxr].
      + exists (part_rev r). rewrite elem_of_list_filter. split; [split; [exact Hrl|]|].
        * eapply hist_set_in; [exact Hxh|exact Hxr].
        * cbn. rewrite <- Hxr. apply R3. done.
      + exists x. rewrite elem_of_list_filter. split; [split; [done|]|apply R3; done].
        apply hist_set_keep; done. }
  unfold bind at 1 in Hrun'. unfold backup_guarded at 1 in Hrun'. rewrite Htry, Hbe in Hrun'.
  unfold bind at 1 in Hrun'.
  destruct (distrust_run (filter (fun x => is_local x = true) (rs_hist s1))) with (s := s1)
    as (s2 & Hd & D1 & D2 & D3 & D4 & D5).
  { intros y Hy. apply elem_of_list_filter in Hy as [? _]. done. }
  rewrite Hd in Hrun'. cbn [ret] in Hrun'.
  assert (Had2 : all_distrusted (w_disk (rs_w s2))).
  { intros n y Hy Hl. destruct (D4 n y Hy) as [(z & _ & _ & ->)|[Hy1 Hno]]; [done|].
    rewrite Hrevs in Hy1. destruct (Hex n y Hy1 Hl) as (z & Hz & Hzn). destruct (Hno z Hz Hzn). }
  assert (Hf2 : rev_files_ok (w_disk (rs_w s2))).
  { intros n y Hy. destruct (D4 n y Hy) as [(z & _ & Hz & ->)|[Hy1 Hno]]; [done|].
    rewrite Hrevs in Hy1. auto. }
  assert (Hfin : exists s3, finish_backup B r false s2 = (s3, Ok tt) /\
     d_revs (w_disk (rs_w s3)) = delete (r_uuid r) (d_revs (w_disk (rs_w s2)))).
  { unfold finish_backup, rev_remove. rewrite Hrl. cbn [negb andb]. unfold bind, get.
    case_bool_decide as Hn; (eexists; split; [reflexivity|]); cbn; [done|].
    rewrite delete_notin; [done|]. apply eq_None_not_Some. done. }
  destruct Hfin as (s3 & Hfin & Hr3). unfold bind at 1 in Hrun'. rewrite Hfin in Hrun'.
  unfold bind at 1 in Hrun'.
  destruct (after_backup E O s3) as [s4 r4] eqn:Haf.
  assert (s' = s4 /\ rb <> Ok true) as [-> Hrb].
  { destruct r4; injection Hrun' as <- <-; done. }
  split; [done|]. split.
  - assert (Hy : HT (fun _ => True) (U (r_uuid r) (fun _ => False))
      (nc (r_uuid r) (fun _ => False)) (after_backup E O) (UQ (r_uuid r) (fun _ => False))).
    { apply HT_U_after; [done|]. intros x t Hx'. exact Hx'. }
    destruct (Grows_after E O s3) as [l3 Hl3].
    destruct (Hy s3 l3) as [_ HU3]; [|exact Hl3|done|].
    + constructor.
      * intros n y. rewrite Hr3, lookup_delete_Some. intros [_ ?]. auto.
      * intros y. rewrite Hr3, lookup_delete. done.
      * unfold finish_backup, rev_remove in Hfin. rewrite Hrl in Hfin. cbn [negb andb] in Hfin.
        unfold bind, get in Hfin.
        assert (Hh3 : rs_hist s3 = hist_del (r_uuid r) (rs_hist s2)).
        { case_bool_decide; cbn in Hfin; injection Hfin as <-; done. }
        rewrite Hh3. intros y [_ ?]%hist_del_elem. done.
    + rewrite Haf in HU3. apply eq_None_not_Some. intros [y Hy']. exact (u_disk _ _ _ HU3 y Hy').
  - eapply (after_distrusted E O s3 s4 r4); try done.
    + intros n y. rewrite Hr3, lookup_delete_Some. intros [_ ?]. auto.
    + intros n y. rewrite Hr3, lookup_delete_Some. intros [_ Hy]. exact (Had2 n y Hy).
Qed.
End T.
