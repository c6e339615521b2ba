(** C50-C52, C69: exchanging metadata with other servers. *)
From Verif Require Import Proofs.SyncProofs Props.PRepo Props.PApi Props.PExpire.
From Verif Require Import Model.Sync.

(** ** C50 *)
(** What a peer offers: its complete revisions that are its own. *)
Definition offered (d : disk) (x : rev) : Prop :=
  d_revs d !! r_uuid x = Some x /\ is_Some (s_duration (r_stats x)) /\ r_server x = "".
(** A local record of the revision [x] of server [p]: the same, under p's name, nothing
    pending. *)
Definition record_of (p : string) (x r : rev) : Prop :=
  r_uuid r = r_uuid x /\ r_ts r = r_ts x /\ r_stats r = r_stats x /\ r_tags r = r_tags x /\
  r_trust r = r_trust x /\ r_orig r = r_tags x /\ r_server r = p.
Lemma record_mark p x r : record_of p x r <-> r = mark p x.
Proof.
  unfold record_of, mark. split.
  - destruct r, x; cbn. intros (-> & -> & -> & -> & -> & -> & ->). done.
  - intros ->. done.
Qed.
(** The peer knows the repository (as a job or as an inactive one), with this disk. *)
Definition has_repo (name : string) (P : peer) (d : disk) : Prop :=
  exists r, w_disk (rs_w r) = d /\
    (a_dead (pe_api P) !! name = Some r \/ a_dead (pe_api P) !! name = None /\ a_jobs (pe_api P) !! name = Some r).
Definition valid_token (P : peer) (token : string) : Prop :=
  exists client, pe_tokens P !! token = Some client /\ client <> "".
(** The requests of a pull, when nothing is lost on the way: the peer's offer, or an
    error that leaves the client without revisions. *)
Theorem C50_fetch name p token P d :
  orders_ok (pe_O P) -> rev_files_ok d -> valid_token P token -> has_repo name P d ->
  exists l, (fetch name p token NReply NReply P).2 = Ok l /\ NoDup (map r_uuid l) /\
    forall r, r ∈ l <-> exists x, offered d x /\ record_of p x r.
Proof.
  intros HO Hf (cl & Ht & Hc) (r & <- & Hr).
  assert (Hauth : forall rt, auth (pe_tokens P) (MkReq (Some ("Bearer " ++ token)%string) rt) = Some cl).
  { intros rt. destruct (proj2 (auth_spec (pe_tokens P) (MkReq (Some ("Bearer " ++ token)%string) rt))) as [c Hc'].
    { by exists token, cl. }
    unfold auth in *. cbn [q_auth] in *.
    assert (Hb : starts bearer (default "" (Some ("Bearer " ++ token)%string)) = true) by (apply starts_spec; by exists token).
    rewrite Hb in *. cbn [negb] in *.
    assert (Hb' : remove_prefix bearer (default "" (Some ("Bearer " ++ token)%string)) = token)
      by exact (remove_prefix_app bearer token).
    rewrite Hb', Ht in *. by rewrite bool_decide_eq_false_2 by done. }
  assert (Hg : get_backup name true (pe_api P) = inl r).
  { unfold get_backup. destruct Hr as [->|[-> ->]]; done. }
  exists (map (mark p) (get_history true true (scan_disk (pe_O P) (w_disk (rs_w r))))).
  split; [|split].
  - unfold fetch, ask, serve. rewrite Hauth. cbn [q_route handler pe_tokens]. rewrite Hg. cbn [fst snd p_status pe_tokens resp].
    rewrite Hauth. cbn [q_route handler pe_api].
    match goal with |- context [get_backup name true ?a] => assert (Hg' : get_backup name true a = inl r) end.
    { unfold get_backup. cbn [a_dead a_jobs]. destruct Hr as [->|[-> ->]]; done. }
    rewrite Hg'. done.
  - rewrite map_map. cbn.
    change (fun x => r_uuid (mark p x)) with r_uuid. unfold get_history.
    pose proof (scan_disk_nodup (pe_O P) (w_disk (rs_w r))) as Hn.
    induction (scan_disk (pe_O P) (w_disk (rs_w r))) as [|x h IH]; [constructor|].
    cbn in Hn. apply NoDup_cons in Hn as [Hx Hn].
    match goal with |- context [filter ?Q (x :: h)] => destruct (decide (Q x)) as [Hd|Hd] end.
    + rewrite filter_cons_True by done. cbn. apply NoDup_cons. split; [|by apply IH].
      intros Hi. apply Hx. apply elem_of_list_fmap in Hi as (y & -> & Hy).
      apply elem_of_list_filter in Hy as [_ Hy]. apply elem_of_list_fmap. by exists y.
    + rewrite filter_cons_False by done. by apply IH.
  - intros x. rewrite elem_of_list_fmap. unfold get_history. split.
    + intros (y & -> & Hy). exists y. split; [|by apply record_mark].
      apply elem_of_list_filter in Hy as [Hy Hi]. cbn in Hy. apply andb_true_iff in Hy as [H1 H2].
      apply scan_disk_elem in Hi; [|done|done]. unfold offered. split; [done|].
      unfold is_clean, is_local in *. split; [by destruct (s_duration _)|by apply bool_decide_eq_true in H2].
    + intros (y & (H1 & H2 & H3) & Hy). apply record_mark in Hy as ->. exists y. split; [done|].
      apply elem_of_list_filter. split; [|by apply scan_disk_elem]. cbn. apply andb_true_iff.
      unfold is_clean, is_local. split; [by destruct H2 as [? ->]|by apply bool_decide_eq_true].
Qed.

(** The pull itself.  [owner] tells to which server an identifier belongs; the peers'
    replies arrive in any order; none of them raises anything but a client error. *)
Theorem C50_pull O same owner peers replies s :
  orders_ok O -> rev_files_ok (w_disk (rs_w s)) -> scanned O s ->
  NoDup peers -> "" ∉ peers -> map fst replies ≡ₚ peers ->
  (forall u r, drevs s !! u = Some r -> r_server r = owner u) ->
  (forall p a, (p, a) ∈ replies -> reply_ok owner p a) ->
  let s' := (pull_metadata O same peers replies s).1 in
  (pull_metadata O same peers replies s).2 = Ok (sum_errors replies) /\
  (* local revisions *)
  (forall r, r_server r = "" -> on_disk s' r <-> on_disk s r) /\
  (* revisions of peers: exactly what they sent; as before when unreachable; otherwise none *)
  (forall p a r, (p, a) ∈ replies -> r_server r = p -> on_disk s' r <-> kept_after a (on_disk s r) r) /\
  (* revisions of servers that are no longer configured *)
  (forall r, r_server r <> "" -> r_server r ∉ peers -> ~ on_disk s' r) /\
  (* nothing else *)
  rev_files_ok (w_disk (rs_w s')) /\ data_same (w_disk (rs_w s)) (w_disk (rs_w s')) /\
  forall d, killed s s' d -> data_same (w_disk (rs_w s)) d /\ in_between (drevs s) (drevs s') (d_revs d).
Proof.
  intros HO Hf Hs Hnp He Hperm Hown Hrep.
  assert (Hn : NoDup (map r_uuid (rs_hist s))) by (rewrite Hs; apply scan_disk_nodup).
  assert (Hmem : forall r, r ∈ rs_hist s <-> on_disk s r).
  { intros r. rewrite Hs. by apply scan_disk_elem. }
  assert (Ho : owned owner s).
  { split; [intros u r Hd; split; [by apply Hf|by apply Hown]|]. split; [|done].
    intros r Hr. apply Hmem in Hr. by apply Hown. }
  unfold pull_metadata.
  set (c := fun r => negb (bool_decide (r_server r = "")) && bool_decide (r_server r ∉ peers)).
  assert (Hc : forall r, c r = true <-> r_server r <> "" /\ r_server r ∉ peers).
  { intros r. unfold c. rewrite andb_true_iff, negb_true_iff, bool_decide_eq_false, bool_decide_eq_true. done. }
  destruct (remove_sel c (rs_hist s) s Hn) as (A1 & (e1 & D1 & M1 & N1 & K1) & V1 & H1).
  assert (Hdead : remove_dead peers s = mfor (rs_hist s) (fun r => if c r then rev_remove true r else ret tt) s) by reflexivity.
  unfold bind. rewrite Hdead.
  destruct (mfor (rs_hist s) (fun r => if c r then rev_remove true r else ret tt) s) as [s1 x1]. cbn [fst snd] in *. subst x1.
  set (gone := map r_uuid (filter (fun r => c r = true) (rs_hist s))) in *.
  assert (Hgone : forall u, u ∈ gone <-> exists r, on_disk s r /\ c r = true /\ r_uuid r = u).
  { intros u. unfold gone. rewrite elem_of_list_fmap. split.
    - intros (r & -> & Hr). apply elem_of_list_filter in Hr as [? Hr]. apply Hmem in Hr. eauto.
    - intros (r & Hr & Hcr & <-). exists r. split; [done|]. apply elem_of_list_filter. by rewrite Hmem. }
  clearbody gone.
  set (dead := fun p => p <> "" /\ p ∉ peers).
  assert (T1 : touched owner dead s s1).
  { exists e1. split_and!; [done|done|done|]. intros u Hu. apply K1, Hgone in Hu as (r & Hr & Hcr & <-).
    rewrite <- (Hown _ _ Hr). by apply Hc. }
  assert (Hd1 : forall r, on_disk s1 r <-> on_disk s r /\ c r = false).
  { intros r. unfold on_disk. rewrite V1. destruct (decide (r_uuid r ∈ gone)) as [Hg|Hg].
    - split; [done|]. intros [Hr Hcr]. apply Hgone in Hg as (y & Hy & Hcy & Hu). unfold on_disk in Hy.
      rewrite Hu, Hr in Hy. congruence.
    - split; [|tauto]. intros Hr. split; [done|]. destruct (c r) eqn:Ec; [|done]. exfalso. apply Hg, Hgone.
      exists r. done. }
  assert (Hm1 : forall r, r ∈ rs_hist s1 <-> on_disk s1 r).
  { intros r. rewrite H1, elem_of_list_filter, Hmem, Hd1. split.
    - intros [Hg Hr]. split; [done|]. destruct (c r) eqn:Ec; [|done]. exfalso. apply Hg, Hgone. exists r. done.
    - intros [Hr Hcr]. split; [|done]. intros Hg. apply Hgone in Hg as (y & Hy & Hcy & Hu).
      unfold on_disk in *. rewrite Hu, Hr in Hy. congruence. }
  assert (O1 : owned owner s1).
  { split; [|split].
    - intros u r Hd. rewrite V1 in Hd. destruct (decide (u ∈ gone)); [done|]. by apply Ho.
    - intros r Hr. apply Hm1, Hd1 in Hr as [Hr _]. by apply Hown.
    - rewrite H1. clear -Hn. induction (rs_hist s) as [|x h IH]; [constructor|]. cbn in Hn.
      apply NoDup_cons in Hn as [Hx Hn]. destruct (decide (r_uuid x ∉ gone)) as [Hd|Hd].
      + rewrite filter_cons_True by done. cbn. apply NoDup_cons. split; [|by apply IH].
        intros Hi. apply Hx. apply elem_of_list_fmap in Hi as (y & -> & Hy).
        apply elem_of_list_filter in Hy as [_ Hy]. apply elem_of_list_fmap. by exists y.
      + rewrite filter_cons_False by done. by apply IH. }
  destruct (pull_all_spec O same owner replies s1 HO O1) as (A2 & T2 & O2 & D2).
  { by rewrite Hperm. }
  { intros p a Hp. split; [|by apply Hrep]. intros r _. symmetry. apply Hm1. }
  destruct (pull_all O same replies s1) as [s2 x2]. cbn [fst snd] in *.
  assert (T : touched owner (fun p => dead p \/ p ∈ map fst replies) s s2).
  { eapply touched_trans; [exact T1|exact T2|]. intros x [_ Hx]. by rewrite Hperm. }
  split; [done|]. split; [|split; [|split; [|split; [|split]]]].
  - intros r Hr. rewrite (on_disk_other owner _ s s2 r T Ho O2); [done|]. rewrite Hr, Hperm. intros [[? _]|?]; done.
  - intros p a r Hp Hr. rewrite (D2 p a r Hp Hr).
    assert (Hcr : c r = false).
    { destruct (c r) eqn:Ec; [|done]. apply Hc in Ec as [_ Ec]. exfalso. apply Ec. rewrite <- Hperm, Hr.
      apply elem_of_list_fmap. by exists (p, a). }
    pose proof (Hd1 r) as Hx. destruct a as [|[]]; cbn; tauto.
  - intros r H2 H3 Hd. rewrite (on_disk_other owner _ s1 s2 r T2 O1 O2), Hd1 in Hd by (by rewrite Hperm).
    destruct Hd as [_ Hd]. assert (c r = true) by (by apply Hc). congruence.
  - intros u r Hd. by apply O2.
  - by eapply touched_data.
  - intros d Hd. by eapply touched_killed.
Qed.
(** Both together: after a pull in which peer [p] answered, the local records of [p] are
    exactly the complete revisions of its own that it has. *)
Theorem C50_mirror O same owner peers replies s name p token P d :
  orders_ok O -> rev_files_ok (w_disk (rs_w s)) -> scanned O s ->
  NoDup peers -> "" ∉ peers -> map fst replies ≡ₚ peers ->
  (forall u r, drevs s !! u = Some r -> r_server r = owner u) ->
  (forall q a, (q, a) ∈ replies -> reply_ok owner q a) ->
  orders_ok (pe_O P) -> rev_files_ok d -> valid_token P token -> has_repo name P d ->
  (p, (fetch name p token NReply NReply P).2) ∈ replies ->
  let s' := (pull_metadata O same peers replies s).1 in
  forall r, r_server r = p -> on_disk s' r <-> exists x, offered d x /\ record_of p x r.
Proof.
  intros HO Hf Hs H1 H2 H3 H4 H5 HP Hd Ht Hr Hin s' r Hp.
  destruct (C50_pull O same owner peers replies s HO Hf Hs H1 H2 H3 H4 H5) as (_ & _ & HC & _).
  unfold s'. rewrite (HC _ _ r Hin Hp). destruct (C50_fetch name p token P d HP Hd Ht Hr) as (l & -> & _ & Hl). apply Hl.
Qed.
Print Assumptions C50_fetch.
Print Assumptions C50_pull.
Print Assumptions C50_mirror.

(** A server with a local revision, records of the peers p1 and p2 and of a server no
    longer configured; p1 has lost "x" and gained "y", p2 is unreachable. *)
Definition ex_m (u : string) (ts : Z) (tags : list string) (srv : string) : rev :=
  MkRev u ts (MkStats 0 (Some 1%Z) None) (list_to_set tags) (list_to_set tags) TRUSTED srv.
Definition ex_sync : rst :=
  (scan ex_orders (ex_state [ex_m "l" 100 ["daily"] ""; ex_m "x" 200 ["daily"] "p1"; ex_m "z" 300 [] "p2"; ex_m "o" 50 [] "old"])).1.
Definition ex_api1 : api :=
  MkApi {["vm" := ex_state [ex_m "y" 150 ["weekly"] ""; MkRev "i" 160 (MkStats 0 None None) ∅ ∅ TRUSTED ""; ex_m "l" 100 ["daily"] "me"]]}
    ∅ ∅ ∅ [] 0.
Definition ex_peer1 : peer := MkPeer {["secret" := "me"]} ex_orders (fun _ => None) false ex_api1.
Definition ex_replies : list (string * res (list rev)) :=
  [("p1", (fetch "vm" "p1" "secret" NReply NReply ex_peer1).2); ("p2", Err ClientConnectionError)].
Definition ex_owner (u : string) : string :=
  if bool_decide (u = "l") then "" else if bool_decide (u = "o") then "old" else if bool_decide (u = "z") then "p2" else "p1".
Example ex_C50 :
  (fetch "vm" "p1" "secret" NReply NReply ex_peer1).2 = Ok [ex_m "y" 150 ["weekly"] "p1"] /\
  (pull_metadata ex_orders (fun _ => true) ["p1"; "p2"] ex_replies ex_sync).2 = Ok 1%Z /\
  let s' := (pull_metadata ex_orders (fun _ => true) ["p1"; "p2"] ex_replies ex_sync).1 in
  map (fun u => bool_decide (is_Some (drevs s' !! u))) ["l"; "x"; "y"; "z"; "o"; "i"]
  = [true; false; true; true; false; false].
Proof. repeat split; vm_compute; reflexivity. Qed.
Example ex_C50_hyps :
  rev_files_ok (w_disk (rs_w ex_sync)) /\ scanned ex_orders ex_sync /\ valid_token ex_peer1 "secret" /\
  (forall u r, drevs ex_sync !! u = Some r -> r_server r = ex_owner u) /\
  (forall p a, (p, a) ∈ ex_replies -> reply_ok ex_owner p a).
Proof.
  assert (Hl : forall u r, drevs ex_sync !! u = Some r ->
    (u, r) ∈ [("l", ex_m "l" 100 ["daily"] ""); ("x", ex_m "x" 200 ["daily"] "p1"); ("z", ex_m "z" 300 [] "p2"); ("o", ex_m "o" 50 [] "old")]).
  { intros u r H.
    assert (Hd : drevs ex_sync = <["l" := ex_m "l" 100 ["daily"] ""]> (<["x" := ex_m "x" 200 ["daily"] "p1"]>
      (<["z" := ex_m "z" 300 [] "p2"]> {["o" := ex_m "o" 50 [] "old"]}))) by reflexivity.
    rewrite Hd in H. repeat (apply lookup_insert_Some in H as [[<- <-]|[_ H]]; [set_solver|]).
    apply lookup_singleton_Some in H as [<- <-]. set_solver. }
  split_and!.
  - intros u r H. apply Hl in H. repeat (apply elem_of_cons in H as [[= -> ->]|H]; [done|]). by apply elem_of_nil in H.
  - reflexivity.
  - by exists "me".
  - intros u r H. apply Hl in H. repeat (apply elem_of_cons in H as [[= -> ->]|H]; [done|]). by apply elem_of_nil in H.
  - intros p a H. unfold ex_replies in H. apply elem_of_cons in H as [[= -> ->]|H].
    + assert (Hf : (fetch "vm" "p1" "secret" NReply NReply ex_peer1).2 = Ok [ex_m "y" 150 ["weekly"] "p1"])
        by (vm_compute; reflexivity).
      rewrite Hf. cbn. split; [by apply NoDup_singleton|]. intros r Hr. apply elem_of_list_singleton in Hr as ->. done.
    + apply elem_of_list_singleton in H as [= -> ->]. done.
Qed.

(** ** C69: a peer cannot overwrite a local revision *)
(** Whatever the peers send, local revisions stay as they are, provided that no peer
    sends an identifier of this server. *)
Theorem C69_local_kept_partial O same owner peers replies s :
  orders_ok O -> rev_files_ok (w_disk (rs_w s)) -> scanned O s ->
  NoDup peers -> "" ∉ peers -> map fst replies ≡ₚ peers ->
  (forall u r, drevs s !! u = Some r -> r_server r = owner u) ->
  (forall p a, (p, a) ∈ replies -> reply_ok owner p a) ->
  forall r, r_server r = "" -> on_disk s r -> on_disk (pull_metadata O same peers replies s).1 r.
Proof.
  intros HO Hf Hs H1 H2 H3 H4 H5 r Hr Hd.
  destruct (C50_pull O same owner peers replies s HO Hf Hs H1 H2 H3 H4 H5) as (_ & HC & _). by apply HC.
Qed.
(** Otherwise the local revision is replaced by the peer's: for every local revision [r]
    and every [x] of the peer with the same identifier. *)
Theorem C69_refuted O same s p r x :
  orders_ok O -> rev_files_ok (w_disk (rs_w s)) -> scanned O s -> p <> "" ->
  on_disk s r -> r_server r = "" -> r_uuid x = r_uuid r ->
  let s' := (pull_metadata O same [p] [(p, Ok [mark p x])] s).1 in
  drevs s' !! r_uuid r = Some (mark p x) /\ r_server (mark p x) = p /\ ~ on_disk s' r.
Proof.
  intros HO Hf Hs Hp Hd Hr Hx s'.
  assert (drevs s' !! r_uuid r = Some (mark p x)) as H.
  2: { split_and!; [done|done|]. unfold on_disk. rewrite H. intros [= <-]. done. }
  subst s'. unfold pull_metadata.
  assert (Hn : NoDup (map r_uuid (rs_hist s))) by (rewrite Hs; apply scan_disk_nodup).
  set (c := fun r => negb (bool_decide (r_server r = "")) && bool_decide (r_server r ∉ [p])).
  destruct (remove_sel c (rs_hist s) s Hn) as (A1 & _ & V1 & H1).
  assert (Hdead : remove_dead [p] s = mfor (rs_hist s) (fun r => if c r then rev_remove true r else ret tt) s) by reflexivity.
  unfold bind. rewrite Hdead.
  destruct (mfor (rs_hist s) (fun r => if c r then rev_remove true r else ret tt) s) as [s1 x1]. cbn [fst snd] in *. subst x1.
  assert (Hn1 : NoDup (map r_uuid (rs_hist s1))).
  { rewrite H1. by apply NoDup_uuid_filter. }
  assert (Hin1 : forall y, y ∈ rs_hist s1 -> r_uuid y = r_uuid r -> y = r).
  { intros y Hy Hu. rewrite H1 in Hy. apply elem_of_list_filter in Hy as [_ Hy].
    rewrite Hs in Hy. apply scan_disk_elem in Hy; [|done|done]. rewrite Hu, Hd in Hy. congruence. }
  cbn [pull_all pull_single]. unfold bind. rewrite pull_local_eq.
  set (us := o_set O _).
  assert (Hus : forall u, u ∈ us -> u ∈ local_uuids p (rs_hist s1)).
  { intros u. unfold us. destruct HO as [_ HO]. rewrite HO, elem_of_elements, elem_of_difference. tauto. }
  assert (Hnus : NoDup us) by (unfold us; destruct HO as [_ HO]; rewrite HO; apply NoDup_elements).
  clearbody us.
  assert (Hloc : forall u, u ∈ local_uuids p (rs_hist s1) -> exists y, y ∈ rs_hist s1 /\ r_uuid y = u /\ r_server y = p).
  { intros u Hu. unfold local_uuids in Hu. rewrite elem_of_list_to_set, elem_of_list_fmap in Hu.
    destruct Hu as (y & -> & Hy). apply elem_of_list_filter in Hy as [? ?]. eauto. }
  destruct (remove_uuids us s1 Hnus Hn1) as (A2 & _ & V2 & H2).
  { intros u Hu. destruct (Hloc u (Hus u Hu)) as (y & ? & ? & _). eauto. }
  destruct (mfor us _ s1) as [s2 x2]. cbn [fst snd] in *. subst x2.
  assert (Hnl : r_uuid r ∉ local_uuids p (rs_hist s1)).
  { intros Hu. destruct (Hloc _ Hu) as (y & Hy & Hyu & Hyp). rewrite (Hin1 y Hy Hyu) in Hyp. congruence. }
  cbn [mfor]. unfold bind. change (r_uuid (mark p x)) with (r_uuid x). rewrite Hx.
  rewrite bool_decide_eq_false_2 by done.
  destruct (write_spec (mark p x) s2) as (_ & W2 & W3 & _).
  destruct (write_info (mark p x) s2) as [s3 x3]. cbn [fst snd] in *. subst x3. cbn.
  rewrite W3. change (r_uuid (mark p x)) with (r_uuid x). rewrite Hx. apply lookup_insert.
Qed.
Print Assumptions C69_local_kept_partial.
Print Assumptions C69_refuted.
(** In particular the local revision's data are no longer protected: see [gc]. *)
Example ex_C69 :
  on_disk ex_sync (ex_m "l" 100 ["daily"] "") /\
  let s' := (pull_metadata ex_orders (fun _ => true) ["p1"] [("p1", Ok [mark "p1" (ex_m "l" 90 [] "")])] ex_sync).1 in
  drevs s' !! "l" = Some (ex_m "l" 90 [] "p1").
Proof. split; vm_compute; reflexivity. Qed.

(** ** C51 *)
(** An identifier as [Repository.find] can find it: one word, not a number or key word. *)
Definition id_word (u : string) : Prop :=
  plain u /\ py_int u = None /\ u ∉ ["all"; "clean"; "local"; "remote"; "first"; "last"; "latest"; "not"; "reverse"] /\
  forall x, u <> ("server:" ++ x)%string /\ u <> ("tag:" ++ x)%string /\ u <> ("trust:" ++ x)%string.
(** The identifiers that backy creates are such words: letters and digits, more than
    seven of them (22 in fact), and at least one letter. *)
Definition letter (c : ascii) : bool :=
  (N.leb 65 (code c) && N.leb (code c) 90) || (N.leb 97 (code c) && N.leb (code c) 122).
Definition alnum (c : ascii) : bool := letter c || (N.leb 48 (code c) && N.leb (code c) 57).
Lemma id_word_alnum u : (forall c, c ∈ chars u -> alnum c = true) -> (exists c, c ∈ chars u /\ letter c = true) ->
  (7 < length (chars u))%nat -> id_word u.
Proof.
  intros Ha (c0 & Hc0 & Hl) Hlen.
  assert (H256 : forall c, alnum c = true -> is_ws c = false /\ sep1 c = false /\ Ascii.eqb c "-" = false /\
    Ascii.eqb c "+" = false /\ c <> "."%char /\ c <> ":"%char).
  { intros [[][][][][][][][]]; vm_compute; try done; intros _; by split_and!. }
  assert (Hlet : forall c, letter c = true -> digit c = None /\ Ascii.eqb c "_" = false).
  { intros [[][][][][][][][]]; vm_compute; try done; intros _; by split_and!. }
  assert (Hls : forall l, (forall c, c ∈ l -> alnum c = true) -> lstrip l = l).
  { intros [|c l] H; [done|]. cbn. destruct (H256 c) as [-> _]; [apply H; left|done]. }
  assert (Hst : strip_chars (chars u) = chars u).
  { unfold strip_chars. rewrite (Hls (chars u)) by done. rewrite Hls.
    - apply reverse_involutive.
    - intros c Hc. apply Ha. by rewrite elem_of_reverse in Hc. }
  split; [split_and!|split; [|split]].
  - intros ->. cbn in Hlen. lia.
  - unfold strip. rewrite Hst. apply unchars_chars.
  - intros c Hc. by apply H256, Ha.
  - clear -Ha H256. induction (chars u) as [|c l IH]; [done|]. cbn. split; [|apply IH; intros d Hd; apply Ha; by right].
    intros ->. destruct (H256 "."%char) as (_ & _ & _ & _ & ? & _); [apply Ha; left|done].
  - unfold py_int. rewrite Hst. destruct (chars u) as [|c l] eqn:E; [done|].
    destruct (H256 c) as (_ & _ & -> & -> & _); [apply Ha; left|]. cbn iota. clear -Hc0 Hl Hlet.
    enough (H : forall l acc b, c0 ∈ l -> int_digits acc b l = None) by (by apply H). clear -Hl Hlet.
    induction l as [|d l IH]; intros acc b Hc; [by apply elem_of_nil in Hc|]. cbn.
    apply elem_of_cons in Hc as [->|Hc].
    + destruct (Hlet d Hl) as [-> ->]. done.
    + destruct (digit d); [by apply IH|]. destruct (_ && _); [by apply IH|done].
  - intros Hk. repeat (apply elem_of_cons in Hk as [->|Hk]; [cbn in Hlen; lia|]). by apply elem_of_nil in Hk.
  - intros x. split_and!; intros ->.
    all: destruct (H256 ":"%char) as (_ & _ & _ & _ & _ & ?); [|done]; apply Ha; rewrite chars_app; apply elem_of_app; left; cbn; set_solver.
Qed.
Lemma find_id H iso u : NoDup (map r_uuid H) -> id_word u ->
  find_revisions H iso u = match List.find (fun r => bool_decide (r_uuid r = u)) H with Some r => Ok [r] | None => Err KeyError end.
Proof.
  intros Hn (Hp & Hi & Hk & Hx). unfold find_revisions.
  assert (Hw : writes [u] u).
  { replace u with ("" ++ u ++ "")%string at 2.
    - apply writes_last; [done| |]; intros c Hc; apply elem_of_nil in Hc; done.
    - cbn. rewrite <- (unchars_chars (u ++ "")%string), chars_app. cbn. rewrite app_nil_r, unchars_chars. done. }
  rewrite (tokenize_writes _ _ Hw).
  assert (Hns : forall p, starts p u = true -> exists x, u = (p ++ x)%string) by (intros p; apply starts_spec).
  destruct Hp as (Hp1 & Hp2 & Hp3 & Hp4).
  assert (Hch : forall c, sep1 c = true -> u <> String c "").
  { intros c Hc ->. rewrite (Hp3 c) in Hc; [done|left]. }
  assert (Hdd : u <> "..").
  { intros ->. cbn in Hp4. destruct Hp4 as [Hp4 _]. destruct (Hp4 eq_refl) as (? & ? & [= <- <-] & ?). done. }
  cbn [map length find_tokens has existsb is_str].
  rewrite (bool_decide_eq_false_2 (u = "(")) by (by apply Hch). rewrite (bool_decide_eq_false_2 (u = ",")) by (by apply Hch).
  rewrite (bool_decide_eq_false_2 (u = "&")) by (by apply Hch). rewrite (bool_decide_eq_false_2 (u = "..")) by done.
  cbn [orb andb]. unfold eval_word.
  destruct (starts "server:" u) eqn:E1; [apply Hns in E1 as [x ?]; by destruct (Hx x)|].
  destruct (starts "tag:" u) eqn:E2; [apply Hns in E2 as [x ?]; destruct (Hx x) as (_ & ? & _); done|].
  destruct (starts "trust:" u) eqn:E3; [apply Hns in E3 as [x ?]; destruct (Hx x) as (_ & _ & ?); done|].
  rewrite !bool_decide_eq_false_2 by set_solver.
  unfold find_token, find_with. rewrite Hp2. rewrite (bool_decide_eq_false_2 (u = "")) by done. cbn [orb].
  destruct (bool_decide (H = [])) eqn:Eh.
  { apply bool_decide_eq_true in Eh as ->. done. }
  unfold find_by_number. rewrite Hi. cbn [or_else].
  destruct (List.find (fun r => bool_decide (r_uuid r = u)) H) as [r|] eqn:Ef.
  - apply find_some in Ef as [Hr Hu]. apply bool_decide_eq_true in Hu as <-. apply elem_of_list_In in Hr.
    rewrite (find_uuid H r) by done. done.
  - unfold find_by_uuid. destruct (list_find _ H) as [[i y]|] eqn:El.
    { apply list_find_Some in El as (Hl & Hy & _). apply elem_of_list_lookup_2, elem_of_list_In in Hl.
      eapply find_none in Ef; [|exact Hl]. cbn in Ef. apply bool_decide_eq_false in Ef. done. }
    cbn [or_else]. unfold find_by_tag. rewrite !bool_decide_eq_false_2 by set_solver. done.
Qed.
Definition peer_ok (P : peer) : Prop :=
  orders_ok (pe_O P) /\ forall n r, a_dead (pe_api P) !! n = Some r -> rev_files_ok (w_disk (rs_w r)).
(** The record [u] of the inactive repository [n] of a peer. *)
Definition at_peer (P : peer) (n u : string) : option rev :=
  match a_dead (pe_api P) !! n with Some r => drevs r !! u | None => None end.
(** What a request to set tags from [old] to [new] does to the peer: *)
Lemma ask_tags token n name u old new P : peer_ok P -> id_word u ->
  let q := ask token n (RtTags name u (BJson (Some old) (Some new)) true) P in
  peer_ok q.1 /\
  (forall n' u', (n', u') <> (name, u) -> at_peer q.1 n' u' = at_peer P n' u') /\
  match q.2 with
  | Ok _ => exists x, at_peer P name u = Some x /\ r_tags x = old /\
      at_peer q.1 name u = (if decide (new = ∅ /\ r_server x = "") then None else Some (with_tags new x))
  | Err e => n = NReply -> is_client_error e = true /\ at_peer q.1 name u = at_peer P name u
  end.
Proof.
  intros [HO Hf] Hid.
  set (qq := MkReq (Some ("Bearer " ++ token)%string) (RtTags name u (BJson (Some old) (Some new)) true)).
  assert (Hserve : exists a' p, serve (pe_tokens P) (pe_O P) (pe_iso P) (pe_locked P) qq (pe_api P) = (a', p) /\
    (forall n r, a_dead a' !! n = Some r -> rev_files_ok (w_disk (rs_w r))) /\
    (forall n' u', (n', u') <> (name, u) -> at_peer (MkPeer (pe_tokens P) (pe_O P) (pe_iso P) (pe_locked P) a') n' u' = at_peer P n' u') /\
    ((400 <=? p_status p)%Z = false -> exists x, at_peer P name u = Some x /\ r_tags x = old /\
      at_peer (MkPeer (pe_tokens P) (pe_O P) (pe_iso P) (pe_locked P) a') name u =
        (if decide (new = ∅ /\ r_server x = "") then None else Some (with_tags new x))) /\
    ((400 <=? p_status p)%Z = true -> at_peer (MkPeer (pe_tokens P) (pe_O P) (pe_iso P) (pe_locked P) a') name u = at_peer P name u)).
  { assert (Hsame : forall a', api_same (pe_api P) a' ->
      (forall n r, a_dead a' !! n = Some r -> rev_files_ok (w_disk (rs_w r))) /\
      forall n' u', at_peer (MkPeer (pe_tokens P) (pe_O P) (pe_iso P) (pe_locked P) a') n' u' = at_peer P n' u').
    { intros a' (_ & _ & _ & _ & _ & Hs). split.
      - intros k r Hr. specialize (Hs k). rewrite Hr in Hs. destruct (a_dead (pe_api P) !! k) as [r0|] eqn:E; [|done].
        destruct Hs as [Hs _]. intros v y. rewrite Hs. by apply (Hf k r0).
      - intros n' u'. unfold at_peer. cbn [pe_api]. specialize (Hs n').
        destruct (a_dead (pe_api P) !! n'), (a_dead a' !! n'); try done. destruct Hs as [-> _]. done. }
    destruct (auth (pe_tokens P) qq) eqn:E.
    2: { destruct (C48_auth (pe_tokens P) (pe_O P) (pe_iso P) (pe_locked P) qq (pe_api P)) as [C _].
         rewrite C; [|rewrite <- auth_spec, E; by intros [? ?]]. exists (pe_api P), (resp 401).
         destruct (Hsame (pe_api P) (api_same_refl _)) as [S1 S2]. split_and!; try done; auto. }
    assert (Ha : authorized (pe_tokens P) qq) by (rewrite <- auth_spec, E; by eexists). clear E.
    pose proof (C49_put_tags (pe_tokens P) (pe_O P) (pe_iso P) (pe_locked P) qq name u (BJson (Some old) (Some new)) true (pe_api P)
      HO Hf Ha eq_refl) as T.
    destruct (serve (pe_tokens P) (pe_O P) (pe_iso P) (pe_locked P) qq (pe_api P)) as [a' p].
    exists a', p. split; [done|].
    assert (Hbad : (400 <=? p_status p)%Z = true -> api_same (pe_api P) a' ->
      (forall n r, a_dead a' !! n = Some r -> rev_files_ok (w_disk (rs_w r))) /\
    (forall n' u', (n', u') <> (name, u) -> at_peer (MkPeer (pe_tokens P) (pe_O P) (pe_iso P) (pe_locked P) a') n' u' = at_peer P n' u') /\
    ((400 <=? p_status p)%Z = false -> exists x, at_peer P name u = Some x /\ r_tags x = old /\
      at_peer (MkPeer (pe_tokens P) (pe_O P) (pe_iso P) (pe_locked P) a') name u =
        (if decide (new = ∅ /\ r_server x = "") then None else Some (with_tags new x))) /\
    ((400 <=? p_status p)%Z = true -> at_peer (MkPeer (pe_tokens P) (pe_O P) (pe_iso P) (pe_locked P) a') name u = at_peer P name u)).
    { intros Hp Hs. destruct (Hsame a' Hs) as [S1 S2]. split_and!; auto. congruence. }
    destruct (a_dead (pe_api P) !! name) as [r|] eqn:En.
    2: { destruct T as [-> T]. apply Hbad; [|done]. by destruct (decide _). }
    destruct (pe_locked P).
    { destruct T as [-> T]. by apply Hbad. }
    assert (Hn : NoDup (map r_uuid (scan_disk (pe_O P) (w_disk (rs_w r))))) by apply scan_disk_nodup.
    rewrite (find_id _ (pe_iso P) u Hn Hid) in T.
    destruct (List.find (fun r => bool_decide (r_uuid r = u)) (scan_disk (pe_O P) (w_disk (rs_w r)))) as [x|] eqn:Ef.
    2: { destruct T as [-> T]. by apply Hbad. }
    apply find_some in Ef as [Hx Hu]. apply elem_of_list_In in Hx. apply bool_decide_eq_true in Hu.
    apply scan_disk_elem in Hx; [|done|by eapply Hf]. rewrite Hu in Hx.
    destruct T as [T1 T2]. destruct (decide (r_tags x = old)) as [Ho|Ho].
    2: { destruct T1 as [-> T1]; [exists x; split; [left|done]|]. by apply Hbad. }
    destruct T2 as (-> & _ & Hother & r' & Hr' & Hch & _).
    { intros y Hy. by apply elem_of_list_singleton in Hy as ->. }
    assert (Hre : retagged ASet new true x = if decide (new = ∅ /\ r_server x = "") then None else Some (with_tags new x)).
    { unfold retagged. cbn. destruct (decide (new = ∅ /\ r_server x = "")) as [[H1 H2]|Hno].
      - by rewrite decide_True.
      - rewrite decide_False; [done|tauto]. }
    split; [|split; [|split]].
    - intros k y Hk. destruct (decide (k = name)) as [->|Hne].
      + rewrite Hr' in Hk. injection Hk as <-. intros v z Hz. specialize (Hch v). rewrite Hch in Hz.
        destruct (drevs r !! v) as [w|] eqn:Ew; [|done]. pose proof (Hf _ _ En _ _ Ew) as Hv.
        destruct (decide (w ∈ [x])) as [Hi|Hi].
        * apply elem_of_list_singleton in Hi as ->. rewrite Hre in Hz. destruct (decide _); [done|]. injection Hz as <-. done.
        * by injection Hz as <-.
      + rewrite Hother in Hk by done. by eapply Hf.
    - intros n' u' Hne. unfold at_peer. cbn [pe_api]. destruct (decide (n' = name)) as [->|Hne'].
      + rewrite Hr', En. rewrite Hch. destruct (drevs r !! u') as [w|] eqn:Ew; [|done].
        rewrite decide_False; [done|]. intros Hi. apply elem_of_list_singleton in Hi as ->.
        apply Hne. f_equal. rewrite <- Hu. symmetry. by apply (Hf _ _ En).
      + by rewrite Hother.
    - intros _. exists x. unfold at_peer. cbn [pe_api]. rewrite En, Hr'. split; [done|]. split; [done|].
      rewrite Hch, Hx. rewrite decide_True by left. done.
    - done. }
  destruct Hserve as (a' & p & Hs & S1 & S2 & S3 & S4).
  unfold ask. fold qq. rewrite Hs. cbn [fst snd].
  destruct n as [|e|e]; cbn [fst snd].
  - split; [done|]. split; [done|]. destruct (400 <=? p_status p)%Z eqn:Ep; [|by apply S3]. intros _. split; [done|by apply S4].
  - split; [done|]. split; [done|]. done.
  - split; [done|]. split; [done|]. done.
Qed.

Definition cluster_ok (c : cluster) : Prop :=
  forall p P, c_peers c !! p = Some P -> peer_ok P.
(** The record [u] of repository [n] at server [p]. *)
Definition at_server (c : cluster) (p n u : string) : option rev :=
  match c_peers c !! p with Some P => at_peer P n u | None => None end.
(** The local record after the peer accepted. *)
Definition settled_rev (r : rev) : option rev :=
  if decide (r_tags r = ∅) then None else Some (with_orig (r_tags r) r).
Lemma settle_spec r s : synced s -> r ∈ rs_hist s ->
  let s' := (settle r s).1 in
  (settle r s).2 = Ok tt /\ synced s' /\ touched id (eq (r_uuid r)) s s' /\
  (forall u, drevs s' !! u = if decide (u = r_uuid r) then settled_rev r else drevs s !! u) /\
  (forall y, r_uuid y <> r_uuid r -> y ∈ rs_hist s' <-> y ∈ rs_hist s).
Proof.
  intros [Hn Hs] Hr. unfold settle, settled_rev. destruct (decide (r_tags r = ∅)) as [He|He].
  - rewrite bool_decide_eq_true_2 by done. destruct (remove_force r s) as (e & D & R & M1 & K & V & H).
    destruct (rev_remove true r s) as [s' x]. cbn [fst snd] in *.
    assert (Hm : forall y, y ∈ rs_hist s' <-> r_uuid y <> r_uuid r /\ y ∈ rs_hist s).
    { intros y. rewrite H. unfold hist_del. rewrite elem_of_list_filter. done. }
    split; [done|]. split; [split|split; [|split; [done|]]].
    + rewrite H. by apply NoDup_uuid_filter.
    + intros u y. rewrite V, Hm. destruct (decide (u = r_uuid r)) as [->|Hu].
      * split; [done|]. intros [[? _] ?]. done.
      * rewrite Hs. split; [|tauto]. intros [? <-]. done.
    + exists e. split_and!; try done.
      * destruct K as [-> | ->]; [constructor|apply NoDup_singleton].
      * intros u Hu. destruct K as [K|K]; rewrite K in Hu; [by apply elem_of_nil in Hu|].
        apply elem_of_list_singleton in Hu as ->. done.
    + intros y Hy. rewrite Hm. tauto.
  - rewrite bool_decide_eq_false_2 by done. unfold bind. cbn [upd modify].
    set (s0 := set_hist (hist_set (with_orig (r_tags r) r) (rs_hist s)) s).
    destruct (write_spec (with_orig (r_tags r) r) s0) as (D & R & V & H).
    change (modify _ s) with (s0, @Ok unit tt). cbv iota beta.
    destruct (write_info (with_orig (r_tags r) r) s0) as [s' x]. cbn [fst snd] in *.
    assert (Hmem : forall y, y ∈ rs_hist s' <-> (r_uuid y <> r_uuid r /\ y ∈ rs_hist s) \/ y = with_orig (r_tags r) r).
    { intros y. rewrite H. change (rs_hist s0) with (hist_set (with_orig (r_tags r) r) (rs_hist s)).
      unfold hist_set. rewrite elem_of_list_fmap. cbn [r_uuid with_orig]. split.
      - intros (z & -> & Hz). destruct (decide (r_uuid z = r_uuid r)) as [|Hz']; [by right|by left].
      - intros [[H1 H2]| ->].
        + exists y. by rewrite decide_False.
        + exists r. by rewrite decide_True. }
    assert (Hnd : NoDup (map r_uuid (rs_hist s'))).
    { rewrite H. change (rs_hist s0) with (hist_set (with_orig (r_tags r) r) (rs_hist s)).
      unfold hist_set. rewrite map_map.
      assert (Hmap : map (fun x => r_uuid (if decide (r_uuid x = r_uuid (with_orig (r_tags r) r)) then with_orig (r_tags r) r else x)) (rs_hist s)
        = map r_uuid (rs_hist s)).
      { apply map_ext. intros y. destruct (decide _) as [Hy|Hy]; [|done]. by rewrite Hy. }
      by rewrite Hmap. }
    assert (Hv : forall u, drevs s' !! u = if decide (u = r_uuid r) then Some (with_orig (r_tags r) r) else drevs s !! u).
    { intros u. rewrite V. cbn [r_uuid with_orig]. destruct (decide (u = r_uuid r)) as [->|Hu]; [apply lookup_insert|].
      by rewrite lookup_insert_ne by done. }
    split; [done|]. split; [split; [done|]|split; [|split; [done|]]].
    + intros u y. rewrite Hv, Hmem. destruct (decide (u = r_uuid r)) as [->|Hu].
      * split; [intros [= <-]; auto|]. intros [[[? _]| ->] ?]; done.
      * rewrite Hs. split; [intros [? <-]; auto|]. intros [[[_ ?]| ->] ?]; [done|]. cbn in *. congruence.
    + eexists. split; [exact D|]. split; [by repeat constructor|]. cbn. split; [apply NoDup_singleton|].
      intros u Hu. by apply elem_of_list_singleton in Hu as ->.
    + intros y Hy. rewrite Hmem. split; [|tauto]. intros [[_ ?]| ->]; done.
Qed.
Lemma push_one_spec name token n r c c' b :
  cluster_ok c -> id_word (r_uuid r) -> push_one name token n r c = (c', Ok b) ->
  cluster_ok c' /\
  (forall p n' u, (p, n', u) <> (r_server r, name, r_uuid r) -> at_server c' p n' u = at_server c p n' u) /\
  (b = false -> c_local c' = c_local c /\
     (n = NReply -> at_server c' (r_server r) name (r_uuid r) = at_server c (r_server r) name (r_uuid r))) /\
  (b = true -> c_local c' = (settle r (c_local c)).1 /\
     exists x, at_server c (r_server r) name (r_uuid r) = Some x /\ r_tags x = r_orig r /\
     at_server c' (r_server r) name (r_uuid r) = (if decide (r_tags r = ∅ /\ r_server x = "") then None else Some (with_tags (r_tags r) x))).
Proof.
  intros Hc Hid. unfold push_one. destruct (c_peers c !! r_server r) as [P|] eqn:EP; [|done].
  pose proof (ask_tags token n name (r_uuid r) (r_orig r) (r_tags r) P (Hc _ _ EP) Hid) as (A1 & A2 & A3).
  destruct (ask token n _ P) as [P' a]. cbn [fst snd] in *.
  assert (Hok : forall s, cluster_ok (MkCluster s (<[r_server r := P']> (c_peers c)))).
  { intros s p Q HQ. cbn [c_peers] in HQ. apply lookup_insert_Some in HQ as [[_ <-]|[_ HQ]]; [done|by eapply Hc]. }
  assert (Hoth : forall s p n' u, (p, n', u) <> (r_server r, name, r_uuid r) ->
    at_server (MkCluster s (<[r_server r := P']> (c_peers c))) p n' u = at_server c p n' u).
  { intros s p n' u Hne. unfold at_server. cbn [c_peers]. destruct (decide (p = r_server r)) as [->|Hp].
    - rewrite lookup_insert, EP. apply A2. congruence.
    - by rewrite lookup_insert_ne. }
  assert (Hself : forall s, at_server (MkCluster s (<[r_server r := P']> (c_peers c))) (r_server r) name (r_uuid r) = at_peer P' name (r_uuid r)).
  { intros s. unfold at_server. cbn [c_peers]. by rewrite lookup_insert. }
  destruct a as [a|e].
  - unfold on_local, bind. cbn [c_local c_peers]. destruct (settle r (c_local c)) as [s1 [[]|e]]; [|by intros [=]].
    cbn [ret]. intros [= <- <-]. split; [apply Hok|]. split; [apply Hoth|]. split; [done|]. intros _. split; [done|].
    destruct A3 as (x & X1 & X2 & X3). exists x. unfold at_server at 1. rewrite EP, Hself. done.
  - destruct (is_client_error e) eqn:Ee; [|done]. intros [= <- <-]. split; [apply Hok|]. split; [apply Hoth|]. split; [|done].
    intros _. split; [done|]. intros Hn. rewrite Hself. destruct (A3 Hn) as [_ ->]. unfold at_server. by rewrite EP.
Qed.
Lemma push_purge_spec name token n p c c' b :
  cluster_ok c -> push_purge name token n p c = (c', Ok b) ->
  cluster_ok c' /\ c_local c' = c_local c /\ forall q n' u, at_server c' q n' u = at_server c q n' u.
Proof.
  intros Hc. unfold push_purge. destruct (c_peers c !! p) as [P|] eqn:EP; [|done].
  set (qq := MkReq (Some ("Bearer " ++ token)%string) (RtPurge name)).
  pose proof (C49_other_requests (pe_tokens P) (pe_O P) (pe_iso P) (pe_locked P) qq (pe_api P) ltac:(done)) as T.
  assert (Hp : exists a', (ask token n (RtPurge name) P).1 = MkPeer (pe_tokens P) (pe_O P) (pe_iso P) (pe_locked P) a' /\
    forall k, match a_dead (pe_api P) !! k, a_dead a' !! k with
      | Some r, Some r' => w_disk (rs_w r') = w_disk (rs_w r) | None, None => True | _, _ => False end).
  { destruct n; unfold ask; fold qq; cbn [fst].
    1,2: eexists; split; [reflexivity|]; intros k; apply T.
    exists (pe_api P). split; [by destruct P|]. intros k. by destruct (a_dead (pe_api P) !! k). }
  destruct Hp as (a' & Hp & Ha). destruct (ask token n (RtPurge name) P) as [P' a]. cbn [fst] in Hp. subst P'.
  intros H.
  assert (c' = MkCluster (c_local c) (<[p := MkPeer (pe_tokens P) (pe_O P) (pe_iso P) (pe_locked P) a']> (c_peers c))) as ->.
  { destruct a as [a|e]; [by injection H|]. destruct (is_client_error e); [by injection H|done]. }
  clear H. split; [|split; [done|]].
  - intros q Q HQ. cbn [c_peers] in HQ. apply lookup_insert_Some in HQ as [[_ <-]|[_ HQ]]; [|by eapply Hc].
    destruct (Hc _ _ EP) as [HO Hf]. split; [done|]. intros k r Hk. cbn in Hk. specialize (Ha k). rewrite Hk in Ha.
    destruct (a_dead (pe_api P) !! k) as [r0|] eqn:E0; [|done]. rewrite Ha. by eapply Hf.
  - intros q n' u. unfold at_server. cbn [c_peers]. destruct (decide (q = p)) as [->|Hq]; [|by rewrite lookup_insert_ne].
    rewrite lookup_insert, EP. unfold at_peer. cbn [pe_api]. specialize (Ha n').
    destruct (a_dead (pe_api P) !! n') as [r0|], (a_dead a' !! n') as [r1|]; try done. unfold drevs. by rewrite Ha.
Qed.
(** What an exchange about [r] means for the two servers. *)
Definition delivered (name : string) (c c' : cluster) (r : rev) : Prop :=
  drevs (c_local c') !! r_uuid r = settled_rev r /\
  exists x, at_server c (r_server r) name (r_uuid r) = Some x /\ r_tags x = r_orig r /\
    at_server c' (r_server r) name (r_uuid r) =
      (if decide (r_tags r = ∅ /\ r_server x = "") then None else Some (with_tags (r_tags r) x)).
Lemma push_run_spec name token l c c' outs :
  cluster_ok c -> synced (c_local c) -> NoDup (map r_uuid (pushed l)) ->
  (forall r, r ∈ pushed l -> id_word (r_uuid r) /\ r ∈ rs_hist (c_local c)) ->
  push_run name token l c = (c', Ok outs) ->
  cluster_ok c' /\ synced (c_local c') /\ map fst outs = l /\
  touched id (fun u => u ∈ map r_uuid (pushed l)) (c_local c) (c_local c') /\
  (forall p n u, (forall r, r ∈ pushed l -> (p, n, u) <> (r_server r, name, r_uuid r)) -> at_server c' p n u = at_server c p n u) /\
  (forall u, u ∉ map r_uuid (pushed l) -> drevs (c_local c') !! u = drevs (c_local c) !! u) /\
  forall r n b, (PsTags r n, b) ∈ outs ->
    (b = true -> delivered name c c' r) /\
    (b = false -> drevs (c_local c') !! r_uuid r = Some r /\
       (n = NReply -> at_server c' (r_server r) name (r_uuid r) = at_server c (r_server r) name (r_uuid r))).
Proof.
  revert c outs. induction l as [|x l IH]; intros c outs Hc Hs Hn Hl.
  { cbn. intros [= <- <-]. split_and!; try done; [apply touched_refl|]. intros r n b H. by apply elem_of_nil in H. }
  cbn [push_run]. unfold bind.
  destruct x as [r n|p n].
  - cbn [pushed omap list_omap] in Hn, Hl |- *. fold (pushed l) in Hn, Hl |- *. cbn in Hn. apply NoDup_cons in Hn as [Hr Hn].
    destruct (Hl r) as [Hid Hin]; [left|].
    destruct (push_one name (token (r_server r)) n r c) as [c1 [b1|e]] eqn:E1; [|done].
    destruct (push_one_spec _ _ _ _ _ _ _ Hc Hid E1) as (C1 & O1 & F1 & T1).
    assert (L1 : synced (c_local c1) /\ touched id (eq (r_uuid r)) (c_local c) (c_local c1) /\
      (forall u, drevs (c_local c1) !! u = if decide (u = r_uuid r) then (if b1 then settled_rev r else Some r) else drevs (c_local c) !! u) /\
      (forall y, r_uuid y <> r_uuid r -> y ∈ rs_hist (c_local c1) <-> y ∈ rs_hist (c_local c))).
    { destruct b1.
      - destruct (T1 eq_refl) as [-> _]. destruct (settle_spec r _ Hs Hin) as (_ & ? & ? & ? & ?). done.
      - destruct (F1 eq_refl) as [-> _]. split; [done|]. split; [apply touched_refl|]. split; [|done].
        intros u. destruct (decide (u = r_uuid r)) as [->|]; [|done]. by apply Hs. }
    destruct L1 as (S1 & To1 & D1 & H1).
    destruct (push_run name token l c1) as [c2 [outs1|e]] eqn:E2; [|done]. cbn [ret]. intros [= <- <-].
    destruct (IH c1 outs1 C1 S1 Hn) as (C2 & S2 & M2 & To2 & O2 & D2 & R2); [|done|].
    { intros y Hy. destruct (Hl y) as [? ?]; [by right|]. split; [done|]. apply H1; [|done]. intros Hu.
      apply Hr. rewrite <- Hu. apply elem_of_list_fmap. by exists y. }
    assert (Hself : forall q n0, at_server c2 q n0 (r_uuid r) = at_server c1 q n0 (r_uuid r)).
    { intros q n0. apply O2. intros y Hy [= _ _ Hu]. apply Hr. rewrite Hu. apply elem_of_list_fmap. by exists y. }
    split_and!; try done.
    + cbn. by rewrite M2.
    + eapply touched_weaken; [eapply touched_trans; [exact To1|exact To2|]|].
      * intros u <- Hu. done.
      * intros u [<-|Hu]; cbn; [left|by right].
    + intros q n0 u Hne. rewrite O2; [apply O1, Hne; left|]. intros y Hy. apply Hne. by right.
    + intros u Hu. cbn in Hu. apply not_elem_of_cons in Hu as [Hu1 Hu2]. rewrite D2 by done. rewrite D1. by rewrite decide_False.
    + intros y n0 b Hy. apply elem_of_cons in Hy as [[= -> -> ->]|Hy].
      * unfold delivered. rewrite Hself. rewrite D2, D1, decide_True by done. split.
        -- intros ->. split; [done|]. destruct (T1 eq_refl) as [_ T]. done.
        -- intros ->. split; [done|]. apply F1. done.
      * destruct (R2 y n0 b Hy) as [R2t R2f].
        assert (Hyl : y ∈ pushed l).
        { rewrite <- M2. unfold pushed. apply elem_of_list_omap. exists (PsTags y n0). split; [|done].
          apply elem_of_list_fmap. by exists (PsTags y n0, b). }
        assert (Hne : r_uuid y <> r_uuid r).
        { intros Hu. apply Hr. rewrite <- Hu. apply elem_of_list_fmap. by exists y. }
        assert (Ho : at_server c1 (r_server y) name (r_uuid y) = at_server c (r_server y) name (r_uuid y)).
        { apply O1. congruence. }
        unfold delivered in *. rewrite Ho in *. done.
  - destruct (push_purge name (token p) n p c) as [c1 [b1|e]] eqn:E1; [|done].
    destruct (push_purge_spec _ _ _ _ _ _ _ Hc E1) as (C1 & L1 & O1).
    destruct (push_run name token l c1) as [c2 [outs1|e]] eqn:E2; [|done]. cbn [ret]. intros [= <- <-].
    change (pushed (PsPurge p n :: l)) with (pushed l) in *.
    destruct (IH c1 outs1 C1) as (C2 & S2 & M2 & To2 & O2 & D2 & R2); rewrite ?L1; try done.
    rewrite L1 in *.
    split_and!; try done.
    + cbn. by rewrite M2.
    + intros q n0 u Hne. rewrite O2 by done. apply O1.
    + intros y n0 b Hy. apply elem_of_cons in Hy as [Hy|Hy]; [done|]. destruct (R2 y n0 b Hy) as [R2t R2f].
      unfold delivered in *. rewrite O1 in *. done.
Qed.
(** The peer will accept the change of [r]: the token is known, nobody holds the lock of
    the (inactive) repository, and the record there has the tags last seen. *)
Definition accepts (name : string) (token : string -> string) (c : cluster) (r : rev) : Prop :=
  exists P x, c_peers c !! r_server r = Some P /\ valid_token P (token (r_server r)) /\ pe_locked P = false /\
    at_peer P name (r_uuid r) = Some x /\ r_tags x = r_orig r.
Lemma ask_accepted token name u old new P x : peer_ok P -> id_word u -> valid_token P token -> pe_locked P = false ->
  at_peer P name u = Some x -> r_tags x = old ->
  exists a, (ask token NReply (RtTags name u (BJson (Some old) (Some new)) true) P).2 = Ok a.
Proof.
  intros [HO Hf] Hid (cl & Ht & Hcl) Hlk Hx Htags.
  set (qq := MkReq (Some ("Bearer " ++ token)%string) (RtTags name u (BJson (Some old) (Some new)) true)).
  assert (Ha : authorized (pe_tokens P) qq) by (exists token, cl; done).
  pose proof (C49_put_tags (pe_tokens P) (pe_O P) (pe_iso P) (pe_locked P) qq name u (BJson (Some old) (Some new)) true (pe_api P)
    HO Hf Ha eq_refl) as T.
  unfold ask. fold qq. destruct (serve (pe_tokens P) (pe_O P) (pe_iso P) (pe_locked P) qq (pe_api P)) as [a' p].
  unfold at_peer in Hx. destruct (a_dead (pe_api P) !! name) as [r|] eqn:En; [|done]. rewrite Hlk in T.
  assert (Hn : NoDup (map r_uuid (scan_disk (pe_O P) (w_disk (rs_w r))))) by apply scan_disk_nodup.
  rewrite (find_id _ (pe_iso P) u Hn Hid) in T.
  assert (Hu : r_uuid x = u) by (by apply (Hf _ _ En)).
  assert (Hi : x ∈ scan_disk (pe_O P) (w_disk (rs_w r))).
  { apply scan_disk_elem; [done|by eapply Hf|]. by rewrite Hu. }
  destruct (List.find (fun r => bool_decide (r_uuid r = u)) (scan_disk (pe_O P) (w_disk (rs_w r)))) as [y|] eqn:Ef.
  2: { eapply find_none in Ef; [|by apply elem_of_list_In]. cbn in Ef. by apply bool_decide_eq_false in Ef. }
  apply find_some in Ef as [Hy Hyu]. apply elem_of_list_In in Hy. apply bool_decide_eq_true in Hyu.
  assert (y = x) as -> by (eapply uuid_inj; [exact Hn|done|done|congruence]).
  destruct T as [_ T]. destruct T as [-> _]; [intros y Hy'; by apply elem_of_list_singleton in Hy' as ->|].
  cbn. by eexists.
Qed.
Lemma ask_static token n rt P : pe_tokens (ask token n rt P).1 = pe_tokens P /\ pe_locked (ask token n rt P).1 = pe_locked P.
Proof. unfold ask. by destruct n. Qed.
Lemma accepts_other name token c c' r :
  (forall p, match c_peers c !! p, c_peers c' !! p with
             | Some P, Some P' => pe_tokens P' = pe_tokens P /\ pe_locked P' = pe_locked P
             | None, None => True | _, _ => False end) ->
  at_server c' (r_server r) name (r_uuid r) = at_server c (r_server r) name (r_uuid r) ->
  accepts name token c r -> accepts name token c' r.
Proof.
  intros Hp Ha (P & x & HP & Ht & Hl & Hx & Hxt). specialize (Hp (r_server r)). rewrite HP in Hp.
  destruct (c_peers c' !! r_server r) as [P'|] eqn:E; [|done]. destruct Hp as [H1 H2].
  exists P', x. unfold at_server in Ha. rewrite HP, E in Ha. unfold valid_token in *. rewrite H1, H2, Ha. done.
Qed.
Lemma push_one_static name token n r c c' b : push_one name token n r c = (c', Ok b) ->
  forall p, match c_peers c !! p, c_peers c' !! p with
             | Some P, Some P' => pe_tokens P' = pe_tokens P /\ pe_locked P' = pe_locked P
             | None, None => True | _, _ => False end.
Proof.
  unfold push_one. destruct (c_peers c !! r_server r) as [P|] eqn:EP; [|done].
  pose proof (ask_static token n (RtTags name (r_uuid r) (BJson (Some (r_orig r)) (Some (r_tags r))) true) P) as [S1 S2].
  destruct (ask _ _ _ P) as [P' a]. cbn [fst] in *. intros H.
  assert (Hc : c_peers c' = <[r_server r := P']> (c_peers c)).
  { destruct a as [a|e]; [|destruct (is_client_error e); [by injection H as <- _|done]].
    unfold on_local in H. cbn [c_local c_peers] in H.
    destruct ((do_ settle r; ret true)%M (c_local c)) as [s1 z]. by injection H as <- _. }
  intros p. rewrite Hc. destruct (decide (p = r_server r)) as [->|Hp].
  - by rewrite lookup_insert, EP.
  - rewrite lookup_insert_ne by done. by destruct (c_peers c !! p).
Qed.
Lemma push_purge_static name token n q c c' b : push_purge name token n q c = (c', Ok b) ->
  forall p, match c_peers c !! p, c_peers c' !! p with
             | Some P, Some P' => pe_tokens P' = pe_tokens P /\ pe_locked P' = pe_locked P
             | None, None => True | _, _ => False end.
Proof.
  unfold push_purge. destruct (c_peers c !! q) as [P|] eqn:EP; [|done].
  pose proof (ask_static token n (RtPurge name) P) as [S1 S2].
  destruct (ask _ _ _ P) as [P' a]. cbn [fst] in *. intros H.
  assert (Hc : c_peers c' = <[q := P']> (c_peers c)).
  { destruct a as [a|e]; [by injection H as <- _|]. destruct (is_client_error e); [by injection H as <- _|done]. }
  intros p. rewrite Hc. destruct (decide (p = q)) as [->|Hp].
  - by rewrite lookup_insert, EP.
  - rewrite lookup_insert_ne by done. by destruct (c_peers c !! p).
Qed.
Lemma push_one_accepted name token r c c' b : cluster_ok c -> id_word (r_uuid r) -> accepts name token c r ->
  push_one name (token (r_server r)) NReply r c = (c', Ok b) -> b = true.
Proof.
  intros Hc Hid (P & x & HP & Ht & Hl & Hx & Hxt). unfold push_one. rewrite HP.
  destruct (ask_accepted (token (r_server r)) name (r_uuid r) (r_orig r) (r_tags r) P x (Hc _ _ HP) Hid Ht Hl Hx Hxt) as [a Ea].
  destruct (ask _ _ _ P) as [P' a0]. cbn [snd] in Ea. subst a0. unfold on_local, bind. cbn [c_local].
  destruct (settle r (c_local c)) as [s1 [[]|e]]; cbn; intros [=]; done.
Qed.
Lemma push_run_accepted name token l c c' outs :
  cluster_ok c -> NoDup (map r_uuid (pushed l)) -> (forall r, r ∈ pushed l -> id_word (r_uuid r)) ->
  push_run name token l c = (c', Ok outs) -> map fst outs = l ->
  forall r b, (PsTags r NReply, b) ∈ outs -> accepts name token c r -> b = true.
Proof.
  revert c outs. induction l as [|x l IH]; intros c outs Hc Hn Hid.
  { cbn. intros [= <- <-] _ r b H. by apply elem_of_nil in H. }
  cbn [push_run]. unfold bind. destruct x as [r n|p n].
  - cbn in Hn. fold (pushed l) in Hn. apply NoDup_cons in Hn as [Hr Hn].
    destruct (push_one name (token (r_server r)) n r c) as [c1 [b1|e]] eqn:E1; [|done].
    assert (Hidr : id_word (r_uuid r)) by (apply Hid; left).
    destruct (push_one_spec _ _ _ _ _ _ _ Hc Hidr E1) as (C1 & O1 & _).
    pose proof (push_one_static _ _ _ _ _ _ _ E1) as St.
    destruct (push_run name token l c1) as [c2 [outs1|e]] eqn:E2; [|done]. cbn [ret]. intros [= <- <-] Hm.
    cbn in Hm. injection Hm as Hm.
    intros y b Hy Hacc. apply elem_of_cons in Hy as [[= -> <- ->]|Hy]; [by apply (push_one_accepted _ _ _ _ _ _ Hc Hidr Hacc E1)|].
    assert (Hyl : y ∈ pushed l).
    { rewrite <- Hm. unfold pushed. apply elem_of_list_omap. exists (PsTags y NReply). split; [|done].
      apply elem_of_list_fmap. by exists (PsTags y NReply, b). }
    apply (IH c1 outs1 C1 Hn) with (r := y); try done.
    + intros z Hz. apply Hid. by right.
    + eapply accepts_other; [exact St| |done]. apply O1. intros [= _ Hu]. apply Hr. rewrite <- Hu.
      apply elem_of_list_fmap. by exists y.
  - destruct (push_purge name (token p) n p c) as [c1 [b1|e]] eqn:E1; [|done].
    destruct (push_purge_spec _ _ _ _ _ _ _ Hc E1) as (C1 & _ & O1).
    pose proof (push_purge_static _ _ _ _ _ _ _ E1) as St.
    destruct (push_run name token l c1) as [c2 [outs1|e]] eqn:E2; [|done]. cbn [ret]. intros [= <- <-] Hm.
    cbn in Hm. injection Hm as Hm.
    intros y b Hy Hacc. apply elem_of_cons in Hy as [Hy|Hy]; [done|].
    apply (IH c1 outs1 C1 Hn) with (r := y); try done.
    eapply accepts_other; [exact St| |done]. apply O1.
Qed.
(** When no exception but a client error occurs, the push does not fail. *)
Definition net_ok (n : net) : Prop :=
  match n with NReply => True | NLostReply e | NLost e => is_client_error e = true end.
Definition step_ok (peers : list string) (x : push_step) : Prop :=
  match x with PsTags _ n => net_ok n | PsPurge p n => net_ok n /\ p ∈ peers end.
Lemma ask_error token n rt P e : net_ok n -> (ask token n rt P).2 = Err e -> is_client_error e = true.
Proof. destruct n; cbn; [|by intros ? [= <-]..]. intros _. destruct (400 <=? _)%Z; [|done]. by intros [= <-]. Qed.
Lemma push_run_ok name token peers l c :
  cluster_ok c -> synced (c_local c) -> NoDup (map r_uuid (pushed l)) ->
  (forall r, r ∈ pushed l -> id_word (r_uuid r) /\ r ∈ rs_hist (c_local c) /\ r_server r ∈ peers) ->
  (forall p, p ∈ peers -> is_Some (c_peers c !! p)) -> (forall x, x ∈ l -> step_ok peers x) ->
  exists c' outs, push_run name token l c = (c', Ok outs).
Proof.
  revert c. induction l as [|x l IH]; intros c Hc Hs Hn Hl Hp Hx; [by eexists _, _|].
  assert (Hstep : exists c1 b1, (match x with PsTags r n => push_one name (token (r_server r)) n r
     | PsPurge p n => push_purge name (token p) n p end) c = (c1, Ok b1)).
  { pose proof (Hx x ltac:(left)) as Hok. destruct x as [r n|p n].
    - destruct (Hl r) as (Hid & Hin & Hpr); [cbn; left|]. unfold push_one. destruct (Hp _ Hpr) as [P ->].
      pose proof (ask_error (token (r_server r)) n (RtTags name (r_uuid r) (BJson (Some (r_orig r)) (Some (r_tags r))) true) P) as He.
      destruct (ask _ _ _ P) as [P' [a|e]]; cbn [snd] in He.
      + unfold on_local, bind. cbn [c_local]. destruct (settle_spec r _ Hs Hin) as (Hset & _).
        destruct (settle r (c_local c)) as [s1 z]. cbn [snd] in Hset. subst z. by eexists _, _.
      + rewrite (He e) by done. by eexists _, _.
    - destruct Hok as [Hok Hpp]. unfold push_purge. destruct (Hp _ Hpp) as [P ->].
      pose proof (ask_error (token p) n (RtPurge name) P) as He.
      destruct (ask _ _ _ P) as [P' [a|e]]; cbn [snd] in He; [by eexists _, _|]. rewrite (He e) by done. by eexists _, _. }
  destruct Hstep as (c1 & b1 & E1). cbn [push_run]. unfold bind. rewrite E1.
  assert (Hc1 : cluster_ok c1 /\ synced (c_local c1) /\ NoDup (map r_uuid (pushed l)) /\
     (forall r, r ∈ pushed l -> r ∈ rs_hist (c_local c1)) /\ (forall p, p ∈ peers -> is_Some (c_peers c1 !! p))).
  { destruct x as [r n|p n].
    - cbn in Hn. fold (pushed l) in Hn. apply NoDup_cons in Hn as [Hr Hn].
      destruct (Hl r) as (Hid & Hin & Hpr); [cbn; left|].
      destruct (push_one_spec _ _ _ _ _ _ _ Hc Hid E1) as (C1 & _ & F1 & T1). split; [done|].
      pose proof (push_one_static _ _ _ _ _ _ _ E1) as St.
      assert (Hd : synced (c_local c1) /\ forall y, r_uuid y <> r_uuid r -> y ∈ rs_hist (c_local c1) <-> y ∈ rs_hist (c_local c)).
      { destruct b1; [destruct (T1 eq_refl) as [-> _]|by destruct (F1 eq_refl) as [-> _]].
        destruct (settle_spec r _ Hs Hin) as (_ & ? & _ & _ & ?). done. }
      destruct Hd as [? Hd]. split_and!; [done|done| |].
      + intros y Hy. destruct (Hl y) as (_ & Hyin & _); [by right|]. apply Hd; [|done]. intros Hu.
        apply Hr. rewrite <- Hu. apply elem_of_list_fmap. by exists y.
      + intros p Hpp. specialize (St p). destruct (Hp p Hpp) as [P HP]. rewrite HP in St.
        destruct (c_peers c1 !! p); [by eexists|done].
    - destruct (push_purge_spec _ _ _ _ _ _ _ Hc E1) as (C1 & L1 & _).
      pose proof (push_purge_static _ _ _ _ _ _ _ E1) as St. rewrite L1. split_and!; try done.
      + intros y Hy. by apply Hl.
      + intros q Hpp. specialize (St q). destruct (Hp q Hpp) as [P HP]. rewrite HP in St.
        destruct (c_peers c1 !! q); [by eexists|done]. }
  destruct Hc1 as (C1 & S1 & N1 & H1 & P1).
  destruct (IH c1) as (c' & outs & ->); try done; [| |by eexists _, _].
  - intros r Hr. destruct (Hl r) as (? & _ & ?); [|by auto]. destruct x; [by right|done].
  - intros y Hy. apply Hx. by right.
Qed.
(** A change that is to be delivered: a complete record of a configured peer whose tags
    are not those last seen there. *)
Definition to_push (peers : list string) (s : rst) (r : rev) : Prop :=
  on_disk s r /\ is_Some (s_duration (r_stats r)) /\ r_server r ∈ peers /\ r_tags r <> r_orig r.
Lemma push_work_spec peers s r : synced s -> "" ∉ peers -> (forall u x, drevs s !! u = Some x -> r_uuid x = u) ->
  r ∈ push_work peers (rs_hist s) <-> to_push peers s r.
Proof.
  intros [Hn Hs] Hp Hu. unfold push_work, get_history, to_push, on_disk. rewrite !elem_of_list_filter. cbn. rewrite Hs.
  unfold pending, is_clean. rewrite !andb_true_iff, !negb_true_iff, !bool_decide_eq_false, bool_decide_eq_true. split.
  - intros ([[H1 H2] H3] & [H4 _] & H5). split_and!; try done. by destruct (s_duration _).
  - intros ([H1 _] & [z Hz] & H3 & H4). rewrite Hz. split_and!; try done. by intros Hr; rewrite Hr in H3.
Qed.
(** The push.  The steps [l] are the requests in the order in which they happen (requests
    to different peers interleave, purge requests come anywhere); every exchange ends with
    a reply of the peer or a client error. *)
Theorem C51_push name token peers l c :
  cluster_ok c -> synced (c_local c) -> rev_files_ok (w_disk (rs_w (c_local c))) ->
  "" ∉ peers -> (forall p, p ∈ peers -> is_Some (c_peers c !! p)) ->
  (forall r, to_push peers (c_local c) r -> id_word (r_uuid r)) ->
  pushed l ≡ₚ push_work peers (rs_hist (c_local c)) -> (forall x, x ∈ l -> step_ok peers x) ->
  exists c' outs, push_run name token l c = (c', Ok outs) /\ map fst outs = l /\
  (* every change is sent, and either delivered, or it stays pending *)
  (forall r, to_push peers (c_local c) r -> exists n b, (PsTags r n, b) ∈ outs /\
     (b = true -> delivered name c c' r) /\
     (b = false -> on_disk (c_local c') r /\
        (n = NReply -> at_server c' (r_server r) name (r_uuid r) = at_server c (r_server r) name (r_uuid r))) /\
     (n = NReply -> accepts name token c r -> b = true)) /\
  (* nothing else changes *)
  (forall u, (forall r, to_push peers (c_local c) r -> r_uuid r <> u) ->
     drevs (c_local c') !! u = drevs (c_local c) !! u) /\
  (forall p n u, (forall r, to_push peers (c_local c) r -> (p, n, u) <> (r_server r, name, r_uuid r)) ->
     at_server c' p n u = at_server c p n u) /\
  data_same (w_disk (rs_w (c_local c))) (w_disk (rs_w (c_local c'))) /\
  forall d, killed (c_local c) (c_local c') d ->
    data_same (w_disk (rs_w (c_local c))) d /\ in_between (drevs (c_local c)) (drevs (c_local c')) (d_revs d).
Proof.
  intros Hc Hs Hf He Hpe Hid Hl Hx.
  assert (Hw : forall r, r ∈ pushed l <-> to_push peers (c_local c) r).
  { intros r. rewrite Hl. by apply push_work_spec. }
  assert (Hin : forall r, r ∈ pushed l -> r ∈ rs_hist (c_local c)).
  { intros r Hr. apply Hw in Hr as [Hr _]. apply Hs in Hr as [Hr _]. done. }
  assert (Hn : NoDup (map r_uuid (pushed l))).
  { assert (Hm : map r_uuid (pushed l) ≡ₚ map r_uuid (push_work peers (rs_hist (c_local c)))) by (by rewrite Hl).
    rewrite Hm. unfold push_work, get_history. apply NoDup_uuid_filter, NoDup_uuid_filter. apply Hs. }
  destruct (push_run_ok name token peers l c Hc Hs Hn) as (c' & outs & E); [|done|done|].
  { intros r Hr. split; [|split]; [by apply Hid, Hw|by apply Hin|]. apply Hw in Hr as (_ & _ & Hr & _). done. }
  destruct (push_run_spec name token l c c' outs Hc Hs Hn) as (C' & S' & M' & T' & O' & D' & R'); [|done|].
  { intros r Hr. split; [by apply Hid, Hw|by apply Hin]. }
  exists c', outs. split; [done|]. split; [done|]. split; [|split; [|split; [|split]]].
  - intros r Hr. assert (Hrl : r ∈ pushed l) by (by apply Hw). unfold pushed in Hrl. rewrite <- M' in Hrl.
    apply elem_of_list_omap in Hrl as (x & Hxo & Hxr). apply elem_of_list_fmap in Hxo as ([y b] & -> & Hy).
    destruct y as [r0 n|p n]; [|done]. cbn in Hxr. injection Hxr as ->.
    destruct (R' r n b Hy) as [R1 R2]. exists n, b. split; [done|]. split; [done|]. split.
    + intros Hb. destruct (R2 Hb) as [R3 R4]. done.
    + intros -> Hacc. apply (push_run_accepted name token l c c' outs) with (r := r); try done.
      intros z Hz. by apply Hid, Hw.
  - intros u Hu. apply D'. intros Hui. apply elem_of_list_fmap in Hui as (r & -> & Hr). apply Hw in Hr. by apply (Hu r).
  - intros p n u Hu. apply O'. intros r Hr. by apply Hu, Hw.
  - by eapply touched_data.
  - intros d Hd. by eapply touched_killed.
Qed.
(** Delivered means: nothing is pending any more; and when tags remain, they are the same
    here and there. *)
Theorem C51_settled name c c' r : delivered name c c' r ->
  (forall y, drevs (c_local c') !! r_uuid r = Some y -> r_tags y = r_orig y /\ r_tags y = r_tags r) /\
  (r_tags r <> ∅ -> exists y x', drevs (c_local c') !! r_uuid r = Some y /\
     at_server c' (r_server r) name (r_uuid r) = Some x' /\ r_tags y = r_tags r /\ r_tags x' = r_tags r) /\
  (r_tags r = ∅ -> drevs (c_local c') !! r_uuid r = None /\
     forall x', at_server c' (r_server r) name (r_uuid r) = Some x' -> r_tags x' = ∅ /\ r_server x' <> "").
Proof.
  intros (H1 & x & Hx & Hxt & H2). rewrite H1, H2. unfold settled_rev. destruct (decide (r_tags r = ∅)) as [E|E].
  - split; [done|]. split; [done|]. intros _. split; [done|]. intros x'. destruct (decide _) as [D|D]; [done|].
    intros [= <-]. cbn. rewrite E. split; [done|]. tauto.
  - split; [by intros y [= <-]|]. split; [|done]. intros _. rewrite decide_False by tauto. by eexists _, _.
Qed.
Print Assumptions C51_push.
Print Assumptions C51_settled.

(** ** C52 *)
(** A job run pulls, expires and then pushes.  After the pull nothing is pending for a
    peer that answered, and what is sent to it comes from its own tags: a tag added here
    is gone here and is never sent. *)
Theorem C52_refuted O same owner peers replies s iso now S0 :
  orders_ok O -> rev_files_ok (w_disk (rs_w s)) -> scanned O s ->
  NoDup peers -> "" ∉ peers -> map fst replies ≡ₚ peers ->
  (forall u r, drevs s !! u = Some r -> r_server r = owner u) ->
  (forall p a, (p, a) ∈ replies -> reply_ok owner p a) -> sched_ok S0 ->
  let s1 := (pull_metadata O same peers replies s).1 in
  let s2 := (expire O iso now S0 s1).1 in
  forall p l r t, (p, Ok l) ∈ replies -> (forall x, x ∈ l -> r_tags x = r_orig x) ->
  (* a local edit: [t] was added to a record of [p] *)
  on_disk s r -> r_server r = p -> t ∈ r_tags r -> t ∉ r_orig r ->
  (forall x, x ∈ l -> r_uuid x = r_uuid r -> t ∉ r_tags x) ->
  ~ on_disk s1 r /\ (forall x, on_disk s1 x -> r_server x = p -> r_tags x = r_orig x) /\
  (forall x, on_disk s2 x -> r_uuid x = r_uuid r -> t ∉ r_tags x) /\
  (forall x, to_push peers s2 x -> r_uuid x = r_uuid r -> t ∉ r_tags x).
Proof.
  intros HO Hf Hs Hnp He Hperm Hown Hrep HS s1 s2 p l r t Hin Hl Hr Hp Ht Hto Hnew.
  destruct (C50_pull O same owner peers replies s HO Hf Hs Hnp He Hperm Hown Hrep) as (_ & _ & HC & _ & Hf1 & _).
  fold s1 in HC, Hf1.
  assert (H1 : forall x, r_server x = p -> on_disk s1 x <-> x ∈ l).
  { intros x Hx. exact (HC p (Ok l) x Hin Hx). }
  assert (Hs1 : forall x, on_disk s1 x -> r_uuid x = r_uuid r -> r_server x = p).
  { intros x Hx Hu. destruct (decide (r_server x = "")) as [E|E].
    - destruct (C50_pull O same owner peers replies s HO Hf Hs Hnp He Hperm Hown Hrep) as (_ & HL & _).
      apply HL in Hx; [|done]. unfold on_disk in *. rewrite Hu, Hr in Hx. congruence.
    - destruct (decide (r_server x ∈ peers)) as [E'|E'].
      + rewrite <- Hperm in E'. apply elem_of_list_fmap in E' as ([q a] & Hq & Hqa). cbn in Hq.
        apply (HC q a x Hqa) in Hx; [|done]. pose proof (Hrep q a Hqa) as Hok. unfold kept_after in Hx.
        destruct a as [l'|e].
        * destruct Hok as [_ Hok]. destruct (Hok x Hx) as [-> Ho]. rewrite <- Ho, Hu. symmetry. rewrite <- Hp. by apply Hown.
        * destruct e; try done. unfold on_disk in *. rewrite Hu, Hr in Hx. congruence.
      + destruct (C50_pull O same owner peers replies s HO Hf Hs Hnp He Hperm Hown Hrep) as (_ & _ & _ & HD & _).
        by destruct (HD x E E'). }
  assert (Hns : forall x, on_disk s1 x -> r_uuid x = r_uuid r -> t ∉ r_tags x).
  { intros x Hx Hu. apply Hnew; [|done]. apply H1; [|done]. by apply Hs1. }
  assert (Hns2 : forall x, on_disk s2 x -> r_uuid x = r_uuid r -> t ∉ r_tags x).
  { intros x Hx Hu Htx. destruct (expire_result O iso now S0 s1 HO Hf1 HS) as (s' & E & _ & R).
    unfold on_disk, s2 in Hx. rewrite E in Hx. cbn [fst] in Hx. specialize (R (r_uuid x)).
    destruct (drevs s1 !! r_uuid x) as [y|] eqn:Ey; [|congruence].
    destruct R as (K & HK & Ho). rewrite Hx in Ho. destruct (decide _); [done|]. injection Ho as ->. cbn in Htx, Hu, Ey.
    apply HK in Htx as [Htx _]. apply (Hns y); [|done|done]. exact Ey. }
  split_and!.
  - intros Hx. by apply (Hns r).
  - intros x Hx Hxp. apply Hl. by apply H1.
  - done.
  - intros x (Hx & _). by apply Hns2.
Qed.
(** What expiry itself changes after the pull is sent. *)
Theorem C52_expiry_partial O same owner peers replies s iso now S0 :
  orders_ok O -> rev_files_ok (w_disk (rs_w s)) -> scanned O s ->
  NoDup peers -> "" ∉ peers -> map fst replies ≡ₚ peers ->
  (forall u r, drevs s !! u = Some r -> r_server r = owner u) ->
  (forall p a, (p, a) ∈ replies -> reply_ok owner p a) -> sched_ok S0 ->
  let s1 := (pull_metadata O same peers replies s).1 in
  let s2 := (expire O iso now S0 s1).1 in
  synced s2 /\
  forall p l x, (p, Ok l) ∈ replies -> x ∈ l -> is_Some (s_duration (r_stats x)) -> r_tags x = r_orig x ->
  exists K : gset string, (forall t, t ∈ K <-> tag_kept S0 (scan_disk O (w_disk (rs_w s1))) now x t) /\
    on_disk s2 (with_tags K x) /\ (K <> r_tags x -> to_push peers s2 (with_tags K x)).
Proof.
  intros HO Hf Hs Hnp He Hperm Hown Hrep HS s1 s2.
  destruct (C50_pull O same owner peers replies s HO Hf Hs Hnp He Hperm Hown Hrep) as (_ & _ & HC & _ & Hf1 & _).
  fold s1 in HC, Hf1.
  split.
  { destruct (expire_spec O iso now S0 s1 HO Hf1 HS) as (s' & E & _ & Hsy & _). unfold s2. rewrite E. done. }
  intros p l x Hin Hx Hd Ho. destruct (Hrep p (Ok l) Hin) as [_ Hok]. destruct (Hok x Hx) as [Hxp _].
  assert (Hp : p ∈ peers) by (rewrite <- Hperm; apply elem_of_list_fmap; by exists (p, Ok l)).
  assert (H1 : on_disk s1 x) by (by apply (HC p (Ok l) x Hin Hxp)).
  destruct (expire_result O iso now S0 s1 HO Hf1 HS) as (s' & E & _ & R).
  specialize (R (r_uuid x)). unfold on_disk in H1. rewrite H1 in R. destruct R as (K & HK & HR).
  assert (H2 : on_disk s2 (with_tags K x)).
  { unfold on_disk, s2. rewrite E. cbn [fst r_uuid with_tags]. rewrite HR. rewrite decide_False; [done|].
    intros [_ Hbad]. rewrite Hxp in Hbad. by rewrite Hbad in Hp. }
  exists K. split; [done|]. split; [done|]. intros HKx. split; [done|]. cbn. rewrite Hxp, <- Ho. done.
Qed.
Print Assumptions C52_refuted.
Print Assumptions C52_expiry_partial.

(** A cluster: the record "x" of p1 has a tag added here, "y" lost its only tag, "w" was
    changed at p1 in the meantime; the purge request is lost. *)
Definition ex_pend (u : string) (ts : Z) (tags orig : list string) (srv : string) : rev :=
  MkRev u ts (MkStats 0 (Some 1%Z) None) (list_to_set tags) (list_to_set orig) TRUSTED srv.
Definition ex_px := ex_pend "xxxxxxxx" 100 ["daily"; "manual:a"] ["daily"] "p1".
Definition ex_py := ex_pend "yyyyyyy2" 200 [] ["weekly"] "p1".
Definition ex_pw := ex_pend "wwwwwww3" 300 ["daily"] [] "p1".
Definition ex_dead1 : api :=
  MkApi {["vm" := ex_state [ex_m "xxxxxxxx" 100 ["daily"] ""; ex_m "yyyyyyy2" 200 ["weekly"] ""; ex_m "wwwwwww3" 300 ["other"] ""]]} ∅ ∅ ∅ [] 0.
Definition ex_cluster : cluster :=
  MkCluster (scan ex_orders (ex_state [ex_px; ex_py; ex_pw; ex_m "l" 50 ["daily"] ""])).1
    {["p1" := MkPeer {["secret" := "me"]} ex_orders (fun _ => None) false ex_dead1]}.
Definition ex_steps : list push_step :=
  [PsTags ex_px NReply; PsTags ex_py NReply; PsTags ex_pw NReply; PsPurge "p1" (NLost ClientConnectionError)].
Definition ex_pushed := push_run "vm" (fun _ => "secret") ex_steps ex_cluster.
Example ex_C51 :
  map r_uuid (push_work ["p1"] (rs_hist (c_local ex_cluster))) = map r_uuid (pushed ex_steps) /\
  match ex_pushed.2 with Ok outs => map snd outs = [true; true; false; false] | Err _ => False end /\
  let show r := option_map (fun x => (elements (r_tags x), elements (r_orig x))) r in
  map (fun u => show (drevs (c_local ex_pushed.1) !! u)) ["xxxxxxxx"; "yyyyyyy2"; "wwwwwww3"]
    = [Some (elements (r_tags ex_px), elements (r_tags ex_px)); None; Some (["daily"], [])] /\
  map (fun u => show (at_server ex_pushed.1 "p1" "vm" u)) ["xxxxxxxx"; "yyyyyyy2"; "wwwwwww3"]
    = [Some (elements (r_tags ex_px), ["daily"]); None; Some (["other"], ["other"])].
Proof. vm_compute. repeat split; reflexivity. Qed.
Lemma ex_disk_ok l : rev_files_ok (w_disk (rs_w (ex_state l))).
Proof.
  intros n r Hn. apply elem_of_list_to_map_2, elem_of_list_fmap in Hn as (x & [= -> ->] & _). done.
Qed.
Example ex_C51_hyps : cluster_ok ex_cluster /\ synced (c_local ex_cluster) /\
  (forall r, to_push ["p1"] (c_local ex_cluster) r -> id_word (r_uuid r)) /\
  pushed ex_steps ≡ₚ push_work ["p1"] (rs_hist (c_local ex_cluster)) /\
  (forall x, x ∈ ex_steps -> step_ok ["p1"] x) /\ accepts "vm" (fun _ => "secret") ex_cluster ex_px.
Proof.
  assert (Hsy : synced (c_local ex_cluster)).
  { apply scan_synced; [apply ex_orders_ok|]. apply ex_disk_ok. }
  split; [|split; [done|split; [|split; [|split]]]].
  - intros p P HP. unfold ex_cluster in HP. cbn [c_peers] in HP. apply lookup_singleton_Some in HP as [<- <-].
    split; [apply ex_orders_ok|]. intros n r Hr. cbn [pe_api] in Hr. unfold ex_dead1 in Hr. cbn [a_dead] in Hr. apply lookup_singleton_Some in Hr as [<- <-]. apply ex_disk_ok.
  - intros r (Hr & _ & Hp & _). apply Hsy in Hr as [Hr _].
    assert (Hh : rs_hist (c_local ex_cluster) = [ex_m "l" 50 ["daily"] ""; ex_px; ex_py; ex_pw]) by (vm_compute; reflexivity).
    rewrite Hh in Hr.
    assert (Hw : forall u, u ∈ ["xxxxxxxx"; "yyyyyyy2"; "wwwwwww3"] -> id_word u).
    { intros u Hu. repeat (apply elem_of_cons in Hu as [->|Hu]; [apply id_word_alnum|]); try (by apply elem_of_nil in Hu); try (cbn; lia).
      1,3,5: intros c Hc; cbn in Hc; repeat (apply elem_of_cons in Hc as [->|Hc]; [reflexivity|]); by apply elem_of_nil in Hc.
      all: eexists; split; [left|reflexivity]. }
    apply elem_of_cons in Hr as [->|Hr]; [by apply elem_of_list_singleton in Hp|].
    repeat (apply elem_of_cons in Hr as [->|Hr]; [apply Hw; cbn; set_solver|]). by apply elem_of_nil in Hr.
  - assert (He : pushed ex_steps = push_work ["p1"] (rs_hist (c_local ex_cluster))) by (vm_compute; reflexivity). by rewrite He.
  - intros x Hx. unfold ex_steps in Hx. repeat (apply elem_of_cons in Hx as [->|Hx]; [cbn; set_solver|]). by apply elem_of_nil in Hx.
  - eexists _, _. split; [reflexivity|]. split; [by exists "me"|]. split; [done|]. split; [vm_compute; reflexivity|]. vm_compute; reflexivity.
Qed.
(** An added tag is lost in the pull, what expiry drops is sent. *)
Definition ex_s52 : rst := (scan ex_orders (ex_state [ex_px; ex_m "l" 50 ["daily"] ""])).1.
Definition ex_r52 : list (string * res (list rev)) := [("p1", Ok [mark "p1" (ex_m "xxxxxxxx" 100 ["daily"; "weekly"] "")])].
Example ex_C52 :
  let s1 := (pull_metadata ex_orders (fun _ => true) ["p1"] ex_r52 ex_s52).1 in
  let s2 := (expire ex_orders (fun _ => None) (fun _ => 1000%Z) [("daily", MkItem 100 2)] s1).1 in
  let show r := option_map (fun x => (elements (r_tags x), elements (r_orig x))) r in
  show (drevs ex_s52 !! "xxxxxxxx") = Some (elements (r_tags ex_px), ["daily"]) /\
  option_map (fun x => bool_decide (r_tags x = {["daily"; "weekly"]} /\ r_orig x = r_tags x)) (drevs s1 !! "xxxxxxxx") = Some true /\
  map (fun x => (r_uuid x, elements (r_tags x))) (push_work ["p1"] (rs_hist s2)) = [("xxxxxxxx", ["daily"])].
Proof. vm_compute. repeat split; reflexivity. Qed.
