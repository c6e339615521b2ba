(** C122: what an error of a peer does to what is known here of its revisions. *)
From Verif Require Import Proofs.SyncProofs Props.PRepo Props.PApi Props.PExpire Props.PSync.
From Verif Require Import Model.Sync.

(** A peer that cannot be reached, or does not answer in time, loses nothing: the records
    of its revisions, with the tag changes that wait to be pushed, stay as they are, for
    any replies of the other peers. *)
Theorem C122_unreachable_partial O same owner peers replies s p :
  orders_ok O -> rev_files_ok (w_disk (rs_w s)) -> scanned O s ->
  NoDup peers -> "" ∉ peers -> map fst replies ≡ₚ peers ->
  (forall u r, drevs s !! u = Some r -> r_server r = owner u) ->
  (forall p a, (p, a) ∈ replies -> reply_ok owner p a) ->
  (p, Err ClientConnectionError) ∈ replies ->
  forall r, r_server r = p ->
    on_disk (pull_metadata O same peers replies s).1 r <-> on_disk s r.
Proof.
  intros HO Hf Hs H1 H2 H3 H4 H5 Hin r Hr.
  destruct (C50_pull O same owner peers replies s HO Hf Hs H1 H2 H3 H4 H5) as (_ & _ & HC & _).
  exact (HC p _ r Hin Hr).
Qed.
Print Assumptions C122_unreachable_partial.

(** An answer with an error - any error - removes them all. *)
Lemma error_gone O same owner s p e :
  orders_ok O -> rev_files_ok (w_disk (rs_w s)) -> scanned O s -> p <> "" ->
  (forall u r, drevs s !! u = Some r -> r_server r = owner u) ->
  is_client_error e = true -> e <> ClientConnectionError ->
  let s' := (pull_metadata O same [p] [(p, Err e)] s).1 in
  rev_files_ok (w_disk (rs_w s')) /\
  forall r, on_disk s' r <-> on_disk s r /\ r_server r = "".
Proof.
  intros HO Hf Hs Hp Ho He Hne s'.
  destruct (C50_pull O same owner [p] [(p, Err e)] s) as (_ & HL & HC & HD & Hf' & _); try done.
  { apply NoDup_singleton. }
  { by rewrite elem_of_list_singleton. }
  { intros q a Ha. apply elem_of_list_singleton in Ha as [= -> ->]. exact He. }
  fold s' in HL, HC, HD, Hf'. split; [done|]. intros r. split.
  - intros Hr. destruct (decide (r_server r = "")) as [Hl|Hl]; [split; [by apply HL|done]|].
    exfalso. destruct (decide (r_server r = p)) as [Hrp|Hrp].
    + apply (HC p (Err e) r) in Hr; [|left|done]. cbn in Hr. destruct e; done.
    + eapply HD; [done| |done]. by rewrite elem_of_list_singleton.
  - intros [Hr Hl]. by apply HL.
Qed.
(** The answers: a peer that does not know the token sends one. *)
Lemma unauthorized_fetch name p token n2 P : ~ valid_token P token ->
  fetch name p token NReply n2 P = (P, Err (ClientResponseError 401)).
Proof.
  intros Hn. destruct P as [tokens O iso lk a].
  assert (auth tokens (MkReq (Some ("Bearer " ++ token)%string) (RtTouch name)) = None) as Ha.
  { destruct (auth _ _) as [c|] eqn:E; [|done]. exfalso.
    destruct (proj1 (auth_spec tokens (MkReq (Some ("Bearer " ++ token)%string) (RtTouch name)))) as (t & cl & Ht & Hl & Hc).
    { rewrite E. eauto. }
    apply Hn. cbn [q_auth] in Ht. injection Ht as Ht.
    exists cl. cbn [pe_tokens]. rewrite Ht. done. }
  unfold fetch, ask, serve. cbn [pe_tokens pe_O pe_iso pe_locked pe_api]. rewrite Ha. done.
Qed.
(** "An error loses nothing": of the records of a peer that answers with an error, whatever
    it is - 401, 500, 502 of a proxy, a reply that is not JSON, a connection that breaks in
    the middle of the reply - none is left, although the peer has the revisions as
    before.  An example of such a peer is one that does not know the token. *)
Theorem C122_refuted O same owner s p :
  orders_ok O -> rev_files_ok (w_disk (rs_w s)) -> scanned O s -> p <> "" ->
  (forall u r, drevs s !! u = Some r -> r_server r = owner u) ->
  (forall e, is_client_error e = true -> e <> ClientConnectionError ->
     let s1 := (pull_metadata O same [p] [(p, Err e)] s).1 in
     forall r, on_disk s1 r <-> on_disk s r /\ r_server r = "") /\
  (forall name token P, ~ valid_token P token ->
     fetch name p token NReply NReply P = (P, Err (ClientResponseError 401))).
Proof.
  intros HO Hf Hs Hp Ho. split.
  - intros e He Hne s1. by apply error_gone with owner.
  - intros name token P. apply unauthorized_fetch.
Qed.
Print Assumptions C122_refuted.
(** The next proper answer brings the records back, but not what was changed here: the
    change [r] of the tags of the peer's revision [x] is not pushed, and the peer's tags
    are back.  (A proper answer in the first place would have lost the change, too:
    C52.) *)
Theorem C122_change_lost O same owner s p r x name token P P' d :
  orders_ok O -> rev_files_ok (w_disk (rs_w s)) -> scanned O s -> p <> "" ->
  (forall u r, drevs s !! u = Some r -> r_server r = owner u) ->
  (* the peer, without and with the token *)
  ~ valid_token P token ->
  orders_ok (pe_O P') -> rev_files_ok d -> valid_token P' token -> has_repo name P' d ->
  (forall y, offered d y -> owner (r_uuid y) = p) ->
  (* the waiting change *)
  on_disk s r -> r_server r = p -> offered d x -> r_uuid r = r_uuid x -> r_tags r <> r_tags x ->
  r_orig r = r_tags x ->
  let s1 := (pull_metadata O same [p] [(p, (fetch name p token NReply NReply P).2)] s).1 in
  let s2 := (pull_metadata O same [p] [(p, (fetch name p token NReply NReply P').2)] (scan O s1).1).1 in
  pending r = true /\ (forall y, on_disk s1 y -> pending y = false) /\
  push_work [p] (scan_disk O (w_disk (rs_w s1))) = [] /\
  drevs s2 !! r_uuid r = Some (mark p x) /\ r_tags (mark p x) = r_tags x /\
  (forall y, on_disk s2 y -> pending y = false).
Proof.
  intros HO Hf Hs Hp Ho Hnv HOP Hfd Hv Hrepo Hown Hr Hrp Hx Hrx Htags Horig.
  assert ((fetch name p token NReply NReply P).2 = Err (ClientResponseError 401)) as -> by (by rewrite unauthorized_fetch).
  intros s1 s2.
  destruct (error_gone O same owner s p (ClientResponseError 401)) as [Hf1 H1]; try done. fold s1 in Hf1, H1.
  assert (forall y, r_server y = "" -> pending y = false) as Hpl.
  { intros y Hy. unfold pending. by rewrite bool_decide_eq_true_2. }
  split.
  { unfold pending. rewrite (bool_decide_eq_false_2 (r_server r = "")) by (by rewrite Hrp).
    rewrite (bool_decide_eq_false_2 (r_tags r = r_orig r)); [done|congruence]. }
  split; [intros y Hy; apply Hpl; by apply H1 in Hy as [_ Hy]|]. split.
  { apply elem_of_nil_inv. intros y Hy. unfold push_work in Hy. apply elem_of_list_filter in Hy as [Hpy Hy].
    unfold get_history in Hy. apply elem_of_list_filter in Hy as [_ Hy].
    apply scan_disk_elem in Hy; [|done|done]. rewrite Hpl in Hpy; [done|]. by apply H1 in Hy as [_ ?]. }
  destruct (C50_fetch name p token P' d HOP Hfd Hv Hrepo) as (l & Hl & Hnd & Hel).
  set (t := (scan O s1).1).
  assert (w_disk (rs_w t) = w_disk (rs_w s1)) as Hdt by reflexivity.
  assert (scanned O t) as Hst by reflexivity.
  assert (forall y, on_disk t y <-> on_disk s1 y) as Hot by (intros y; reflexivity).
  destruct (C50_pull O same owner [p] [(p, (fetch name p token NReply NReply P').2)] t) as (_ & HL & HC & HD & Hf2 & _); try done.
  { apply NoDup_singleton. }
  { by rewrite elem_of_list_singleton. }
  { intros u y Hy. rewrite (Ho u y); [done|]. change (drevs t) with (drevs s1) in Hy.
    assert (r_uuid y = u) as <- by exact (Hf1 u y Hy). assert (on_disk s1 y) as Hy1 by exact Hy.
    apply H1 in Hy1 as [Hy1 _]. exact Hy1. }
  { intros q a Ha. apply elem_of_list_singleton in Ha as [= -> ->]. rewrite Hl. cbn. split; [done|].
    intros y Hy. apply Hel in Hy as (z & Hz & Hyz). apply record_mark in Hyz as ->. split; [reflexivity|]. change (r_uuid (mark p z)) with (r_uuid z). by apply Hown. }
  fold s2 in HL, HC, HD, Hf2.
  assert (HC' : forall y, r_server y = p -> on_disk s2 y <-> exists z, offered d z /\ record_of p z y).
  { intros y Hy. etransitivity; [exact (HC p _ y ltac:(left) Hy)|]. rewrite Hl. cbn [kept_after]. apply Hel. }
  assert (on_disk s2 (mark p x)) as Hm.
  { apply HC'; [done|]. exists x. split; [done|]. by apply record_mark. }
  split; [rewrite Hrx; exact Hm|]. split; [done|].
  intros y Hy. destruct (decide (r_server y = "")) as [Hl0|Hl0]; [by apply Hpl|].
  destruct (decide (r_server y = p)) as [Hyp|Hyp].
  - apply HC' in Hy as (z & _ & Hz); [|done]. apply record_mark in Hz as ->. unfold pending, mark. cbn.
    rewrite (bool_decide_eq_true_2 (r_tags z = r_tags z)) by done. apply andb_false_r.
  - exfalso. eapply (HD y); [done| |done]. by rewrite elem_of_list_singleton.
Qed.
Print Assumptions C122_change_lost.

(** The peer "p1" forgets the token (its configuration is being changed) and gets it
    back; the revision "xxxxxxxx" has been given a tag here. *)
Definition pe_good : peer := MkPeer {["secret" := "me"]} ex_orders (fun _ => None) false ex_dead1.
Definition pe_bad : peer := MkPeer ∅ ex_orders (fun _ => None) false ex_dead1.
Definition pe_s : rst := (scan ex_orders (ex_state [ex_px; ex_m "l" 50 ["daily"] ""])).1.
Example ex_C122 :
  let p1 := pull_metadata ex_orders (fun _ => true) ["p1"] [("p1", (fetch "vm" "p1" "secret" NReply NReply pe_bad).2)] pe_s in
  let p2 := pull_metadata ex_orders (fun _ => true) ["p1"] [("p1", (fetch "vm" "p1" "secret" NReply NReply pe_good).2)] (scan ex_orders p1.1).1 in
  let tags s u := option_map (fun r => elements (r_tags r)) (drevs s !! u) in
  map r_uuid (push_work ["p1"] (rs_hist pe_s)) = ["xxxxxxxx"] /\
  tags pe_s "xxxxxxxx" = Some (elements (r_tags ex_px)) /\
  p1.2 = Ok 1%Z /\ tags p1.1 "xxxxxxxx" = None /\ tags p1.1 "l" = Some ["daily"] /\
  p2.2 = Ok 0%Z /\ tags p2.1 "xxxxxxxx" = Some ["daily"].
Proof. vm_compute. repeat split; reflexivity. Qed.
Definition pe_owner (u : string) : string := if bool_decide (u = "l") then "" else "p1".
Example ex_C122_hyps :
  rev_files_ok (w_disk (rs_w pe_s)) /\ scanned ex_orders pe_s /\ ~ valid_token pe_bad "secret" /\ valid_token pe_good "secret" /\
  (forall u r, drevs pe_s !! u = Some r -> r_server r = pe_owner u) /\
  on_disk pe_s ex_px /\ pending ex_px = true.
Proof.
  split; [apply ex_disk_ok|]. split; [reflexivity|]. split.
  { intros (c & Hc & _). cbn in Hc. by rewrite lookup_empty in Hc. }
  split; [by exists "me"|]. split; [|split; vm_compute; reflexivity].
  intros u r H. assert (drevs pe_s = <["xxxxxxxx" := ex_px]> {["l" := ex_m "l" 50 ["daily"] ""]}) as E by (vm_compute; reflexivity).
  rewrite E in H. apply lookup_insert_Some in H as [[<- <-]|[_ H]]; [reflexivity|].
  apply lookup_singleton_Some in H as [<- <-]. reflexivity.
Qed.
