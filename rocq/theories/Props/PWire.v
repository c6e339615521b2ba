(** C110, C111: what the servers send each other, and what becomes of a run when they
    do not answer as expected. *)
From Verif Require Import Proofs.SyncProofs Props.PRepo Props.PApi Props.PExpire Props.PSync Props.PDaemon.
From Verif Require Import Model.Wire.

(** ** C110: what is sent is what arrives *)
Lemma dec_all_map {A B} (enc : A -> json) (dec : json -> res B) (f : A -> B) l :
  (forall x, x ∈ l -> dec (enc x) = Ok (f x)) -> dec_all dec (map enc l) = Ok (map f l).
Proof.
  induction l as [|x l IH]; intros H; [done|]. cbn [map dec_all]. rewrite (H x) by left. cbn [res_bind].
  rewrite IH by (intros y Hy; apply H; right; done). done.
Qed.
Lemma dec_enc_texts l : dec_texts (enc_texts l) = Ok l.
Proof. unfold dec_texts, enc_texts. rewrite (dec_all_map _ _ id) by done. rewrite map_id. done. Qed.
Lemma dec_enc_stats x : dec_stats (enc_stats x) = Ok x.
Proof. destruct x as [b [d|] [v|]]; reflexivity. Qed.
Lemma set_back (O : orders) (X : gset string) : orders_ok O -> list_to_set (o_set O X) = X :> gset string.
Proof. intros [_ H]. apply set_eq. intros x. rewrite elem_of_list_to_set, H, elem_of_elements. done. Qed.

Ltac look := repeat match goal with |- context [alookup ?k ?l] =>
  let x := eval hnf in (alookup k l) in change (alookup k l) with x end.

(** Clocks and texts: the text of a time in UTC is read as this time. *)
Definition iso_ok (iso_text : Z -> Z -> string) (iso : string -> option (Z * Z)) : Prop :=
  (forall t, iso (iso_text t 0%Z) = Some (t, 0%Z)) /\ iso "" = None.

Lemma dec_enc_rev iso_text iso O h r : orders_ok O -> iso_ok iso_text iso ->
  dec_rev iso (enc_meta iso_text (to_dict O h r)) = Ok r.
Proof.
  intros HO [Hi _]. unfold to_dict, enc_meta. cbn [m_uuid m_ts m_parent m_stats m_trust m_tags m_orig m_server entry app].
  unfold dec_rev, field. look. cbn [res_bind dec_text enc_ts dec_ts].
  rewrite dec_enc_stats, !dec_enc_texts. cbn [res_bind].
  unfold from_dict. cbn [m_ts m_uuid m_trust m_stats m_tags m_orig m_server default]. rewrite Hi. cbn [res_bind fst snd].
  cbn [Z.eqb negb default from_option id].
  assert (Ht : trust_of (trust_value (r_trust r)) = Some (r_trust r)) by (destruct (r_trust r); reflexivity).
  rewrite Ht. cbn [default from_option id]. rewrite !(set_back O) by done. destruct r; reflexivity.
Qed.

(** Revisions: identifier, time, statistics, tags and trust arrive as they are. *)
Theorem C110_revisions iso_text iso O h l p status :
  orders_ok O -> iso_ok iso_text iso -> (status < 400)%Z ->
  get_revs iso p (sent iso_text O h (MkResp status l)) = Ok (map (mark p) l).
Proof.
  intros HO Hi Hs. unfold get_revs, sent. cbn [p_status p_revs answered].
  rewrite (proj2 (Z.leb_gt 400 status)) by lia. cbn [res_bind read_json negb].
  unfold enc_revs, dec_revs. rewrite (dec_all_map _ _ id). 2: { intros x _. apply dec_enc_rev; done. }
  cbn [res_bind]. rewrite map_id. done.
Qed.
Print Assumptions C110_revisions.

(** A pull: the two requests over the wire give what the peer's server answered, which
    is what Model/Sync.v (C50, C105, C106) computes with. *)
Theorem C110_pull iso_text iso O h1 h2 name p token P :
  orders_ok O -> iso_ok iso_text iso ->
  let q rt := MkReq (Some ("Bearer " ++ token)%string) rt in
  let touch := serve (pe_tokens P) (pe_O P) (pe_iso P) (pe_locked P) (q (RtTouch name)) (pe_api P) in
  let revs := serve (pe_tokens P) (pe_O P) (pe_iso P) (pe_locked P) (q (RtRevs name true)) touch.1 in
  wire_fetch iso p (sent iso_text O h1 touch.2) (sent iso_text O h2 revs.2)
  = (fetch name p token NReply NReply P).2.
Proof.
  intros HO Hi q touch revs. unfold wire_fetch, fetch, ask. cbn [pe_api pe_tokens pe_O pe_iso pe_locked].
  change (serve _ _ _ _ (MkReq _ (RtTouch name)) (pe_api P)) with touch.
  change (serve _ _ _ _ (MkReq _ (RtRevs name true)) touch.1) with revs.
  unfold sent at 1. cbn [answered].
  destruct (400 <=? p_status touch.2)%Z eqn:E1; [done|]. cbn [res_bind]. destruct (400 <=? p_status revs.2)%Z eqn:E2.
  - unfold get_revs, sent. cbn [answered]. rewrite E2. done.
  - cbn [snd]. symmetry. rewrite <- (C110_revisions iso_text iso O h2 (p_revs revs.2) p (p_status revs.2)); [|done|done|].
    2: { apply Z.leb_gt in E2. done. }
    destruct revs as [a [st rs]]. done.
Qed.
Print Assumptions C110_pull.

(** A change of tags: the server gets the tags the client sent. *)
Theorem C110_tags O old new : orders_ok O ->
  dec_body (Some (enc_tags O old new)) = BJson (Some old) (Some new).
Proof.
  intros HO. unfold dec_body, enc_tags, field. look. cbn [res_bind]. rewrite !dec_enc_texts. cbn [res_bind].
  rewrite (set_back O) by done. change (list_to_set <$> Some (o_set O new)) with (Some (list_to_set (o_set O new) : gset string)).
  rewrite (set_back O) by done. done.
Qed.
Print Assumptions C110_tags.

(** The reports the leader is chosen by. *)
Theorem C110_status iso_text iso l : iso_ok iso_text iso ->
  fetch_status iso (HReply 200 true (Some (JList (map (enc_status iso_text) l)))) = Ok l.
Proof.
  intros [Hi He]. unfold fetch_status. cbn [answered Z.leb Z.compare Pos.compare Pos.compare_cont res_bind read_json negb].
  rewrite <- (map_id l) at 2. apply dec_all_map. intros [n la st ne] _.
  assert (Ht : forall o, dec_time iso (enc_time iso_text o) = Ok o).
  { intros [t|]; [|done]. cbn [enc_time]. destruct (iso_text t 0%Z) as [|a s] eqn:E.
    - rewrite <- E, Hi in He. done.
    - cbn [dec_time]. rewrite <- E, Hi. done. }
  unfold enc_status, dec_status, field. cbn [t_local_revs t_last t_status t_next].
  look. cbn [res_bind]. rewrite !Ht. reflexivity.
Qed.
Print Assumptions C110_status.

(** A concrete way to write times. *)
Fixpoint bits (p : positive) : string :=
  match p with xH => "1" | xO p => String "0" (bits p) | xI p => String "1" (bits p) end.
Fixpoint unbits (s : string) : option positive :=
  match s with
  | String "1" EmptyString => Some xH
  | String "0" s => xO <$> unbits s
  | String "1" s => xI <$> unbits s
  | _ => None
  end.
Definition ex_iso_text (t o : Z) : string :=
  match t with Z0 => "Z" | Zpos p => String "T" (bits p) | Zneg p => String "B" (bits p) end.
Definition ex_wire_iso (s : string) : option (Z * Z) :=
  match s with
  | String "Z" EmptyString => Some (0, 0)%Z
  | String "T" s => (fun p => (Zpos p, 0%Z)) <$> unbits s
  | String "B" s => (fun p => (Zneg p, 0%Z)) <$> unbits s
  | _ => None
  end.
Lemma ex_iso_ok : iso_ok ex_iso_text ex_wire_iso.
Proof.
  assert (H : forall p, unbits (bits p) = Some p).
  { induction p as [p IH|p IH|]; [|cbn; rewrite IH; done|done].
    cbn [bits unbits]. destruct (bits p) eqn:E; [destruct p; done|]. rewrite IH. done. }
  split; [|done]. intros [|p|p]; [done| |]; cbn [ex_iso_text ex_wire_iso]; rewrite H; done.
Qed.
Example ex_C110 :
  get_revs ex_wire_iso "p1" (sent ex_iso_text ex_orders [] (MkResp 200 [ex_m "y" 150 ["weekly"] ""]))
    = Ok [ex_m "y" 150 ["weekly"] "p1"] /\
  (* a time that is not in UTC *)
  get_revs (fun _ => Some (150, 3600)%Z) "p1" (sent ex_iso_text ex_orders [] (MkResp 200 [ex_m "y" 150 ["weekly"] ""]))
    = Err AssertionError.
Proof.
  split; [apply (C110_revisions ex_iso_text ex_wire_iso); [apply ex_orders_ok|apply ex_iso_ok|done]|].
  vm_compute. reflexivity.
Qed.

(** ** C111: trouble with peers *)
(** A request that fails in one of the ways the code expects. *)
Definition failed (h : hreply) : Prop :=
  match h with HNone | HCut => True | HSlow => False | HReply c _ _ => (400 <= c)%Z end.
Definition accepted (h : hreply) : Prop :=
  match h with HReply c _ _ => (c < 400)%Z | _ => False end.
(** A reply with revisions of its own, each once; or one that is not even called JSON. *)
Definition sensible (iso : string -> option (Z * Z)) (owner : string -> string) (p : string) (h : hreply) : Prop :=
  match h with
  | HReply c true (Some j) => exists l, dec_revs iso j = Ok l /\ NoDup (map r_uuid l) /\
      forall r, r ∈ l -> owner (r_uuid r) = p
  | HReply c false _ => True
  | _ => False
  end.
(** The peer [p] is down, refuses, or answers as a backy server does. *)
Definition polite iso owner p (h1 h2 : hreply) : Prop :=
  failed h1 \/ accepted h1 /\ (failed h2 \/ accepted h2 /\ sensible iso owner p h2).
(** It accepts the connection and does not answer, or answers something that is no list
    of revisions although it is called JSON. *)
Definition impolite (iso : string -> option (Z * Z)) (h1 h2 : hreply) : Prop :=
  h1 = HSlow \/ accepted h1 /\
    (h2 = HSlow \/ exists c b, h2 = HReply c true b /\ (c < 400)%Z /\
       forall j l, b = Some j -> dec_revs iso j <> Ok l).
Definition polite_step (c : cluster) (x : push_step) : Prop :=
  match x with
  | PsTags r n => is_Some (c_peers c !! r_server r) /\
      match n with NReply => True | NLost e | NLostReply e => is_client_error e = true end
  | PsPurge p n => is_Some (c_peers c !! p) /\
      match n with NReply => True | NLost e | NLostReply e => is_client_error e = true end
  end.

Lemma polite_reply iso owner p h1 h2 : polite iso owner p h1 h2 -> reply_ok owner p (wire_fetch iso p h1 h2).
Proof.
  unfold polite, wire_fetch. intros [H|[Ha H]].
  - destruct h1 as [| | |c t b]; cbn in *; try done. rewrite (proj2 (Z.leb_le _ _) H). done.
  - destruct h1 as [| | |c t b]; cbn in Ha; try done. cbn [answered].
    rewrite (proj2 (Z.leb_gt _ _) Ha). cbn [res_bind]. unfold get_revs.
    destruct H as [H|[H2 H]].
    + destruct h2 as [| | |c2 t2 b2]; cbn in *; try done. rewrite (proj2 (Z.leb_le _ _) H). done.
    + destruct h2 as [| | |c2 t2 b2]; cbn in H2; try done. cbn [answered].
      rewrite (proj2 (Z.leb_gt _ _) H2). cbn [res_bind read_json]. destruct t2; [|done].
      destruct b2 as [j|]; [|done]. cbn [sensible] in H. destruct H as (l & H3 & H4 & H5). cbn [negb res_bind].
      rewrite H3. cbn [res_bind reply_ok].
      assert (Hm : map r_uuid (map (mark p) l) = map r_uuid l) by (rewrite map_map; done).
      rewrite Hm. split; [done|]. intros r Hr. apply elem_of_list_fmap in Hr as (x & -> & Hx). cbn. auto.
Qed.
Lemma impolite_reply iso p h1 h2 : impolite iso h1 h2 ->
  exists e, wire_fetch iso p h1 h2 = Err e /\ is_client_error e = false.
Proof.
  unfold impolite, wire_fetch. intros [->|[Ha H]]; [exists OSError; done|].
  destruct h1 as [| | |c t b]; cbn in Ha; try done. cbn [answered].
  rewrite (proj2 (Z.leb_gt _ _) Ha). cbn [res_bind]. unfold get_revs.
  destruct H as [->|(c2 & b2 & -> & H2 & H)]; [exists OSError; done|].
  cbn [answered]. rewrite (proj2 (Z.leb_gt _ _) H2). cbn [res_bind read_json negb].
  destruct b2 as [j|]; [|exists ValueError; done]. cbn [res_bind].
  destruct (dec_revs iso j) as [l|e] eqn:E; [destruct (H j l); done|]. exists e. split; [done|].
  (* what decoding raises is no client error *)
  assert (Htext : forall j e, dec_text j = Err e -> is_client_error e = false)
    by (intros [] ?; cbn; intros [= <-]; done).
  assert (Hnum : forall j e, dec_num j = Err e -> is_client_error e = false)
    by (intros [] ?; cbn; intros [= <-]; done).
  assert (Hts : forall j e, dec_ts j = Err e -> is_client_error e = false)
    by (intros [] ?; cbn; intros [= <-]; done).
  assert (Hb : forall A B (x : res A) (k : A -> res B), (forall e, x = Err e -> is_client_error e = false) ->
     (forall a e, k a = Err e -> is_client_error e = false) -> forall e, res_bind x k = Err e -> is_client_error e = false).
  { intros A B [a|e0] k H1 H3 e1; cbn; [apply H3|intros [= <-]; apply H1; done]. }
  assert (Hall : forall A (dec : json -> res A), (forall j e, dec j = Err e -> is_client_error e = false) ->
     forall l e, dec_all dec l = Err e -> is_client_error e = false).
  { intros A dec Hd. induction l as [|j0 l IH]; [done|]. cbn [dec_all]. apply Hb; [apply Hd|]. intros a.
    apply Hb; [apply IH|]. done. }
  assert (Hf : forall A k (dec : json -> res A) l, (forall j e, dec j = Err e -> is_client_error e = false) ->
     forall e, field k dec l = Err e -> is_client_error e = false).
  { intros A k dec l Hd e1. unfold field. destruct (alookup k l); [|done]. apply Hb; [apply Hd|done]. }
  assert (Htexts : forall j e, dec_texts j = Err e -> is_client_error e = false).
  { intros [] ?; cbn; try (intros [= <-]; done). apply Hall. done. }
  assert (Hstats : forall j e, dec_stats j = Err e -> is_client_error e = false).
  { intros [] ?; cbn; try (intros [= <-]; done).
    apply Hb; [apply Hf; done|]. intros ?. apply Hb; [apply Hf; done|]. intros ?. apply Hb; [apply Hf; done|]. done. }
  assert (Hfrom : forall m e, from_dict iso m = Err e -> is_client_error e = false).
  { intros m e1. unfold from_dict. destruct (m_ts m) as [y|]; [|intros [= <-]; done]. apply Hb.
    - intros e2. destruct y as [i o|s0]; [done|]. destruct (iso s0); [done|]. intros [= <-]. done.
    - intros [t0 o0] e2. cbn [snd]. destruct (negb (o0 =? 0)%Z); [intros [= <-]; done|].
      destruct (m_uuid m); [|intros [= <-]; done]. destruct (trust_of _); [done|]. intros [= <-]. done. }
  assert (Hrev : forall j e, dec_rev iso j = Err e -> is_client_error e = false).
  { intros [] ?; cbn [dec_rev]; try (intros [= <-]; done).
    repeat (apply Hb; [apply Hf; done|]; intros ?). apply Hfrom. }
  revert E. unfold dec_revs. destruct j as [| | |[|a s]|l|[|a l]]; try (intros [= <-]; done).
  apply Hall. done.
Qed.
Lemma pull_all_raises O same replies s n :
  (pull_all O same replies s).2 = Ok n -> forall p e, (p, Err e) ∈ replies -> is_client_error e = true.
Proof.
  revert s n. induction replies as [|[q a] l IH]; intros s n H p e Hin; [by apply elem_of_nil in Hin|].
  cbn [pull_all] in H. unfold bind at 1 in H.
  destruct (pull_single O same q a s) as [s1 [b|e1]] eqn:E1; [|done].
  unfold bind in H. destruct (pull_all O same l s1) as [s2 [n2|e2]] eqn:E2; [|done].
  apply elem_of_cons in Hin as [[= <- <-]|Hin].
  - destruct e; try done.
  - apply (IH s1 n2) with p; [rewrite E2; done|done].
Qed.
Lemma push_ok name token steps : forall c, (forall x, x ∈ steps -> polite_step c x) ->
  exists c' l, push_run name token steps c = (c', Ok l).
Proof.
  induction steps as [|x steps IH]; intros c H; [exists c, []; done|].
  assert (Hx : exists c1 b, (match x with
       | PsTags r n => push_one name (token (r_server r)) n r
       | PsPurge p n => push_purge name (token p) n p
       end) c = (c1, Ok b) /\ forall q, is_Some (c_peers c !! q) -> is_Some (c_peers c1 !! q)).
  { pose proof (H x ltac:(left)) as Hp.
    assert (Hins : forall q (P : peer) (m : gmap string peer), is_Some (m !! q) \/ True ->
       forall q', is_Some (m !! q') -> is_Some (<[q := P]> m !! q')).
    { intros q P m _ q' [y Hy]. destruct (decide (q = q')) as [->|Hne]; [rewrite lookup_insert|rewrite lookup_insert_ne by done; rewrite Hy]; done. }
    destruct x as [r n|p n]; destruct Hp as [[P HP] Hn].
    - unfold push_one. rewrite HP. destruct (ask _ n _ P) as [P' a] eqn:Ea.
      assert (Ha : forall e, a = Err e -> is_client_error e = true).
      { intros e ->. unfold ask in Ea. destruct n as [|e1|e1]; apply (f_equal snd) in Ea; cbn [snd] in Ea; try (injection Ea as <-; done).
        destruct (400 <=? _)%Z in Ea; [injection Ea as <-; done|done]. }
      destruct a as [a|e].
      + unfold on_local. cbn [c_local c_peers].
        assert (Hs : exists s', (do_ settle r; ret true)%M (c_local c) = (s', Ok true)).
        { unfold settle. destruct (bool_decide (r_tags r = ∅)).
          - unfold rev_remove, bind. cbn. unfold bind, get, modify, eff_, ret. cbn. 
            repeat (match goal with |- context [if ?b then _ else _] => destruct b end; cbn); eexists; reflexivity.
          - eexists. reflexivity. }
        destruct Hs as [s' ->]. eexists _, _. split; [reflexivity|]. cbn [c_peers]. apply Hins. auto.
      + rewrite (Ha e eq_refl). eexists _, _. split; [reflexivity|]. cbn [c_peers]. apply Hins. auto.
    - unfold push_purge. rewrite HP. destruct (ask _ n _ P) as [P' a] eqn:Ea.
      assert (Ha : forall e, a = Err e -> is_client_error e = true).
      { intros e ->. unfold ask in Ea. destruct n as [|e1|e1]; apply (f_equal snd) in Ea; cbn [snd] in Ea; try (injection Ea as <-; done).
        destruct (400 <=? _)%Z in Ea; [injection Ea as <-; done|done]. }
      destruct a as [a|e]; [|rewrite (Ha e eq_refl)]; eexists _, _; (split; [reflexivity|]); cbn [c_peers]; apply Hins; auto. }
  destruct Hx as (c1 & b & Hx & Hk). cbn [push_run]. unfold bind at 1. rewrite Hx.
  destruct (IH c1) as (c2 & l & H2).
  { intros y Hy. specialize (H y ltac:(right; done)). destruct y; destruct H as [H1 H2]; split; auto. }
  unfold bind. rewrite H2. eexists _, _. reflexivity.
Qed.

(** If every peer is down, refuses or answers as a backy server does, a run whose own
    steps succeed does everything and counts as successful.  What is missing: a peer that
    does not answer in time, or sends nonsense ([C111_stops]). *)
Theorem C111_goes_on_partial iso O same owner peers hs s name token steps c immediate leader own :
  orders_ok O -> rev_files_ok (w_disk (rs_w s)) -> scanned O s ->
  NoDup peers -> "" ∉ peers -> map fst hs ≡ₚ peers ->
  (forall u r, drevs s !! u = Some r -> r_server r = owner u) ->
  (forall p h1 h2, (p, (h1, h2)) ∈ hs -> polite iso owner p h1 h2) ->
  (forall x, x ∈ steps -> polite_step c x) ->
  (forall i, own i = JOk) ->
  peer_run immediate leader own
    (ended (wire_pull iso O same peers hs s).2) (ended (push_run name token steps c).2)
  = (run_steps immediate leader, JOk).
Proof.
  intros HO Hf Hs H1 H2 H3 H4 H5 H6 H7.
  assert (Hpull : ended (wire_pull iso O same peers hs s).2 = JOk).
  { unfold wire_pull. set (replies := map _ hs).
    assert (H3' : map fst replies ≡ₚ peers) by (unfold replies; rewrite map_map; exact H3).
    assert (H5' : forall p a, (p, a) ∈ replies -> reply_ok owner p a).
    { intros p a Ha. apply elem_of_list_fmap in Ha as ([q [h1 h2]] & [= -> ->] & Ha). apply polite_reply. auto. }
    destruct (C50_pull O same owner peers replies s HO Hf Hs H1 H2 H3' H4 H5') as [-> _]. done. }
  destruct (push_ok name token steps c H6) as (c' & l & Hpush). rewrite Hpull, Hpush. cbn [snd ended].
  unfold peer_run. destruct immediate, leader; cbn; rewrite !H7; done.
Qed.
Print Assumptions C111_goes_on_partial.

(** A peer that accepts the connection and does not answer, or answers nonsense: every run
    of the job fails although its own steps succeed; and it neither expires nor collects
    nor calls back, whatever the other peers do. *)
Theorem C111_stops iso O same peers hs s push immediate leader own p h1 h2 :
  (p, (h1, h2)) ∈ hs -> impolite iso h1 h2 -> (forall i, own i = JOk) ->
  let '(done_, r) := peer_run immediate leader own (ended (wire_pull iso O same peers hs s).2) push in
  r = JFail /\ (forall x, x ∈ done_ -> x ∉ [JExpire; JPush; JGc; JCallback]) /\
  (immediate = true \/ leader = false -> JBackup ∈ done_).
Proof.
  intros Hin Hi Ho.
  assert (Hpull : ended (wire_pull iso O same peers hs s).2 = JFail).
  { destruct (impolite_reply iso p h1 h2 Hi) as (e & He & Hc).
    unfold wire_pull. set (replies := map _ hs).
    destruct ((pull_metadata O same peers replies s).2) as [n|e'] eqn:E; [|done]. exfalso.
    unfold pull_metadata, bind in E. destruct (remove_dead peers s) as [s1 [x|e1]]; [|done].
    assert (Hp : (p, Err e) ∈ replies).
    { unfold replies. apply elem_of_list_fmap. exists (p, (h1, h2)). cbn [fst snd]. rewrite He. done. }
    pose proof (pull_all_raises O same replies s1 n E p e Hp). congruence. }
  rewrite Hpull. unfold peer_run. destruct immediate, leader; cbn; rewrite ?Ho;
    (split; [done|]; split; [|intros [?|?]; (done || (repeat constructor; fail) || set_solver)]);
    intros x Hx; rewrite ?elem_of_cons, elem_of_nil in *; naive_solver.
Qed.
Print Assumptions C111_stops.

(** A server whose only peer accepts connections and never answers: every one of its first
    [n] runs makes a backup, none of them expires, collects or calls back, and all count as
    failed, so that it waits only 2, 4, 8, ... minutes, at most six hours, for the next. *)
Theorem C111_refuted O same s push (sched now : Z) n :
  let run := peer_run false false (fun _ => JOk)
               (ended (wire_pull ex_wire_iso O same ["p1"] [("p1", (HSlow, HSlow))] s).2) push in
  JBackup ∈ run.1 /\ JExpire ∉ run.1 /\ JGc ∉ run.1 /\ JCallback ∉ run.1 /\ run.2 = JFail /\
  exists st, job_loop (replicate (Datatypes.S n) run.2) loop_start = Some st /\
    next_time sched now st = (now + Z.min (2 ^ (Z.of_nat n + 1)) 360 * 60 * 1000000)%Z.
Proof.
  intros run.
  pose proof (C111_stops ex_wire_iso O same ["p1"] [("p1", (HSlow, HSlow))] s push false false (fun _ => JOk) "p1" HSlow HSlow
    ltac:(left) ltac:(left; done) ltac:(done)) as H.
  fold run in H. destruct run as [d r]. cbn [fst snd]. destruct H as (-> & H1 & H2).
  split; [auto|]. split; [intros H; apply (H1 _ H); set_solver|]. split; [intros H; apply (H1 _ H); set_solver|].
  split; [intros H; apply (H1 _ H); set_solver|]. split; [done|].
  destruct (C44_backoff (replicate (Datatypes.S n) JFail) sched now) as (st & G1 & _ & G2 & _).
  { intros H. apply elem_of_replicate in H as [H _]. done. }
  exists st. split; [done|].
  destruct (C44_reset [] (replicate (Datatypes.S n) JFail)) as [_ G3].
  rewrite G3 in G2.
  - assert (Hz : zlen (replicate (Datatypes.S n) JFail) = (Z.of_nat n + 1)%Z).
    { unfold zlen. rewrite replicate_length. lia. }
    rewrite Hz in G2. destruct G2 as [G2 _]; [lia|]. exact G2.
  - intros H. apply elem_of_replicate in H as [H _]. done.
  - intros H. apply elem_of_replicate in H as [H _]. done.
Qed.
Print Assumptions C111_refuted.

(** Peer p1 answers as a backy server does, p2 is down: nothing is kept from being done. *)
Example ex_C111 :
  let a1 := sent ex_iso_text ex_orders [] (MkResp 204 []) in
  let a2 := sent ex_iso_text ex_orders [] (MkResp 200 [ex_m "y" 150 ["weekly"] ""]) in
  peer_run false false (fun _ => JOk)
    (ended (wire_pull ex_wire_iso ex_orders (fun _ => true) ["p1"; "p2"] [("p1", (a1, a2)); ("p2", (HNone, HNone))] ex_sync).2)
    (ended (push_run "vm" (fun _ => "secret") [] (MkCluster ex_sync ∅)).2)
  = ([JClean; JBackup; JScan; JClean; JPull; JExpire; JPush; JGc; JCallback], JOk).
Proof.
  intros a1 a2. destruct ex_C50_hyps as (G1 & G2 & _ & G4 & _).
  apply (C111_goes_on_partial ex_wire_iso ex_orders (fun _ => true) ex_owner ["p1"; "p2"]
    [("p1", (a1, a2)); ("p2", (HNone, HNone))] ex_sync "vm" (fun _ => "secret") [] (MkCluster ex_sync ∅) false false);
    [apply ex_orders_ok|done|done| | |done|done| | |done].
  - repeat constructor; set_solver.
  - set_solver.
  - intros p h1 h2 H. apply elem_of_cons in H as [[= -> -> ->]|H].
    + right. split; [done|]. right. split; [done|]. exists [ex_m "y" 150 ["weekly"] ""].
      split; [|split].
      * unfold dec_revs, enc_revs. rewrite (dec_all_map _ _ id); [done|]. intros x _.
        apply dec_enc_rev; [apply ex_orders_ok|apply ex_iso_ok].
      * apply NoDup_singleton.
      * intros r Hr. apply elem_of_list_singleton in Hr as ->. reflexivity.
    + apply elem_of_list_singleton in H as [= -> -> ->]. left. done.
  - intros x Hx. by apply elem_of_nil in Hx.
Qed.
