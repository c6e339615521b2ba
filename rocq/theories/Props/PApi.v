(** C48, C49, C66-C68: the HTTP API, purge requests, job configuration files. *)
From Verif Require Import Proofs.ScanProofs Props.PRepo.
From Verif Require Import Model.Api.

(** ** C48 *)
(** Specification: the request carries a configured token. *)
Definition authorized (tokens : gmap string string) (q : request) : Prop :=
  exists token client, q_auth q = Some ("Bearer " ++ token)%string /\
    tokens !! token = Some client /\ client <> "".
Lemma auth_spec tokens q : is_Some (auth tokens q) <-> authorized tokens q.
Proof.
  unfold auth, authorized. destruct (starts bearer (default "" (q_auth q))) eqn:E; cbn [negb].
  - apply starts_spec in E as [x Hx]. rewrite Hx, remove_prefix_app. split.
    + destruct (tokens !! x) as [c|] eqn:Et; [|by intros [? ?]].
      case_bool_decide as Hc; [by intros [? ?]|]. intros _.
      exists x, c. split_and!; [|done|done].
      destruct (q_auth q) as [h|]; cbn in Hx; [by rewrite Hx|done].
    + intros (t & c & Ha & Ht & Hc).
      assert (t = x) as ->.
      { rewrite Ha in Hx. apply (f_equal (remove_prefix bearer)) in Hx.
        rewrite remove_prefix_app in Hx. rewrite <- Hx. symmetry. exact (remove_prefix_app bearer t). }
      rewrite Ht. rewrite bool_decide_eq_false_2 by done. by eexists.
  - split; [by intros [? ?]|]. intros (t & c & Ha & _). rewrite Ha in E.
    assert (H : starts bearer (default "" (Some ("Bearer " ++ t)%string)) = true) by (apply starts_spec; by exists t).
    rewrite H in E. done.
Qed.
(** A request without a configured token gets 401 and changes nothing, whatever it asks
    for; with one it never gets 401. *)
Theorem C48_auth tokens O iso locked q a :
  (~ authorized tokens q -> serve tokens O iso locked q a = (a, resp 401)) /\
  (authorized tokens q -> p_status (serve tokens O iso locked q a).2 <> 401%Z).
Proof.
  unfold serve. split.
  - intros H. rewrite <- auth_spec in H. destruct (auth tokens q); [by destruct H; eexists|done].
  - intros H. apply auth_spec in H as [c ->].
    destruct (q_route q) as [[]| | |j| |n|n|n cl|n spec b ar|]; cbn; try done.
    + case_bool_decide; done.
    + unfold get_backup. destruct (a_dead a !! n); [done|]. destruct (a_jobs a !! n); done.
    + unfold get_backup. destruct (a_dead a !! n); [done|]. destruct (a_jobs a !! n); done.
    + unfold get_backup. destruct (a_dead a !! n); [done|]. destruct (a_jobs a !! n); done.
    + unfold put_tags, get_backup. destruct b as [[o|] [w|]|]; try done.
      destruct (a_dead a !! n) as [r|]; [|destruct (a_jobs a !! n); done].
      destruct locked; [done|].
      destruct (repo_tags _ _ _ _ _ _ _ _ _ _) as [r' [[]|[]]]; done.
Qed.
Print Assumptions C48_auth.
Definition ex_tokens : gmap string string := {["secret" := "peer1"; "none" := ""]}.
Definition ex_api : api := MkApi {["gone" := ex_state ex_revs]} {["vm" := ex_state ex_revs]} ∅ ∅ [] 0.
Definition ex_serve (h : option string) (rt : route) :=
  serve ex_tokens ex_orders (fun _ => None) false (MkReq h rt) ex_api.
Example ex_C48 :
  p_status (ex_serve (Some "Bearer secret") (RtRun "vm")).2 = 202%Z /\
  p_status (ex_serve (Some "Bearer secre") (RtRun "vm")).2 = 401%Z /\
  p_status (ex_serve (Some "bearer secret") (RtRun "vm")).2 = 401%Z /\
  p_status (ex_serve (Some "Bearer none") RtNone).2 = 401%Z /\
  p_status (ex_serve None (RtPurge "gone")).2 = 401%Z.
Proof. repeat split; vm_compute; reflexivity. Qed.

(** ** C49 *)
(** No metadata of any repository changed, nor anything else. *)
Definition api_same (a a' : api) : Prop :=
  a_jobs a' = a_jobs a /\ a_run a' = a_run a /\ a_purge a' = a_purge a /\ a_touch a' = a_touch a /\
  a_reload a' = a_reload a /\
  forall n, match a_dead a !! n, a_dead a' !! n with
            | Some r, Some r' => drevs r' = drevs r /\ data_same (w_disk (rs_w r)) (w_disk (rs_w r'))
            | None, None => True
            | _, _ => False
            end.
Lemma api_same_refl a : api_same a a.
Proof. split_and!; try done. intros n. by destruct (a_dead a !! n). Qed.
Lemma api_same_put a name r r' : a_dead a !! name = Some r -> drevs r' = drevs r ->
  data_same (w_disk (rs_w r)) (w_disk (rs_w r')) -> api_same a (put_repo name r' a).
Proof.
  intros Hn H1 H2. unfold put_repo. rewrite Hn. split_and!; try done. intros n. cbn.
  destruct (decide (n = name)) as [->|Hne].
  - by rewrite Hn, lookup_insert.
  - rewrite lookup_insert_ne by done. by destruct (a_dead a !! n).
Qed.
(** PUT .../tags by an authorized client. *)
Theorem C49_put_tags tokens O iso locked q name spec b autoremove a :
  orders_ok O -> (forall n r, a_dead a !! n = Some r -> rev_files_ok (w_disk (rs_w r))) ->
  authorized tokens q -> q_route q = RtTags name spec b autoremove ->
  let '(a', p) := serve tokens O iso locked q a in
  match b with
  | BOther => p = resp 500 /\ api_same a a'
  | BJson (Some old) (Some new) =>
      match a_dead a !! name with
      | None => p = resp (if decide (is_Some (a_jobs a !! name)) then 403 else 404) /\ api_same a a'
      | Some r =>
          if locked then p = resp 503 /\ api_same a a'
          else match find_revisions (scan_disk O (w_disk (rs_w r))) iso spec with
          | Err e => p = resp (match e with KeyError => 404 | BlockingIOError => 503 | _ => 500 end) /\ api_same a a'
          | Ok revs =>
              ((exists x, x ∈ revs /\ r_tags x <> old) -> p = resp 412 /\ api_same a a') /\
              ((forall x, x ∈ revs -> r_tags x = old) -> p = resp 204 /\
                 a_jobs a' = a_jobs a /\
                 (forall n, n <> name -> a_dead a' !! n = a_dead a !! n) /\
                 exists r', a_dead a' !! name = Some r' /\
                   changed (drevs r) (drevs r') revs (retagged ASet new autoremove) /\
                   data_same (w_disk (rs_w r)) (w_disk (rs_w r')))
          end
      end
  | BJson _ _ => p = resp 400 /\ api_same a a'
  end.
Proof.
  intros HO Hf Ha Hq. unfold serve. apply auth_spec in Ha as [c ->]. rewrite Hq. cbn [handler].
  unfold put_tags, get_backup.
  destruct b as [[old|] [new|]|]; try (split; [done|apply api_same_refl]).
  destruct (a_dead a !! name) as [r|] eqn:En.
  2: { destruct (a_jobs a !! name) eqn:Ej; cbn; split; try apply api_same_refl.
       - rewrite decide_True by (by eexists). done.
       - rewrite decide_False by (intros [? ?]; done). done. }
  set (r0 := (scan O r).1).
  assert (Hr0 : w_disk (rs_w r0) = w_disk (rs_w r)) by reflexivity.
  destruct locked.
  { split; [done|]. eapply api_same_put; [done|by rewrite Hr0|by rewrite Hr0]. }
  pose proof (C30_tags O iso [] ASet spec new (Some old) autoremove true r0 HO) as T.
  cbv zeta in T. rewrite Hr0 in T. specialize (T (Hf _ _ En) ltac:(done)).
  change (drevs r0) with (drevs r) in T.
  destruct (repo_tags O iso [] ASet spec new (Some old) autoremove true r0) as [r' out].
  cbn [fst snd] in T. destruct T as (T1 & T2 & _).
  match goal with |- (let '(_, _) := ?x in _) => destruct x as [a' p] eqn:E end.
  destruct (find_revisions (scan_disk O (w_disk (rs_w r))) iso spec) as [revs|e].
  - destruct T1 as [_ T1]. destruct T1 as [TA TB]; [by left|]. split.
    + intros (x & Hx & Hne). destruct TA as [-> Hu]; [by exists x, old|].
      injection E as <- <-. split; [done|]. eapply api_same_put; done.
    + intros Hall. destruct TB as [-> Hch]; [intros x y Hx [= <-]; by apply Hall|].
      injection E as <- <-. split; [done|]. unfold put_repo. rewrite En. cbn. split_and!; [done| |].
      * intros n Hn. by rewrite lookup_insert_ne.
      * exists r'. rewrite lookup_insert. done.
  - destruct T1 as [-> Hu].
    assert (api_same a (put_repo name r' a)) by (eapply api_same_put; done).
    destruct e; injection E as <- <-; done.
Qed.
Print Assumptions C49_put_tags.
Lemma ex_api_ok n r : a_dead ex_api !! n = Some r -> rev_files_ok (w_disk (rs_w r)).
Proof.
  unfold ex_api; cbn [a_dead]. intros H. apply lookup_singleton_Some in H as [_ <-]. apply ex_files_ok.
Qed.
Example ex_C49 :
  let put n spec old new := ex_serve (Some "Bearer secret")
        (RtTags n spec (BJson (Some (list_to_set old)) (Some (list_to_set new))) true) in
  p_status (put "gone" "a" ["daily"] ["weekly"]).2 = 204%Z /\
  (match a_dead (put "gone" "a" ["daily"] ["weekly"]).1 !! "gone" with
   | Some r => tags_of (w_disk (rs_w r)) "a" = Some ["weekly"] | None => False end) /\
  p_status (put "gone" "a" ["hourly"] ["weekly"]).2 = 412%Z /\
  p_status (put "gone" "zz" ["daily"] ["weekly"]).2 = 404%Z /\
  p_status (put "vm" "a" ["daily"] ["weekly"]).2 = 403%Z /\
  p_status (put "other" "a" ["daily"] ["weekly"]).2 = 404%Z.
Proof. repeat split; vm_compute; reflexivity. Qed.

(** The other requests never touch metadata or chunks of a repository. *)
Theorem C49_other_requests tokens O iso locked q a :
  (forall n spec b ar, q_route q <> RtTags n spec b ar) ->
  let a' := (serve tokens O iso locked q a).1 in
  forall n, match a_dead a !! n, a_dead a' !! n with
            | Some r, Some r' => w_disk (rs_w r') = w_disk (rs_w r)
            | None, None => True | _, _ => False end /\
            match a_jobs a !! n, a_jobs a' !! n with
            | Some r, Some r' => w_disk (rs_w r') = w_disk (rs_w r)
            | None, None => True | _, _ => False end.
Proof.
  intros Hq a'. unfold a', serve. destruct (auth tokens q) as [c|].
  2: { cbn. intros n. split; [by destruct (a_dead a !! n)|by destruct (a_jobs a !! n)]. }
  assert (Hsame : forall n, match a_dead a !! n, a_dead a !! n with
            | Some r, Some r' => w_disk (rs_w r') = w_disk (rs_w r)
            | None, None => True | _, _ => False end /\
            match a_jobs a !! n, a_jobs a !! n with
            | Some r, Some r' => w_disk (rs_w r') = w_disk (rs_w r)
            | None, None => True | _, _ => False end).
  { intros n. split; [by destruct (a_dead a !! n)|by destruct (a_jobs a !! n)]. }
  destruct (q_route q) as [ok| | |j| |n0|n0|n0 cl|n0 spec b ar|] eqn:E; cbn; try done.
  - case_bool_decide; done.
  - destruct (get_backup n0 false a); done.
  - destruct (get_backup n0 true a); done.
  - unfold get_backup, put_repo. destruct (a_dead a !! n0) as [r|] eqn:E1.
    + intros n. cbn. split; [|by apply Hsame].
      destruct (decide (n = n0)) as [->|Hne]; [rewrite lookup_insert; by destruct (a_dead a !! n0); simplify_eq|].
      rewrite lookup_insert_ne by done. by destruct (a_dead a !! n).
    + destruct (a_jobs a !! n0) as [r|] eqn:E2; [|done]. cbn. intros n.
      split; [by apply Hsame|].
      destruct (decide (n = n0)) as [->|Hne]; [rewrite lookup_insert; by destruct (a_jobs a !! n0); simplify_eq|].
      rewrite lookup_insert_ne by done. by destruct (a_jobs a !! n).
  - by destruct (Hq n0 spec b ar).
Qed.
Print Assumptions C49_other_requests.

(** ** C66: purge requests *)
(** A request to purge an inactive repository is recorded, for any other name it is
    refused. *)
Theorem C66_recorded_partial tokens O iso locked q n a :
  authorized tokens q -> q_route q = RtPurge n ->
  let '(a', p) := serve tokens O iso locked q a in
  if decide (is_Some (a_dead a !! n)) then p = resp 202 /\ n ∈ a_purge a' else p_status p ∈ [403%Z; 404%Z] /\ a' = a.
Proof.
  intros Ha Hq. unfold serve. apply auth_spec in Ha as [c ->]. rewrite Hq. cbn [handler]. unfold get_backup.
  destruct (decide (is_Some (a_dead a !! n))) as [[r E]|E]; destruct (a_dead a !! n) eqn:E'; try done.
  - cbn. split; [done|set_solver].
  - by destruct E; eexists.
  - destruct (a_jobs a !! n); cbn; split; try done; set_solver.
Qed.
(** But no pending purge is ever carried out: every pass of the daemon, over any
    directories, purges nothing; it ends at the first pending request. *)
Theorem C66_refuted jobs l :
  (purge_pass jobs l).1 = [] /\
  ((exists c, c ∈ l /\ pd_name c ∉ jobs /\ pd_dir c = true /\ pd_pending c = true) ->
   (purge_pass jobs l).2 = Err AttributeError).
Proof.
  induction l as [|c l [IH1 IH2]]; cbn.
  - split; [done|]. intros (c & Hc & _). by apply elem_of_nil in Hc.
  - destruct (bool_decide (pd_name c ∈ jobs) || negb (pd_dir c) || negb (pd_pending c)) eqn:E; [|done].
    split; [done|]. intros (c' & Hc & H1 & H2 & H3). apply IH2.
    apply elem_of_cons in Hc as [->|Hc]; [|by exists c'].
    rewrite H2, H3, bool_decide_eq_false_2 in E by done. done.
Qed.
Print Assumptions C66_recorded_partial.
Print Assumptions C66_refuted.
Example ex_C66 :
  p_status (ex_serve (Some "Bearer secret") (RtPurge "gone")).2 = 202%Z /\
  p_status (ex_serve (Some "Bearer secret") (RtPurge "vm")).2 = 403%Z /\
  purge_pass {["vm"]} [MkPdir "vm" true true; MkPdir "gone" true true; MkPdir "x" true false] = ([], Err AttributeError).
Proof. repeat split; vm_compute; reflexivity. Qed.

(** ** C67: reconfiguring the API *)
Inductive srv_reached (calm : bool) (t : gmap string string) : srv -> Prop :=
| sr_start : srv_reached calm t (srv_init t)
| sr_next s s' : srv_reached calm t s -> srv_step s s' ->
    (* calm: no reload while the server is reconfiguring *)
    (calm = true -> s_busy s = true -> s_conf s' = s_conf s) -> srv_reached calm t s'.
(** The server is waiting for the next reload. *)
Definition settled (s : srv) : Prop := s_busy s = false /\ s_event s = false.
(** If no reload falls into a reconfiguration, then after every reload the API settles on
    the configured tokens. *)
Theorem C67_tokens_partial t s : srv_reached true t s -> settled s -> s_tokens s = s_conf s.
Proof.
  intros Hr. assert (s_busy s = true \/ s_event s = false -> s_tokens s = s_conf s) as H.
  { induction Hr as [|s s' Hr IH Hs Hcalm]; [done|].
    destruct Hs as [t' s|s Hb He|s Hb]; cbn in *.
    - intros [Hb|]; [|done]. rewrite (Hcalm eq_refl Hb). auto.
    - done.
    - auto. }
  intros [_ He]. auto.
Qed.
(** Otherwise a reload can be lost: the API settles on the old tokens and keeps them until
    somebody reloads again, so that a revoked token stays valid. *)
Theorem C67_refuted (old new : gmap string string) : old <> new ->
  exists s, srv_reached false old s /\ settled s /\ s_conf s = new /\ s_tokens s = old /\
    forall s', srv_step s s' -> exists tokens, s' = MkSrv tokens old true false.
Proof.
  intros Hne. exists (MkSrv new old false false). split_and!; try done.
  - eapply sr_next; [eapply sr_next; [apply sr_start|apply (ss_reload new)|done]| |done].
    apply (ss_done (MkSrv new old true true)). done.
  - intros s' Hs. inversion Hs; subst; cbn in *; [by eexists|done|done].
Qed.
Print Assumptions C67_tokens_partial.
Print Assumptions C67_refuted.
Example ex_C67 :
  srv_reached true {["a" := "x"]} (MkSrv {["b" := "y"]} {["b" := "y"]} false false) /\
  settled (MkSrv {["b" := "y"]} {["b" := "y"]} false false).
Proof.
  split; [|done].
  eapply sr_next; [eapply sr_next; [eapply sr_next; [eapply sr_next; [apply sr_start|by apply ss_done|done]|
    apply (ss_reload {["b" := "y"]})|done]|by apply ss_wake|done]|by apply ss_done|done].
Qed.

(** ** C68: job configuration files *)
(** Unless the file on disk happens to be what has reached the temporary file so far,
    the new configuration is stored whole; when less than a buffer is written, nothing
    has reached it, and any other file than an empty one is replaced. *)
Theorem C68_stored_partial new flushed old :
  old <> Some (take flushed new) -> store_config new flushed old = (Some new, Ok tt).
Proof.
  intros H. unfold store_config. destruct old as [c|]; [|done]. rewrite decide_False; [done|congruence].
Qed.
(** An empty configuration file is never replaced: configuring the job raises. *)
Theorem C68_refuted new : new <> [] -> store_config new 0 (Some []) = (Some [], Err ValueError).
Proof. intros _. unfold store_config. by rewrite decide_True. Qed.
Print Assumptions C68_stored_partial.
Print Assumptions C68_refuted.
Example ex_C68 :
  store_config [Byte.x01; Byte.x02] 0 (Some [Byte.x01; Byte.x02]) = (Some [Byte.x01; Byte.x02], Ok tt) /\
  store_config [Byte.x01; Byte.x02] 0 None = (Some [Byte.x01; Byte.x02], Ok tt).
Proof. split; reflexivity. Qed.
