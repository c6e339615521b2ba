(** C79: what the backup-completed-callback is told. *)
From Verif Require Import Proofs.SyncProofs Props.PRepo Props.PApi Props.PExpire Props.PSync.
From Verif Require Import Model.Callback.

(** ** Specification *)
(** The list is what the directory contains: every revision once. *)
Definition is_listing (d : disk) (l : list rev) : Prop :=
  NoDup (map r_uuid l) /\ forall r, r ∈ l <-> d_revs d !! r_uuid r = Some r.
(** The uuids are those backy makes (letters and digits). *)
Definition ids_ok (d : disk) : Prop := forall n r, d_revs d !! n = Some r -> r_uuid r = n /\ id_word n.
(** The plan of a push: every change once. *)
Definition plan_ok (plan : list rev -> list push_step) : Prop :=
  forall l, pushed (plan l) ≡ₚ l.

(** ** Invariant *)
Section Keep.
Definition Inv (s : rst) : Prop :=
  ids_ok (w_disk (rs_w s)) /\ forall r, r ∈ rs_hist s -> id_word (r_uuid r).
Definition Keeps {A} (m : M rst A) : Prop := forall s, Inv s -> Inv (m s).1.
Lemma K_ret {A} (a : A) : Keeps (ret a).
Proof. intros s H. exact H. Qed.
Lemma K_raise {A} e : Keeps (@raise rst A e).
Proof. intros s H. exact H. Qed.
Lemma K_bind {A B} (m : M rst A) (k : A -> M rst B) : Keeps m -> (forall a, Keeps (k a)) -> Keeps (bind m k).
Proof.
  intros Hm Hk s H. unfold bind. specialize (Hm s H). destruct (m s) as [s' [a|e]]; [|exact Hm]. by apply Hk.
Qed.
Lemma K_lift {A} (r : res A) : Keeps (lift r).
Proof. intros s H. exact H. Qed.
Lemma K_get (k : rst -> M rst unit) : (forall s, Inv s -> Inv (k s s).1) -> Keeps (bind get k).
Proof. intros Hk s H. apply (Hk s H). Qed.
Lemma K_mfor {A} (l : list A) (f : A -> M rst unit) : (forall x, x ∈ l -> Keeps (f x)) -> Keeps (mfor l f).
Proof.
  induction l as [|x l IH]; intros Hf; [apply K_ret|].
  apply K_bind; [apply Hf; left|]. intros _. apply IH. intros y Hy. apply Hf. by right.
Qed.
Lemma K_write r : id_word (r_uuid r) -> Keeps (write_info r).
Proof.
  intros Hr s [H1 H2]. split; [|exact H2]. intros n x Hx. cbn in Hx.
  apply lookup_insert_Some in Hx as [[<- <-]|[_ Hx]]; [done|by apply H1].
Qed.
Lemma K_remove b r : id_word (r_uuid r) -> Keeps (rev_remove b r).
Proof.
  intros Hr. unfold rev_remove. destruct (negb b && negb (is_local r)).
  - apply K_bind; [|intros _; apply K_write; done].
    intros s [H1 H2]. split; [exact H1|]. cbn. intros x Hx. unfold hist_set in Hx.
    apply elem_of_list_fmap in Hx as (y & -> & Hy). case_decide; [done|by apply H2].
  - apply K_get. intros s0 H0.
    assert (HK : Keeps (do_ (if bool_decide (is_Some (d_revs (w_disk (rs_w s0)) !! r_uuid r))
      then eff_ (ERevDel (r_uuid r)) else ret tt);
     modify (fun s => set_hist (hist_del (r_uuid r) (rs_hist s)) s))%M).
    { apply K_bind.
      - case_bool_decide; [|apply K_ret]. intros s [H1 H2]. split; [|exact H2].
        intros n x Hx. cbn in Hx. apply lookup_delete_Some in Hx as [_ Hx]. by apply H1.
      - intros _ s [H1 H2]. split; [exact H1|]. cbn. intros x Hx.
        unfold hist_del in Hx. apply elem_of_list_filter in Hx as [_ Hx]. by apply H2. }
    by apply HK.
Qed.
Lemma K_scan O : orders_ok O -> Keeps (scan O).
Proof.
  intros HO s [H1 H2]. split; [exact H1|]. cbn. intros r Hr.
  apply scan_disk_elem in Hr; [|done|intros n x Hx; by apply H1]. by apply H1 in Hr as [_ ?].
Qed.
Lemma K_clean : Keeps repo_clean.
Proof.
  apply K_get. intros s Hs. apply K_mfor; [|done]. intros r Hr. destruct (is_clean r); [apply K_ret|].
  apply K_remove. apply get_history_elem in Hr as [Hr _]. by apply Hs.
Qed.
Lemma K_pull_local O same p remote :
  (forall r, r ∈ remote -> id_word (r_uuid r)) -> Keeps (pull_local O same p remote).
Proof.
  intros Hr. apply K_get. intros s Hs.
  match goal with |- Inv (?m s).1 => assert (HK : Keeps m) end; [|by apply HK].
  apply K_bind.
  - apply K_mfor. intros u _. apply K_get. intros s1 Hs1. unfold bind, lift.
    destruct (find_by_uuid (rs_hist s1) u) as [r|e] eqn:E; [|exact Hs1]. apply K_remove; [|done].
    unfold find_by_uuid in E. destruct (list_find _ _) as [[i r']|] eqn:F; [|done]. injection E as <-.
    apply list_find_Some in F as (F & _). apply elem_of_list_lookup_2 in F. by apply Hs1.
  - intros _. apply K_mfor. intros r Hin. case_bool_decide; [|by apply K_write, Hr].
    apply K_get. intros s1 Hs1. unfold bind, lift. destruct (find_by_uuid _ _); [|exact Hs1].
    destruct (_ && _); [exact Hs1|]. apply K_write; [by apply Hr|done].
Qed.
Lemma K_pull O same peers replies :
  (forall p l r, (p, Ok l) ∈ replies -> r ∈ l -> id_word (r_uuid r)) ->
  Keeps (pull_metadata O same peers replies).
Proof.
  intros Hr. apply K_bind.
  - apply K_get. intros s Hs. apply K_mfor; [|done]. intros r Hin. destruct (_ && _); [|apply K_ret].
    apply K_remove. by apply Hs.
  - intros _. induction replies as [|[p a] l IH]; [apply K_ret|]. cbn [pull_all]. apply K_bind.
    + unfold pull_single. destruct a as [rs|e].
      * apply K_bind; [|intros; apply K_ret]. apply K_pull_local. intros r Hx. eapply Hr; [left|done].
      * destruct e; try apply K_raise; try apply K_ret;
          (apply K_bind; [|intros; apply K_ret]); apply K_pull_local; intros r Hx; by apply elem_of_nil in Hx.
    + intros b. apply K_bind; [|intros; apply K_ret]. apply IH. intros p' rs r Hin. apply (Hr p'). by right.
Qed.
End Keep.

Lemma listing_synced s : synced s <-> is_listing (w_disk (rs_w s)) (rs_hist s) /\ rev_files_ok (w_disk (rs_w s)).
Proof.
  split.
  - intros Hs. split; [|by apply synced_files]. destruct Hs as [Hn Hs]. split; [done|].
    intros r. split.
    + intros Hr. apply Hs. done.
    + intros Hr. by apply Hs in Hr as [? _].
  - intros [[Hn Hs] Hf]. split; [done|]. intros u r. split.
    + intros Hr. pose proof (Hf _ _ Hr) as <-. split; [by apply Hs|done].
    + intros [Hr <-]. by apply Hs.
Qed.

(** After a backup made here, the callback is told exactly the revisions that are in the
    directory then.  What is missing: after a backup made by a peer ([C79_refuted]). *)
Theorem C79_own_backup_partial O same peers replies iso now S name token plan c c' input :
  orders_ok O -> cluster_ok c -> sched_ok S -> plan_ok plan ->
  ids_ok (w_disk (rs_w (c_local c))) -> (forall r, r ∈ rs_hist (c_local c) -> id_word (r_uuid r)) ->
  (forall p l r, (p, Ok l) ∈ replies -> r ∈ l -> id_word (r_uuid r)) ->
  after_backup O same peers replies iso now S name token plan c = (c', Ok input) ->
  is_listing (w_disk (rs_w (c_local c'))) input.
Proof.
  intros HO Hc HS Hplan Hids Hhist Hrep H.
  unfold after_backup in H. unfold bind at 1 in H.
  unfold on_local at 1 in H.
  set (m := (do_ scan O; do_ repo_clean; do_ pull_metadata O same peers replies; expire O iso now S)%M) in H.
  assert (Hm : forall s s' , Inv s -> m s = (s', Ok tt) -> synced s' /\ Inv s').
  { intros s s' Hs. unfold m. unfold bind at 1.
    pose proof (K_scan O HO s Hs) as H1. destruct (scan O s) as [s1 [[]|e]]; [|done]. cbn [fst] in H1.
    unfold bind at 1. pose proof (K_clean s1 H1) as H2. destruct (repo_clean s1) as [s2 [[]|e]]; [|done]. cbn [fst] in H2.
    unfold bind at 1. pose proof (K_pull O same peers replies Hrep s2 H2) as H3.
    destruct (pull_metadata O same peers replies s2) as [s3 [n|e]]; [|done]. cbn [fst] in H3. cbv beta. intros Hok.
    assert (Hf : rev_files_ok (w_disk (rs_w s3))). { intros k x Hx. by apply H3 in Hx as [? _]. }
    destruct (expire_spec O iso now S s3 HO Hf HS) as (s4 & E4 & _ & Hsy & Hh & _). rewrite E4 in Hok. injection Hok as <-.
    split; [done|].
    assert (Hw : forall r, r ∈ rs_hist s4 -> id_word (r_uuid r)).
    { intros r Hr. rewrite Hh in Hr. apply elem_of_list_omap in Hr as (x & Hx & Hfin).
      unfold final in Hfin. case_decide; [done|]. injection Hfin as <-. cbn.
      apply scan_disk_elem in Hx; [|done..]. by apply H3 in Hx as [_ ?]. }
    split; [|done]. intros k x Hx. apply Hsy in Hx as [Hx <-]. split; [done|by apply Hw]. }
  destruct (m (c_local c)) as [s [[]|e]] eqn:Em; [|done].
  destruct (Hm (c_local c) s (conj Hids Hhist) Em) as [Hsy Hinv].
  clear Hm. unfold bind, get in H.
  set (c1 := MkCluster s (c_peers c)) in H.
  destruct (push_run name token (plan (push_work peers (rs_hist (c_local c1)))) c1) as [c2 [outs|e]] eqn:E; [|done].
  injection H as <- <-.
  assert (Hc1 : cluster_ok c1) by exact Hc.
  assert (Hs2 : synced (c_local c2)).
  2: { by apply listing_synced in Hs2 as [? _]. }
  eapply (push_run_spec name token _ c1 c2 outs Hc1 Hsy); [| |exact E].
  - rewrite (Hplan _). unfold push_work, get_history. cbn [c_local c1].
    destruct Hsy as [Hnd _]. clear -Hnd.
    assert (G : forall (P : rev -> Prop) (HP : forall x, Decision (P x)) (l : list rev),
      NoDup (map r_uuid l) -> NoDup (map r_uuid (filter P l))).
    { intros P HP l. induction l as [|x l IH]; [done|].
      intros Hd. change (NoDup (r_uuid x :: map r_uuid l)) in Hd. apply NoDup_cons in Hd as [Hx Hl].
      rewrite filter_cons. case_decide; [|by apply IH]. cbn. apply NoDup_cons. split; [|by apply IH].
      intros Hin. apply Hx. apply elem_of_list_fmap in Hin as (y & -> & Hy).
      apply elem_of_list_filter in Hy as [_ Hy]. apply elem_of_list_fmap. by exists y. }
    by apply G, G.
  - intros r Hr. rewrite (Hplan _) in Hr. unfold push_work in Hr.
    apply elem_of_list_filter in Hr as [_ Hr]. apply get_history_elem in Hr as [Hr _].
    split; [by apply Hinv|done].
Qed.

(** After a backup made by a peer the callback is not told about it: here the peer has just
    made "y", which the pull stores in the directory. *)
Theorem C79_refuted : exists s' input y,
  scanned ex_orders ex_sync /\
  after_peer ex_orders (fun _ => true) ["p1"; "p2"] ex_replies ex_sync = (s', Ok input) /\
  d_revs (w_disk (rs_w s')) !! r_uuid y = Some y /\ r_server y = "p1" /\ is_Some (s_duration (r_stats y)) /\
  y ∉ input /\ ~ is_listing (w_disk (rs_w s')) input.
Proof.
  set (x := after_peer ex_orders (fun _ => true) ["p1"; "p2"] ex_replies ex_sync).
  assert (Hd : d_revs (w_disk (rs_w x.1)) !! "y" = Some (ex_m "y" 150 ["weekly"] "p1")) by (vm_compute; reflexivity).
  assert (Hn : (match x.2 with Ok l => map r_uuid l | Err _ => ["y"] end) = ["l"; "z"]) by (vm_compute; reflexivity).
  assert (Ho : is_ok x.2 = true) by (vm_compute; reflexivity).
  destruct x as [s' [input|e]] eqn:Ex; [|done]. cbn [fst snd] in *.
  exists s', input, (ex_m "y" 150 ["weekly"] "p1").
  assert (Hy : ex_m "y" 150 ["weekly"] "p1" ∉ input).
  { intros Hin. apply (elem_of_list_fmap_1 r_uuid) in Hin. change (r_uuid (ex_m "y" 150 ["weekly"] "p1") ∈ map r_uuid input) in Hin. rewrite Hn in Hin.
    repeat (apply elem_of_cons in Hin as [Hin|Hin]; [discriminate Hin|]). by apply elem_of_nil in Hin. }
  split_and!; [exact (proj1 (proj2 ex_C50_hyps))|reflexivity|exact Hd|reflexivity|by eexists|exact Hy|].
  - intros [_ Hl]. apply Hy. by apply Hl.
Qed.
Print Assumptions C79_own_backup_partial.
Print Assumptions C79_refuted.
(** A plan, and a round in which everything happens. *)
Definition ex_plan (l : list rev) : list push_step := map (fun r => PsTags r NReply) l.
Lemma ex_plan_ok : plan_ok ex_plan.
Proof. intros l. unfold ex_plan, pushed. induction l as [|r l IH]; [done|]. cbn. by rewrite IH. Qed.
Definition ex_round := after_backup ex_orders (fun _ => true) ["p1"]
  [("p1", Ok [ex_m "xxxxxxxx" 100 ["daily"] "p1"; ex_m "wwwwwww3" 300 ["other"] "p1"])]
  (fun _ => None) (fun _ => 400%Z) [("other", MkItem 100 5)] "vm" (fun _ => "secret") ex_plan ex_cluster.
Example ex_C79 :
  match ex_round.2 with Ok l => map (fun r => (r_uuid r, elements (r_tags r), elements (r_orig r))) l | Err _ => [] end =
    [("wwwwwww3", ["other"], ["other"])] /\
  match (push_work ["p1"] (rs_hist (c_local ex_cluster))) with [] => False | _ => True end /\
  cluster_ok ex_cluster /\ plan_ok ex_plan.
Proof.
  split; [vm_compute; reflexivity|]. split; [vm_compute; exact I|]. split; [apply ex_C51_hyps|exact ex_plan_ok].
Qed.
