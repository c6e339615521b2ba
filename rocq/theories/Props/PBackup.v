(** C07, C08, C12-C20: backups, garbage collection, verification, restore.
    Statements and concrete cases; the proofs are in Proofs/. *)
From Verif Require Import Proofs.SnapProofs Proofs.RestoreProofs Proofs.ExEnv Proofs.ForceProofs Proofs.BackupErr.

(** For concrete runs: the value of a term, computed by the kernel's VM. *)
Ltac value t H :=
  let v := eval vm_compute in t in assert (H : t = v) by (vm_compute; reflexivity).
Lemma run_is {St A} (m : M St A) s x : (m s).2 = x -> m s = ((m s).1, x).
Proof. intros <-. destruct (m s). done. Qed.

(** ** The concrete repository used below *)
Definition ex_O : orders := MkOrders map_to_list elements.
Definition ex_old : rev :=
  MkRev "old" 1 (MkStats 8 (Some 5%Z) (Some "partial"%string)) {["daily"]} {["daily"]} TRUSTED "".
Definition ex_new : rev := MkRev "new" 2 (MkStats 0 None None) {["daily"]} {["daily"]} TRUSTED "".
Definition ex_disk : disk :=
  MkDisk {[ "habcd" := bs "abcd"; "hefgh" := bs "efgh"; "hjunk" := bs "junk" ]}
    {[ "old" := MapJson {[ 0 := "habcd"; 1 := "hefgh" ]}%Z 8 ]}
    {[ "old" := ex_old; "new" := ex_new ]}.
Definition ex_s : rst :=
  MkRst (MkWorld ex_disk [] ∅ false) [ex_old; ex_new]
    [("backy-old"%string, bs "abcdefgh"); ("manual"%string, bs "whatever")].
(** The new snapshot is "abXYefgh"; what Ceph delivers. *)
Definition ex_ms : list meta_rec := [MFrom (bs "backy-old"); MTo (bs "backy-new"); MSize 8].
Definition ex_ds : list data_rec := [DData 2 (bs "XY")].
Definition ex_B : bk :=
  MkBk true (Ok (bs "abXYefgh")) None (enc_diff ex_ms ex_ds) (bs "abXYefgh")
    (Ok (bs "abXYefgh")) [1%Z; 0%Z] (fun _ => false) 7 None (fun _ => false).

Lemma ex_orders : orders_ok ex_O.
Proof. split; done. Qed.
Lemma ex_old_image : image_is ex_env ex_disk "old" (bs "abcdefgh").
Proof.
  eexists. split; [vm_compute; reflexivity|].
  intros i b Hi. do 8 (destruct i as [|i]; [vm_compute in Hi; injection Hi as <-;
    eexists _, _; split; [vm_compute; reflexivity|split; vm_compute; reflexivity]|]).
  done.
Qed.
Lemma ex_old_complete : map_complete ex_disk "old".
Proof.
  unfold map_complete. cbn [ex_disk d_maps]. rewrite lookup_singleton.
  intros id h Hh. apply lookup_insert_Some in Hh as [[_ <-]|[_ Hh]]; [by eexists|].
  apply lookup_singleton_Some in Hh as [_ <-]. by eexists.
Qed.
Lemma ex_repo : repo_ok ex_env ex_O ex_new ex_s.
Proof.
  constructor; cbn [ex_s rs_w w_disk rs_hist w_seen].
  - intros h raw H. cbn [ex_disk d_chunks] in H.
    apply lookup_insert_Some in H as [[<- <-]|[_ H]]; [eexists; split; [done|]; split; done|].
    apply lookup_insert_Some in H as [[<- <-]|[_ H]]; [eexists; split; [done|]; split; done|].
    apply lookup_singleton_Some in H as [<- <-]. eexists; split; [done|]; split; done.
  - intros h H. cbn in H. set_solver.
  - intros n rv H. cbn [ex_disk d_revs] in H.
    apply lookup_insert_Some in H as [[<- <-]|[_ H]]; [done|].
    apply lookup_singleton_Some in H as [<- <-]. done.
  - vm_compute. reflexivity.
  - vm_compute. reflexivity.
  - done.
  - done.
  - done.
  - vm_compute. reflexivity.
  - intros p [->|[->|Hp]%elem_of_cons]%elem_of_cons Hn _ _; [|done|inversion Hp].
    exists (bs "abcdefgh"). split; [exact ex_old_image|exact ex_old_complete].
Qed.

(** ** C07: garbage collection *)
(** A gc that ends well keeps every chunk that some local revision of the
    history names, with its content, removes all others, and touches nothing
    else; one that fails changes nothing; one that is killed has only removed
    unused chunks. *)
Theorem C07_gc :
  forall s s' x, gc s = (s', x) ->
  let d := w_disk (rs_w s) in
  (x = Ok tt ->
     d_maps (w_disk (rs_w s')) = d_maps d /\ d_revs (w_disk (rs_w s')) = d_revs d /\
     (forall h, used s h -> d_chunks (w_disk (rs_w s')) !! h = d_chunks d !! h) /\
     (forall h, ~ used s h -> d_chunks (w_disk (rs_w s')) !! h = None)) /\
  (forall e, x = Err e -> w_disk (rs_w s') = d) /\
  (forall dk, killed s s' dk ->
     d_maps dk = d_maps d /\ d_revs dk = d_revs d /\
     (forall h, used s h -> d_chunks dk !! h = d_chunks d !! h) /\
     (forall h, d_chunks dk !! h = None \/ d_chunks dk !! h = d_chunks d !! h)).
Proof.
  intros s s' x H. cbn zeta. split; [intros ->; exact (gc_ok s s' H)|]. split.
  - intros e ->. rewrite (gc_err s s' e H). done.
  - intros dk Hk. exact (gc_killed s s' x dk H Hk).
Qed.
Print Assumptions C07_gc.
(** It ends well exactly if every local revision has a readable map. *)
Lemma union_maps_maps l : forall s us, (union_maps l s).2 = Ok us ->
  forall x, x ∈ l -> exists m z, d_maps (w_disk (rs_w s)) !! r_uuid x = Some (MapJson m z).
Proof.
  induction l as [|y l IH]; intros s us Hus x Hx; [by apply elem_of_nil in Hx|].
  cbn [union_maps] in Hus. unfold bind, open_map, file_open in Hus.
  destruct (d_maps (w_disk (rs_w s)) !! r_uuid y) as [[m z|]|] eqn:Ey; [|done|done].
  destruct (union_maps l s) as [s1 [u1|e]] eqn:E1; [|done].
  apply elem_of_cons in Hx as [-> |Hx]; [eauto|]. eapply (IH s u1); [by rewrite E1|done].
Qed.
Theorem C07_gc_ends_well :
  forall s, (gc s).2 = Ok tt <->
    (forall x, x ∈ rs_hist s -> r_server x = "" ->
      exists m z, d_maps (w_disk (rs_w s)) !! r_uuid x = Some (MapJson m z)).
Proof.
  intros s. split.
  { intros Hok x Hx Hl. unfold gc, bind, get in Hok.
    destruct (union_maps (get_history false true (rs_hist s)) s) as [s1 [us|e]] eqn:Eu; [|done].
    eapply (union_maps_maps _ s us); [by rewrite Eu|]. apply get_history_elem. split; [done|].
    split; [done|]. intros _. unfold is_local. by apply bool_decide_eq_true. }
  intros Hm.
  assert (Hu : exists us, (union_maps (get_history false true (rs_hist s)) s).2 = Ok us).
  { assert (Hm' : forall x, x ∈ get_history false true (rs_hist s) ->
      exists m z, d_maps (w_disk (rs_w s)) !! r_uuid x = Some (MapJson m z)).
    { intros x (Hx & _ & Hl)%get_history_elem. apply Hm; [done|]. specialize (Hl eq_refl).
      unfold is_local in Hl. apply bool_decide_eq_true in Hl. done. }
    clear Hm. induction (get_history false true (rs_hist s)) as [|y l IH]; [eexists; done|].
    destruct IH as [us Hus]; [intros x Hx; apply Hm'; right; done|].
    destruct (Hm' y) as (m & z & Hy); [left|]. cbn [union_maps]. unfold bind, open_map, file_open.
    rewrite Hy. pose proof (union_maps_pure l s) as Hp. destruct (union_maps l s) as [s1 r1].
    cbn in *. subst. eexists. done. }
  destruct Hu as [us Hus]. unfold gc, bind, get.
  destruct (union_maps (get_history false true (rs_hist s)) s) as [s1 [us'|e]]; done.
Qed.
Print Assumptions C07_gc_ends_well.
(** The chunk "junk" goes, the two chunks of the old revision stay. *)
Example C07_case :
  let s := set_hist [ex_old] ex_s in
  (gc s).2 = Ok tt /\
  map_to_list (d_chunks (w_disk (rs_w (gc s).1))) = [("habcd", bs "abcd"); ("hefgh", bs "efgh")].
Proof. vm_compute. split; reflexivity. Qed.

(** ** C18: the parent *)
(** [h1] is what precedes the new revision [r] in the history. *)
Definition good_parent (s : rst) (r y : rev) : Prop :=
  r_trust y <> DISTRUSTED /\ r_server y = r_server r /\
  snap_name (r_uuid y) ∈ map fst (rs_snaps s).
Theorem C18_parent :
  forall B s h1 r h2,
  rs_hist s = h1 ++ r :: h2 -> NoDup (map r_uuid (rs_hist s)) ->
  r_trust r <> DISTRUSTED -> bk_info B = None ->
  exists x, (ceph_parent false B r s).2 = Ok x /\
  (forall p, x = Some p <-> exists la lb, h1 = la ++ p :: lb /\ good_parent s r p /\
                             forall y, y ∈ lb -> ~ good_parent s r y) /\
  (x = None <-> forall y, y ∈ h1 -> ~ good_parent s r y).
Proof.
  intros B s h1 r h2 Hh Hnd Hr Hb.
  assert (Hg : forall y, good_parent s r y <-> usable_snap s (r_server r) y).
  { intros y. unfold good_parent, usable_snap, usable. tauto. }
  eexists. split; [eapply ceph_parent_spec; done|]. cbn. split.
  - intros p. split.
    + intros Hl. apply last_filter_split in Hl as (la & lb & -> & Hp & Hlb).
      exists la, lb. split; [done|]. split; [apply Hg; done|].
      intros y Hy Hgy. apply Hg in Hgy. assert (y ∈ filter (usable_snap s (r_server r)) lb).
      { apply elem_of_list_filter. done. } rewrite Hlb in H. inversion H.
    + intros (la & lb & -> & Hp & Hlb). rewrite filter_app, filter_cons_True by (apply Hg; done).
      replace (filter (usable_snap s (r_server r)) lb) with (@nil rev); [apply last_snoc|].
      symmetry. clear -Hlb Hg. induction lb as [|y lb IH]; [done|].
      rewrite filter_cons_False; [apply IH; intros z Hz; apply Hlb; right; done|].
      intros Hy. apply (Hlb y); [left|]. apply Hg. done.
  - split.
    + intros Hl y Hy Hgy. apply Hg in Hgy. apply last_None in Hl.
      assert (y ∈ filter (usable_snap s (r_server r)) h1) by (apply elem_of_list_filter; done).
      rewrite Hl in H. inversion H.
    + intros Hno. replace (filter (usable_snap s (r_server r)) h1) with (@nil rev); [done|].
      symmetry. clear -Hno Hg. induction h1 as [|y l IH]; [done|].
      rewrite filter_cons_False; [apply IH; intros z Hz; apply Hno; right; done|].
      intros Hy. apply (Hno y); [left|]. apply Hg. done.
Qed.
Print Assumptions C18_parent.
(** With always_full, or without a usable parent, the backup is a full one
    ([backup_body] runs [full_prog] exactly if there is no parent). *)
Theorem C18_always_full : forall B r s, (ceph_parent true B r s).2 = Ok None.
Proof. done. Qed.
Print Assumptions C18_always_full.
Example C18_case :
  let r2 := MkRev "two" 2 (MkStats 0 None None) ∅ ∅ TRUSTED "" in
  let bad := MkRev "bad" 1 (MkStats 0 (Some 1%Z) None) ∅ ∅ DISTRUSTED "" in
  let nosnap := MkRev "nosnap" 1 (MkStats 0 (Some 1%Z) None) ∅ ∅ VERIFIED "" in
  let remote := MkRev "remote" 1 (MkStats 0 (Some 1%Z) None) ∅ ∅ TRUSTED "srv" in
  let s := MkRst (MkWorld ex_disk [] ∅ false) [ex_old; bad; nosnap; remote; r2; ex_new]
    [("backy-old"%string, []); ("backy-bad"%string, []); ("backy-remote"%string, [])] in
  (ceph_parent false ex_B r2 s).2 = Ok (Some ex_old).
Proof. vm_compute. reflexivity. Qed.

(** ** C12: incremental backups *)
(** Whenever the new revision is complete, at the end or at any point at which
    the process is killed, and it was made from parent [p] whose image is the
    snapshot [a], and the stream (which may have been cut off anywhere)
    describes the change from [a] to the new snapshot [c]: it holds exactly [c]
    and can be read. *)
Theorem C12_incremental :
  forall E O af B r s s' rb d c p a,
  (0 < CS E)%Z -> lzo_ok E -> orders_ok O -> repo_ok E O r s ->
  backup E O af B r s = (s', rb) ->
  no_collision E (w_disk (rs_w s)) (w_log (rs_w s')) ->
  killed s s' d -> complete d (r_uuid r) ->
  bk_snap B = Ok c ->
  (ceph_parent af B r (set_snaps (rs_snaps s ++ [(snap_name (r_uuid r), c)]) s)).2 = Ok (Some p) ->
  image_is E (w_disk (rs_w s)) (r_uuid p) a ->
  diff_stream (bytes_of (snap_name (r_uuid p))) (bytes_of (snap_name (r_uuid r))) a c (bk_diff B) ->
  image_is E d (r_uuid r) c /\ readable E d (r_uuid r).
Proof. intros E O af B r s s' rb d c p a H1 H2 H3 H4 H5 H6. eapply incremental; eauto. Qed.
Print Assumptions C12_incremental.
(** ... and a successful call does leave it complete. *)
Theorem C12_success_is_complete :
  forall E O af B r s s',
  (0 < CS E)%Z -> lzo_ok E -> orders_ok O -> repo_ok E O r s ->
  backup E O af B r s = (s', Ok true) ->
  no_collision E (w_disk (rs_w s)) (w_log (rs_w s')) ->
  complete (w_disk (rs_w s')) (r_uuid r).
Proof. intros E O af B r s s' H1 H2 H3 H4 H5 H6. eapply self_true; eauto. Qed.
Print Assumptions C12_success_is_complete.
Example C12_hypotheses :
  (backup ex_env ex_O false ex_B ex_new ex_s).2 = Ok true /\
  (ceph_parent false ex_B ex_new (set_snaps (rs_snaps ex_s ++ [("backy-new"%string, bs "abXYefgh")]) ex_s)).2
    = Ok (Some ex_old) /\
  diff_stream (bs "backy-old") (bs "backy-new") (bs "abcdefgh") (bs "abXYefgh") (bk_diff ex_B) /\
  repo_ok ex_env ex_O ex_new ex_s /\ orders_ok ex_O.
Proof.
  split; [vm_compute; reflexivity|]. split; [vm_compute; reflexivity|].
  split; [|split; [exact ex_repo|exact ex_orders]].
  exists ex_ms, ex_ds, (length (enc_diff ex_ms ex_ds)). split; [rewrite firstn_all; done|].
  split; [repeat constructor; vm_compute; done|]. split; [repeat constructor; vm_compute; done|].
  split; [repeat constructor; vm_compute; done|].
  split. { intros n Hn. repeat (apply elem_of_cons in Hn as [Hn|Hn]; [try done|]); [injection Hn as ->; done|inversion Hn]. }
  split; [left; right; right; left|].
  split; [repeat constructor; vm_compute; done|]. intros i x Hx Hr.
  do 8 (destruct i as [|i]; [first [vm_compute in Hx; injection Hx as <-; vm_compute; reflexivity
    | exfalso; apply (Hr (DData 2 (bs "XY")) ltac:(left)); vm_compute; done]|]). done.
Qed.

(** ** C08: force_writes *)
(** The full statement: if a complete local revision is distrusted, each chunk
    that the new backup flushes is written, unless this process has written that
    very chunk before.  It does not hold: the test that should switch to
    force_writes never succeeds ... *)
Theorem C08_force_never_switched_on : forall h, contains_distrusted h = false.
Proof.
  intros h. unfold contains_distrusted. induction (get_history true true h) as [|x l IH]; done.
Qed.
Print Assumptions C08_force_never_switched_on.
(** ... so that a backup relies on a damaged chunk file although the revision
    that uses it has been distrusted: *)
Definition c08_old : rev := with_trust DISTRUSTED ex_old.
Definition c08_disk : disk :=
  MkDisk {[ "habcd" := bs "xxxx"; "hefgh" := bs "efgh" ]}
    {[ "old" := MapJson {[ 0 := "habcd"; 1 := "hefgh" ]}%Z 8 ]}
    {[ "old" := c08_old; "new" := ex_new ]}.
Definition c08_s : rst := MkRst (MkWorld c08_disk [] ∅ false) [c08_old; ex_new] [].
Definition c08_B : bk :=
  MkBk true (Ok (bs "abcdefgh")) None [] (bs "abcdefgh")
    (Ok (bs "abcdefgh")) [1%Z] (fun _ => false) 7 None (fun _ => false).
Theorem C08_force_writes_refuted :
  exists E O B r old s s',
  (0 < CS E)%Z /\ lzo_ok E /\ orders_ok O /\ scanned O s /\ w_seen (rs_w s) = ∅ /\
  old ∈ rs_hist s /\ is_clean old = true /\ r_server old = "" /\ r_trust old = DISTRUSTED /\
  backup E O false B r s = (s', Ok true) /\
  (exists c, EFlush c ∈ w_log (rs_w s') /\
     forall raw, EChunkPut (hash E c) raw ∉ w_log (rs_w s')) /\
  complete (w_disk (rs_w s')) (r_uuid r) /\ ~ readable E (w_disk (rs_w s')) (r_uuid r).
Proof.
  pose proof (run_is (backup ex_env ex_O false c08_B ex_new) c08_s (Ok true) ltac:(vm_compute; reflexivity)) as Hrun.
  set (s' := (backup ex_env ex_O false c08_B ex_new c08_s).1). fold s' in Hrun.
  exists ex_env, ex_O, c08_B, ex_new, c08_old, c08_s, s'.
  split; [exact ex_CS|]. split; [exact ex_lzo|]. split; [exact ex_orders|].
  split; [vm_compute; reflexivity|]. split; [done|]. split; [left|]. split; [done|].
  split; [done|]. split; [done|]. split; [exact Hrun|]. split.
  - exists (bs "abcd"). value (w_log (rs_w s')) Hl. rewrite Hl. split.
    + repeat first [apply elem_of_list_here | apply elem_of_list_further].
    + intros raw Hin. repeat (apply elem_of_cons in Hin as [Hin|Hin]; [discriminate Hin|]). inversion Hin.
  - split; [eexists; split; vm_compute; reflexivity|].
    intros (m & z & Hm & Hall). value (d_maps (w_disk (rs_w s')) !! r_uuid ex_new) Hv. rewrite Hv in Hm.
    injection Hm as <- <-. specialize (Hall 0%Z "habcd" ltac:(vm_compute; reflexivity)).
    value (chunk_content ex_env (w_disk (rs_w s')) "habcd") Hc. rewrite Hc in Hall.
    destruct Hall as [? Hx]. discriminate Hx.
Qed.
Print Assumptions C08_force_writes_refuted.
(** What does hold: while force_writes is on, a file session writes each chunk
    that it flushes, unless the same process has written that chunk before. *)
Theorem C08_force_writes_partial :
  forall E A n r wr (p : prog A) w w' x,
  session E n r wr p w = (w', x) -> w_force w = true ->
  exists l, w_log w' = w_log w ++ l /\
  forall c, EFlush c ∈ l ->
    hash E c ∈ w_seen w \/
    exists c', hash E c' = hash E c /\ EChunkPut (hash E c) (compress E c') ∈ l.
Proof.
  intros E A n r wr p w w' x Hs Hf. destruct (FR_session E n r wr p w) as [_ H].
  rewrite Hs in H. destruct (H Hf) as (_ & l & Hl & H1 & H2). exists l. split; [done|]. eauto.
Qed.
Print Assumptions C08_force_writes_partial.
Example C08_case :
  let w := MkWorld c08_disk [] ∅ true in
  let w' := (session ex_env "new" false true (do_op (OWrite (bs "abcd"))) w).1 in
  EChunkPut "habcd" (bs "abcd") ∈ w_log w'.
Proof. vm_compute. repeat first [apply elem_of_list_here | apply elem_of_list_further]. Qed.

(** ** C13: full backups *)
(** The full statement: a revision that is marked complete after a full export
    holds the snapshot [c].  It does not hold: nobody looks at the exit code of
    "rbd export" (rbd/__init__.py:522-529, rbd.py:206-215), so that an export
    that dies early goes unnoticed unless a sampled block is missing. *)
Definition c13_s : rst :=
  MkRst (MkWorld (MkDisk ∅ ∅ {[ "new" := ex_new ]}) [] ∅ false) [ex_new] [].
Definition c13_B : bk :=
  MkBk true (Ok (bs "abcdefgh")) None [] (bs "abcd")
    (Ok (bs "abcdefgh")) [0%Z] (fun _ => false) 7 None (fun _ => false).
Lemma c13_repo : repo_ok ex_env ex_O ex_new c13_s.
Proof.
  constructor.
  - intros h raw Hh. exfalso. change ((∅ : gmap string bytes) !! h = Some raw) in Hh.
    rewrite lookup_empty in Hh. done.
  - intros h Hh. exfalso. change (h ∈ (∅ : gset string)) in Hh. set_solver.
  - intros n rv Hn. change (({["new" := ex_new]} : gmap string rev) !! n = Some rv) in Hn.
    apply lookup_singleton_Some in Hn as [<- <-]. done.
  - vm_compute. reflexivity.
  - vm_compute. reflexivity.
  - done.
  - done.
  - done.
  - vm_compute. reflexivity.
  - intros p Hp Hne. apply elem_of_list_singleton in Hp. subst p. done.
Qed.
Theorem C13_full_refuted :
  exists E O B r s s' c img,
  (0 < CS E)%Z /\ lzo_ok E /\ orders_ok O /\ repo_ok E O r s /\
  no_collision E (w_disk (rs_w s)) (w_log (rs_w s')) /\
  bk_snap B = Ok c /\ bk_map B = Ok c /\ sample_ok c (CS E) (bk_sample B) /\
  (forall i, bk_late B i = false) /\ bk_full B `prefix_of` c /\
  backup E O false B r s = (s', Ok true) /\
  complete (w_disk (rs_w s')) (r_uuid r) /\
  image_is E (w_disk (rs_w s')) (r_uuid r) img /\ img <> c.
Proof.
  pose proof (run_is (backup ex_env ex_O false c13_B ex_new) c13_s (Ok true) ltac:(vm_compute; reflexivity)) as Hrun.
  set (s' := (backup ex_env ex_O false c13_B ex_new c13_s).1). fold s' in Hrun.
  exists ex_env, ex_O, c13_B, ex_new, c13_s, s', (bs "abcdefgh"), (bs "abcd").
  split; [exact ex_CS|]. split; [exact ex_lzo|].
  split; [exact ex_orders|]. split; [exact c13_repo|].
  split; [apply ex_no_collision|]. split; [done|]. split; [done|].
  split. { split; [apply NoDup_singleton|]. split; [done|]. repeat constructor; vm_compute; done. }
  split; [done|]. split; [exists (bs "efgh"); done|].
  split; [exact Hrun|]. split; [eexists; split; vm_compute; reflexivity|].
  split; [|done]. eexists. split; [vm_compute; reflexivity|].
  intros i b Hi. do 4 (destruct i as [|i]; [injection Hi as <-;
    eexists _, _; split; [vm_compute; reflexivity|split; vm_compute; reflexivity]|]). done.
Qed.
Print Assumptions C13_full_refuted.
(** What holds: a complete revision has exactly the bytes that the export
    delivered, also if the process is killed, and agrees with the mapped device
    in each block that was sampled before the time limit.  In particular it is
    the snapshot if the export was not cut off. *)
Theorem C13_full_partial :
  forall E O af B r s s' rb d c,
  (0 < CS E)%Z -> lzo_ok E -> orders_ok O -> repo_ok E O r s ->
  backup E O af B r s = (s', rb) ->
  no_collision E (w_disk (rs_w s)) (w_log (rs_w s')) ->
  killed s s' d -> complete d (r_uuid r) ->
  bk_snap B = Ok c ->
  (ceph_parent af B r (set_snaps (rs_snaps s ++ [(snap_name (r_uuid r), c)]) s)).2 = Ok None ->
  image_is E d (r_uuid r) (bk_full B) /\ readable E d (r_uuid r) /\
  (bk_full B = c -> image_is E d (r_uuid r) c) /\
  (forall dev, bk_map B = Ok dev -> Forall (fun b => 0 <= b)%Z (bk_sample B) ->
   forall j b, bk_sample B !! j = Some b -> (forall k, k <= j -> bk_late B k = false) ->
   block dev (CS E) b = block (bk_full B) (CS E) b).
Proof.
  intros E O af B r s s' rb d c H1 H2 H3 H4 H5 H6 Hk Hc Hsn Hp.
  destruct (full E O af B r s s' rb H1 H2 H3 H4 H5 H6 d c Hk Hc Hsn Hp) as [A1 A2].
  split; [done|]. split; [done|]. split; [intros <-; done|].
  intros dev Hdev Hpos j b Hj Hl.
  eapply (spot_checked E O af B r s s' rb H1 H2 H3 H4 H5 H6 d); eauto.
Qed.
Print Assumptions C13_full_partial.
(** The spot check covers everything if each block is sampled and the size is a
    multiple of the block size. *)
Example C13_hypotheses :
  repo_ok ex_env ex_O ex_new c13_s /\
  (backup ex_env ex_O false c13_B ex_new c13_s).2 = Ok true /\
  (ceph_parent false c13_B ex_new (set_snaps [("backy-new"%string, bs "abcdefgh")] c13_s)).2 = Ok None.
Proof. split; [exact c13_repo|]. split; vm_compute; reflexivity. Qed.

(** ** C14: failed backups *)
(** A backup that does not report success ends with exit code 1; one that
    reports a failed verification has removed its metadata and was never
    complete at any moment. *)
Theorem C14_verification_failed :
  forall E O af B r s s',
  (0 < CS E)%Z -> lzo_ok E -> orders_ok O -> repo_ok E O r s ->
  backup E O af B r s = (s', Ok false) ->
  no_collision E (w_disk (rs_w s)) (w_log (rs_w s')) ->
  main_backup (Ok false) = 1%Z /\
  d_revs (w_disk (rs_w s')) !! r_uuid r = None /\
  forall d, killed s s' d -> ~ complete d (r_uuid r).
Proof.
  intros E O af B r s s' H1 H2 H3 H4 H5 H6. split; [done|].
  eapply removed; eauto.
Qed.
Print Assumptions C14_verification_failed.
(** A backend error: not a success, the revision is gone, and every remaining
    local revision is distrusted, or has since been verified and can be read. *)
Theorem C14_backend_error :
  forall E O af B r s s' rb e,
  orders_ok O -> repo_ok E O r s ->
  backup E O af B r s = (s', rb) ->
  bk_ready B = true ->
  (backup_try E af B r (set_w (do_eff ETmp (do_eff ETmp (rs_w s))) s)).2 = Err e ->
  is_backend_exn e = true ->
  main_backup rb = 1%Z /\ d_revs (w_disk (rs_w s')) !! r_uuid r = None /\
  distrusted_or_read E (w_disk (rs_w s')).
Proof.
  intros E O af B r s s' rb e H3 H4 H5 H7 H8 H9.
  destruct (backend_error E O af B r s s' rb H3 H4 H5 e H7 H8 H9) as (A1 & A2 & A3).
  split; [|done]. destruct rb as [[|]|]; done.
Qed.
Print Assumptions C14_backend_error.
(** The other way round: if the revision is complete at any moment, the data
    was integrated without an error and the comparison found no difference. *)
Theorem C14_complete_means_compared :
  forall E O af B r s s' rb d,
  (0 < CS E)%Z -> lzo_ok E -> orders_ok O -> repo_ok E O r s ->
  backup E O af B r s = (s', rb) ->
  no_collision E (w_disk (rs_w s)) (w_log (rs_w s')) ->
  killed s s' d -> complete d (r_uuid r) ->
  exists img dev, image_is E d (r_uuid r) img /\ bk_map B = Ok dev /\
  (Forall (fun b => 0 <= b)%Z (bk_sample B) ->
   forall j b, bk_sample B !! j = Some b -> (forall k, k <= j -> bk_late B k = false) ->
   block dev (CS E) b = block img (CS E) b).
Proof.
  intros E O af B r s s' rb d H1 H2 H3 H4 H5 H6 Hk Hc.
  destruct (self E O af B r s s' rb H1 H2 H3 H4 H5 H6 d Hk Hc) as (c & pa & c0 & st & a & Ho & Hr & Hi & _).
  destruct Ho as (_ & _ & _ & _ & Hm & _). exists (fl_data st), a. split; [done|]. split; [done|].
  intros Hpos j b Hj Hl. eapply (spot_checked E O af B r s s' rb H1 H2 H3 H4 H5 H6 d); eauto.
Qed.
Print Assumptions C14_complete_means_compared.
(** A device that differs in a sampled block. *)
Definition c14_B : bk :=
  MkBk true (Ok (bs "abXYefgh")) None (enc_diff ex_ms ex_ds) []
    (Ok (bs "abXYefgZ")) [1%Z; 0%Z] (fun _ => false) 7 None (fun _ => false).
(** A device that fails. *)
Definition c14_B2 : bk :=
  MkBk true (Ok (bs "abXYefgh")) None (enc_diff ex_ms ex_ds) []
    (Err BackendException) [1%Z; 0%Z] (fun _ => false) 7 None (fun _ => false).
Example C14_cases :
  (backup ex_env ex_O false c14_B ex_new ex_s).2 = Ok false /\
  map fst (map_to_list (d_revs (w_disk (rs_w (backup ex_env ex_O false c14_B ex_new ex_s).1)))) = ["old"] /\
  (backup_try ex_env false c14_B2 ex_new (set_w (do_eff ETmp (do_eff ETmp (rs_w ex_s))) ex_s)).2
    = Err BackendException /\
  map (fun x => (x.1, r_trust x.2))
    (map_to_list (d_revs (w_disk (rs_w (backup ex_env ex_O false c14_B2 ex_new ex_s).1)))) = [("old", VERIFIED)].
Proof. vm_compute. repeat split. Qed.

(** ** C15: a process killed during a backup *)
(** Other revisions: metadata of remote ones is untouched; a local one that could
    be read can be read, has the same image and the same metadata up to the
    trust mark. *)
Theorem C15_others_survive :
  forall E O af B r s s' res d u rv,
  lzo_ok E -> orders_ok O -> rev_files_ok (w_disk (rs_w s)) -> scanned O s ->
  backup E O af B r s = (s', res) ->
  no_collision E (w_disk (rs_w s)) (w_log (rs_w s')) ->
  killed s s' d ->
  u <> r_uuid r -> d_revs (w_disk (rs_w s)) !! u = Some rv ->
  (r_server rv <> "" -> d_revs d !! u = Some rv) /\
  (r_server rv = "" -> readable E (w_disk (rs_w s)) u ->
     readable E d u /\ (exists t, d_revs d !! u = Some (with_trust t rv)) /\
     (forall c, image_is E (w_disk (rs_w s)) u c -> image_is E d u c)).
Proof.
  intros E O af B r s s' res d u rv H1 H2 H3 H4 H5 H6 H7 H8 H9.
  destruct (backup_keeps_others E O af B r s s' res d u rv H1 H2 H3 H4 H5 H6 H7 H8 H9) as [A1 A2].
  split; [intros Hs; apply A1; apply bool_decide_eq_false; done|].
  intros Hs. apply A2. apply bool_decide_eq_true. done.
Qed.
Print Assumptions C15_others_survive.
(** The new revision is complete only if its map and all its chunks are there. *)
Theorem C15_new_complete_only_if_readable :
  forall E O af B r s s' rb d,
  (0 < CS E)%Z -> lzo_ok E -> orders_ok O -> repo_ok E O r s ->
  backup E O af B r s = (s', rb) ->
  no_collision E (w_disk (rs_w s)) (w_log (rs_w s')) ->
  killed s s' d -> complete d (r_uuid r) -> readable E d (r_uuid r).
Proof.
  intros E O af B r s s' rb d H1 H2 H3 H4 H5 H6 Hk Hc.
  destruct (self E O af B r s s' rb H1 H2 H3 H4 H5 H6 d Hk Hc) as (c & pa & c0 & st & a & Ho & Hr & _).
  exact Hr.
Qed.
Print Assumptions C15_new_complete_only_if_readable.
(** Killed after the chunk of the new revision is written and before its map is. *)
Example C15_case :
  let s' := (backup ex_env ex_O false ex_B ex_new ex_s).1 in
  let d := replay (take 10 (w_log (rs_w s'))) ex_disk in
  killed ex_s s' d /\ d_chunks d !! "habXY" = Some (bs "abXY") /\
  d_maps d !! "new" <> d_maps (w_disk (rs_w s')) !! "new".
Proof.
  intros s' d. split; [exists (w_log (rs_w s')), 10; split; reflexivity|].
  split; [vm_compute; reflexivity|].
  value (d_maps d !! "new") H1. value (d_maps (w_disk (rs_w s')) !! "new") H2.
  rewrite H1, H2. discriminate.
Qed.

(** ** C16: power loss *)
(** The full statement: a revision that is complete on the disk after a power
    loss can be read.  It does not hold: the metadata is synced and renamed
    before the chunks are (sync comes last, rbd/__init__.py:174-176). *)
Theorem C16_power_loss_refuted :
  exists E O B r s s' pre d,
  (0 < CS E)%Z /\ lzo_ok E /\ orders_ok O /\ repo_ok E O r s /\
  backup E O false B r s = (s', Ok true) /\
  no_collision E (w_disk (rs_w s)) (w_log (rs_w s')) /\
  power_loss s s' pre d /\ complete d (r_uuid r) /\ ~ readable E d (r_uuid r).
Proof.
  pose proof (run_is (backup ex_env ex_O false ex_B ex_new) ex_s (Ok true) ltac:(vm_compute; reflexivity)) as Hrun.
  set (s' := (backup ex_env ex_O false ex_B ex_new ex_s).1). fold s' in Hrun.
  set (d := replay [ERevPut "new" (fin_rev ex_B ex_new)] ex_disk).
  exists ex_env, ex_O, ex_B, ex_new, ex_s, s', [], d.
  split; [exact ex_CS|]. split; [exact ex_lzo|].
  split; [exact ex_orders|]. split; [exact ex_repo|].
  split; [exact Hrun|]. split; [apply ex_no_collision|].
  split; [|split].
  - exists (w_log (rs_w s')), 15, (take 15 (w_log (rs_w s'))), [ERevPut "new" (fin_rev ex_B ex_new)].
    split; [reflexivity|]. split; [reflexivity|]. split; [left; reflexivity|].
    value (take 15 (w_log (rs_w s'))) Hl. rewrite Hl. split.
    + intros Hin. repeat (apply elem_of_cons in Hin as [Hin|Hin]; [discriminate Hin|]). inversion Hin.
    + split; [|reflexivity]. value (fin_rev ex_B ex_new) Hf. rewrite Hf.
      repeat first [apply sublist_nil_l | apply sublist_skip | apply sublist_cons].
  - eexists. split; [vm_compute; reflexivity|reflexivity].
  - intros (m & z & Hm & _). value (d_maps d !! r_uuid ex_new) Hv. rewrite Hv in Hm. discriminate.
Qed.
Print Assumptions C16_power_loss_refuted.
(** What holds: once the metadata with the "complete" mark lies before the last
    sync, the new revision survives; and all other revisions survive at any
    moment. *)
Theorem C16_power_loss_partial :
  forall E O af B r s s' rb pre d,
  (0 < CS E)%Z -> lzo_ok E -> orders_ok O -> repo_ok E O r s ->
  backup E O af B r s = (s', rb) ->
  no_collision E (w_disk (rs_w s)) (w_log (rs_w s')) ->
  power_loss s s' pre d ->
  (forall v, ERevPut (r_uuid r) v ∈ pre -> is_clean v = true ->
     complete d (r_uuid r) /\ readable E d (r_uuid r)) /\
  (forall u rv, u <> r_uuid r -> d_revs (w_disk (rs_w s)) !! u = Some rv ->
     r_server rv = "" -> readable E (w_disk (rs_w s)) u ->
     readable E d u /\ (exists t, d_revs d !! u = Some (with_trust t rv)) /\
     (forall c, image_is E (w_disk (rs_w s)) u c -> image_is E d u c)).
Proof.
  intros E O af B r s s' rb pre d H1 H2 H3 H4 H5 H6 Hp. split.
  - intros v Hv Hc.
    destruct (durable E O af B r s s' rb H1 H2 H3 H4 H5 H6 pre d v Hp Hv Hc) as (c & pa & c0 & st & a & _ & A & _ & C).
    done.
  - intros u rv Hu Hrv Hl. destruct H4 as [R1 R2 R3 R4 R5 R6 R7 R8 R9 R10].
    destruct (backup_keeps_others_gen E O af B r s s' rb d u rv H2 H3 R3 R4 H5 H6 (power_some _ _ _ _ Hp) Hu Hrv)
      as [_ A]. apply A. apply bool_decide_eq_true. done.
Qed.
Print Assumptions C16_power_loss_partial.
Example C16_hypotheses :
  let s' := (backup ex_env ex_O false ex_B ex_new ex_s).1 in
  exists pre d, power_loss ex_s s' pre d /\
    ERevPut "new" (fin_rev ex_B ex_new) ∈ pre.
Proof.
  intros s'. exists (w_log (rs_w s')), (replay (w_log (rs_w s') ++ []) ex_disk). split.
  - exists (w_log (rs_w s')), 1000, [], []. split; [reflexivity|].
    split; [rewrite app_nil_r; vm_compute; reflexivity|].
    split; [right; vm_compute; reflexivity|]. split; [intros Hin; inversion Hin|].
    split; [constructor|]. reflexivity.
  - value (w_log (rs_w s')) Hl. rewrite Hl. value (fin_rev ex_B ex_new) Hf. rewrite Hf.
    repeat first [apply elem_of_list_here | apply elem_of_list_further].
Qed.

(** ** C17: verification *)
(** The full statement: verify marks a revision as verified only if each of its
    chunks is there and matches its hash.  It does not hold: chunks that some
    verified revision names are not looked at (rbd/__init__.py:200-214). *)
Definition c17_old : rev := with_trust VERIFIED ex_old.
Definition c17_two : rev :=
  MkRev "two" 2 (MkStats 8 (Some 5%Z) (Some "partial"%string)) ∅ ∅ TRUSTED "".
Definition c17_disk : disk :=
  MkDisk {[ "habcd" := bs "rotten"; "hefgh" := bs "efgh" ]}
    {[ "old" := MapJson {[ 0 := "habcd"; 1 := "hefgh" ]}%Z 8;
       "two" := MapJson {[ 0 := "habcd" ]}%Z 4 ]}
    {[ "old" := c17_old; "two" := c17_two ]}.
Definition c17_s : rst := MkRst (MkWorld c17_disk [] ∅ false) [c17_old; c17_two] [].
Theorem C17_verify_refuted :
  exists E O r s s',
  orders_ok O /\ scanned O s /\ r ∈ rs_hist s /\ r_server r = "" /\
  verify E O r s = (s', Ok tt) /\
  d_revs (w_disk (rs_w s')) !! r_uuid r = Some (with_trust VERIFIED r) /\
  ~ readable E (w_disk (rs_w s')) (r_uuid r).
Proof.
  pose proof (run_is (verify ex_env ex_O c17_two) c17_s (Ok tt) ltac:(vm_compute; reflexivity)) as Hrun.
  set (s' := (verify ex_env ex_O c17_two c17_s).1). fold s' in Hrun.
  exists ex_env, ex_O, c17_two, c17_s, s'. split; [exact ex_orders|].
  split; [vm_compute; reflexivity|]. split; [right; left|]. split; [done|].
  split; [exact Hrun|]. split; [vm_compute; reflexivity|].
  intros (m & z & Hm & Hall). value (d_maps (w_disk (rs_w s')) !! r_uuid c17_two) Hv. rewrite Hv in Hm.
  injection Hm as <- <-. specialize (Hall 0%Z "habcd" ltac:(vm_compute; reflexivity)).
  value (chunk_content ex_env (w_disk (rs_w s')) "habcd") Hc. rewrite Hc in Hall.
  destruct Hall as [? Hx]. discriminate Hx.
Qed.
Print Assumptions C17_verify_refuted.
(** What holds: whenever verify gets as far as deciding, the decision is right
    for the chunks that no verified revision names.  It marks the revision only
    if they are all fine; if one is bad it removes the revision's metadata and
    such a chunk.  Maps are never touched, and chunks in use are kept otherwise. *)
Theorem C17_verify_partial :
  forall E O r s s' res,
  orders_ok O -> r_server r = "" -> verify E O r s = (s', res) ->
  let d := w_disk (rs_w s) in let d' := w_disk (rs_w s') in
  (s' = s /\ res <> Ok tt) \/
  exists m z, d_maps d !! r_uuid r = Some (MapJson m z) /\ d_maps d' = d_maps d /\
  (((forall id h, m !! id = Some h -> ~ vouched s h -> is_Some (chunk_content E d h)) /\
    d_revs d' = <[r_uuid r := with_trust VERIFIED r]> (d_revs d) /\
    (forall h, used s h -> d_chunks d' !! h = d_chunks d !! h)) \/
   (exists id h, m !! id = Some h /\ ~ vouched s h /\ chunk_content E d h = None /\
      d_chunks d' !! h = None /\ d_revs d' = delete (r_uuid r) (d_revs d))).
Proof.
  intros E O r s s' res HO Hl Hv. cbn zeta. eapply verify_run; [done| |done].
  apply bool_decide_eq_true. done.
Qed.
Print Assumptions C17_verify_partial.
(** Hence the full statement for repositories in which the chunks of verified
    revisions are fine, in particular where no revision is marked verified. *)
Theorem C17_verified_is_readable :
  forall E O r s s' res,
  orders_ok O -> r_server r = "" -> r ∈ rs_hist s -> verify E O r s = (s', res) ->
  (forall h, vouched s h -> is_Some (chunk_content E (w_disk (rs_w s)) h)) ->
  d_revs (w_disk (rs_w s')) !! r_uuid r <> d_revs (w_disk (rs_w s)) !! r_uuid r ->
  (readable E (w_disk (rs_w s)) (r_uuid r) ->
     d_revs (w_disk (rs_w s')) !! r_uuid r = Some (with_trust VERIFIED r) /\
     readable E (w_disk (rs_w s')) (r_uuid r)) /\
  (~ readable E (w_disk (rs_w s)) (r_uuid r) ->
     d_revs (w_disk (rs_w s')) !! r_uuid r = None).
Proof.
  intros E O r s s' res HO Hl Hin Hv Hvo Hch.
  destruct (C17_verify_partial E O r s s' res HO Hl Hv) as [[-> _]|(m & z & Hm & Hmm & Hcase)]; [done|].
  destruct Hcase as [(Hall & Hrev & Hkeep)|(id & h & Hid & Hnv & Hbad & Hgone & Hrev)].
  - assert (Hrd : forall id h, m !! id = Some h -> is_Some (chunk_content E (w_disk (rs_w s)) h)).
    { intros id h Hid. destruct (chunk_content E (w_disk (rs_w s)) h) eqn:Hc; [eauto|].
      exfalso. assert (Hn : ~ vouched s h). { intros Hvh. apply Hvo in Hvh. rewrite Hc in Hvh. destruct Hvh. done. }
      specialize (Hall id h Hid Hn). rewrite Hc in Hall. destruct Hall. done. }
    split.
    + intros _. split; [rewrite Hrev; apply lookup_insert|]. exists m, z. split; [rewrite Hmm; done|].
      intros id h Hid. unfold chunk_content. rewrite Hkeep; [exact (Hrd id h Hid)|].
      exists r. split; [done|]. split; [done|]. exists m, z, id. done.
    + intros Hn. exfalso. apply Hn. exists m, z. done.
  - split.
    + intros (m' & z' & Hm' & Hall). rewrite Hm in Hm'. injection Hm' as <- <-.
      specialize (Hall id h Hid). rewrite Hbad in Hall. destruct Hall. done.
    + intros _. rewrite Hrev. apply lookup_delete.
Qed.
Print Assumptions C17_verified_is_readable.
Example C17_cases :
  (* a bad chunk of a revision that is not vouched for: removed *)
  let s := MkRst (MkWorld (MkDisk (d_chunks c17_disk) (d_maps c17_disk) {[ "two" := c17_two ]}) [] ∅ false) [c17_two] [] in
  (verify ex_env ex_O c17_two s).2 = Ok tt /\
  d_revs (w_disk (rs_w (verify ex_env ex_O c17_two s).1)) !! "two" = None /\
  d_chunks (w_disk (rs_w (verify ex_env ex_O c17_two s).1)) !! "habcd" = None /\
  (* a good one: marked *)
  r_trust <$> (d_revs (w_disk (rs_w (verify ex_env ex_O ex_old (set_hist [ex_old] ex_s)).1)) !! "old") = Some VERIFIED.
Proof. vm_compute. repeat split. Qed.

(** ** C19: snapshots *)
(** Foreign snapshots stay; of backy's own, only that of the newest local
    revision (the one just being made) stays, apart from those that Ceph refuses
    to remove.  [always_full] keeps none. *)
Theorem C19_cleanup_partial :
  forall E O af B r s s' rb c,
  orders_ok O -> repo_ok E O r s -> backup E O af B r s = (s', rb) ->
  bk_ready B = true -> bk_snap B = Ok c ->
  (forall x, x ∈ rs_snaps s -> startswith "backy-" x.1 = false -> x ∈ rs_snaps s') /\
  (forall x, x ∈ rs_snaps s' -> x ∈ rs_snaps s \/ x = (snap_name (r_uuid r), c)) /\
  (bk_ls B = None -> forall x, x ∈ rs_snaps s' -> startswith "backy-" x.1 = true ->
     bk_rm_fail B x.1 = true \/
     af = false /\ exists h y, get_history false true (rs_hist s) = h ++ [y] /\ snap_uuid x.1 = r_uuid y).
Proof.
  intros E O af B r s s' rb c HO Hrepo Hrun Hready Hsn.
  pose proof (backup_snaps E O af B r s s' rb HO Hrepo Hrun Hready) as Hs. rewrite Hsn in Hs. cbn zeta in Hs.
  destruct (bk_ls B) as [e|] eqn:Hls.
  - split; [intros x Hx _; rewrite Hs; apply elem_of_app; auto|]. split; [|done].
    intros x Hx. rewrite Hs in Hx. apply elem_of_app in Hx as [Hx|Hx]; [auto|].
    apply elem_of_list_singleton in Hx. auto.
  - split.
    { intros x Hx Hp. rewrite Hs. apply elem_of_list_filter. split; [|apply elem_of_app; auto].
      unfold kept_snap. rewrite Hp. done. }
    split.
    { intros x Hx. rewrite Hs in Hx. apply elem_of_list_filter in Hx as [_ Hx].
      apply elem_of_app in Hx as [Hx|Hx]; [auto|]. apply elem_of_list_singleton in Hx. auto. }
    intros _ x Hx Hp. rewrite Hs in Hx. apply elem_of_list_filter in Hx as [Hk _].
    unfold kept_snap in Hk. rewrite Hp in Hk. cbn [negb orb] in Hk.
    apply orb_true_iff in Hk as [Hk|Hk]; [|auto]. right. apply andb_true_iff in Hk as [Haf Hk].
    split; [destruct af; done|]. apply bool_decide_eq_true in Hk. unfold newest_local in Hk.
    symmetry in Hk. rewrite last_map in Hk. destruct (last (get_history false true (rs_hist s))) as [y|] eqn:Hl; [|done].
    cbn in Hk. injection Hk as Hk. apply last_Some in Hl as [h Hl]. eauto.
Qed.
Print Assumptions C19_cleanup_partial.
Lemma c19_next s' : rs_hist s' = [ex_old] -> snap_exists "old" s' = false ->
  forall B' r', bk_info B' = None -> r_uuid r' = "next" -> r_server r' = "" -> r_trust r' <> DISTRUSTED ->
    (ceph_parent false B' r' (set_hist (rs_hist s' ++ [r']) s')).2 = Ok None.
Proof.
  intros Hh Hsn B' r' Hb Hu Hs Ht.
  rewrite Hh. cbn [app]. set (s2 := set_hist [ex_old; r'] s').
  change ((ceph_parent false B' r' s2).2) with (ceph_parent_loop 4 (bk_info B') s2 r').
  rewrite Hb.
  assert (Hsn2 : snap_exists "old" s2 = false) by exact Hsn.
  assert (Hg : forall y, r_uuid y = "next" \/ y = ex_old -> r_trust y <> DISTRUSTED -> r_server y = "" ->
    get_parent false (rs_hist s2) y = if decide (r_uuid y = "next") then Some ex_old else None).
  { intros y Hy Hty Hsy. unfold s2, get_parent. cbn [rs_hist set_hist]. rewrite Hsy.
    destruct Hy as [Hy| ->]; [|reflexivity]. rewrite Hy. rewrite decide_True by done.
    cbn [get_parent_loop negb andb].
    assert (Hd1 : bool_decide (r_trust r' = DISTRUSTED) = false) by (apply bool_decide_eq_false_2; done).
    assert (Hd2 : bool_decide (r_server r' <> "") = false) by (apply bool_decide_eq_false_2; rewrite Hs; intros X; apply X; reflexivity).
    assert (Hd3 : bool_decide (r_uuid r' = "next") = true) by (apply bool_decide_eq_true_2; done).
    rewrite Hd1, Hd2, Hd3. reflexivity. }
  cbn [ceph_parent_loop]. rewrite Hg; [|auto|done|done].
  destruct (decide (r_uuid r' = "next")) as [_|Hne]; [|done].
  change (r_uuid ex_old) with "old". rewrite Hsn2. cbn iota.
  rewrite Hg; [|auto|done|done]. reflexivity.
Qed.
(** The other half of the statement does not hold: the old snapshot is deleted
    although the new revision turns out to be broken and is removed, so that the
    next backup finds no parent. *)
Theorem C19_cleanup_refuted :
  exists E O B r p s s',
  (0 < CS E)%Z /\ lzo_ok E /\ orders_ok O /\ repo_ok E O r s /\ p ∈ rs_hist s /\ is_clean p = true /\
  (ceph_parent false B r s).2 = Ok (Some p) /\
  backup E O false B r s = (s', Ok false) /\
  d_revs (w_disk (rs_w s')) !! r_uuid r = None /\
  map fst (filter (fun x => startswith "backy-" x.1 = true) (rs_snaps s')) = [snap_name (r_uuid r)] /\
  forall B' r', bk_info B' = None -> r_uuid r' = "next" -> r_server r' = "" -> r_trust r' <> DISTRUSTED ->
    (ceph_parent false B' r' (set_hist (rs_hist s' ++ [r']) s')).2 = Ok None.
Proof.
  pose proof (run_is (backup ex_env ex_O false c14_B ex_new) ex_s (Ok false) ltac:(vm_compute; reflexivity)) as Hrun.
  set (s' := (backup ex_env ex_O false c14_B ex_new ex_s).1). fold s' in Hrun.
  exists ex_env, ex_O, c14_B, ex_new, ex_old, ex_s, s'.
  split; [exact ex_CS|]. split; [exact ex_lzo|]. split; [exact ex_orders|]. split; [exact ex_repo|].
  split; [left|]. split; [done|]. split; [vm_compute; reflexivity|].
  split; [exact Hrun|]. split; [vm_compute; reflexivity|]. split; [vm_compute; reflexivity|].
  apply c19_next; vm_compute; reflexivity.
Qed.
Print Assumptions C19_cleanup_refuted.
Example C19_case :
  map fst (rs_snaps (backup ex_env ex_O false ex_B ex_new ex_s).1) = ["manual"; "backy-new"]%string.
Proof. vm_compute. reflexivity. Qed.

(** ** C20: restore *)
(** Target a file, whatever it contained; [can_truncate] is false for a device,
    which keeps what lies beyond the image. *)
Theorem C20_restore_file :
  forall E u c n can_truncate target w,
  (0 < CS E)%Z -> lzo_ok E -> (0 < n)%Z ->
  intact E (w_disk w) u -> image_is E (w_disk w) u c ->
  restore_file E n can_truncate u target w =
    (w, Ok (if can_truncate then c
            else c ++ zdrop (zlen c) (match target with Some t => t | None => [] end), zlen c)).
Proof. intros E u c n tr t w H1 H2 H3 H4 H5. apply restore_exact; done. Qed.
Print Assumptions C20_restore_file.
Theorem C20_restore_stdout :
  forall E u c n k w,
  (0 < CS E)%Z -> lzo_ok E -> (0 < n)%Z -> length c <= k ->
  intact E (w_disk w) u -> image_is E (w_disk w) u c ->
  restore_stdout E n k u w = (w, Ok c).
Proof. intros E u c n k w H1 H2 H3 H4 H5 H6. apply stdout_exact; done. Qed.
Print Assumptions C20_restore_stdout.
(** [d0] is the undamaged store.  A restore from a store in which chunk files
    were changed, removed or emptied fails if a chunk that the image needs
    cannot be read, and otherwise is exact. *)
Theorem C20_damaged :
  forall E u c n k can_truncate target w d0,
  (0 < CS E)%Z -> lzo_ok E -> (0 < n)%Z -> length c <= k ->
  d_maps (w_disk w) !! u = d_maps d0 !! u ->
  intact E d0 u -> image_is E d0 u c -> not_forged E d0 (w_disk w) u ->
  (damaged E (w_disk w) u ->
     (exists e, (restore_file E n can_truncate u target w).2 = Err e) /\
     (exists e, (restore_stdout E n k u w).2 = Err e)) /\
  (forall x, (restore_file E n can_truncate u target w).2 = Ok x ->
     x = (if can_truncate then c
          else c ++ zdrop (zlen c) (match target with Some t => t | None => [] end), zlen c)) /\
  (forall x, (restore_stdout E n k u w).2 = Ok x -> x = c).
Proof.
  intros E u c n k tr t w d0 H1 H2 H3 H4 H5 H6 H7 H8. split; [|split].
  - intros Hd. split; [eapply restore_damaged; eauto|eapply stdout_damaged; eauto].
  - intros x Hx. eapply restore_damaged_ok; eauto.
  - intros x Hx. eapply stdout_damaged_ok; eauto.
Qed.
Print Assumptions C20_damaged.
Example C20_cases :
  intact ex_env ex_disk "old" /\ image_is ex_env ex_disk "old" (bs "abcdefgh") /\
  (restore_file ex_env 3 true "old" (Some (bs "something longer")) (MkWorld ex_disk [] ∅ false)).2
    = Ok (bs "abcdefgh", 8%Z) /\
  (restore_file ex_env 3 true "old" None (MkWorld c17_disk [] ∅ false)).2 = Err InconsistentHash /\
  damaged ex_env c17_disk "old" /\ not_forged ex_env ex_disk c17_disk "old".
Proof.
  split; [|split; [exact ex_old_image|split; [vm_compute; reflexivity|split; [vm_compute; reflexivity|split]]]].
  - exists {[ 0 := "habcd"; 1 := "hefgh" ]}%Z, 8%Z. split; [reflexivity|]. intros id h Hh.
    apply lookup_insert_Some in Hh as [[_ <-]|[_ Hh]].
    + eexists. split; vm_compute; [reflexivity|discriminate].
    + apply lookup_singleton_Some in Hh as [_ <-]. eexists. split; vm_compute; [reflexivity|discriminate].
  - eexists _, _, 0%Z, "habcd"%string. split; [vm_compute; reflexivity|].
    split; [done|]. split; vm_compute; reflexivity.
  - intros m sz id h x x0 _ _ Hx Hx0.
    assert (forall d, chunk_content ex_env d h = Some x0 -> hash ex_env x0 = h) as Hh.
    { intros d. unfold chunk_content. destruct (d_chunks d !! h); [|done]. cbn.
      case_decide; [|done]. intros [= <-]. done. }
    assert (forall d, chunk_content ex_env d h = Some x -> hash ex_env x = h) as Hh'.
    { intros d. unfold chunk_content. destruct (d_chunks d !! h); [|done]. cbn.
      case_decide; [|done]. intros [= <-]. done. }
    apply ex_hash_inj. rewrite (Hh _ Hx0), (Hh' _ Hx). done.
Qed.
