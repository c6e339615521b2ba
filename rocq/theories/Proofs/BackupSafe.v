(** A backup does not hurt other revisions, at whatever point it stops. *)
From Verif Require Export Proofs.Session Proofs.TamperProofs Proofs.RevsProofs Model.RbdBackup.

Global Typeclasses Opaque open_map with_file copy_parent ceph_parent delete_old_snapshots
  backup_body backup_try union_maps gc verify_loop verify backup_guarded finish_backup
  after_backup backup.

Lemma delta_world s w l :
  w_log w = w_log (rs_w s) ++ l -> w_disk w = replay l (w_disk (rs_w s)) ->
  delta s (set_w w s) l.
Proof. done. Qed.

(** ** Growth *)
Section Grow.
Context (E : env) (O : orders).

Lemma session_delta {A} n r wr (p : prog A) w :
  exists l, w_log (session E n r wr p w).1 = w_log w ++ l /\
    w_disk (session E n r wr p w).1 = replay l (w_disk w) /\ safe_log E n l.
Proof. apply session_wext. Qed.

Global Instance Grows_open_map r : Grows (open_map r).
Proof.
  intros s. exists []. unfold open_map. destruct (file_open _ _ _ _ _); apply delta_nil; done.
Qed.
Global Instance Grows_with_file {A} u wr (p : prog A) : Grows (with_file E u wr p).
Proof.
  intros s. unfold with_file. destruct (file_open _ _ _ _ _); [|exists []; apply delta_nil; done].
  set (w := if _ : bool then _ else _).
  assert (Hw : w_log w = w_log (rs_w s) /\ w_disk w = w_disk (rs_w s)) by (unfold w; case_match; done).
  destruct Hw as [Hw1 Hw2].
  destruct (session_delta u (negb wr) wr p w) as (l & H1 & H2 & _).
  destruct (session E u (negb wr) wr p w) as [w2 r]. cbn [fst] in *.
  exists l. apply delta_world; congruence.
Qed.
Global Instance Grows_copy_parent u p : Grows (copy_parent u p).
Proof.
  destruct p as [p|]; cbn [copy_parent]; [|apply _].
  assert (H : Grows (do_ eff_ (EMapPut u MapGarbage);
         let* s := get in
         match d_maps (w_disk (rs_w s)) !! r_uuid p with
         | None => raise FileNotFound
         | Some m => eff_ (EMapPut u m)
         end)%M).
  { apply Grows_bind; [apply _|]. intros _. apply Grows_bind; [apply _|]. intros s.
    destruct (_ !! _); apply _. }
  intros s. case_bool_decide; [apply H|]. exists []. apply delta_nil. done.
Qed.
Global Instance Grows_ceph_parent af B r : Grows (ceph_parent af B r).
Proof. intros s. unfold ceph_parent. exists []. destruct af; apply delta_nil; done. Qed.
Global Instance Grows_delete_old af B : Grows (delete_old_snapshots af B).
Proof. intros s. unfold delete_old_snapshots. exists []. destruct (bk_ls B); apply delta_nil; done. Qed.
Global Instance Grows_body af B r : Grows (backup_body E af B r).
Proof.
  unfold backup_body. repeat (apply Grows_bind; [apply _|intros ?]).
  destruct (file_open _ _ _ _ _); repeat (apply Grows_bind; [apply _|intros ?]); apply _.
Qed.
Global Instance Grows_try af B r : Grows (backup_try E af B r).
Proof.
  intros s. unfold backup_try. destruct (bk_snap B) as [c|e]; [|exists []; apply delta_nil; done].
  set (s0 := set_snaps _ s).
  destruct (Grows_body af B r s0) as [l Hl]. destruct (backup_body E af B r s0) as [s1 r1].
  destruct (Grows_delete_old af B s1) as [l2 Hl2].
  destruct (delete_old_snapshots af B s1) as [s2 r2]. cbn [fst] in *.
  exists (l ++ l2). eapply delta_trans; [|done]. destruct Hl. split; done.
Qed.
Lemma purge_delta used w :
  exists l, w_log (store_purge used w) = w_log w ++ l /\
    w_disk (store_purge used w) = replay l (w_disk w) /\
    Forall (fun e => exists h, e = EChunkDel h /\ h ∉ used) l /\
    (forall h, h ∉ used -> is_Some (d_chunks (w_disk w) !! h) -> EChunkDel h ∈ l).
Proof.
  unfold store_purge.
  assert (Hgen : forall ks w0, exists l,
    w_log (fold_left (fun w h => if decide (h ∈ used) then w
        else discard_seen h (do_eff (EChunkDel h) w)) ks w0) = w_log w0 ++ l /\
    w_disk (fold_left (fun w h => if decide (h ∈ used) then w
        else discard_seen h (do_eff (EChunkDel h) w)) ks w0) = replay l (w_disk w0) /\
    Forall (fun e => exists h, e = EChunkDel h /\ h ∉ used) l /\
    (forall h, h ∉ used -> h ∈ ks -> EChunkDel h ∈ l)).
  { induction ks as [|h ks IH]; intros w0; cbn [fold_left].
    - exists []. rewrite app_nil_r. split_and!; try done. intros h _ H. inversion H.
    - case_decide as Hin.
      + destruct (IH w0) as (l & H1 & H2 & H3 & H4). exists l. split_and!; try done.
        intros h' Hh' [->|Hk]%elem_of_cons; [done|]. auto.
      + destruct (IH (discard_seen h (do_eff (EChunkDel h) w0))) as (l & H1 & H2 & H3 & H4).
        exists (EChunkDel h :: l). rewrite H1, H2. cbn. rewrite <- app_assoc.
        split_and!; [done|done|constructor; eauto|].
        intros h' Hh' [->|Hk]%elem_of_cons; [left|right; auto]. }
  destruct (Hgen (map fst (map_to_list (d_chunks (w_disk w)))) w) as (l & H1 & H2 & H3 & H4).
  exists l. split_and!; try done. intros h Hh [raw Hr]. apply H4; [done|].
  apply elem_of_list_fmap. exists (h, raw). split; [done|]. apply elem_of_map_to_list. done.
Qed.
Global Instance Grows_purge used : Grows (modify (fun s => set_w (store_purge used (rs_w s)) s)).
Proof.
  intros s. destruct (purge_delta used (rs_w s)) as (l & H1 & H2 & _). exists l. split; done.
Qed.
Global Instance Grows_union l : Grows (union_maps l).
Proof. induction l; cbn [union_maps]; apply _. Qed.
Global Instance Grows_gc : Grows gc.
Proof. unfold gc. apply _. Qed.
Global Instance Grows_vloop l : Grows (verify_loop E l).
Proof.
  induction l as [|h l IH]; cbn [verify_loop]; [apply _|]. intros s.
  destruct (read_existing _ _ _); [apply IH|].
  assert (H : Grows (do_ (if bool_decide (d_chunks (w_disk (rs_w s)) !! h = None)
                then ret tt else eff_ (EChunkDel h)); ret true)%M) by apply _.
  apply H.
Qed.
Global Instance Grows_verify r : Grows (verify E O r).
Proof.
  unfold verify. grows.
Qed.
Global Instance Grows_guarded af B r : Grows (backup_guarded E af B r).
Proof.
  intros s. unfold backup_guarded. destruct (Grows_try af B r s) as [l Hl].
  destruct (backup_try E af B r s) as [s' [b|e]]; cbn [fst] in *; [eauto|].
  destruct (is_backend_exn e); [|eauto].
  assert (H : Grows (do_ distrust (filter (fun x => is_local x = true) (rs_hist s')); ret false)%M)
    by apply _.
  destruct (H s') as [l2 Hl2]. exists (l ++ l2). eapply delta_trans; done.
Qed.
Global Instance Grows_finish B r b : Grows (finish_backup B r b).
Proof. unfold finish_backup. apply _. Qed.
Global Instance Grows_after : Grows (after_backup E O).
Proof.
  unfold after_backup. do 3 (apply Grows_bind; [apply _|intros ?]).
  destruct (list_find _ _) as [[? ?]|]; apply _.
Qed.
Global Instance Grows_backup af B r : Grows (backup E O af B r).
Proof. unfold backup. apply _. Qed.
End Grow.

Lemma with_trust_twice a b r : with_trust a (with_trust b r) = with_trust a r.
Proof. done. Qed.
Lemma with_trust_self r : with_trust (r_trust r) r = r.
Proof. destruct r; done. Qed.

Lemma content_readable E h w c :
  chunk_content E (w_disk w) h = Some c -> exists x, read_existing E (new_chunk (Some h)) w = Ok x.
Proof.
  unfold chunk_content, read_existing. cbn. destruct (d_chunks _ !! h); [|done].
  destruct (decompress E _); [|done]. case_decide; [|done]. eauto.
Qed.

(** ** What leaves revision [u] alone *)
Section Keep.
Context (E : env) (O : orders) (D : bytes -> Prop).
Hypothesis Hlzo : lzo_ok E.
Hypothesis Dinj : forall c1 c2, D c1 -> D c2 -> hash E c1 = hash E c2 -> c1 = c2.
Hypothesis HO : orders_ok O.
Context (d0 : disk) (u : string) (m : gmap Z Hash) (sz : Z) (rv : rev).
Hypothesis Hu : r_uuid rv = u.

(** Allowed versions of the metadata. *)
Definition okv (x : rev) : Prop :=
  if is_local rv then exists t, x = with_trust t rv else x = rv.
Lemma okv_uuid x : okv x -> r_uuid x = u.
Proof. unfold okv. destruct (is_local rv); [intros [t ->]|intros ->]; done. Qed.
Lemma okv_local x : okv x -> is_local x = is_local rv.
Proof. unfold okv. destruct (is_local rv) eqn:H; [intros [t ->]|intros ->]; done. Qed.
Lemma okv_clean x : okv x -> is_clean x = is_clean rv.
Proof. unfold okv. destruct (is_local rv) eqn:H; [intros [t ->]|intros ->]; done. Qed.
Lemma okv_trust t x : okv x -> is_local x = true -> okv (with_trust t x).
Proof.
  intros H Hl. rewrite (okv_local x H) in Hl. unfold okv in *. rewrite Hl in *.
  destruct H as [t' ->]. exists t. apply with_trust_twice.
Qed.

Record Kept (d : disk) : Prop := {
  k_files : rev_files_ok d;
  k_rev : exists x, d_revs d !! u = Some x /\ okv x;
  k_map : is_local rv = true -> d_maps d !! u = Some (MapJson m sz);
  k_chunks : is_local rv = true -> forall id h, m !! id = Some h ->
    exists c, chunk_content E d0 h = Some c /\ chunk_content E d h = Some c /\ D c }.

Definition harmless (e : eff) : Prop :=
  match e with
  | ETmp | ESync | EFlush _ => True
  | EChunkPut h raw => exists x, h = hash E x /\ raw = compress E x /\ D x
  | EChunkDel h => is_local rv = true -> forall id, m !! id <> Some h
  | EMapPut n _ => n <> u
  | ERevPut n x => r_uuid x = n /\ (n = u -> okv x)
  | ERevDel n => n <> u
  end.

Lemma harmless_eff e d : harmless e -> Kept d -> Kept (apply_eff e d).
Proof.
  intros He [H1 (x & Hx & Hok) H3 H4].
  destruct e as [|z|hh raw|hh|n mf|n r|n|]; cbn [harmless] in He.
  - constructor; eauto.
  - constructor; eauto.
  - destruct He as (y & -> & -> & Dy). constructor; cbn; eauto.
    intros Hl id h Hh. destruct (H4 Hl id h Hh) as (c & Hc0 & Hc & Dc). exists c.
    split; [done|]. split; [|done]. unfold chunk_content in *. cbn.
    destruct (decide (hash E y = h)) as [<-|Hne].
    + rewrite lookup_insert, Hlzo, decide_True by done. f_equal. apply Dinj; try done.
      destruct (d_chunks d !! _); [|done]. destruct (decompress E _); [|done].
      case_decide as Hh'; [|done]. congruence.
    + rewrite lookup_insert_ne by done. done.
  - constructor; cbn; eauto. intros Hl id k Hk.
    destruct (H4 Hl id k Hk) as (c & Hc0 & Hc & Dc). exists c. split; [done|]. split; [|done].
    unfold chunk_content in *. cbn. rewrite lookup_delete_ne; [done|].
    intros <-. exact (He Hl id Hk).
  - constructor; cbn; eauto. intros Hl. rewrite lookup_insert_ne by done. auto.
  - destruct He as [Hr Hok']. constructor; cbn; eauto.
    + intros k y. cbn. destruct (decide (n = k)) as [<-|Hne].
      * rewrite lookup_insert. intros ?; simplify_eq. done.
      * rewrite lookup_insert_ne by done. apply H1.
    + destruct (decide (n = u)) as [->|Hne].
      * exists r. rewrite lookup_insert. auto.
      * exists x. rewrite lookup_insert_ne by done. auto.
  - constructor; cbn; eauto.
    + intros k y. cbn. rewrite lookup_delete_Some. intros [_ Hy]. auto.
    + exists x. rewrite lookup_delete_ne by done. auto.
  - constructor; eauto.
Qed.
Lemma harmless_replay l d : Forall harmless l -> Kept d -> Kept (replay l d).
Proof.
  revert d. induction l as [|e l IH]; intros d Hf Hk; [done|].
  apply Forall_cons in Hf as [He Hf]. cbn. apply IH; [done|]. apply harmless_eff; done.
Qed.

(** In-memory history: knows [u], and only in an allowed version. *)
Record KH (h : list rev) : Prop := {
  kh_in : exists x, x ∈ h /\ okv x;
  kh_all : forall x, x ∈ h -> r_uuid x = u -> okv x }.
Lemma KH_scan d : Kept d -> KH (scan_disk O d).
Proof.
  intros [H1 (x & Hx & Hok) _ _]. split.
  - exists x. split; [|done]. apply scan_disk_elem; [done|done|].
    rewrite (okv_uuid x Hok). done.
  - intros y Hy Huy. apply scan_disk_elem in Hy; [|done|done]. rewrite Huy, Hx in Hy.
    simplify_eq. done.
Qed.
Lemma KH_set h r : KH h -> (r_uuid r = u -> okv r) -> KH (hist_set r h).
Proof.
  intros [(x & Hx & Hok) H2] Hr. split.
  - destruct (decide (r_uuid r = u)) as [He|Hne].
    + exists r. split; [|auto]. eapply hist_set_in; [exact Hx|].
      rewrite (okv_uuid x Hok). done.
    + exists x. split; [|done]. apply hist_set_keep; [done|]. rewrite (okv_uuid x Hok). done.
  - intros y Hy Huy. apply hist_set_elem in Hy as [->|[Hy _]]; auto.
Qed.
Lemma KH_del h n : KH h -> n <> u -> KH (hist_del n h).
Proof.
  intros [(x & Hx & Hok) H2] Hn. split.
  - exists x. split; [|done]. apply hist_del_elem. split; [done|].
    rewrite (okv_uuid x Hok). done.
  - intros y [Hy _]%hist_del_elem. auto.
Qed.

Definition J (s : rst) : Prop := Kept (w_disk (rs_w s)) /\ KH (rs_hist s).
Definition JQ {A} (s : rst) (r : res A) : Prop := J s.

Lemma J_w s w h : J s -> w_disk w = w_disk (rs_w s) -> J (MkRst w (rs_hist s) h).
Proof. intros [H1 H2] Hw. split; [|done]. cbn. rewrite Hw. done. Qed.

Lemma HT_J_bind {A B} (m1 : M rst A) (k : A -> M rst B) :
  Grows m1 -> (forall a, Grows (k a)) ->
  HT D J harmless m1 JQ -> (forall a, HT D J harmless (k a) JQ) ->
  HT D J harmless (bind m1 k) JQ.
Proof.
  intros G1 G2 H1 H2. eapply HT_bind; [apply _|apply _|exact H1| |done].
  intros a. apply H2.
Qed.
Ltac jbind := apply HT_J_bind; [apply _|intros; apply _| |].
Lemma HT_J_eff e : harmless e -> HT D J harmless (eff_ e) JQ.
Proof.
  intros He. apply HT_eff. intros s [H1 H2]. split; [done|]. split; [|done]. cbn.
  apply harmless_eff; done.
Qed.
Lemma HT_J_upd r : (r_uuid r = u -> okv r) -> HT D J harmless (upd r) JQ.
Proof.
  intros Hr. apply HT_modify; [done|]. intros s [H1 H2]. split; [done|]. cbn. apply KH_set; done.
Qed.
Lemma HT_J_write r : (r_uuid r = u -> okv r) -> HT D J harmless (write_info r) JQ.
Proof.
  intros Hr. unfold write_info.
  jbind; [apply HT_J_eff; done|]. intros _.
  jbind; [apply HT_J_eff; done|]. intros _.
  apply HT_J_eff. done.
Qed.
Lemma HT_J_if {A} (b : bool) (m1 m2 : M rst A) :
  (b = true -> HT D J harmless m1 JQ) -> (b = false -> HT D J harmless m2 JQ) ->
  HT D J harmless (if b then m1 else m2) JQ.
Proof. destruct b; auto. Qed.
Lemma HT_J_remove f r : r_uuid r <> u -> HT D J harmless (rev_remove f r) JQ.
Proof.
  intros Hr. unfold rev_remove. apply HT_J_if; intros Hb.
  - jbind; [apply HT_J_upd; done|]. intros _. apply HT_J_write. done.
  - apply HT_get. intros s0 H0. eapply HT_weaken with (I := J); [|intros s Hs; cbn in Hs; subst s; done|done|done].
    apply HT_J_bind; [apply _|intros; apply Grows_modify; done| |].
    + apply HT_J_if; intros _; [apply HT_J_eff; done|].
      apply HT_ret. done.
    + intros _. apply HT_modify; [done|]. intros s [H1 H2]. split; [done|].
      cbn. apply KH_del; done.
Qed.
Lemma HT_J_distrust (l : list rev) :
  (forall x, x ∈ l -> r_uuid x = u -> okv x) ->
  HT D J harmless (distrust l) JQ.
Proof.
  intros Hl. unfold distrust. apply HT_mfor; [apply _| |done]. intros x Hx.
  hbind; [apply (HT_assert D J harmless _ _ (fun s r => J s /\ (is_ok r = true -> is_local x = true)))| |].
  - intros s Hs Hb. done.
  - intros s Hs Hb. done.
  - intros []. cbn. apply HT_at. intros s0 [HJ0 Hloc]. specialize (Hloc eq_refl).
    assert (Hok : r_uuid (with_trust DISTRUSTED x) = u -> okv (with_trust DISTRUSTED x)).
    { intros Hx'. apply okv_trust; [|done]. apply Hl; done. }
    eapply HT_weaken with (I := J) (Q := JQ); [|intros s Hs; cbn in Hs; subst s| |].
    + jbind; [apply HT_J_upd; done|]. intros _. apply HT_J_write. done.
    + done.
    + done.
    + intros s []; done.
  - intros s e [? _]. done.
Qed.

Lemma harmless_safe n l : n <> u -> safe_log E n l -> (forall x, EFlush x ∈ l -> D x) ->
  Forall harmless l.
Proof.
  intros Hn Hs HD. apply Forall_forall. intros e He. specialize (Hs e He).
  destruct e; cbn; try done.
  - destruct Hs as (x & -> & -> & Hx). eauto.
  - congruence.
Qed.
Lemma HT_J_file {A} n wr (p : prog A) : n <> u -> HT D J harmless (with_file E n wr p) JQ.
Proof.
  intros Hn s l [H1 H2] Hl HD.
  assert (Hf : Forall harmless l).
  { unfold with_file in Hl. destruct (file_open _ _ _ _ _).
    2:{ pose proof (delta_unique _ _ _ _ Hl (delta_nil s s eq_refl)) as ->. done. }
    set (w := if wr && contains_distrusted (rs_hist s) then _ else _) in *.
    assert (Hw : w_log w = w_log (rs_w s) /\ w_disk w = w_disk (rs_w s))
      by (unfold w; destruct (wr && contains_distrusted (rs_hist s)); done).
    destruct Hw as [Hw1 Hw2].
    destruct (session_delta E n (negb wr) wr p w) as (l' & G1 & G2 & G3).
    destruct (session E n (negb wr) wr p w) as [w2 r]. cbn [fst] in *.
    assert (Hd : delta s (set_w w2 s) l') by (apply delta_world; congruence).
    pose proof (delta_unique _ _ _ _ Hl Hd) as ->. eapply harmless_safe; done. }
  split; [done|]. split.
  - destruct Hl as [_ ->]. apply harmless_replay; done.
  - assert (Hh : rs_hist (with_file E n wr p s).1 = rs_hist s).
    { unfold with_file. destruct (file_open _ _ _ _ _); [|done].
      destruct (session _ _ _ _ _ _). done. }
    rewrite Hh. done.
Qed.
Lemma HT_J_pure {A} (m1 : M rst A) :
  (forall s, w_disk (rs_w (m1 s).1) = w_disk (rs_w s) /\
     w_log (rs_w (m1 s).1) = w_log (rs_w s) /\ rs_hist (m1 s).1 = rs_hist s) ->
  HT D J harmless m1 JQ.
Proof.
  intros H. apply HT_pure. intros s [H1 H2]. destruct (H s) as (G1 & G2 & G3).
  split; [done|]. split; [done|]. split; [rewrite G1|rewrite G3]; done.
Qed.
Lemma HT_J_copy n p : n <> u -> HT D J harmless (copy_parent n p) JQ.
Proof.
  intros Hn. destruct p as [p|]; cbn [copy_parent]; [|apply HT_ret; done].
  intros s l Hs. case_bool_decide.
  2:{ cbn [fst snd]. intros Hl _.
      pose proof (delta_unique _ _ _ _ Hl (delta_nil s s eq_refl)) as ->. done. }
  assert (Ht : HT D J harmless (do_ eff_ (EMapPut n MapGarbage);
         let* s := get in
         match d_maps (w_disk (rs_w s)) !! r_uuid p with
         | None => raise FileNotFound
         | Some m => eff_ (EMapPut n m)
         end)%M JQ).
  { assert (Hg : forall s : rst, Grows (match d_maps (w_disk (rs_w s)) !! r_uuid p with
         | None => raise FileNotFound
         | Some m => eff_ (EMapPut n m)
         end)) by (intros s2; destruct (d_maps (w_disk (rs_w s2)) !! r_uuid p); apply _).
    jbind; [apply HT_J_eff; done|]. intros _. jbind; [apply HT_J_pure; done|].
    intros s1. destruct (d_maps (w_disk (rs_w s1)) !! r_uuid p); [apply HT_J_eff; done|]. apply HT_raise. done. }
  apply Ht. done.
Qed.
Lemma HT_J_body af B r : r_uuid r <> u -> HT D J harmless (backup_body E af B r) JQ.
Proof.
  intros Hr. unfold backup_body.
  jbind. { apply HT_J_pure. intros s. unfold ceph_parent. destruct af; done. }
  intros parent.
  jbind; [apply HT_J_copy; done|]. intros _.
  jbind; [apply HT_J_file; done|]. intros _.
  jbind; [apply HT_J_pure; done|]. intros s.
  destruct (file_open _ _ _ _ _); [|apply HT_raise; done].
  jbind; [apply HT_J_upd; done|]. intros _.
  jbind; [apply HT_J_pure; done|]. intros a0. apply HT_J_file. done.
Qed.
Lemma HT_J_try af B r : r_uuid r <> u -> HT D J harmless (backup_try E af B r) JQ.
Proof.
  intros Hr s l Hs Hl HD. unfold backup_try in *.
  destruct (bk_snap B) as [c|e].
  2:{ pose proof (delta_unique _ _ _ _ Hl (delta_nil s s eq_refl)) as ->. done. }
  set (s0 := set_snaps _ s) in *.
  assert (Hs0 : J s0) by (apply J_w; done).
  destruct (Grows_body E af B r s0) as [l1 Hl1].
  pose proof (HT_J_body af B r Hr s0 l1 Hs0 Hl1) as Hb.
  destruct (backup_body E af B r s0) as [s1 r1]. cbn [fst snd] in *.
  assert (Hd : rs_w (delete_old_snapshots af B s1).1 = rs_w s1 /\
               rs_hist (delete_old_snapshots af B s1).1 = rs_hist s1).
  { unfold delete_old_snapshots. destruct (bk_ls B); done. }
  destruct (delete_old_snapshots af B s1) as [s2 r2]. cbn [fst snd] in *.
  destruct Hd as [Hd1 Hd2].
  assert (Hl1' : delta s s2 l1). { destruct Hl1 as [G1 G2]. split; rewrite Hd1; done. }
  pose proof (delta_unique _ _ _ _ Hl Hl1') as ->.
  destruct (Hb HD) as [Hf [HJ1 HJ2]]. split; [done|]. split; [rewrite Hd1|rewrite Hd2]; done.
Qed.

Lemma union_maps_ok revs s used x mx szx :
  (union_maps revs s).2 = Ok used -> x ∈ revs ->
  d_maps (w_disk (rs_w s)) !! r_uuid x = Some (MapJson mx szx) ->
  map_hashes mx ⊆ used.
Proof.
  revert used. induction revs as [|y revs IH]; intros used Hu' Hx Hm; [inversion Hx|].
  cbn [union_maps] in Hu'. unfold bind, open_map in Hu'.
  destruct (file_open (r_uuid y) true false false (rs_w s)) as [f|e] eqn:Ho; [|done].
  assert (Hs : (union_maps revs s).1 = s).
  { clear. induction revs as [|y revs IH]; [done|]. cbn [union_maps]. unfold bind, open_map.
    destruct (file_open _ _ _ _ _); [|done]. destruct (union_maps revs s) as [s' [?|?]]; done. }
  destruct (union_maps revs s) as [s' [used'|e]] eqn:Hun; [|done]. cbn in Hs. subst s'.
  cbn in Hu'. simplify_eq. apply elem_of_cons in Hx as [->|Hx].
  - unfold file_open in Ho. rewrite Hm in Ho. simplify_eq. cbn. set_solver.
  - specialize (IH used' eq_refl Hx Hm). set_solver.
Qed.
Lemma union_maps_pure revs s : (union_maps revs s).1 = s.
Proof.
  induction revs as [|y revs IH]; [done|]. cbn [union_maps]. unfold bind, open_map.
  destruct (file_open _ _ _ _ _); [|done]. destruct (union_maps revs s) as [s' [?|?]]; done.
Qed.
Lemma open_map_pure r s : (open_map r s).1 = s.
Proof. unfold open_map. destruct (file_open _ _ _ _ _); done. Qed.

Lemma map_hashes_elem (mm : gmap Z Hash) h : h ∈ map_hashes mm <-> exists id, mm !! id = Some h.
Proof.
  unfold map_hashes. rewrite elem_of_list_to_set, elem_of_list_fmap. split.
  - intros ([id h'] & -> & H%elem_of_map_to_list). eauto.
  - intros (id & H). exists (id, h). split; [done|]. apply elem_of_map_to_list. done.
Qed.

Lemma HT_J_gc : HT D J harmless gc JQ.
Proof.
  unfold gc. intros s l Hs Hl HD. unfold bind, get in Hl |- *. cbn [fst snd] in *.
  pose proof (union_maps_pure (get_history false true (rs_hist s)) s) as Hp.
  destruct (union_maps (get_history false true (rs_hist s)) s) as [s' [used|e]] eqn:Hun.
  2:{ cbn in Hp. subst s'. cbn [fst] in *.
      pose proof (delta_unique _ _ _ _ Hl (delta_nil s s eq_refl)) as ->. done. }
  cbn in Hp. subst s'.
  assert (Ht : HT D (fun x => x = s) harmless
     (do_ modify (fun s => set_w (store_purge used (rs_w s)) s); eff_ ETmp)%M JQ).
  { eapply HT_bind with (Q := JQ); [apply _|intros; apply _| |intros ?; apply HT_J_eff; done|done].
    intros s0 l0 -> Hl0 HD0.
    destruct (purge_delta used (rs_w s)) as (l' & G1 & G2 & G3 & _).
    assert (Hd : delta s (modify (fun s => set_w (store_purge used (rs_w s)) s) s).1 l') by done.
    pose proof (delta_unique _ _ _ _ Hl0 Hd) as ->.
    assert (Hf : Forall harmless l').
    { eapply Forall_impl; [exact G3|]. intros e (h & -> & Hh). cbn. intros Hloc id Hid.
      apply Hh. destruct Hs as [[K1 K2 K3 K4] [(x & Hx & Hok) K5]].
      eapply (union_maps_ok _ s used x m sz); [rewrite Hun; done| | |].
      - apply get_history_elem. split; [done|]. split; [done|]. intros _.
        rewrite (okv_local x Hok). done.
      - rewrite (okv_uuid x Hok). auto.
      - apply map_hashes_elem. eauto. }
    split; [done|]. destruct Hs as [HK HH]. split; [|done].
    cbn. rewrite G2. apply harmless_replay; done. }
  apply (Ht s l eq_refl); done.
Qed.

Lemma HT_J_vloop l0 :
  HT D J harmless (verify_loop E l0)
    (fun s r => J s /\ (is_local rv = true -> (forall h, h ∈ l0 -> exists id, m !! id = Some h) ->
       r = Ok false)).
Proof.
  induction l0 as [|h l0 IH]; cbn [verify_loop]; [apply HT_ret; done|].
  intros s l Hs. destruct (read_existing E (new_chunk (Some h)) (rs_w s)) as [x|e] eqn:Hr.
  - intros Hl HD. destruct (IH s l Hs Hl HD) as [Hf [HJ Hok]]. split; [done|]. split; [done|].
    intros Hloc Hin. apply Hok; [done|]. intros h' Hh'. apply Hin. right. done.
  - assert (Hnot : is_local rv = true -> forall id, m !! id <> Some h).
    { intros Hloc id Hid. destruct Hs as [[_ _ _ K4] _].
      destruct (K4 Hloc id h Hid) as (c & _ & Hc & _).
      destruct (content_readable E h (rs_w s) c Hc) as [x Hx]. congruence. }
    assert (Ht : HT D J harmless (do_ (if bool_decide (d_chunks (w_disk (rs_w s)) !! h = None)
                then ret tt else eff_ (EChunkDel h)); ret true)%M JQ).
    { jbind; [|intros; apply HT_ret; done]. apply HT_J_if; intros _; [apply HT_ret; done|].
      apply HT_J_eff. done. }
    intros Hl HD. destruct (Ht s l Hs Hl HD) as [Hf HJ]. split; [done|]. split; [done|].
    intros Hloc Hin. destruct (Hin h ltac:(left)) as [id Hid]. exfalso. eapply Hnot; done.
Qed.

Lemma HT_J_verify x :
  (r_uuid x = u -> is_local x = true /\ okv x) -> HT D J harmless (verify E O x) JQ.
Proof.
  intros Hlo. assert (Hox : r_uuid x = u -> okv x) by tauto. unfold verify. apply HT_get. intros s0 HJ0.
  eapply HT_bind with (Q := fun s r => s = s0).
  { apply _. }
  { grows. }
  { apply HT_pure. intros s ->. rewrite union_maps_pure. done. }
  2:{ intros s e ->. done. }
  intros verified. cbn.
  eapply HT_bind with (Q := fun s r => s = s0 /\
    (forall mx, r = Ok mx -> exists z, d_maps (w_disk (rs_w s0)) !! r_uuid x = Some (MapJson mx z))).
  { apply _. }
  { grows. }
  { apply HT_pure. intros s ->. rewrite open_map_pure. split; [done|]. split; [done|].
    split; [done|]. intros mx. unfold open_map.
    destruct (file_open _ _ _ _ _) as [f|e] eqn:Ho; [|done]. cbn.
    unfold file_open in Ho. destruct (d_maps _ !! _) as [[mm z|]|]; try done.
    simplify_eq. cbn. intros ?; simplify_eq. eauto. }
  2:{ intros s e [-> _]. done. }
  intros mx. cbn.
  set (hashes := map_hashes mx ∖ verified).
  eapply HT_bind with (Q := fun s r => J s /\ (r_uuid x = u -> r = Ok false)).
  { apply _. }
  { grows. }
  { apply HT_at. intros s [-> Hmx]. destruct (Hmx mx eq_refl) as [z Hz].
    eapply HT_weaken; [apply (HT_J_vloop (o_set O hashes))|intros ? ->; done|done|].
    intros s r [HJ Hall]. split; [done|]. intros Hxu. destruct (Hlo Hxu) as [Hlx Hox'].
    pose proof (okv_local x Hox') as Hloc. rewrite Hlx in Hloc. symmetry in Hloc.
    apply Hall; [done|]. intros h Hh. rewrite (proj2 HO) in Hh.
    apply elem_of_elements in Hh. subst hashes. apply elem_of_difference in Hh as [Hh _].
    apply map_hashes_elem in Hh. destruct HJ0 as [[_ _ K3 _] _].
    rewrite Hxu, (K3 Hloc) in Hz. simplify_eq. done. }
  2:{ intros s e [HJ _]. done. }
  intros errors. cbn.
  apply HT_at. intros s1 [HJ1 Herr].
  eapply HT_weaken with (I := J) (Q := JQ); [|intros ? ->; done|done|done].
  apply HT_J_bind; [apply _|intros; apply _| |intros; apply HT_J_gc].
  destruct errors.
  - apply HT_J_remove. intros Hxu. specialize (Herr Hxu). done.
  - jbind; [apply HT_J_pure; intros s; unfold massert; destruct (is_local x); done|]. intros _.
    assert (Hok : r_uuid (with_trust VERIFIED x) = u -> okv (with_trust VERIFIED x)).
    { intros Hxu. apply okv_trust; apply Hlo; done. }
    jbind; [apply HT_J_upd; done|]. intros _. apply HT_J_write. done.
Qed.

Lemma HT_J_after : HT D J harmless (after_backup E O) JQ.
Proof.
  unfold after_backup.
  apply HT_J_bind; [apply _| |apply HT_J_eff; done|].
  { intros ?. do 2 (apply Grows_bind; [apply _|intros ?]).
    destruct (list_find _ _) as [[? ?]|]; apply _. }
  intros _. apply HT_J_bind; [apply _| | |].
  { intros ?. apply Grows_bind; [apply _|intros ?].
    destruct (list_find _ _) as [[? ?]|]; apply _. }
  { apply HT_modify; [done|]. intros s [H1 H2]. split; [done|]. cbn. apply KH_scan. done. }
  intros _. apply HT_get. intros s0 HJ0.
  eapply HT_weaken with (I := J) (Q := JQ); [|intros ? ->; done|done|done].
  destruct (list_find _ _) as [[i x]|] eqn:Hfind; [|apply HT_ret; done].
  apply list_find_Some in Hfind as [Hin _].
  apply elem_of_list_lookup_2, elem_of_reverse, get_history_elem in Hin as (Hin & _ & Hloc).
  apply HT_J_verify. intros Hxu. split; [auto|]. apply (kh_all _ (proj2 HJ0)); done.
Qed.
Lemma HT_J_finish B r b : r_uuid r <> u -> HT D J harmless (finish_backup B r b) JQ.
Proof.
  intros Hr. unfold finish_backup. apply HT_J_if; intros _; [|apply HT_J_remove; done].
  jbind; [apply HT_J_upd; done|]. intros _.
  jbind; [apply HT_J_write; done|]. intros _. apply HT_J_eff. done.
Qed.
Lemma HT_J_guarded af B r : r_uuid r <> u -> HT D J harmless (backup_guarded E af B r) JQ.
Proof.
  intros Hr s l Hs Hl HD. destruct (Grows_try E af B r s) as [l1 Hl1].
  pose proof (HT_J_try af B r Hr s l1 Hs Hl1) as Ht. unfold backup_guarded in *.
  destruct (backup_try E af B r s) as [s' [b|e]]; cbn [fst snd] in *.
  { pose proof (delta_unique _ _ _ _ Hl Hl1) as ->. apply Ht. done. }
  destruct (is_backend_exn e).
  2:{ pose proof (delta_unique _ _ _ _ Hl Hl1) as ->. apply Ht. done. }
  assert (H : Grows (do_ distrust (filter (fun x => is_local x = true) (rs_hist s')); ret false)%M)
    by apply _.
  destruct (H s') as [l2 Hl2].
  pose proof (delta_unique _ _ _ _ Hl (delta_trans _ _ _ _ _ Hl1 Hl2)) as ->.
  destruct Ht as [Hf1 HJ1]. { intros x Hx. apply HD, elem_of_app. auto. }
  assert (Hd : HT D (fun s => s = s') harmless
     (do_ distrust (filter (fun x => is_local x = true) (rs_hist s')); ret false)%M JQ).
  { eapply HT_weaken with (I := J) (Q := JQ); [|intros ? ->; done|done|done].
    jbind; [|intros; apply HT_ret; done]. apply HT_J_distrust.
    intros x Hx Hxu. apply elem_of_list_filter in Hx as [_ Hx].
    apply (kh_all _ (proj2 HJ1)); done. }
  destruct (Hd s' l2 eq_refl Hl2) as [Hf2 HJ2]. { intros x Hx. apply HD, elem_of_app. auto. }
  split; [apply Forall_app; done|done].
Qed.
(** The whole backup of another revision. *)
Lemma HT_J_backup af B r : r_uuid r <> u -> HT D J harmless (backup E O af B r) JQ.
Proof.
  intros Hr. unfold backup.
  jbind; [apply HT_J_eff; done|]. intros _.
  jbind; [apply HT_J_eff; done|]. intros _.
  apply HT_J_if; intros _; [apply HT_raise; done|].
  jbind; [apply HT_J_guarded; done|]. intros b.
  jbind; [apply HT_J_finish; done|]. intros _.
  jbind; [apply HT_J_after|]. intros _. apply HT_ret. done.
Qed.
End Keep.

(** A killed run stops after a prefix of the log. *)
Lemma killed_prefix s s' l d :
  delta s s' l -> killed s s' d -> exists k, d = replay (take k l) (w_disk (rs_w s)).
Proof.
  intros [H1 H2] (l' & k & H3 & ->). rewrite H1 in H3. apply app_inv_head in H3. subst l'.
  eauto.
Qed.
Lemma Forall_sub {A} (P : A -> Prop) (k : nat) (l : list A) : Forall P l -> Forall P (take k l).
Proof. apply Forall_take. Qed.

Lemma chunk_content_stored E d h c : chunk_content E d h = Some c -> stored E d c /\ hash E c = h.
Proof.
  unfold chunk_content. destruct (d_chunks d !! h) as [raw|] eqn:Hr; [|done].
  destruct (decompress E raw) eqn:Hd; [|done]. case_decide; [|done].
  intros ?; simplify_eq. split; [|done]. exists (hash E c), raw. done.
Qed.

Lemma kept_image E D d0 u m sz rv d c :
  is_local rv = true ->
  Kept E D d0 u m sz rv d -> d_maps d0 !! u = Some (MapJson m sz) ->
  image_is E d0 u c -> image_is E d u c.
Proof.
  intros Hl HK Hm (m' & Hm' & Hb). rewrite Hm in Hm'. simplify_eq.
  exists m'. split; [apply (k_map _ _ _ _ _ _ _ _ HK Hl)|].
  intros i b Hi. destruct (Hb i b Hi) as (h & x & H1 & H2 & H3). exists h, x.
  split; [done|]. split; [|done].
  destruct (k_chunks _ _ _ _ _ _ _ _ HK Hl _ _ H1) as (c' & G1 & G2 & _). congruence.
Qed.
Lemma kept_readable E D d0 u m sz rv d :
  is_local rv = true -> Kept E D d0 u m sz rv d -> readable E d u.
Proof.
  intros Hl HK. exists m, sz. split; [apply (k_map _ _ _ _ _ _ _ _ HK Hl)|].
  intros id h Hh. destruct (k_chunks _ _ _ _ _ _ _ _ HK Hl id h Hh) as (c & _ & Hc & _). eauto.
Qed.
Lemma readable_complete E d u : readable E d u -> map_complete d u.
Proof.
  intros (m & sz & Hm & Hc). unfold map_complete. rewrite Hm. intros id h Hh.
  destruct (Hc id h Hh) as [c Hcc]. unfold chunk_content in Hcc.
  destruct (d_chunks d !! h); [eauto|done].
Qed.

(** The disk after some of the effects, in any order. *)
Definition some_effects (s s' : rst) (d : disk) : Prop :=
  exists l l', w_log (rs_w s') = w_log (rs_w s) ++ l /\
    (forall e, e ∈ l' -> e ∈ l) /\ d = replay l' (w_disk (rs_w s)).
Lemma killed_some s s' d : killed s s' d -> some_effects s s' d.
Proof.
  intros (l & k & Hl & ->). exists l, (take k l). split; [done|]. split; [|done].
  intros e He. rewrite <- (take_drop k l). apply elem_of_app. auto.
Qed.
Lemma power_some s s' pre d : power_loss s s' pre d -> some_effects s s' d.
Proof.
  intros (l & k & rest & kept & Hl & Htk & _ & _ & Hsub & ->). exists l, (pre ++ kept).
  split; [done|]. split; [|done]. intros e He. rewrite <- (take_drop k l), Htk.
  apply elem_of_app. left. apply elem_of_app in He as [He|He]; apply elem_of_app; [auto|].
  right. eapply elem_of_submseteq; [exact He|]. apply sublist_submseteq. done.
Qed.

(** C15: other revisions. *)
Lemma Forall_sub_elem {A} (P : A -> Prop) (l l' : list A) :
  (forall e, e ∈ l' -> e ∈ l) -> Forall P l -> Forall P l'.
Proof. rewrite !Forall_forall. auto. Qed.
Lemma backup_keeps_others_gen E O af B r s s' res d u rv :
  lzo_ok E -> orders_ok O -> rev_files_ok (w_disk (rs_w s)) -> scanned O s ->
  backup E O af B r s = (s', res) ->
  no_collision E (w_disk (rs_w s)) (w_log (rs_w s')) ->
  some_effects s s' d ->
  u <> r_uuid r -> d_revs (w_disk (rs_w s)) !! u = Some rv ->
  (is_local rv = false -> d_revs d !! u = Some rv) /\
  (is_local rv = true -> readable E (w_disk (rs_w s)) u ->
     readable E d u /\ (exists t, d_revs d !! u = Some (with_trust t rv)) /\
     (forall c, image_is E (w_disk (rs_w s)) u c -> image_is E d u c)).
Proof.
  intros Hlzo HO Hfiles Hsc Hrun Hnc Hk Hu Hrv.
  set (d0 := w_disk (rs_w s)) in *.
  set (D := fun c => stored E d0 c \/ EFlush c ∈ w_log (rs_w s')).
  destruct (Grows_backup E O af B r s) as [l Hl]. rewrite Hrun in Hl. cbn [fst] in Hl.
  destruct Hk as (l0 & l' & Hl0 & Hsub & ->).
  assert (l0 = l) as ->. { destruct Hl as [Hl _]. rewrite Hl in Hl0. apply app_inv_head in Hl0. done. }
  assert (HD : forall x, EFlush x ∈ l -> D x).
  { intros x Hx. right. destruct Hl as [-> _]. apply elem_of_app. auto. }
  assert (Hrvu : r_uuid rv = u) by (apply Hfiles; done).
  assert (Hmain : forall m sz,
    (is_local rv = true -> d_maps d0 !! u = Some (MapJson m sz)) ->
    (is_local rv = true -> forall id h, m !! id = Some h -> is_Some (chunk_content E d0 h)) ->
    Kept E D d0 u m sz rv (replay l' d0)).
  { intros m sz Hm Hc.
    assert (HK : Kept E D d0 u m sz rv d0).
    { constructor; [done| |done|].
      - exists rv. split; [done|]. unfold okv. destruct (is_local rv); [|done].
        exists (r_trust rv). rewrite with_trust_self. done.
      - intros Hloc id h Hh. destruct (Hc Hloc id h Hh) as [c Hcc]. exists c.
        split; [done|]. split; [done|]. left. apply (chunk_content_stored E d0 h c Hcc). }
    eapply harmless_replay; try done. apply Forall_sub_elem with l; [exact Hsub|].
    assert (HJ : J E D d0 u m sz rv s).
    { split; [done|]. rewrite Hsc. eapply KH_scan; done. }
    pose proof (HT_J_backup E O D Hlzo Hnc HO d0 u m sz rv Hrvu af B r ltac:(congruence) s l HJ) as H.
    rewrite Hrun in H. apply H; done. }
  split.
  - intros Hloc. destruct (Hmain ∅ 0%Z) as [_ (x & Hx & Hok) _ _]; [congruence..|].
    unfold okv in Hok. rewrite Hloc in Hok. subst x. exact Hx.
  - intros Hloc (m & sz & Hm & Hc).
    specialize (Hmain m sz ltac:(done) ltac:(done)).
    split; [eapply kept_readable; done|]. split.
    + destruct (k_rev _ _ _ _ _ _ _ _ Hmain) as (x & Hx & Hok). unfold okv in Hok.
      rewrite Hloc in Hok. destruct Hok as [t ->]. eauto.
    + intros c. eapply kept_image; done.
Qed.
Lemma backup_keeps_others E O af B r s s' res d u rv :
  lzo_ok E -> orders_ok O -> rev_files_ok (w_disk (rs_w s)) -> scanned O s ->
  backup E O af B r s = (s', res) ->
  no_collision E (w_disk (rs_w s)) (w_log (rs_w s')) ->
  killed s s' d ->
  u <> r_uuid r -> d_revs (w_disk (rs_w s)) !! u = Some rv ->
  (is_local rv = false -> d_revs d !! u = Some rv) /\
  (is_local rv = true -> readable E (w_disk (rs_w s)) u ->
     readable E d u /\ (exists t, d_revs d !! u = Some (with_trust t rv)) /\
     (forall c, image_is E (w_disk (rs_w s)) u c -> image_is E d u c)).
Proof.
  intros H1 H2 H3 H4 H5 H6 H7 H8 H9. eapply backup_keeps_others_gen; try done.
  apply killed_some. done.
Qed.
