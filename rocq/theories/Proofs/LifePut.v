(** What a backup puts into the store, at whatever point it stops. *)
From Verif Require Export Proofs.LifeMeta Proofs.BackupThms.

Lemma replay_put h l d :
  (forall e, e ∈ l -> match e with EChunkDel _ => False | _ => True end) ->
  (exists raw, EChunkPut h raw ∈ l) ->
  exists raw, EChunkPut h raw ∈ l /\ d_chunks (replay l d) !! h = Some raw.
Proof.
  revert d. induction l as [|e l IH] using rev_ind; intros d Hd [raw Hin]; [inversion Hin|].
  rewrite replay_app. cbn [replay fold_left].
  assert (Hd' : forall e0, e0 ∈ l -> match e0 with EChunkDel _ => False | _ => True end).
  { intros e0 He0. apply Hd. apply elem_of_app. auto. }
  assert (Hold : (exists raw, EChunkPut h raw ∈ l) ->
     exists raw, EChunkPut h raw ∈ l ++ [e] /\ d_chunks (replay l d) !! h = Some raw).
  { intros Hx. destruct (IH d Hd' Hx) as (r' & H1 & H2). exists r'. split; [|done]. apply elem_of_app. auto. }
  specialize (Hd e ltac:(apply elem_of_app; right; left)).
  change (fold_left _ [e] ?x) with (apply_eff e x).
  apply elem_of_app in Hin as [Hin|Hin].
  - destruct (Hold ltac:(eauto)) as (r' & H1 & H2).
    destruct e as [| |h' raw'|h'| | | |]; try (exists r'; done).
    cbn. destruct (decide (h' = h)) as [->|Hne].
    + exists raw'. rewrite lookup_insert. split; [|done]. apply elem_of_app. right. left.
    + exists r'. rewrite lookup_insert_ne by done. done.
  - apply elem_of_list_singleton in Hin as <-. exists raw. cbn. rewrite lookup_insert.
    split; [|done]. apply elem_of_app. right. left.
Qed.

Section Put.
Context (E : env) (O : orders) (D : bytes -> Prop).
Hypothesis HCS : (0 < CS E)%Z.
Hypothesis Hlzo : lzo_ok E.
Hypothesis Dinj : forall c1 c2, D c1 -> D c2 -> hash E c1 = hash E c2 -> c1 = c2.

(** Effects that keep the store in order; [who] owns the only map written. *)
Definition putok (who : option string) (e : eff) : Prop :=
  match e with
  | EChunkPut h raw => exists x, h = hash E x /\ raw = compress E x /\ D x /\ (zlen x <= CS E)%Z
  | EMapPut n _ => who = Some n
  | ERevPut n x => r_uuid x = n
  | _ => True
  end.
Record store_ok (N : string -> Prop) (d : disk) : Prop := {
  so_files : rev_files_ok d;
  so_good : good_store E d;
  so_D : forall c, stored E d c -> D c;
  so_maps : forall n m, d_maps d !! n = Some m -> N n }.
Lemma putok_eff who (N : string -> Prop) e d :
  putok who e -> (forall n, who = Some n -> N n) -> store_ok N d -> store_ok N (apply_eff e d).
Proof.
  intros He HN [H1 H2 H3 H4]. destruct e as [|z|hh raw|hh|n mf|n r|n|]; cbn [putok] in He; try done.
  - destruct He as (x & -> & -> & Dx & Hx). constructor; try done; cbn.
    + intros h raw. cbn. destruct (decide (hash E x = h)) as [<-|Hne].
      * rewrite lookup_insert. intros [= <-]. exists x. done.
      * rewrite lookup_insert_ne by done. apply H2.
    + intros c (h & raw & Hh & Hc). cbn in Hh. destruct (decide (hash E x = h)) as [<-|Hne].
      * rewrite lookup_insert in Hh. injection Hh as <-. rewrite Hlzo in Hc. congruence.
      * rewrite lookup_insert_ne in Hh by done. apply H3. exists h, raw. done.
  - constructor; try done; cbn.
    + intros h raw. cbn. rewrite lookup_delete_Some. intros [_ Hh]. apply H2. done.
    + intros c (h & raw & Hh & Hc). cbn in Hh. rewrite lookup_delete_Some in Hh. destruct Hh.
      apply H3. exists h, raw. done.
  - constructor; try done; cbn. intros k m. destruct (decide (n = k)) as [<-|Hne]; [eauto|].
    rewrite lookup_insert_ne by done. apply H4.
  - constructor; try done. intros k y. cbn. destruct (decide (n = k)) as [<-|Hne].
    + rewrite lookup_insert. intros [= <-]. done.
    + rewrite lookup_insert_ne by done. apply H1.
  - constructor; try done. intros k y. cbn. rewrite lookup_delete_Some. intros [_ ?]. auto.
Qed.
Lemma putok_replay who (N : string -> Prop) l d :
  Forall (putok who) l -> (forall n, who = Some n -> N n) -> store_ok N d -> store_ok N (replay l d).
Proof.
  intros Hf HN. revert d. induction Hf as [|e l He _ IH]; intros d Hd; [done|].
  rewrite replay_cons. apply IH. eapply putok_eff; done.
Qed.

Section Quiet.
Context (who : option string).
Notation T := (fun _ : rst => True).
Notation TQ := (fun (_ : rst) (_ : res _) => True).
Lemma HT_P_bind {A B} (m1 : M rst A) (k : A -> M rst B) :
  Grows m1 -> (forall a, Grows (k a)) ->
  HT D T (putok who) m1 TQ -> (forall a, HT D T (putok who) (k a) TQ) -> HT D T (putok who) (bind m1 k) TQ.
Proof. intros G1 G2 H1 H2. eapply HT_bind; [apply _|apply _|exact H1|intros a; apply H2|done]. Qed.
Ltac pbind := apply HT_P_bind; [apply _|intros; apply _| |].
Lemma HT_P_pure {A} (m1 : M rst A) :
  (forall s, w_disk (rs_w (m1 s).1) = w_disk (rs_w s) /\ w_log (rs_w (m1 s).1) = w_log (rs_w s)) ->
  HT D T (putok who) m1 TQ.
Proof. intros H. apply HT_pure. intros s _. destruct (H s). done. Qed.
Lemma HT_P_eff e : putok who e -> HT D T (putok who) (eff_ e) TQ.
Proof. intros He. apply HT_eff. done. Qed.
Lemma HT_P_upd r : HT D T (putok who) (upd r) TQ.
Proof. apply HT_P_pure. done. Qed.
Lemma HT_P_write r : HT D T (putok who) (write_info r) TQ.
Proof.
  unfold write_info. pbind; [apply HT_P_eff; done|]. intros _. pbind; [apply HT_P_eff; done|]. intros _.
  apply HT_P_eff. done.
Qed.
Lemma HT_P_if {A} (b : bool) (m1 m2 : M rst A) :
  HT D T (putok who) m1 TQ -> HT D T (putok who) m2 TQ -> HT D T (putok who) (if b then m1 else m2) TQ.
Proof. destruct b; auto. Qed.
Lemma HT_P_ret {A} (a : A) : HT D T (putok who) (ret a) TQ.
Proof. apply HT_ret. done. Qed.
Lemma HT_P_remove f r : HT D T (putok who) (rev_remove f r) TQ.
Proof.
  unfold rev_remove. apply HT_P_if.
  - pbind; [apply HT_P_upd|]. intros _. apply HT_P_write.
  - apply HT_P_bind; [apply _| |apply HT_P_pure; done|].
    + intros s. apply Grows_bind; [apply _|]. intros _. apply Grows_modify. done.
    + intros s. apply HT_P_bind; [apply _|intros; apply Grows_modify; done| |].
      * apply HT_P_if; [apply HT_P_eff; done|apply HT_P_ret].
      * intros _. apply HT_P_pure. done.
Qed.
Lemma HT_P_mfor {B} (l : list B) (body : B -> M rst unit) {Hb : forall x, Grows (body x)} :
  (forall x, HT D T (putok who) (body x) TQ) -> HT D T (putok who) (mfor l body) TQ.
Proof.
  intros H. apply HT_mfor; [apply _| |done]. intros x Hx.
  eapply HT_weaken; [apply H|done|done|]. intros s []; done.
Qed.
Lemma HT_P_distrust l : HT D T (putok who) (distrust l) TQ.
Proof.
  unfold distrust. apply HT_P_mfor; [intros; apply _|]. intros x.
  pbind; [apply HT_P_pure; intros s; unfold massert; destruct (is_local x); done|]. intros _.
  pbind; [apply HT_P_upd|]. intros _. apply HT_P_write.
Qed.
Lemma HT_P_gc : HT D T (putok who) gc TQ.
Proof.
  unfold gc. pbind; [apply HT_P_pure; done|]. intros s.
  pbind; [apply HT_P_pure; intros s'; rewrite union_maps_pure; done|]. intros used.
  pbind; [|intros; apply HT_P_eff; done].
  intros s0 l _ Hl _.
  destruct (purge_delta used (rs_w s0)) as (l' & G1 & G2 & G3 & _).
  assert (Hd : delta s0 (modify (fun s => set_w (store_purge used (rs_w s)) s) s0).1 l') by done.
  pose proof (delta_unique _ _ _ _ Hl Hd) as ->. split; [|done].
  eapply Forall_impl; [exact G3|]. intros e (h & -> & Hh). done.
Qed.
Lemma HT_P_vloop l0 : HT D T (putok who) (verify_loop E l0) TQ.
Proof.
  induction l0 as [|h l0 IH]; cbn [verify_loop]; [apply HT_P_ret|].
  intros s l Hs. destruct (read_existing E (new_chunk (Some h)) (rs_w s)) as [x|e] eqn:Hr.
  - apply IH. done.
  - assert (Ht : HT D T (putok who) (do_ (if bool_decide (d_chunks (w_disk (rs_w s)) !! h = None)
                then ret tt else eff_ (EChunkDel h)); ret true)%M TQ).
    { pbind; [|intros; apply HT_P_ret]. apply HT_P_if; [apply HT_P_ret|apply HT_P_eff; done]. }
    apply Ht. done.
Qed.
Lemma HT_P_verify x : HT D T (putok who) (verify E O x) TQ.
Proof.
  unfold verify. apply HT_P_bind; [apply _|grows|apply HT_P_pure; done|]. intros s.
  apply HT_P_bind; [apply _|grows|apply HT_P_pure; intros s'; rewrite union_maps_pure; done|]. intros used.
  apply HT_P_bind; [apply _|grows|apply HT_P_pure; intros s'; rewrite open_map_pure; done|]. intros m. cbn zeta.
  apply HT_P_bind; [apply _|grows|apply HT_P_vloop|]. intros errors.
  apply HT_P_bind; [apply _|grows| |intros; apply HT_P_gc].
  apply HT_P_if; [apply HT_P_remove|].
  pbind; [apply HT_P_pure; intros s'; unfold massert; destruct (is_local x); done|]. intros _.
  pbind; [apply HT_P_upd|]. intros _. apply HT_P_write.
Qed.
Lemma HT_P_after : HT D T (putok who) (after_backup E O) TQ.
Proof.
  unfold after_backup. pose proof (Grows_after_tail E O) as Hg.
  apply HT_P_bind; [apply _|intros; apply _|apply HT_P_eff; done|]. intros _.
  apply HT_P_bind; [apply _|intros; apply _|apply HT_P_pure; done|]. intros _.
  apply HT_P_bind; [apply _|intros; apply _|apply HT_P_pure; done|]. intros s.
  destruct (list_find _ _) as [[i x]|]; [apply HT_P_verify|apply HT_P_ret].
Qed.
Lemma HT_P_finish B r b : HT D T (putok who) (finish_backup B r b) TQ.
Proof.
  unfold finish_backup. apply HT_P_if; [|apply HT_P_remove].
  pbind; [apply HT_P_upd|]. intros _. pbind; [apply HT_P_write|]. intros _. apply HT_P_eff. done.
Qed.
End Quiet.

Notation TQ := (fun (_ : rst) (_ : res _) => True).
Lemma HT_P_file {A} n (p : prog A) s0 c0 :
  WI E D (rs_w s0) -> initial_image E (w_disk (rs_w s0)) n c0 -> prog_ok p -> noclose p ->
  LogD D (rs_w s0) ->
  HT D (fun s => s = s0) (putok (Some n)) (with_file E n true p) TQ.
Proof.
  intros HW Hi Hok Hno HL ? l -> Hl HD. split; [|done].
  assert (HL' : LogD D (rs_w (with_file E n true p s0).1)).
  { intros x Hx. destruct Hl as [Hl _]. rewrite Hl in Hx. apply elem_of_app in Hx as [Hx|Hx]; auto. }
  destruct (with_file_write E D HCS Hlzo Dinj p n s0 c0 HW Hi Hok Hno HL') as (_ & HW' & _).
  assert (Hs : safe_log E n l).
  { unfold with_file in Hl. cbn [negb andb] in Hl. destruct (file_open _ _ _ _ _).
    2:{ pose proof (delta_unique _ _ _ _ Hl (delta_nil s0 s0 eq_refl)) as ->. apply safe_log_nil. }
    set (w := if contains_distrusted (rs_hist s0) then _ else _) in *.
    assert (Hw : w_log w = w_log (rs_w s0) /\ w_disk w = w_disk (rs_w s0))
      by (unfold w; destruct (contains_distrusted (rs_hist s0)); done).
    destruct Hw as [Hw1 Hw2].
    destruct (session_delta E n false true p w) as (l' & G1 & G2 & G3).
    destruct (session E n false true p w) as [w2 r]. cbn [fst] in *.
    assert (Hd : delta s0 (set_w w2 s0) l') by (apply delta_world; congruence).
    pose proof (delta_unique _ _ _ _ Hl Hd) as ->. done. }
  apply Forall_forall. intros e He. pose proof (Hs e He) as Hse. destruct e; cbn; try done; [|congruence].
  destruct Hse as (x & -> & -> & Hx). exists x. split; [done|]. split; [done|]. split; [auto|].
  destruct (replay_put (hash E x) l (w_disk (rs_w s0))) as (raw & Hr1 & Hr2).
  { intros e0 He0. specialize (Hs e0 He0). destruct e0; done. }
  { eauto. }
  destruct Hl as [_ Hl]. rewrite <- Hl in Hr2.
  destruct (wi_good _ _ _ HW' _ _ Hr2) as (c & Hc1 & Hc2 & Hc3 & Hc4).
  assert (c = x) as ->; [|done]. apply Dinj; auto.
Qed.
Lemma HT_P_copy n p who : who = Some n -> HT D (fun _ => True) (putok who) (copy_parent n p) TQ.
Proof.
  intros Hw. destruct p as [p|]; cbn [copy_parent]; [|apply HT_ret; done].
  intros s l Hs. case_bool_decide.
  2:{ cbn [fst snd]. intros Hl _.
      pose proof (delta_unique _ _ _ _ Hl (delta_nil s s eq_refl)) as ->. done. }
  assert (Ht : HT D (fun _ => True) (putok who) (do_ eff_ (EMapPut n MapGarbage);
         let* s := get in
         match d_maps (w_disk (rs_w s)) !! r_uuid p with
         | None => raise FileNotFound
         | Some m => eff_ (EMapPut n m)
         end)%M TQ).
  { assert (Hg : forall s : rst, Grows (match d_maps (w_disk (rs_w s)) !! r_uuid p with
         | None => raise FileNotFound
         | Some m => eff_ (EMapPut n m)
         end)) by (intros s2; destruct (d_maps (w_disk (rs_w s2)) !! r_uuid p); apply _).
    apply HT_P_bind; [apply _|intros; apply _|apply HT_P_eff; done|]. intros _.
    apply HT_P_bind; [apply _|intros; apply _|apply HT_P_pure; done|].
    intros s1. destruct (d_maps (w_disk (rs_w s1)) !! r_uuid p); [apply HT_P_eff; done|]. apply HT_raise. done. }
  apply Ht. done.
Qed.
Lemma HT_P_read {A} n (p : prog A) who : HT D (fun _ => True) (putok who) (with_file E n false p) TQ.
Proof.
  apply HT_P_pure. intros s. unfold with_file. destruct (file_open _ _ _ _ _); [|done].
  cbn [andb negb]. pose proof (session_RO E n true p (rs_w s)) as Hro.
  destruct (session E n true false p (rs_w s)) as [w2 r2]. cbn [fst] in *. subst w2. done.
Qed.
Lemma HT_P_body af B r s0 :
  WI E D (rs_w s0) -> LogD D (rs_w s0) -> d_maps (w_disk (rs_w s0)) !! r_uuid r = None ->
  (forall p, (ceph_parent af B r s0).2 = Ok (Some p) ->
     exists A, image_is E (w_disk (rs_w s0)) (r_uuid p) A /\ map_complete (w_disk (rs_w s0)) (r_uuid p)) ->
  HT D (fun s => s = s0) (putok (Some (r_uuid r))) (backup_body E af B r) TQ.
Proof.
  intros HW HL Hnone Hpar. unfold backup_body. pose proof (Grows_body_tail E r B) as Hg.
  eapply HT_bind with (Q := fun s a => s = s0 /\ a = (ceph_parent af B r s0).2); [apply _|grows| | |done].
  { apply HT_pure. intros s ->. assert (Hcp : (ceph_parent af B r s0).1 = s0) by (unfold ceph_parent; destruct af; done).
    rewrite Hcp. done. }
  intros parent.
  eapply HT_bind with (Q := fun s (a : res unit) => WI E D (rs_w s) /\ LogD D (rs_w s) /\
     exists c0, initial_image E (w_disk (rs_w s)) (r_uuid r) c0); [apply _|grows| | |done].
  { intros s l [-> Hp] Hl HD.
    destruct (HT_P_copy (r_uuid r) parent _ eq_refl s0 l I Hl HD) as [Hf _]. split; [done|].
    destruct parent as [p|]; cbn [copy_parent] in *.
    2:{ split; [done|]. split; [done|]. exists []. left. done. }
    destruct (Hpar p (eq_sym Hp)) as (A & (m & Hm & Hb) & Hmc).
    assert (Hpr : r_uuid p <> r_uuid r) by congruence.
    assert (Hrun : (if bool_decide (d_maps (w_disk (rs_w s0)) !! r_uuid r = None) then
        (do_ eff_ (EMapPut (r_uuid r) MapGarbage);
         let* s := get in
         match d_maps (w_disk (rs_w s)) !! r_uuid p with
         | None => raise FileNotFound
         | Some m => eff_ (EMapPut (r_uuid r) m)
         end)%M s0
      else (s0, Ok tt)) = (set_w (do_eff (EMapPut (r_uuid r) (MapJson m (zlen A))) (do_eff (EMapPut (r_uuid r) MapGarbage) (rs_w s0))) s0, Ok tt)).
    { rewrite bool_decide_true by done. unfold bind, get, eff_, modify. cbn.
      rewrite lookup_insert_ne by done. rewrite Hm. done. }
    rewrite Hrun in *. cbn [fst snd]. split.
    { destruct HW as [H1 H2]. constructor; done. }
    split.
    { intros x Hx. cbn in Hx. rewrite !elem_of_app, !elem_of_list_singleton in Hx.
      destruct Hx as [[Hx|Hx]|Hx]; [auto|done|done]. }
    exists A. right. split.
    - exists m. split; [cbn; apply lookup_insert|].
      intros i x Hi. destruct (Hb i x Hi) as (h & y & ? & ? & ?). exists h, y. done.
    - unfold map_complete in *. rewrite Hm in Hmc. cbn. rewrite lookup_insert. done. }
  intros _. apply HT_at. intros s1 (HW1 & HL1 & c0 & Hi1). fold (body_prog E B r parent).
  destruct (body_prog_ok E B r parent) as [Hok Hno].
  eapply HT_bind with (Q := TQ); [apply _|intros; apply _|eapply HT_P_file; done| |done].
  intros ?. cbn beta.
  apply HT_P_bind; [apply _|intros; apply _|apply HT_P_pure; done|]. intros s.
  destruct (file_open _ _ _ _ _); [|apply HT_raise; done].
  apply HT_P_bind; [apply _|intros; apply _|apply HT_P_upd|]. intros _.
  apply HT_P_bind; [apply _|intros; apply _|apply HT_P_pure; done|]. intros ?. apply HT_P_read.
Qed.
Lemma HT_P_backup af B r s0 :
  WI E D (rs_w s0) -> LogD D (rs_w s0) -> d_maps (w_disk (rs_w s0)) !! r_uuid r = None ->
  (forall p s, rs_hist s = rs_hist s0 -> (ceph_parent af B r s).2 = Ok (Some p) ->
     exists A, image_is E (w_disk (rs_w s0)) (r_uuid p) A /\ map_complete (w_disk (rs_w s0)) (r_uuid p)) ->
  HT D (fun s => s = s0) (putok (Some (r_uuid r))) (backup E O af B r) TQ.
Proof.
  intros HW HL Hnone Hpar. unfold backup.
  eapply HT_bind with (Q := fun s a => s = set_w (do_eff ETmp (rs_w s0)) s0);
    [apply _|intros; apply _|apply HT_eff; intros ? ->; done| |done]. intros _. cbn beta.
  eapply HT_bind with (Q := fun s a => s = set_w (do_eff ETmp (do_eff ETmp (rs_w s0))) s0);
    [apply _|intros; apply _|apply HT_eff; intros ? ->; done| |done]. intros _. cbn beta.
  destruct (bk_ready B); cbn [negb]; [|apply HT_raise; done].
  eapply HT_bind with (Q := TQ); [apply _|intros; apply _| | |done].
  2:{ intros b. cbn beta. apply HT_P_bind; [apply _|intros; apply _|apply HT_P_finish|]. intros _.
      apply HT_P_bind; [apply _|intros; apply _|apply HT_P_after|]. intros _. apply HT_P_ret. }
  set (s1 := set_w _ s0).
  assert (HW1 : WI E D (rs_w s1)) by (destruct HW; constructor; done).
  assert (HL1 : LogD D (rs_w s1)).
  { intros x Hx. cbn in Hx. rewrite !elem_of_app, !elem_of_list_singleton in Hx.
    destruct Hx as [[Hx|Hx]|Hx]; [auto|done|done]. }
  assert (Htry : HT D (fun s => s = s1) (putok (Some (r_uuid r))) (backup_try E af B r) TQ).
  { intros ? l -> Hl HD. split; [|done]. unfold backup_try in *. destruct (bk_snap B) as [c|e].
    2:{ pose proof (delta_unique _ _ _ _ Hl (delta_nil s1 s1 eq_refl)) as ->. done. }
    set (s2 := set_snaps _ s1) in *.
    destruct (Grows_body E af B r s2) as [l1 Hl1].
    assert (Hb : HT D (fun s => s = s2) (putok (Some (r_uuid r))) (backup_body E af B r) TQ).
    { apply HT_P_body; try done. intros p Hp. apply (Hpar p s2); done. }
    specialize (Hb s2 l1 eq_refl Hl1).
    destruct (backup_body E af B r s2) as [s3 r3]. cbn [fst snd] in *.
    assert (Hd : rs_w (delete_old_snapshots af B s3).1 = rs_w s3)
      by (unfold delete_old_snapshots; destruct (bk_ls B); done).
    destruct (delete_old_snapshots af B s3) as [s4 r4]. cbn [fst snd] in *.
    assert (Hl1' : delta s1 s4 l1). { destruct Hl1 as [G1 G2]. split; rewrite Hd; done. }
    pose proof (delta_unique _ _ _ _ Hl Hl1') as ->. apply Hb. done. }
  intros ? l -> Hl HD. split; [|done]. destruct (Grows_try E af B r s1) as [l1 Hl1].
  specialize (Htry s1 l1 eq_refl Hl1). unfold backup_guarded in *.
  destruct (backup_try E af B r s1) as [s' [b|e]]; cbn [fst snd] in *.
  { pose proof (delta_unique _ _ _ _ Hl Hl1) as ->. apply Htry. done. }
  destruct (is_backend_exn e).
  2:{ pose proof (delta_unique _ _ _ _ Hl Hl1) as ->. apply Htry. done. }
  assert (H : Grows (do_ distrust (filter (fun x => is_local x = true) (rs_hist s')); ret false)%M)
    by apply _.
  destruct (H s') as [l2 Hl2].
  pose proof (delta_unique _ _ _ _ Hl (delta_trans _ _ _ _ _ Hl1 Hl2)) as ->.
  apply Forall_app. split. { apply Htry. intros x Hx. apply HD, elem_of_app. auto. }
  assert (Hd : HT D (fun _ => True) (putok (Some (r_uuid r)))
     (do_ distrust (filter (fun x => is_local x = true) (rs_hist s')); ret false)%M TQ).
  { apply HT_P_bind; [apply _|intros; apply _|apply HT_P_distrust|]. intros. apply HT_P_ret. }
  apply (Hd s' l2 I Hl2). intros x Hx. apply HD, elem_of_app. auto.
Qed.
End Put.
