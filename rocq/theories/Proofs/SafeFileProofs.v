(** Proofs about atomic file replacement. *)
From Verif Require Export Model.SafeFile.

(** The state before: the temporary name and inode are new (mkstemp). *)
Record safe_pre (s : fsys) (filename tmp : string) (ino : nat) : Prop := {
  sp_ne : tmp <> filename;
  sp_tmp : fs_dir s !! tmp = None;
  sp_ino : fs_ino s !! ino = None;
  sp_dir : forall n i, fs_dir s !! n = Some i -> i <> ino }.

(** What holds at every point before the final rename or unlink: all names but
    [tmp] lead to the inodes they led to, with the old data. *)
Record safe_mid (s0 s : fsys) (tmp : string) (ino : nat) (d : bytes) : Prop := {
  sm_dir : fs_dir s = <[tmp := ino]> (fs_dir s0);
  sm_ino : exists x, fs_ino s !! ino = Some x /\ i_data x = d;
  sm_old : forall i, i <> ino ->
    (i_data <$> fs_ino s !! i) = (i_data <$> fs_ino s0 !! i) /\
    (i_synced <$> fs_ino s !! i) = (i_synced <$> fs_ino s0 !! i) }.

Lemma sops_app s l1 l2 : sops_run s (l1 ++ l2) = sops_run (sops_run s l1) l2.
Proof. apply fold_left_app. Qed.

Lemma mid_create s0 filename tmp ino :
  safe_pre s0 filename tmp ino -> safe_mid s0 (sop_run s0 (SCreate tmp ino)) tmp ino [].
Proof.
  intros []. constructor; cbn.
  - done.
  - eexists. rewrite lookup_insert. done.
  - intros i Hi. by rewrite lookup_insert_ne.
Qed.

Lemma mid_upd s0 s tmp ino d i f :
  (forall x, i_synced (f x) = i_synced x \/ i = ino) ->
  (forall x, i_data (f x) = i_data x) ->
  safe_mid s0 s tmp ino d -> safe_mid s0 (upd_ino i f s) tmp ino d.
Proof.
  intros Hs Hf [D (x & I & Hx) O]. constructor; cbn.
  - done.
  - destruct (decide (i = ino)) as [->|Hne].
    + exists (f x). rewrite lookup_alter, I. split; [done|]. by rewrite Hf.
    + exists x. by rewrite lookup_alter_ne.
  - intros j Hj. destruct (decide (i = j)) as [->|Hne].
    + rewrite lookup_alter. destruct (O j Hj) as [O1 O2].
      rewrite <- O1, <- O2. destruct (fs_ino s !! j) as [y|]; cbn; [|done].
      rewrite Hf. destruct (Hs y) as [->| ->]; [done|done].
    + rewrite lookup_alter_ne by done. by apply O.
Qed.

Lemma mid_append s0 s tmp ino d c :
  safe_mid s0 s tmp ino d -> safe_mid s0 (sop_run s (SAppend ino c)) tmp ino (d ++ c).
Proof.
  intros [D (x & I & Hx) O]. constructor; cbn.
  - done.
  - eexists. rewrite lookup_alter, I. split; [done|]. cbn. by rewrite Hx.
  - intros j Hj. rewrite lookup_alter_ne by done. by apply O.
Qed.

Lemma mid_appends s0 tmp ino : forall chunks s d,
  safe_mid s0 s tmp ino d ->
  safe_mid s0 (sops_run s (map (SAppend ino) chunks)) tmp ino (d ++ concat chunks).
Proof.
  induction chunks as [|c chunks IH]; intros s d H; cbn.
  - by rewrite app_nil_r.
  - rewrite (assoc_L (++)). apply IH. by apply mid_append.
Qed.

Lemma mid_fsync s0 s tmp ino d :
  safe_mid s0 s tmp ino d -> safe_mid s0 (sop_run s (SFsync ino)) tmp ino d.
Proof. apply mid_upd; auto. Qed.

Lemma mid_chmod s0 s tmp ino d n m :
  safe_mid s0 s tmp ino d -> safe_mid s0 (sop_run s (SChmod n m)) tmp ino d.
Proof.
  intros H. cbn. destruct (fs_dir s !! n); [|done]. apply mid_upd; auto.
Qed.

(** The calls before the last one. *)
Definition safe_body (filename tmp : string) (ino : nat) (sync wp exists_old : bool)
    (chunks : list bytes) : list sop :=
  SCreate tmp ino ::
  map (SAppend ino) chunks ++
  (if sync then [SFsync ino] else []) ++
  (if wp then SChmod tmp 288 :: (if exists_old then [SChmod filename 288] else [])
   else []).
Lemma safe_write_body filename tmp ino sync wp failed ex chunks :
  safe_write filename tmp ino sync wp failed ex chunks =
  safe_body filename tmp ino sync wp ex chunks ++
  [if failed then SUnlink tmp else SRename tmp filename].
Proof.
  unfold safe_write, safe_body. cbn. f_equal. rewrite <- !(assoc_L (++)).
  do 3 f_equal. by destruct failed.
Qed.

Lemma mid_any (s0 s : fsys) tmp ino d o :
  match o with SAppend i _ | SFsync i => i = ino | SChmod _ _ => True | _ => False end ->
  safe_mid s0 s tmp ino d -> exists d', safe_mid s0 (sop_run s o) tmp ino d'.
Proof.
  destruct o; try done.
  - intros ->. intros H. eexists. by apply mid_append.
  - intros ->. intros H. eexists. by apply mid_fsync.
  - intros _ H. eexists. by apply mid_chmod.
Qed.

Lemma mid_all s0 tmp ino : forall l s d,
  Forall (fun o => match o with SAppend i _ | SFsync i => i = ino
                   | SChmod _ _ => True | _ => False end) l ->
  safe_mid s0 s tmp ino d -> exists d', safe_mid s0 (sops_run s l) tmp ino d'.
Proof.
  induction l as [|o l IH]; intros s d Hl H; [eauto|].
  apply Forall_cons_1 in Hl as [Ho Hl].
  destruct (mid_any s0 s tmp ino d o Ho H) as [d' H']. cbn. eapply IH; eauto.
Qed.

Lemma body_tail filename tmp ino sync wp ex chunks :
  exists l, safe_body filename tmp ino sync wp ex chunks = SCreate tmp ino :: l /\
  Forall (fun o => match o with SAppend i _ | SFsync i => i = ino
                   | SChmod _ _ => True | _ => False end) l.
Proof.
  eexists; split; [reflexivity|]. rewrite !Forall_app. split; [|split].
  - apply Forall_forall. intros o Ho. apply elem_of_list_In, in_map_iff in Ho as (c & <- & _).
    done.
  - destruct sync; repeat constructor.
  - destruct wp, ex; repeat constructor.
Qed.

(** After any proper prefix (at least one call). *)
Lemma body_prefix s0 filename tmp ino sync wp ex chunks k :
  safe_pre s0 filename tmp ino -> (0 < k)%nat ->
  exists d, safe_mid s0 (sops_run s0 (take k (safe_body filename tmp ino sync wp ex chunks))) tmp ino d.
Proof.
  intros Hp Hk. destruct (body_tail filename tmp ino sync wp ex chunks) as (l & -> & Hl).
  destruct k as [|k]; [lia|]. cbn [take].
  change (sops_run s0 (SCreate tmp ino :: take k l))
    with (sops_run (sop_run s0 (SCreate tmp ino)) (take k l)).
  eapply mid_all; [by apply Forall_take|]. by eapply mid_create.
Qed.

(** After the whole body the temporary file holds everything, synced if asked. *)
Lemma body_end s0 filename tmp ino sync wp ex chunks :
  safe_pre s0 filename tmp ino ->
  safe_mid s0 (sops_run s0 (safe_body filename tmp ino sync wp ex chunks)) tmp ino (concat chunks).
Proof.
  intros Hp. unfold safe_body.
  change (sops_run s0 (SCreate tmp ino :: ?l)) with (sops_run (sop_run s0 (SCreate tmp ino)) l).
  rewrite !sops_app.
  assert (H : safe_mid s0 (sops_run (sop_run s0 (SCreate tmp ino)) (map (SAppend ino) chunks))
     tmp ino (concat chunks)).
  { apply (mid_appends s0 tmp ino chunks _ []). by eapply mid_create. }
  revert H. generalize (sops_run (sop_run s0 (SCreate tmp ino)) (map (SAppend ino) chunks)).
  intros s H.
  assert (H2 : safe_mid s0 (sops_run s (if sync then [SFsync ino] else [])) tmp ino (concat chunks)).
  { destruct sync; cbn; [by apply mid_fsync|done]. }
  revert H2. generalize (sops_run s (if sync then [SFsync ino] else [])). clear s H.
  intros s H. destruct wp; [|done]. cbn.
  assert (H1 := mid_chmod _ _ _ _ _ tmp 288 H).
  destruct ex; [|done]. cbn [sops_run fold_left]. by apply mid_chmod.
Qed.

Lemma body_synced s0 filename tmp ino wp ex chunks k :
  (length (SCreate tmp ino :: map (SAppend ino) chunks) < k)%nat ->
  safe_pre s0 filename tmp ino ->
  exists x, fs_ino (sops_run s0 (take k (safe_body filename tmp ino true wp ex chunks))) !! ino = Some x /\
    i_data x = concat chunks /\ i_synced x = true.
Proof.
  intros Hk Hp. unfold safe_body.
  set (pre := SCreate tmp ino :: map (SAppend ino) chunks).
  set (post := if wp then SChmod tmp 288 :: (if ex then [SChmod filename 288] else []) else []).
  replace (SCreate tmp ino :: map (SAppend ino) chunks ++ [SFsync ino] ++ post)
    with ((pre ++ [SFsync ino]) ++ post) by (unfold pre; by rewrite <- (assoc_L (++))).
  rewrite take_app_ge by (rewrite app_length; unfold pre in *; cbn in *; lia).
  rewrite !sops_app.
  assert (H : safe_mid s0 (sops_run s0 pre) tmp ino (concat chunks)).
  { apply (mid_appends s0 tmp ino chunks _ []). by eapply mid_create. }
  assert (H2 : exists x, fs_ino (sops_run (sops_run s0 pre) [SFsync ino]) !! ino = Some x /\
     i_data x = concat chunks /\ i_synced x = true).
  { revert H. generalize (sops_run s0 pre). intros s1 [_ (x & I & Hx) _].
    cbn. rewrite lookup_alter, I. eexists; split; done. }
  revert H2. generalize (sops_run (sops_run s0 pre) [SFsync ino]).
  generalize (k - length (pre ++ [SFsync ino]))%nat.
  intros n s H2.
  assert (Hall : Forall (fun o => match o with SChmod _ _ => True | _ => False end) (take n post)).
  { apply Forall_take. unfold post. destruct wp, ex; repeat constructor. }
  revert s H2 Hall. generalize (take n post). induction l as [|o l IH]; intros s H2 Hall; [done|].
  apply Forall_cons_1 in Hall as [Ho Hall]. cbn. apply IH; [|done].
  destruct o; try done. cbn. destruct (fs_dir s !! name) as [i|]; [|done].
  destruct H2 as (x & I & D & S0). cbn. destruct (decide (i = ino)) as [->|Hne].
  - rewrite lookup_alter, I. eexists; split; [reflexivity|]. done.
  - rewrite lookup_alter_ne by done. eauto.
Qed.

Lemma mid_read s0 s filename tmp ino d n :
  safe_pre s0 filename tmp ino -> safe_mid s0 s tmp ino d -> n <> tmp ->
  fs_read s n = fs_read s0 n.
Proof.
  intros [P1 P2 P3 P4] [D _ O] Hn. unfold fs_read. rewrite D.
  rewrite lookup_insert_ne by done.
  destruct (fs_dir s0 !! n) as [i|] eqn:E; [|done].
  apply (O i). by eapply P4.
Qed.

Lemma take_snoc_cases {A} k (l : list A) x :
  (k <= length l /\ take k (l ++ [x]) = take k l)%nat \/
  (length l < k /\ take k (l ++ [x]) = l ++ [x])%nat.
Proof.
  destruct (decide (k <= length l)%nat).
  - left. split; [done|]. by rewrite take_app_le.
  - right. split; [lia|]. rewrite take_ge; [done|]. rewrite app_length. cbn. lia.
Qed.

(** Killed after [k] calls: every name except the temporary one is as before, or
    the whole new content is in place. *)
Lemma safe_kill s0 filename tmp ino sync wp failed ex chunks k :
  safe_pre s0 filename tmp ino ->
  let s := sops_run s0 (take k (safe_write filename tmp ino sync wp failed ex chunks)) in
  (forall n, n <> tmp -> n <> filename -> fs_read s n = fs_read s0 n) /\
  (fs_read s filename = fs_read s0 filename \/
   failed = false /\ fs_read s filename = Some (concat chunks)).
Proof.
  intros Hp. cbn zeta. rewrite safe_write_body.
  set (last := if failed then SUnlink tmp else SRename tmp filename).
  destruct (take_snoc_cases k (safe_body filename tmp ino sync wp ex chunks) last)
    as [[_ ->]|[_ ->]].
  - destruct k as [|k].
    { cbn. split; [done|by left]. }
    destruct (body_prefix s0 filename tmp ino sync wp ex chunks (Datatypes.S k) Hp ltac:(lia))
      as [d Hm].
    split; [intros n Hn _; by eapply mid_read|]. left. eapply mid_read; [done..|].
    destruct Hp. congruence.
  - rewrite sops_app. pose proof (body_end s0 filename tmp ino sync wp ex chunks Hp) as Hm.
    revert Hm. generalize (sops_run s0 (safe_body filename tmp ino sync wp ex chunks)).
    intros s Hm. pose proof (fun n => mid_read s0 s filename tmp ino _ n Hp Hm) as Hrd.
    destruct Hp as [P1 P2 P3 P4]. destruct Hm as [D (x & I & Hx) O].
    unfold last. destruct failed; cbn.
    + split.
      * intros n Hn _. rewrite <- Hrd by done. unfold fs_read. cbn.
        by rewrite lookup_delete_ne.
      * left. rewrite <- Hrd by done. unfold fs_read. cbn. by rewrite lookup_delete_ne.
    + rewrite D, lookup_insert. split.
      * intros n Hn1 Hn2. rewrite <- Hrd by done. unfold fs_read. cbn.
        rewrite lookup_insert_ne by done. rewrite lookup_delete_ne by done.
        by rewrite D.
      * right. split; [done|]. unfold fs_read. cbn. rewrite lookup_insert, I. cbn.
        by rewrite Hx.
Qed.

(** Finished: the new content is there, or after an exception the old one; the
    temporary file is gone. *)
Lemma safe_done s0 filename tmp ino sync wp failed ex chunks :
  safe_pre s0 filename tmp ino ->
  let s := sops_run s0 (safe_write filename tmp ino sync wp failed ex chunks) in
  fs_dir s !! tmp = None /\
  fs_read s filename = (if failed then fs_read s0 filename else Some (concat chunks)).
Proof.
  intros Hp. cbn zeta. rewrite safe_write_body, sops_app.
  pose proof (body_end s0 filename tmp ino sync wp ex chunks Hp) as Hm.
  revert Hm. generalize (sops_run s0 (safe_body filename tmp ino sync wp ex chunks)).
  intros s Hm. pose proof (fun n => mid_read s0 s filename tmp ino _ n Hp Hm) as Hrd.
  destruct Hp as [P1 P2 P3 P4]. destruct Hm as [D (x & I & Hx) O].
  destruct failed; cbn.
  - split; [apply lookup_delete|]. rewrite <- Hrd by done. unfold fs_read. cbn.
    by rewrite lookup_delete_ne.
  - rewrite D, lookup_insert. cbn. split.
    + rewrite lookup_insert_ne by done. apply lookup_delete.
    + unfold fs_read. cbn. rewrite lookup_insert, I. cbn. by rewrite Hx.
Qed.

(** Power failure, with everything before on disk. *)
Lemma safe_power s0 filename tmp ino wp failed ex chunks k j garbage :
  safe_pre s0 filename tmp ino ->
  (forall i x, fs_ino s0 !! i = Some x -> i_synced x = true) ->
  let s := power_fail s0 (take k (safe_write filename tmp ino true wp failed ex chunks))
             j garbage in
  (forall n, n <> tmp -> n <> filename -> fs_read s n = fs_read s0 n) /\
  (fs_read s filename = fs_read s0 filename \/
   failed = false /\ fs_read s filename = Some (concat chunks)).
Proof.
  intros Hp Hsy. cbn zeta. unfold power_fail. rewrite take_take.
  rewrite safe_write_body.
  set (last := if failed then SUnlink tmp else SRename tmp filename).
  set (body := safe_body filename tmp ino true wp ex chunks).
  (* old inodes keep their data and are synced *)
  assert (Hold : forall i x, i <> ino -> fs_ino s0 !! i = Some x ->
    exists y, fs_ino (sops_run s0 (take k (body ++ [last]))) !! i = Some y /\
      i_data y = i_data x /\ i_synced y = true).
  { intros i x Hi Hx.
    assert (Hmid : forall s d, safe_mid s0 s tmp ino d ->
      exists y, fs_ino s !! i = Some y /\ i_data y = i_data x /\ i_synced y = true).
    { intros s d [_ _ O]. destruct (O i Hi) as [O1 O2]. rewrite Hx in O1, O2.
      destruct (fs_ino s !! i) as [y|]; [|done]. exists y. cbn in O1, O2.
      injection O1 as ->. injection O2 as ->. split; [done|]. split; [done|]. eauto. }
    destruct (take_snoc_cases k body last) as [[_ ->]|[_ ->]].
    - destruct k as [|k]; [cbn; eauto|].
      destruct (body_prefix s0 filename tmp ino true wp ex chunks (Datatypes.S k) Hp
        ltac:(lia)) as [d Hm]. by eapply Hmid.
    - rewrite sops_app. pose proof (body_end s0 filename tmp ino true wp ex chunks Hp) as Hm.
      apply Hmid in Hm. fold body in Hm. revert Hm. generalize (sops_run s0 body).
      intros s Hm. unfold last. destruct failed; cbn; [done|].
      destruct (fs_dir s !! tmp); done. }
  assert (Hrd : forall dir n i, dir !! n = Some i ->
    fs_dir s0 !! n = Some i -> i <> ino ->
    fs_read (MkFs dir (map_imap (fun i x =>
      Some (if i_synced x then x else MkInode (garbage i) (i_mode x) false))
      (fs_ino (sops_run s0 (take k (body ++ [last])))))) n = fs_read s0 n).
  { intros dir n i Hd H0 Hi. unfold fs_read. cbn [fs_dir fs_ino]. rewrite Hd, H0.
    rewrite map_lookup_imap. destruct (fs_ino s0 !! i) as [x|] eqn:E.
    - destruct (Hold i x Hi E) as (y & -> & Hy & Hs). cbn. rewrite Hs. cbn.
      by rewrite Hy.
    - assert (fs_ino (sops_run s0 (take k (body ++ [last]))) !! i = None) as ->; [|done].
      assert (Hmid : forall s d, safe_mid s0 s tmp ino d -> fs_ino s !! i = None).
      { intros s d [_ _ O]. destruct (O i Hi) as [O1 _]. rewrite E in O1.
        by destruct (fs_ino s !! i). }
      destruct (take_snoc_cases k body last) as [[_ ->]|[_ ->]].
      + destruct k as [|k]; [done|].
        destruct (body_prefix s0 filename tmp ino true wp ex chunks (Datatypes.S k) Hp
          ltac:(lia)) as [d Hm]. by eapply Hmid.
      + rewrite sops_app. pose proof (body_end s0 filename tmp ino true wp ex chunks Hp) as Hm.
        apply Hmid in Hm. fold body in Hm. revert Hm. generalize (sops_run s0 body).
        intros s Hm. unfold last. destruct failed; cbn; [done|].
        destruct (fs_dir s !! tmp); done. }
  assert (Hnone : forall dir m n, dir !! n = None -> fs_dir s0 !! n = None ->
    fs_read (MkFs dir m) n = fs_read s0 n).
  { intros dir m n H1 H2. unfold fs_read. cbn. by rewrite H1, H2. }
  assert (Hsame : forall dir m n, dir !! n = fs_dir s0 !! n ->
    m = map_imap (fun i x =>
      Some (if i_synced x then x else MkInode (garbage i) (i_mode x) false))
      (fs_ino (sops_run s0 (take k (body ++ [last])))) ->
    fs_read (MkFs dir m) n = fs_read s0 n).
  { intros dir m n H ->. destruct (fs_dir s0 !! n) as [i|] eqn:E.
    - eapply Hrd; [done..|]. by eapply (sp_dir _ _ _ _ Hp).
    - by apply Hnone. }
  assert (Hne := sp_ne _ _ _ _ Hp).
  destruct (take_snoc_cases (j `min` k) body last) as [[_ Ej]|[Hlen Ej]]; rewrite Ej.
  - (* the rename has not reached the disk *)
    assert (Hdir : forall n, n <> tmp ->
      fs_dir (sops_run s0 (take (j `min` k) body)) !! n = fs_dir s0 !! n).
    { intros n Hn. destruct (j `min` k)%nat as [|q]; [done|].
      destruct (body_prefix s0 filename tmp ino true wp ex chunks (Datatypes.S q) Hp
        ltac:(lia)) as [d [D _ _]]. fold body in D. rewrite D.
      by rewrite lookup_insert_ne. }
    split.
    + intros n Hn _. apply Hsame; [by apply Hdir|done].
    + left. apply Hsame; [by apply Hdir|done].
  - rewrite sops_app.
    pose proof (body_end s0 filename tmp ino true wp ex chunks Hp) as Hm. fold body in Hm.
    destruct Hm as [D (x & I & Hx) O].
    assert (Hk : take k (body ++ [last]) = body ++ [last]).
    { apply take_ge. rewrite app_length. cbn [length]. lia. }
    unfold last in *. destruct failed.
    + assert (Hdir : forall n, n <> tmp ->
        fs_dir (sops_run (sops_run s0 body) [SUnlink tmp]) !! n = fs_dir s0 !! n).
      { intros n Hn. revert D. generalize (sops_run s0 body). intros s D. cbn.
        rewrite lookup_delete_ne by done. rewrite D. by rewrite lookup_insert_ne. }
      split; [intros n Hn _|left]; (apply Hsame; [by apply Hdir|done]).
    + assert (Hdir : fs_dir (sops_run (sops_run s0 body) [SRename tmp filename]) =
        <[filename := ino]> (delete tmp (<[tmp := ino]> (fs_dir s0)))).
      { revert D. generalize (sops_run s0 body). intros s D. cbn. rewrite D.
        rewrite lookup_insert. done. }
      rewrite Hdir. split.
      * intros n Hn1 Hn2. apply Hsame; [|done].
        rewrite lookup_insert_ne by done. rewrite lookup_delete_ne by done.
        by rewrite lookup_insert_ne.
      * right. split; [done|]. unfold fs_read. cbn [fs_dir fs_ino]. rewrite lookup_insert.
        rewrite map_lookup_imap, Hk, sops_app.
        destruct (body_synced s0 filename tmp ino wp ex chunks (length body)) as
          (y & Hy & Hd & Hs); [|done|].
        { unfold body, safe_body. cbn. rewrite !app_length. cbn. lia. }
        fold body in Hy. rewrite firstn_all in Hy.
        assert (Hi : fs_ino (sops_run (sops_run s0 body) [SRename tmp filename]) !! ino = Some y).
        { revert Hy. generalize (sops_run s0 body). intros s Hy. cbn.
          destruct (fs_dir s !! tmp); done. }
        rewrite Hi. cbn. rewrite Hs. cbn. by rewrite Hd.
Qed.
