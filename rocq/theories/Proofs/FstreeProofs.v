(** Proofs about the purge of old directories. *)
From Verif Require Export Spec.Fstree.

Lemma node_ind' (P : node -> Prop) :
  (forall m, P (NFile m)) -> (forall m, P (NLink m)) ->
  (forall m l, (forall name c, (name, c) ∈ l -> P c) -> P (NDir m l)) ->
  forall n, P n.
Proof.
  intros Hf Hl Hd.
  assert (Hd' : forall m l, Forall (fun x => P x.2) l -> P (NDir m l)).
  { intros m l H. apply Hd. intros name c Hin. rewrite Forall_forall in H.
    exact (H _ Hin). }
  fix IH 1. intros [m|m|m l]; [apply Hf|apply Hl|].
  apply Hd'. induction l as [|[name0 c0] l IHl]; constructor; [apply IH|exact IHl].
Qed.

Lemma existsb_elem {A} (f : A -> bool) l :
  existsb f l = true <-> exists x, x ∈ l /\ f x = true.
Proof.
  rewrite existsb_exists. split; intros (x & Hx & ?); exists x; (split; [|done]);
    by apply elem_of_list_In.
Qed.

Lemma has_recent_spec ref n :
  has_recent_changes n ref = true <-> exists p m, reach n p m /\ (ref <= n_mtime m)%Z.
Proof.
  induction n as [t|t|t l IH] using node_ind'.
  - cbn. destruct (Z.leb_spec ref t).
    + split; [|done]. intros _. exists [], (NFile t). split; [constructor|done].
    + split; [done|]. intros (p & m & Hr & Hm). inversion Hr; subst. cbn in Hm. lia.
  - cbn. destruct (Z.leb_spec ref t).
    + split; [|done]. intros _. exists [], (NLink t). split; [constructor|done].
    + split; [done|]. intros (p & m & Hr & Hm). inversion Hr; subst. cbn in Hm. lia.
  - cbn [has_recent_changes n_mtime]. destruct (Z.leb_spec ref t) as [Ht|Ht].
    { split; [|done]. intros _. exists [], (NDir t l). split; [constructor|done]. }
    split.
    + intros H.
      assert (exists c, c ∈ l /\ exists p m, reach c.2 p m /\ (ref <= n_mtime m)%Z)
        as ([name c] & Hc & p & m & Hr & Hm).
      { destruct (existsb (fun c => (ref <=? n_mtime c.2)%Z) l) eqn:E.
        - apply existsb_elem in E as (c & Hc & Hle). exists c. split; [done|].
          exists [], c.2. split; [constructor|]. by apply Z.leb_le.
        - apply existsb_elem in H as ([name c] & Hc & Hr). exists (name, c).
          split; [done|]. by apply (IH name). }
      exists (name :: p), m. split; [|done]. by apply reach_down with c.
    + intros (p & m & Hr & Hm). inversion Hr as [|t' l' name c p' m' Hin Hr']; subst.
      { cbn in Hm. lia. }
      destruct (existsb (fun c => (ref <=? n_mtime c.2)%Z) l); [done|].
      apply existsb_elem. exists (name, c). split; [done|].
      apply (IH name); [done|]. eauto.
Qed.

Lemma purge_scan_spec clock : forall base i name n,
  (name, n) ∈ purge_scan clock i base <->
  exists k, base !! k = Some (name, n) /\
    (is_dir_no_symlink n = true ->
     exists p m, reach n p m /\ (clock (i + k)%nat - purge_age <= n_mtime m)%Z).
Proof.
  induction base as [|[name0 n0] rest IH]; intros i name n; cbn [purge_scan].
  { rewrite elem_of_nil. split; [done|]. intros (k & Hk & _). done. }
  set (keep := negb (is_dir_no_symlink n0) || has_recent_changes n0 (clock i - purge_age)).
  assert (E : (if is_dir_no_symlink n0
    then if negb (has_recent_changes n0 (clock i - purge_age))
         then purge_scan clock (Datatypes.S i) rest
         else (name0, n0) :: purge_scan clock (Datatypes.S i) rest
    else (name0, n0) :: purge_scan clock (Datatypes.S i) rest)
    = if keep then (name0, n0) :: purge_scan clock (Datatypes.S i) rest
      else purge_scan clock (Datatypes.S i) rest).
  { unfold keep. destruct (is_dir_no_symlink n0), (has_recent_changes n0 _); done. }
  rewrite E. clear E.
  assert (Hkeep : keep = true <-> (is_dir_no_symlink n0 = true ->
     exists p m, reach n0 p m /\ (clock i - purge_age <= n_mtime m)%Z)).
  { rewrite <- has_recent_spec. unfold keep.
    destruct (is_dir_no_symlink n0), (has_recent_changes n0 _); cbn; naive_solver. }
  assert (Hrest : (name, n) ∈ purge_scan clock (Datatypes.S i) rest <->
    exists k, ((name0, n0) :: rest) !! Datatypes.S k = Some (name, n) /\
    (is_dir_no_symlink n = true ->
     exists p m, reach n p m /\ (clock (i + Datatypes.S k)%nat - purge_age <= n_mtime m)%Z)).
  { rewrite IH. split; intros (k & Hk & H); exists k; (split; [done|]);
      [rewrite Nat.add_succ_r|rewrite Nat.add_succ_r in H]; done. }
  destruct keep eqn:Hk.
  - rewrite elem_of_cons, Hrest. split.
    + intros [Heq|(k & ? & ?)]; [|by exists (Datatypes.S k)].
      injection Heq as -> ->. exists O. split; [done|].
      rewrite Nat.add_0_r. by apply Hkeep.
    + intros ([|k] & Hl & H); [left; cbn in Hl; congruence|right; eauto].
  - rewrite Hrest. split.
    + intros (k & ? & ?). by exists (Datatypes.S k).
    + intros ([|k] & Hl & H); [|eauto]. exfalso. cbn in Hl. injection Hl as -> ->.
      rewrite Nat.add_0_r in H. apply Hkeep in H. done.
Qed.
