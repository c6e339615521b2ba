(** C53-C57: purge of old directories, atomic file replacement, copying,
    comparing, polling. *)
From Verif Require Import Proofs.FstreeProofs Proofs.SafeFileProofs Proofs.CopyProofs
  Proofs.TimeoutProofs.

(** The times compared are the node's own. *)
Lemma is_dir_spec n : is_dir_no_symlink n = true <-> exists t entries, n = NDir t entries.
Proof. destruct n; split; [done|by intros (?&?&?)|done|by intros (?&?&?)|eauto|done]. Qed.

(** * C53: a scan of the base directory removes exactly the directories in which
    nothing reachable without following a symlink changed in the last 93 days
    (8035200 seconds) before the directory was examined. *)
Theorem C53_purge_only_old : forall clock base name n k,
  base !! k = Some (name, n) ->
  (name, n) ∉ purge_scan clock 0 base ->
  (exists t entries, n = NDir t entries) /\
  forall p m, reach n p m -> (n_mtime m < clock k - 8035200)%Z.
Proof.
  intros clock base name n k Hk Hno.
  destruct (is_dir_no_symlink n) eqn:Hd.
  - split; [by apply is_dir_spec|]. intros p m Hr. change 8035200%Z with purge_age.
    destruct (decide (clock k - purge_age <= n_mtime m)%Z) as [Hle|]; [|lia].
    exfalso. apply Hno. apply purge_scan_spec. exists k. eauto.
  - exfalso. apply Hno. apply purge_scan_spec. exists k. split; [done|]. congruence.
Qed.
Print Assumptions C53_purge_only_old.

(** ... and old directories are removed, files and links never, and nothing is
    invented. *)
Theorem C53_purge_exact : forall clock base name n,
  (name, n) ∈ purge_scan clock 0 base <->
  exists k, base !! k = Some (name, n) /\
    ((exists t entries, n = NDir t entries) ->
     exists p m, reach n p m /\ (clock k - 8035200 <= n_mtime m)%Z).
Proof.
  intros. rewrite (purge_scan_spec clock base 0 name n). cbn [Nat.add].
  by setoid_rewrite is_dir_spec.
Qed.
Print Assumptions C53_purge_exact.

(** A tree with one recent file three levels down is kept, the same tree with an
    old file there goes; a recent file behind a symlink does not count. *)
Example C53_example :
  let tree t := NDir 10 [("a"%string, NDir 20 [("x"%string, NFile t); ("l"%string, NLink 5)])] in
  purge_scan (fun _ => 8035300%Z) 0
    [("vm1"%string, tree 100%Z); ("vm2"%string, tree 99%Z); ("log"%string, NFile 0)]
  = [("vm1"%string, tree 100%Z); ("log"%string, NFile 0)].
Proof. reflexivity. Qed.

(** * C54: atomic replacement. *)
(** A kill between any two system calls, including one caused by an exception in
    the middle of [__exit__]. *)
Theorem C54_kill_safe : forall s0 filename tmp ino sync wp failed ex chunks k,
  safe_pre s0 filename tmp ino ->
  let s := sops_run s0 (take k (safe_write filename tmp ino sync wp failed ex chunks)) in
  (forall n, n <> tmp -> n <> filename -> fs_read s n = fs_read s0 n) /\
  (fs_read s filename = fs_read s0 filename \/
   failed = false /\ fs_read s filename = Some (concat chunks)).
Proof. exact safe_kill. Qed.
Print Assumptions C54_kill_safe.

(** A power failure: directory changes since some earlier point are lost, and files
    not synced contain anything. *)
Theorem C54_power_safe : forall s0 filename tmp ino wp failed ex chunks k j garbage,
  safe_pre s0 filename tmp ino ->
  (forall i x, fs_ino s0 !! i = Some x -> i_synced x = true) ->
  let s := power_fail s0 (take k (safe_write filename tmp ino true wp failed ex chunks))
             j garbage in
  (forall n, n <> tmp -> n <> filename -> fs_read s n = fs_read s0 n) /\
  (fs_read s filename = fs_read s0 filename \/
   failed = false /\ fs_read s filename = Some (concat chunks)).
Proof. exact safe_power. Qed.
Print Assumptions C54_power_safe.

(** Run to the end: new content on success, old content after an exception, and in
    both cases no temporary file is left. *)
Theorem C54_outcome : forall s0 filename tmp ino sync wp failed ex chunks,
  safe_pre s0 filename tmp ino ->
  let s := sops_run s0 (safe_write filename tmp ino sync wp failed ex chunks) in
  fs_dir s !! tmp = None /\
  fs_read s filename = (if failed then fs_read s0 filename else Some (concat chunks)).
Proof. exact safe_done. Qed.
Print Assumptions C54_outcome.

(** The hypotheses are met by an existing file and a fresh temporary name; and
    without [sync] the power-failure theorem would be false. *)
Definition ex_fs : fsys :=
  MkFs {["a.rev"%string := 1%nat]} {[1%nat := MkInode [x01] 288 true]}.
Example C54_example_pre : safe_pre ex_fs "a.rev" "tmp1" 2.
Proof.
  constructor; [done|reflexivity|reflexivity|].
  intros n i H. unfold ex_fs in H. cbn in H.
  apply lookup_singleton_Some in H as [_ <-]. done.
Qed.
Example C54_example_run :
  map (fun k => fs_read (sops_run ex_fs
    (take k (safe_write "a.rev" "tmp1" 2 true true false true [[x02]; [x03]]))) "a.rev")
    [0; 3; 6; 7]%nat
  = [Some [x01]; Some [x01]; Some [x01]; Some [x02; x03]].
Proof. reflexivity. Qed.
Example C54_unsynced_would_break :
  fs_read (power_fail ex_fs (safe_write "a.rev" "tmp1" 2 false false false true [[x02]; [x03]])
    99 (fun _ => [])) "a.rev" = Some [].
Proof. reflexivity. Qed.

(** * C55: copy_overwrite. *)
(** For every block size, every old content, with or without hole punching: the
    result is the source.  If the target cannot be truncated (a device at least as
    large as the source) the part behind the source's size is left alone.  A block
    is modified only if the target's block differed. *)
Theorem C55_copy_overwrite : forall k base src tgt,
  (0 < base)%Z ->
  exists t, copy_overwrite k base src tgt = Ok (zlen src, t) /\
    (k_trunc k = true -> t_data t = src) /\
    (k_trunc k = false -> (zlen src <= zlen tgt)%Z ->
       t_data t = src ++ zdrop (zlen src) tgt) /\
    NoDup (t_touched t) /\
    (forall o n, (o, n) ∈ t_touched t ->
      (0 <= o < zlen src /\ o mod (punch_size_for base (zlen src)) = 0)%Z /\
      n = zlen (read_at src o (punch_size_for base (zlen src))) /\
      read_at src o n <> read_at tgt o n).
Proof. exact copy_overwrite_spec. Qed.
Print Assumptions C55_copy_overwrite.

(** [copy], called with the target at position 0. *)
Theorem C55_copy : forall k csize src tgt, (0 < csize)%Z ->
  exists c, copy k csize src tgt 0 = Ok (zlen src, c) /\
    (k_trunc k = true -> c = src).
Proof.
  intros k csize src tgt H. destruct (copy_spec k csize src tgt H) as (c & ? & ? & _).
  eauto.
Qed.
Print Assumptions C55_copy.

(** [copy] does not seek the target: elsewhere the result is wrong. *)
Example C55_copy_needs_position :
  copy (MkKind true true) 2 [x01; x02; x03] [] 1 = Ok (3%Z, [x00; x01; x02]).
Proof. reflexivity. Qed.

(** Three blocks of 2: the first is equal, the second is zero in the source, the
    third is short.  Only the last two are touched. *)
Example C55_example : forall punch,
  copy_overwrite (MkKind punch true) 2 [x01; x02; x00; x00; x05] [x01; x02; x03]
  = Ok (5%Z, MkTarget [x01; x02; x00; x00; x05] [(2, 2); (4, 1)]%Z).
Proof. intros []; reflexivity. Qed.

(** * C56: comparisons. *)
Theorem C56_files_are_equal : forall csize a b, (0 < csize)%Z ->
  exists l, files_are_equal csize a b = Ok (bool_decide (a = b), l) /\
    (forall ca cb p, (ca, cb, p) ∈ l <->
       (exists j : nat, p = (Z.of_nat j * csize)%Z) /\
       (p - csize < zlen a)%Z /\
       ca = read_at a p csize /\ cb = read_at b p csize /\ ca <> cb).
Proof. exact files_are_equal_spec. Qed.
Print Assumptions C56_files_are_equal.

(** No false alarm: equal files are always found equal, without a report. *)
Theorem C56_no_false_alarm : forall bsize a started limit clock sample,
  files_are_roughly_equal bsize a a started limit clock sample = (true, []).
Proof.
  intros. destruct (fre_spec bsize a a started limit clock sample 0) as (_ & B & C).
  unfold files_are_roughly_equal.
  destruct (fre_loop bsize a a started limit 0 clock sample) as [[] l]; cbn in *.
  - by rewrite C.
  - destruct (B eq_refl) as (? & ? & _ & _ & _ & Hne & _). done.
Qed.
Print Assumptions C56_no_false_alarm.

(** It fails exactly if some sampled block that was reached before the time limit
    differs; then that block, the first such, is reported. *)
Theorem C56_sampled_blocks_checked : forall bsize a b started limit clock sample,
  let r := files_are_roughly_equal bsize a b started limit clock sample in
  (r.1 = false <->
   exists n blk, sample !! n = Some blk /\
     (forall m, (m <= n)%nat -> (clock m - started <= limit)%Z) /\
     read_at a (blk * bsize) bsize <> read_at b (blk * bsize) bsize) /\
  (r.1 = false ->
   exists n blk, sample !! n = Some blk /\
     (forall m blk', (m < n)%nat -> sample !! m = Some blk' ->
        read_at a (blk' * bsize) bsize = read_at b (blk' * bsize) bsize) /\
     r.2 = [(read_at a (blk * bsize) bsize, read_at b (blk * bsize) bsize,
             (blk * bsize)%Z)]) /\
  (r.1 = true -> r.2 = []).
Proof.
  intros bsize a b started limit clock sample r.
  destruct (fre_spec bsize a b started limit clock sample 0) as (A & B & C).
  split; [split|split].
  - intros H. destruct (B H) as (n & blk & Hn & Hm & _ & Hd & _). eauto.
  - intros (n & blk & Hn & Hm & Hd). by apply (A n blk).
  - intros H. destruct (B H) as (n & blk & Hn & _ & Hb & _ & Hr). exists n, blk. eauto.
  - exact C.
Qed.
Print Assumptions C56_sampled_blocks_checked.

(** A limit of the sampling, stated as a theorem: whatever the sample, a difference
    behind the last full block (or in the length) goes unnoticed when the file has
    at least one full block. *)
Theorem C56_tail_never_sampled : forall bsize a b started limit clock sample,
  (0 < bsize)%Z -> (bsize <= zlen a)%Z ->
  (forall blk, blk ∈ sample -> (0 <= blk < roughly_blocks bsize a)%Z) ->
  ztake (zlen a / bsize * bsize) a = ztake (zlen a / bsize * bsize) b ->
  files_are_roughly_equal bsize a b started limit clock sample = (true, []).
Proof.
  intros bsize a b started limit clock sample Hb Hs Hr Ht.
  destruct (fre_spec bsize a b started limit clock sample 0) as (_ & B & C).
  unfold files_are_roughly_equal.
  destruct (fre_loop bsize a b started limit 0 clock sample) as [[] l]; cbn in *.
  { by rewrite C. }
  exfalso. destruct (B eq_refl) as (n & blk & Hn & _ & _ & Hne & _). apply Hne.
  apply elem_of_list_lookup_2, Hr in Hn. unfold roughly_blocks in Hn.
  assert (1 <= zlen a / bsize)%Z by (apply Z.div_le_lower_bound; lia).
  rewrite Z.max_l in Hn by lia.
  set (q := (zlen a / bsize)%Z) in *.
  assert (Hcut : forall c : bytes, read_at c (blk * bsize) bsize
    = read_at (ztake (q * bsize) c) (blk * bsize) bsize).
  { intros c. unfold read_at, ztake, zdrop. rewrite skipn_firstn_comm.
    rewrite take_take. f_equal. nia. }
  rewrite (Hcut a), (Hcut b). by rewrite Ht.
Qed.
Print Assumptions C56_tail_never_sampled.

Example C56_example :
  files_are_roughly_equal 2 [x01; x02; x03; x04; x05] [x01; x02; x03; x09; x05] 0 300
    (fun _ => 1%Z) [0; 1]%Z = (false, [([x03; x04], [x03; x09], 2%Z)]) /\
  files_are_roughly_equal 2 [x01; x02; x03; x04; x05] [x01; x02; x03; x04; x06] 0 300
    (fun _ => 1%Z) [0; 1]%Z = (true, []) /\
  files_are_equal 2 [x01; x02; x03] [x01; x02; x03; x04]
    = Ok (false, [([x03], [x03; x04], 2%Z)]).
Proof. repeat split; reflexivity. Qed.

(** * C57: polling. *)
(** One check: it decides by the clock, and nothing else. *)
Theorem C57_tick : forall now t,
  ((to_cutoff t <= now)%Z /\
     (tick now t).2 = (if to_raise t then Err TimeOutError else Ok false)) \/
  ((now < to_cutoff t)%Z /\ (tick now t).2 = Ok true).
Proof.
  intros now t. destruct (tick_spec now t) as [[? ->]|[? (t' & s & -> & _)]];
    [left|right]; done.
Qed.
Print Assumptions C57_tick.

(** A polling loop started at [t0] with a timeout of [secs]: the body runs only
    after checks before the deadline; the loop is left by the timeout only at a
    check at or after the deadline, by raising iff asked to; and with a clock that
    respects the pauses it ends. *)
Theorem C57_poll : forall clock body t0 secs interval raise fuel,
  let '(n, s, e) := poll fuel 0 clock body 0 (timeout_init t0 secs interval raise) in
  (forall j, (j < n)%nat -> (clock j < t0 + secs)%Z) /\
  (forall j, (Datatypes.S j < n)%nat -> body j = false) /\
  (e = PollFound -> (0 < n)%nat /\ body (pred n) = true) /\
  (e = PollStopped \/ e = PollRaised ->
     (t0 + secs <= clock n)%Z /\ (forall j, (j < n)%nat -> body j = false) /\
     (e = PollRaised <-> raise = true)).
Proof.
  intros clock body t0 secs interval raise fuel.
  pose proof (poll_spec clock body fuel 0 0%Z (timeout_init t0 secs interval raise)) as H.
  destruct (poll fuel 0 clock body 0 (timeout_init t0 secs interval raise)) as [[n s] e].
  destruct H as (_ & H2 & H3 & H4). cbn [timeout_init to_cutoff to_raise] in *.
  split; [intros; apply H2; lia|]. split; [intros; apply H3; lia|].
  split.
  - intros ->. exact H4.
  - intros [->| ->]; destruct H4 as (? & ? & ?); (split; [done|]); (split; [|done]);
      intros; apply H0; lia.
Qed.
Print Assumptions C57_poll.

Theorem C57_poll_ends : forall clock body t0 interval secs raise fuel,
  (0 < interval)%Z ->
  (t0 <= clock O)%Z ->
  (clock O <= clock 1%nat)%Z ->
  (forall j, (1 <= j)%nat -> (clock j + interval <= clock (Datatypes.S j))%Z) ->
  (Z.max 0 secs / interval + 3 <= Z.of_nat fuel)%Z ->
  (poll fuel 0 clock body 0 (timeout_init t0 secs interval raise)).2 <> PollOutOfFuel.
Proof. exact poll_terminates. Qed.
Print Assumptions C57_poll_ends.

Example C57_example :
  poll 10 0 (fun i => Z.of_nat i * 3)%Z (fun _ => false) 0 (timeout_init 0 7 2 true)
    = (3%nat, 4%Z, PollRaised) /\
  poll 10 0 (fun i => Z.of_nat i * 3)%Z (fun i => bool_decide (i = 1)%nat) 0
    (timeout_init 0 7 2 true) = (2%nat, 2%Z, PollFound).
Proof. split; reflexivity. Qed.
