(** C80-C82: commands on several jobs, --dry-run, commands that overlap. *)
From Verif Require Import Proofs.ScanProofs Proofs.RepoProofs Props.PRepo Model.Command Spec.Repo Model.Locks Proofs.ExEnv
  Model.RbdBackup Model.Revs.
From Verif Require Props.PBackup.

(** * C80.  A command given for several jobs. *)
(** What the user asked for has happened to this repository. *)
Definition carried_out (O : orders) (iso : string -> option Z) (c : repo_cmd) (x x' : srepo) : Prop :=
  let s := sr_st x in let s' := sr_st x' in
  sr_sched x' = sr_sched x /\
  data_same (w_disk (rs_w s)) (w_disk (rs_w s')) /\
  match c with
  | CRevParse spec | CLog spec =>
      (exists revs, find_revisions (rs_hist s) iso spec = Ok revs) /\ s' = s
  | CDistrust spec => exists revs, find_revisions (rs_hist s) iso spec = Ok revs /\
      (forall r, r ∈ revs -> r_server r = "") /\
      changed (drevs s) (drevs s') revs (fun r => Some (with_trust DISTRUSTED r))
  | CRm spec => exists revs, find_revisions (rs_hist s) iso spec = Ok revs /\
      changed (drevs s) (drevs s') revs removed
  | CTags a autoremove expect spec tags force => exists revs,
      find_revisions (scan_disk O (w_disk (rs_w s))) iso spec = Ok revs /\
      (force = true \/ a = ARemove \/ ~ has_unknown (sr_sched x) tags) /\
      (forall r e, r ∈ revs -> expect = Some e -> r_tags r = e) /\
      changed (drevs s) (drevs s') revs (retagged a tags autoremove)
  end.
(** A repository as [connect] leaves it. *)
Definition connected_repo (O : orders) (x : srepo) : Prop :=
  rev_files_ok (w_disk (rs_w (sr_st x))) /\ scanned O (sr_st x).
Definition sensible (c : repo_cmd) : Prop :=
  match c with CTags a _ _ _ _ _ => a <> AOther | _ => True end.

Lemma bind_found {A} iso spec (k : list rev -> M rst A) s :
  bind (let* s := get in lift (find_revisions (rs_hist s) iso spec))%M k s =
  match find_revisions (rs_hist s) iso spec with Ok l => k l s | Err e => (s, Err e) end.
Proof. unfold bind, get, lift. destruct (find_revisions _ _ _); done. Qed.

Lemma lock_then_none busy (m : M rst unit) s s' r :
  bind (with_backup_lock busy m) (fun _ => ret None) s = (s', Ok r) ->
  busy = false /\ r = (None : option Z) /\ m s = (s', Ok tt).
Proof.
  unfold bind, with_backup_lock. destruct busy; [done|].
  destruct (m s) as [s2 [[]|e]]; [|done]. unfold ret. by intros [= -> ->].
Qed.

Lemma command_ok O iso c x s' r :
  orders_ok O -> connected_repo O x -> sensible c ->
  repo_command O iso c (sr_sched x) (sr_busy x) (sr_st x) = (s', Ok r) ->
  ((default 0 r = 0)%Z /\ carried_out O iso c x (MkSrepo (sr_sched x) (sr_busy x) s')) \/
  (default 0 r = 1)%Z.
Proof.
  intros HO [Hf Hs] Hc Hrun. unfold repo_command in Hrun. destruct c.
  - rewrite bind_found in Hrun. destruct (find_revisions _ _ _) as [l|] eqn:E; [|done].
    injection Hrun as <- <-. left. split; [done|]. split; [done|]. split; [done|]. split; [|done].
    exists l. exact E.
  - rewrite bind_found in Hrun. destruct (find_revisions _ _ _) as [l|] eqn:E; [|done].
    injection Hrun as <- <-. left. split; [done|]. split; [done|]. split; [done|]. split; [|done].
    exists l. exact E.
  - rewrite bind_found in Hrun. destruct (find_revisions _ _ _) as [l|] eqn:E; [|done].
    apply lock_then_none in Hrun as (_ & -> & Hrun). left. split; [done|].
    assert (Hl : forall r, r ∈ l -> r_server r = "").
    { intros r Hr. destruct (decide (r_server r = "")) as [?|Hne]; [done|]. exfalso.
      destruct (C33_remote_refused_partial O iso spec l (sr_st x) HO Hf Hs E) as (H1 & _).
      { by exists r. } rewrite Hrun in H1. discriminate H1. }
    destruct (C33_distrust_partial O iso spec l (sr_st x) HO Hf Hs E Hl) as (H1 & _ & H3).
    rewrite Hrun in H1, H3. cbn [fst] in H1, H3. split; [done|]. split; [exact H3|].
    exists l. split; [exact E|]. split; [exact Hl|]. intros u. cbn [sr_st]. rewrite (H1 u).
    destruct (drevs (sr_st x) !! u) as [y|]; [|done].
    destruct (decide (y ∈ l)) as [Hy|]; [|done]. by rewrite decide_True by auto.
  - rewrite bind_found in Hrun. destruct (find_revisions _ _ _) as [l|] eqn:E; [|done].
    apply lock_then_none in Hrun as (_ & -> & Hrun). left. split; [done|].
    destruct (C31_rm O iso spec l (sr_st x) HO Hf Hs E) as (_ & H2 & H3 & _).
    rewrite Hrun in H2, H3. split; [done|]. split; [exact H3|]. exists l. split; [exact E|exact H2].
  - unfold bind, with_backup_lock in Hrun. destruct (sr_busy x) eqn:Eb; [done|].
    pose proof (C30_tags O iso (sr_sched x) a spec tags expect autoremove force (sr_st x) HO Hf Hc) as HT.
    cbv zeta in HT. destruct (repo_tags _ _ _ _ _ _ _ _ _ _) as [s2 [b|e]]; [|done].
    unfold ret in Hrun. injection Hrun as -> <-. destruct b; [|by right].
    left. split; [done|]. cbn [fst snd] in HT. destruct HT as (HT & Hd & _).
    split; [done|]. split; [exact Hd|].
    destruct (find_revisions _ _ _) as [l|] eqn:E; [|by destruct HT].
    exists l. split; [reflexivity|]. destruct HT as [HT1 HT2].
    assert (Hcond : force = true \/ a = ARemove \/ ~ has_unknown (sr_sched x) tags).
    { destruct force; [by left|]. assert (a = ARemove \/ a <> ARemove) as [->|Ha]
        by (destruct a; first [by left|by right]); [by right; left|].
      right. right. intros Hu. by destruct (HT1 eq_refl Ha Hu). }
    split; [exact Hcond|]. destruct (HT2 Hcond) as [HT3 HT4].
    assert (He : forall r e, r ∈ l -> expect = Some e -> r_tags r = e).
    { intros r e Hr Hex. destruct (decide (r_tags r = e)) as [?|Hne]; [done|]. exfalso.
      destruct HT3 as [HT3 _]; [|done]. by exists r, e. }
    split; [exact He|]. by apply HT4.
Qed.

Lemma on_each_ok O iso c : orders_ok O -> sensible c ->
  forall l code l' n, Forall (connected_repo O) l -> (0 <= code)%Z ->
  on_each (repo_command O iso c) code l = (l', Ok n) ->
  (code <= n)%Z /\ (n <= Z.max code 1)%Z /\ (n = 0%Z -> Forall2 (carried_out O iso c) l l').
Proof.
  intros HO Hc. induction l as [|x l IH]; intros code l' n Hl H0 Hrun; cbn [on_each] in Hrun.
  - injection Hrun as <- <-. split; [lia|]. split; [lia|]. intros _. constructor.
  - apply Forall_cons in Hl as [Hx Hl].
    destruct (repo_command _ _ _ _ _ (sr_st x)) as [s' [r|e]] eqn:E; [|done].
    pose proof (command_ok O iso c x s' r HO Hx Hc E) as Hok.
    assert (Hr : default 0%Z r = 0%Z \/ default 0%Z r = 1%Z)
      by (destruct Hok as [[Hok _]|Hok]; [by left|by right]).
    remember (default 0%Z r) as dr eqn:Edr. clear Edr.
    destruct (on_each _ _ l) as [l2 r2] eqn:E2. injection Hrun as <- ->.
    destruct (IH (Z.max code dr) l2 n Hl ltac:(lia) E2) as (H1 & H2 & H3).
    split; [lia|]. split; [lia|].
    intros ->. destruct Hok as [[Hz Hdone]|Hz]; [|lia]. constructor; [exact Hdone|auto].
Qed.

(** Exit status 0: the command was carried out on every selected repository. *)
Theorem C80_success : forall dry O iso c l l',
  orders_ok O -> sensible c -> Forall (connected_repo O) l ->
  backy dry O iso c l = (l', 0%Z) -> Forall2 (carried_out O iso c) l l'.
Proof.
  intros dry O iso c l l' HO Hc Hl. unfold backy.
  destruct (on_each _ 0 l) as [l2 [n|e]] eqn:E; [|done].
  destruct (on_each_ok O iso c HO Hc l 0 l2 n Hl ltac:(lia) E) as (H1 & H2 & H3).
  intros [= -> Hn]. apply H3. unfold exit_status in Hn. rewrite Z.mod_small in Hn by lia. done.
Qed.
Print Assumptions C80_success.

Lemma on_each_split f : forall l code l' r, on_each f code l = (l', r) ->
  match r with
  | Ok _ => length l' = length l
  | Err e => exists l1 x l2 l1' s', l = l1 ++ x :: l2 /\ length l1' = length l1 /\
      f (sr_sched x) (sr_busy x) (sr_st x) = (s', Err e) /\
      l' = l1' ++ MkSrepo (sr_sched x) (sr_busy x) s' :: l2
  end.
Proof.
  induction l as [|x l IH]; intros code l' r Hrun; cbn [on_each] in Hrun.
  - by injection Hrun as <- <-.
  - destruct (f _ _ (sr_st x)) as [s' [c|e]] eqn:E.
    + destruct (on_each f _ l) as [l2 r2] eqn:E2. injection Hrun as <- <-.
      apply IH in E2. destruct r2 as [n|e].
      * cbn. by rewrite E2.
      * destruct E2 as (l1 & y & l3 & l1' & s2 & -> & H1 & H2 & ->).
        exists (x :: l1), y, l3, (MkSrepo (sr_sched x) (sr_busy x) s' :: l1'), s2.
        split; [done|]. split; [cbn; by rewrite H1|]. done.
    + injection Hrun as <- <-. exists [], x, l, [], s'. done.
Qed.

(** Any other exit status is 1, and if the command failed on some repository, those
    after it are as they were. *)
Theorem C80_failure_partial : forall dry O iso c l l' code,
  orders_ok O -> sensible c -> Forall (connected_repo O) l ->
  backy dry O iso c l = (l', code) -> code <> 0%Z ->
  code = 1%Z /\
  (length l' = length l \/
   exists l1 x l2 l1' x', l = l1 ++ x :: l2 /\ length l1' = length l1 /\ l' = l1' ++ x' :: l2).
Proof.
  intros dry O iso c l l' code HO Hc Hl. unfold backy.
  destruct (on_each _ 0 l) as [l2 r] eqn:E. intros [= -> Hn] H0. subst code.
  pose proof (on_each_split _ _ _ _ _ E) as Hsp. destruct r as [n|e].
  - destruct (on_each_ok O iso c HO Hc l 0 l' n Hl ltac:(lia) E) as (H1 & H2 & H3).
    unfold exit_status in *. rewrite Z.mod_small in * by lia. split; [lia|]. by left.
  - split; [done|]. right. destruct Hsp as (l1 & x & l3 & l1' & s' & ? & ? & ? & ?).
    by exists l1, x, l3, l1', (MkSrepo (sr_sched x) (sr_busy x) s').
Qed.
Print Assumptions C80_failure_partial.

(** The claim that the command is carried out on every selected repository on which it
    can be is false: a repository without the named revision, or one whose lock is
    held, keeps those after it from being treated. *)
Definition reach_all (O : orders) (iso : string -> option Z) (c : repo_cmd) (l l' : list srepo) : Prop :=
  forall k x x', l !! k = Some x -> l' !! k = Some x' ->
  (repo_command O iso c (sr_sched x) (sr_busy x) (sr_st x)).2 = Ok None -> carried_out O iso c x x'.
Definition c80_repo (busy : bool) : srepo :=
  MkSrepo [] busy (scan ex_orders (ex_state [ex_r "a" 100 ["daily"] ""])).1.
Theorem C80_refuted :
  let l := [c80_repo true; c80_repo false] in
  let iso := (fun _ : string => (None : option Z)) in
  Forall (connected_repo ex_orders) l /\
  ~ reach_all ex_orders iso (CRm "all") l (backy false ex_orders iso (CRm "all") l).1.
Proof.
  cbv zeta.
  assert (Hok : forall b, connected_repo ex_orders (c80_repo b)).
  { intros b. split; [|reflexivity]. intros n r Hn.
    change (w_disk (rs_w (sr_st (c80_repo b)))) with (ex_disk [ex_r "a" 100 ["daily"] ""]) in Hn.
    apply elem_of_list_to_map_2 in Hn.
    repeat (apply elem_of_cons in Hn as [[= -> ->]|Hn]; [done|]). apply elem_of_nil in Hn. done. }
  split; [by repeat apply Forall_cons_2|].
  intros H. destruct (H 1%nat (c80_repo false) (c80_repo false)) as (_ & _ & revs & Hr & Hc).
  - reflexivity.
  - vm_compute. reflexivity.
  - vm_compute. reflexivity.
  - vm_compute in Hr. injection Hr as <-. specialize (Hc "a"). vm_compute in Hc. discriminate.
Qed.
Print Assumptions C80_refuted.

(** A concrete command over two repositories. *)
Example ex_C80 :
  let l := [c80_repo false; c80_repo false] in
  let '(l', code) := backy false ex_orders (fun _ => None) (CRm "tag:daily") l in
  (code, map (fun x => map fst (map_to_list (drevs (sr_st x)))) l') = (0%Z, [[]; []]).
Proof. vm_compute. reflexivity. Qed.

(** * C81.  --dry-run: "Do not modify state." *)
Definition untouched (l l' : list srepo) : Prop :=
  Forall2 (fun x x' => w_disk (rs_w (sr_st x')) = w_disk (rs_w (sr_st x))) l l'.
(** False: the option is never looked at. *)
Theorem C81_refuted : forall O iso c l, backy true O iso c l = backy false O iso c l.
Proof. done. Qed.
Theorem C81_rm_refuted :
  let l := [c80_repo false] in
  ~ untouched l (backy true ex_orders (fun _ => None) (CRm "all") l).1.
Proof.
  cbv zeta. intros H. apply Forall2_cons in H as [H _].
  apply (f_equal (fun d => map_to_list (d_revs d))) in H. vm_compute in H. discriminate.
Qed.
Print Assumptions C81_rm_refuted.
(** Commands that only show something do not modify anything, with or without it. *)
Theorem C81_reading_partial : forall dry O iso c l,
  (exists spec, c = CRevParse spec \/ c = CLog spec) ->
  untouched l (backy dry O iso c l).1.
Proof.
  intros dry O iso c l Hc. unfold backy, untouched.
  assert (H : forall code, Forall2 (fun x x' => w_disk (rs_w (sr_st x')) = w_disk (rs_w (sr_st x)))
    l (on_each (repo_command O iso c) code l).1).
  { induction l as [|x l IH]; intros code; cbn [on_each]; [constructor|].
    assert (E : (repo_command O iso c (sr_sched x) (sr_busy x) (sr_st x)).1 = sr_st x).
    { destruct Hc as [spec [-> | ->]]; unfold repo_command; rewrite bind_found;
        destruct (find_revisions _ _ _); done. }
    destruct (repo_command _ _ _ _ _ _) as [s' [r|e]]; cbn [fst] in E; subst s'.
    - specialize (IH (Z.max code (default 0%Z r))). destruct (on_each _ _ l) as [l' r'].
      cbn. constructor; [done|exact IH].
    - cbn. constructor; [done|]. clear. induction l; by constructor. }
  specialize (H 0%Z). destruct (on_each _ _ l) as [l' r]. exact H.
Qed.
Print Assumptions C81_reading_partial.

(** * C82.  Commands that overlap.  A command reads the revisions when it starts;
    [d0] is the directory then.  Meanwhile another command completes a change and
    leaves [d1].  Then the first one carries on, which gives [d2].  It undoes the other's change of
    revision [u] if the other one changed its tags (or removed it), and [d2] has the
    tags of [d0] again. *)
Definition undone (d0 d1 d2 : disk) (u : string) : Prop :=
  let tags d := r_tags <$> (d_revs d !! u) in
  tags d1 <> tags d0 /\ tags d2 = tags d0.
(** The state of a command that read the revisions in [d0] and goes on in [d1]. *)
Definition carries_on (O : orders) (d0 d1 : disk) : rst :=
  MkRst (MkWorld d1 [] ∅ false) (scan_disk O d0) [].

(** tags and expire read the directory again under the lock: what was read at the
    start has no influence. *)
Theorem C82_tags_partial : forall O iso S0 a spec tags expect autoremove force d0 d0' d1,
  repo_tags O iso S0 a spec tags expect autoremove force (carries_on O d0 d1) =
  repo_tags O iso S0 a spec tags expect autoremove force (carries_on O d0' d1).
Proof. intros. by rewrite !repo_tags_eq. Qed.
Print Assumptions C82_tags_partial.
Theorem C82_expire_partial : forall O iso now S0 d0 d0' d1,
  expire O iso now S0 (carries_on O d0 d1) = expire O iso now S0 (carries_on O d0' d1).
Proof. reflexivity. Qed.
Print Assumptions C82_expire_partial.

(** rm of local revisions only removes: nothing of the others comes back, whatever
    happened since they were looked up. *)
Theorem C82_rm_partial : forall O d0 d1 revs,
  (forall r, r ∈ revs -> r_server r = "") ->
  let s' := (repo_rm revs (carries_on O d0 d1)).1 in
  forall u, drevs s' !! u =
    (if decide (u ∈ map r_uuid revs) then None else d_revs d1 !! u).
Proof.
  intros O d0 d1 revs Hl.
  assert (H : forall s, (repo_rm revs s).2 = Ok tt /\ forall u, drevs (repo_rm revs s).1 !! u =
    (if decide (u ∈ map r_uuid revs) then None else drevs s !! u)).
  { induction revs as [|r l IH]; intros s.
    { split; [done|]. intros u. by rewrite decide_False by apply not_elem_of_nil. }
    assert (Hr : is_local r = true) by (apply bool_decide_eq_true; apply Hl; left).
    assert (E : exists s1, rev_remove false r s = (s1, Ok tt) /\ drevs s1 = delete (r_uuid r) (drevs s)).
    { unfold rev_remove. rewrite Hr. cbn [negb andb]. unfold bind at 1, get at 1.
      destruct (bool_decide_reflect (is_Some (drevs s !! r_uuid r))) as [Hs|Hs].
      - eexists. split; [reflexivity|]. reflexivity.
      - eexists. split; [reflexivity|]. cbn. rewrite delete_notin; [done|]. by apply eq_None_not_Some. }
    destruct E as (s1 & E1 & E2). unfold repo_rm. cbn [mfor]. unfold bind. rewrite E1.
    destruct (IH ltac:(intros x Hx; apply Hl; by right) s1) as [I1 I2]. split; [exact I1|].
    intros u. change (mfor l (rev_remove false) s1) with (repo_rm l s1). rewrite (I2 u), E2. cbn [map].
    destruct (decide (u = r_uuid r)) as [->|Hne].
    - rewrite lookup_delete, (decide_True (P := r_uuid r ∈ r_uuid r :: _)) by left. by destruct (decide _).
    - rewrite lookup_delete_ne by done. destruct (decide (u ∈ map r_uuid l)) as [Hin|Hin].
      + by rewrite decide_True by by right.
      + rewrite decide_False; [done|]. intros H. apply elem_of_cons in H as [?|?]; done. }
  intros s' u. apply H.
Qed.
Print Assumptions C82_rm_partial.

(** distrust writes back what it read at the start: tags set meanwhile are lost. *)
Definition c82_d0 : disk := ex_disk [ex_r "a" 100 ["daily"] ""].
Definition c82_d1 : disk :=
  w_disk (rs_w (repo_tags ex_orders (fun _ => None) [] ASet "all" {["manual:keep"]} None false false
                  (carries_on ex_orders c82_d0 c82_d0)).1).
Definition c82_s2 : rst * res (option Z) :=
  repo_command ex_orders (fun _ => None) (CDistrust "all") [] false (carries_on ex_orders c82_d0 c82_d1).
Lemma tags_eq (x y : option rev) :
  elements <$> (r_tags <$> x) = elements <$> (r_tags <$> y) -> r_tags <$> x = r_tags <$> y.
Proof.
  destruct x as [x|], y as [y|]; cbn; try done. intros [= H]. f_equal.
  apply leibniz_equiv. intros t. rewrite <- (elem_of_elements (r_tags x)), H. apply elem_of_elements.
Qed.
Theorem C82_distrust_refuted :
  c82_s2.2 = Ok None /\ undone c82_d0 c82_d1 (w_disk (rs_w c82_s2.1)) "a".
Proof.
  split; [vm_compute; reflexivity|]. split.
  - intros H. apply (f_equal (fmap elements)) in H. vm_compute in H. discriminate.
  - apply tags_eq. vm_compute. reflexivity.
Qed.
Print Assumptions C82_distrust_refuted.

(** verify holds no lock that rm, tags or expire want, and writes the metadata back when it
    is done: a revision removed meanwhile is there again. *)
Definition c82_disk : disk :=
  MkDisk (d_chunks PBackup.ex_disk) (d_maps PBackup.ex_disk) {[ "old" := PBackup.ex_old ]}.
Definition c82_verify : rst * res unit :=
  verify ex_env PBackup.ex_O PBackup.ex_old (carries_on PBackup.ex_O c82_disk c82_disk).
Definition c82_rm : rst * res unit :=
  repo_rm [PBackup.ex_old] (carries_on PBackup.ex_O c82_disk c82_disk).
Theorem C82_verify_refuted :
  (forall t m m', (t, m) ∈ declared Verify -> (t, m') ∈ declared Rm -> False) /\
  c82_verify.2 = Ok tt /\ c82_rm.2 = Ok tt /\
  (* all effects of rm come between verify's reading and its writing *)
  let d1 := replay (w_log (rs_w c82_rm.1)) c82_disk in
  let d2 := replay (w_log (rs_w c82_verify.1)) d1 in
  d_revs d1 !! "old" = None /\
  undone c82_disk d1 d2 "old".
Proof.
  split.
  { intros t m m' H1 H2. cbn in H1, H2. apply elem_of_list_singleton in H1, H2. congruence. }
  split; [vm_compute; reflexivity|]. split; [vm_compute; reflexivity|]. cbv zeta.
  split; [vm_compute; reflexivity|]. split.
  - intros H. apply (f_equal (fmap elements)) in H. vm_compute in H. discriminate.
  - apply tags_eq. vm_compute. reflexivity.
Qed.
Print Assumptions C82_verify_refuted.
