(** C107, C108: every job has a directory of its own, and its processes work on
    the source that is configured for it. *)
From Verif Require Import Model.JobDirs Proofs.BaseLemmas.

(** ** Vocabulary *)
Definition has_slash (s : string) : bool := existsb (fun a => Ascii.eqb a "/") (String.list_ascii_of_string s).
(** A name that is one component of a path. *)
Definition plain (n : string) : Prop := n <> "" /\ n <> "." /\ n <> ".." /\ has_slash n = false.
(** The entries of "jobs" the daemon was told last. *)
Definition told (e : jdevent) : option (list string * list (yval * section)) :=
  match e with JdStart b _ l | JdReload b _ l => Some (b, l) | JdDelete _ => None end.
Definition in_force (evs : list jdevent) : option (list string * list (yval * section)) :=
  last (omap told evs).
(** Every configuration so far: its base directory is a path without oddities, its
    job names are such names, and no name occurs twice (it is a YAML mapping). *)
Definition names_ok (evs : list jdevent) : Prop :=
  forall b l, (b, l) ∈ omap told evs ->
    Forall plain b /\ NoDup (map fst l) /\ forall n c, (YText n, c) ∈ l -> plain n.
(** YAML files are read as they were written. *)
Definition yaml_ok (dump : jfile -> bytes) (load : bytes -> option jfile) : Prop :=
  forall x, load (dump x) = Some x.

(** ** Paths *)
Lemma split_plain n : has_slash n = false -> split_slash n = [n].
Proof.
  unfold has_slash; induction n as [|a n IH]; [done|]; cbn; intros H.
  apply orb_false_iff in H as [Ha H]. rewrite (IH H), Ha; done.
Qed.
Lemma split_nonempty s : split_slash s <> [].
Proof. induction s as [|a s IH]; cbn; [done|]. destruct (split_slash s); [done|]. by case_match. Qed.
Lemma split_app s n : split_slash (s +:+ String "/" n) = split_slash s ++ split_slash n.
Proof.
  induction s as [|a s IH].
  - change ("" +:+ String "/" n) with (String "/" n). cbn [split_slash].
    destruct (split_slash n) eqn:E; [by destruct (split_nonempty n)|]. reflexivity.
  - change (String a s +:+ String "/" n) with (String a (s +:+ String "/" n)). cbn [split_slash].
    rewrite IH. destruct (split_slash s) eqn:E; [by destruct (split_nonempty s)|]. cbn.
    by destruct (Ascii.eqb a "/").
Qed.
Lemma plain_parts n : plain n -> parts_of n = [n].
Proof.
  intros (H1 & H2 & H3 & H4). unfold parts_of; rewrite split_plain by done; cbn.
  unfold real_part. by rewrite !bool_decide_eq_false_2 by done.
Qed.
Lemma plain_rel n : plain n -> is_abs n = false.
Proof.
  intros (H1 & H2 & H3 & H4). unfold is_abs, has_slash in *. destruct n as [|a n]; [done|].
  cbn [existsb String.list_ascii_of_string] in H4.
  apply orb_false_iff in H4 as [Ha _]. apply Ascii.eqb_neq in Ha.
  cbn [String.prefix]. destruct (Ascii.ascii_dec "/" a) as [E|]; [by destruct Ha|reflexivity].
Qed.
Lemma place_plain b n : plain n -> place b n = b ++ [n].
Proof.
  intros H. unfold place; rewrite plain_rel, plain_parts by done. unfold walk; cbn.
  by rewrite bool_decide_eq_false_2 by apply H.
Qed.
Lemma walk_plain b l : Forall (fun w => w <> "..") l -> walk b l = b ++ l.
Proof.
  revert b; induction l as [|w l IH]; intros b H; [by rewrite app_nil_r|].
  inversion_clear H as [|? ? Hw Hl]. unfold walk in *; cbn.
  rewrite bool_decide_eq_false_2 by done. rewrite IH by done. by rewrite <- app_assoc.
Qed.
Lemma parts_app s n : parts_of (s +:+ String "/" n) = parts_of s ++ parts_of n.
Proof. unfold parts_of. by rewrite split_app, List.filter_app. Qed.
Lemma joined_parts l : Forall plain l -> parts_of (joined_slash l) = l.
Proof.
  induction l as [|w l IH]; [done|]; intros H. inversion_clear H as [|? ? Hw Hl].
  destruct l as [|v l]; [by apply plain_parts|].
  change (joined_slash (w :: v :: l)) with (w +:+ String "/" (joined_slash (v :: l))).
  rewrite parts_app, plain_parts, IH; done.
Qed.
Lemma text_place l : Forall plain l -> place [] (path_text l) = l.
Proof.
  intros H. unfold place, path_text. cbn [is_abs].
  assert (is_abs (String "/" (joined_slash l)) = true) as ->.
  { unfold is_abs. cbn. by destruct (joined_slash l). }
  change (String "/" (joined_slash l)) with ("" +:+ String "/" (joined_slash l)).
  rewrite parts_app, joined_parts by done.
  change (parts_of "") with (@nil string). rewrite app_nil_l.
  rewrite walk_plain; [done|]. eapply Forall_impl; [exact H|]. intros x Hx; apply Hx.
Qed.

(** C107: jobs with different names have different directories, right below the base
    directory, and none is inside another. *)
Theorem C107_own_partial : forall base n n',
  plain n -> plain n' -> n <> n' ->
  place base n = base ++ [n] /\ ~ place base n `prefix_of` place base n'.
Proof.
  intros b n n' H H' Hne. rewrite !place_plain by done. split; [done|].
  intros Hp. apply prefix_app_inv in Hp. apply prefix_cons_inv_1 in Hp. done.
Qed.
Example ex_C107 : place ["srv"; "backy"] "vm-1.disk" = ["srv"; "backy"; "vm-1.disk"] /\
  plain "vm-1.disk" /\ plain "..." /\ "vm-1.disk" <> "...".
Proof. split; [vm_compute; reflexivity|]. repeat split; done. Qed.
Print Assumptions C107_own_partial.

(** Which names share a directory, exactly: those that differ only in slashes and
    dots between slashes. *)
Theorem C107_shared : forall base n n',
  is_abs n = false -> is_abs n' = false -> ".." ∉ split_slash n -> ".." ∉ split_slash n' ->
  place base n = place base n' <-> parts_of n = parts_of n'.
Proof.
  intros b n n' A A' D D'. unfold place; rewrite A, A'.
  assert (forall m, ".." ∉ split_slash m -> Forall (fun w => w <> "..") (parts_of m)) as H.
  { intros m Hm. apply Forall_forall. intros w Hw ->. unfold parts_of in Hw.
    apply elem_of_list_In, filter_In in Hw as [Hw _]. apply elem_of_list_In in Hw. done. }
  rewrite !walk_plain by auto. split; [|by intros ->]. apply app_inv_head.
Qed.
Example ex_C107_shared : place ["srv"] "a//b/." = place ["srv"] "a/b" /\ place ["srv"] "a" <> place ["srv"] "b".
Proof. split; vm_compute; [reflexivity|discriminate]. Qed.
Print Assumptions C107_shared.

(** Refuted for arbitrary names: two jobs in one directory, a job inside another one,
    a job that is the base directory itself, and one outside of it. *)
Theorem C107_refuted :
  place ["srv"] "vm" = place ["srv"] "vm/." /\ "vm" <> "vm/." /\
  place ["srv"] "vm" `prefix_of` place ["srv"] "vm/chunks" /\
  place ["srv"] "." = ["srv"] /\ place ["srv"] "/etc" = ["etc"] /\ place ["srv"] "../etc" = ["etc"].
Proof.
  split; [vm_compute; reflexivity|]. split; [discriminate|]. split; [exists ["chunks"]; vm_compute; reflexivity|].
  repeat split; vm_compute; reflexivity.
Qed.
Print Assumptions C107_refuted.

Section Proofs.
Context (dump : jfile -> bytes) (load : bytes -> option jfile).
Local Notation jdstep := (jdstep dump).
Local Notation jdrun := (jdrun dump).
Local Notation apply_all := (apply_all dump).
Local Notation apply_one := (apply_one dump).
Local Notation file_of := (fun d c => dump (MkJfile (path_text d) (se_source c) (se_schedule c))).

(** The directory of a job is [b ++ [n]]; its file, if there is one, is that of its
    last configuration. *)
Definition inv_job (fs : jdirs) (n : string) (j : jjob) : Prop :=
  plain n /\ (exists b, Forall plain b /\ jj_dir j = b ++ [n]) /\
  forall c, jj_last j = Some c ->
    default None (fs !! jj_dir j) = None \/ default None (fs !! jj_dir j) = Some (file_of (jj_dir j) c).
Definition inv (jobs : gmap string jjob) (fs : jdirs) : Prop :=
  forall n j, jobs !! n = Some j -> inv_job fs n j.

Lemma mkdir_same p fs fs' : mkdir p fs = Ok fs' -> forall q, default None (fs' !! q) = default None (fs !! q).
Proof.
  unfold mkdir. intros H q. destruct (fs !! p) eqn:E; [by injection H as <-|].
  destruct p as [|w p]; [by injection H as <-|]. case_match; [|done]. injection H as <-.
  destruct (decide (q = w :: p)) as [->|Hq]; [by rewrite lookup_insert, E|by rewrite lookup_insert_ne].
Qed.
Lemma configure_spec fl j c fs fs' r :
  configure dump fl j c fs = (fs', r) ->
  (forall q, q <> jj_dir j -> default None (fs' !! q) = default None (fs !! q)) /\
  match r with
  | Ok j' => j' = MkJjob (jj_dir j) (Some c) /\ fs' !! jj_dir j = Some (Some (file_of (jj_dir j) c))
  | Err _ => default None (fs' !! jj_dir j) = default None (fs !! jj_dir j)
  end.
Proof.
  unfold configure. destruct (mkdir (jj_dir j) fs) as [fs1|e] eqn:M; [|intros [= <- <-]; done].
  pose proof (mkdir_same _ _ _ M) as S.
  unfold store_config. rewrite S.
  destruct (default None (fs !! jj_dir j)) as [old|] eqn:O.
  - case_decide; intros H'; injection H' as <- <-.
    + split; [intros q Hq; rewrite lookup_insert_ne by done; apply S|]. by rewrite lookup_insert.
    + split; [intros q Hq; rewrite lookup_insert_ne by done; apply S|]. by rewrite lookup_insert.
  - intros H'; injection H' as <- <-.
    split; [intros q Hq; rewrite lookup_insert_ne by done; apply S|]. by rewrite lookup_insert.
Qed.
Lemma dirs_differ n n' (j j' : jjob) b b' : n <> n' -> jj_dir j = b ++ [n] -> jj_dir j' = b' ++ [n'] -> jj_dir j <> jj_dir j'.
Proof. intros Hn -> -> H. apply app_inj_tail in H as [_ ?]; done. Qed.
Lemma apply_one_spec b fl k c jobs fs jobs' fs' r :
  Forall plain b -> (forall n, k = YText n -> plain n) -> inv jobs fs ->
  apply_one b fl k c jobs fs = (jobs', fs', r) ->
  inv jobs' fs' /\ (forall m, k <> YText m -> jobs' !! m = jobs !! m) /\
  (r = Ok tt -> exists n j, k = YText n /\ jobs' !! n = Some j /\ jj_last j = Some c).
Proof.
  intros Hb Hk HI. destruct k as [n| | |]; cbn [apply_one]; [|intros [= <- <- <-]; done..].
  specialize (Hk n eq_refl). unfold JobDirs.apply_one.
  set (j := match jobs !! n with Some j => j | None => _ end).
  assert (inv_job fs n j) as Hj.
  { subst j. destruct (jobs !! n) eqn:E; [by apply HI|]. split; [done|]. cbn. split; [|done].
    exists b. split; [done|by apply place_plain]. }
  case_bool_decide as HL.
  - intros [= <- <- <-]. split; [done|]. split; [done|]. intros _. exists n, j. split; [done|].
    split; [|done]. subst j. destruct (jobs !! n) eqn:E; [done|]. cbn in HL; done.
  - destruct (configure dump (fl n) j c fs) as [fs1 r1] eqn:C.
    apply configure_spec in C as [Ho Hr].
    destruct Hj as (Hp & (b0 & Hb0 & Hd) & Hl).
    assert (forall j1, jj_dir j1 = jj_dir j ->
      (forall c1, jj_last j1 = Some c1 -> default None (fs1 !! jj_dir j) = None \/
         default None (fs1 !! jj_dir j) = Some (file_of (jj_dir j) c1)) -> inv (<[n := j1]> jobs) fs1) as HI'.
    { intros j1 Hd1 Hf m jm Hm. destruct (decide (m = n)) as [->|Hmn].
      - rewrite lookup_insert in Hm. injection Hm as <-. split; [done|]. rewrite Hd1. split; [by exists b0|]. done.
      - rewrite lookup_insert_ne in Hm by done. destruct (HI _ _ Hm) as (Hpm & (bm & Hbm & Hdm) & Hlm).
        split; [done|]. split; [by exists bm|]. intros c1 Hc1. rewrite Ho; [by apply Hlm|].
        by eapply dirs_differ. }
    assert (forall j1 m, YText n <> YText m -> (<[n := j1]> jobs) !! m = jobs !! m) as Hs.
    { intros j1 m Hm. apply lookup_insert_ne. congruence. }
    destruct r1 as [j'|e]; intros [= <- <- <-].
    + destruct Hr as [-> Hf]. split; [|split; [apply Hs|]].
      * apply HI'; [done|]. cbn. intros c1 [= <-]. right. by rewrite Hf.
      * intros _. eexists n, _. split; [done|]. rewrite lookup_insert. done.
    + split; [|split; [apply Hs|done]]. apply HI'; [done|]. intros c1 Hc1. rewrite Hr. by apply Hl.
Qed.
Lemma apply_all_spec b fl l : forall jobs fs jobs' fs' r,
  Forall plain b -> (forall n c, (YText n, c) ∈ l -> plain n) -> NoDup (map fst l) -> inv jobs fs ->
  apply_all b fl l jobs fs = (jobs', fs', r) ->
  inv jobs' fs' /\ (forall m, YText m ∉ map fst l -> jobs' !! m = jobs !! m) /\
  (r = Ok tt -> forall k c, (k, c) ∈ l -> exists n j, k = YText n /\ jobs' !! n = Some j /\ jj_last j = Some c).
Proof.
  induction l as [|[k c] l IH]; intros jobs fs jobs' fs' r Hb Hl Hn HI; cbn.
  - intros [= <- <- <-]. split; [done|]. split; [done|]. intros _ k c Hk. by apply elem_of_nil in Hk.
  - inversion_clear Hn as [|? ? Hnot Hnd].
    destruct (apply_one b fl k c jobs fs) as [[jobs1 fs1] r1] eqn:A.
    apply apply_one_spec in A as (HI1 & Hs1 & Hr1); [|done| |done].
    2:{ intros n ->. apply (Hl n c). left. }
    destruct r1 as [[]|e].
    + intros H. apply IH in H as (HI2 & Hs2 & Hr2); [|done| |done|done].
      2:{ intros n c' Hin. apply (Hl n c'). by right. }
      split; [done|]. split.
      * intros m Hm. apply not_elem_of_cons in Hm as [Hm1 Hm2]. rewrite Hs2 by done. apply Hs1. congruence.
      * intros -> k' c' Hin. apply elem_of_cons in Hin as [[= -> ->]|Hin]; [|by apply Hr2].
        destruct (Hr1 eq_refl) as (n & j & -> & Hj & Hc). exists n, j. split; [done|]. split; [|done].
        by rewrite Hs2.
    + intros [= <- <- <-]. split; [done|]. split; [|done]. intros m Hm. apply not_elem_of_cons in Hm as [Hm1 Hm2].
      apply Hs1. congruence.
Qed.
(** What the daemon was told is in effect. *)
Definition effective (s : jdaemon) (l : list (yval * section)) : Prop :=
  forall k c, (k, c) ∈ l -> exists n j, k = YText n /\ jd_jobs s !! n = Some j /\ jj_last j = Some c.
Lemma apply_cfg_spec b fl l jobs fs :
  Forall plain b -> (forall n c, (YText n, c) ∈ l -> plain n) -> NoDup (map fst l) -> inv jobs fs ->
  let s := apply_cfg dump b fl l jobs fs in
  inv (jd_jobs s) (jd_fs s) /\ (jd_up s = true -> effective s l /\
     forall n, is_Some (jd_jobs s !! n) -> YText n ∈ map fst l).
Proof.
  intros Hb Hl Hn HI s. subst s. unfold apply_cfg.
  destruct (apply_all b fl l jobs fs) as [[jobs1 fs1] r] eqn:A.
  apply apply_all_spec in A as (HI1 & Hs & Hr); [|done..].
  destruct r as [[]|e]; cbn; [|done]. split.
  - intros n j Hj. apply map_filter_lookup_Some in Hj as [Hj _]. by apply HI1.
  - intros _. split.
    + intros k c Hk. destruct (Hr eq_refl k c Hk) as (n & j & -> & Hj & Hc). exists n, j.
      split; [done|]. split; [|done]. apply map_filter_lookup_Some. split; [done|]. cbn.
      apply elem_of_list_fmap. by exists (YText n, c).
    + intros n [j Hj]. by apply map_filter_lookup_Some in Hj as [_ Hj].
Qed.
Lemma run_snoc fs evs e : jdrun fs (evs ++ [e]) = jdstep (jdrun fs evs) e.
Proof. unfold JobDirs.jdrun. by rewrite fold_left_app. Qed.
Lemma run_inv fs evs : names_ok evs ->
  let s := jdrun fs evs in
  inv (jd_jobs s) (jd_fs s) /\
  (jd_up s = true -> exists b l, in_force evs = Some (b, l) /\ NoDup (map fst l) /\ effective s l /\
     forall n, is_Some (jd_jobs s !! n) -> YText n ∈ map fst l).
Proof.
  induction evs as [|e evs IH] using rev_ind; intros Hn.
  { split; [|done]. intros n j Hj. cbn in Hj. by rewrite lookup_empty in Hj. }
  assert (names_ok evs) as Hn'.
  { intros b l Hbl. apply Hn. rewrite omap_app. apply elem_of_app; by left. }
  specialize (IH Hn') as [HI HU].
  assert (forall b l, told e = Some (b, l) -> in_force (evs ++ [e]) = Some (b, l) /\
    Forall plain b /\ NoDup (map fst l) /\ forall n c, (YText n, c) ∈ l -> plain n) as HT.
  { intros b l Ht. split.
    - unfold in_force. rewrite omap_app. cbn. rewrite Ht. by rewrite last_snoc.
    - apply Hn. rewrite omap_app. apply elem_of_app; right. cbn. rewrite Ht. by left. }
  cbn zeta. rewrite run_snoc. destruct e as [b fl l|b fl l|p]; cbn [JobDirs.jdstep].
  - destruct (HT b l eq_refl) as (Hf & Hb & Hd & Hp).
    destruct (apply_cfg_spec b fl l ∅ (jd_fs (jdrun fs evs))) as [H1 H2]; [done..| |].
    { intros n j Hj. by rewrite lookup_empty in Hj. }
    split; [done|]. intros Hu. exists b, l. specialize (H2 Hu) as [??]. done.
  - destruct (HT b l eq_refl) as (Hf & Hb & Hd & Hp).
    destruct (jd_up (jdrun fs evs)) eqn:Up.
    + destruct (apply_cfg_spec b fl l (jd_jobs (jdrun fs evs)) (jd_fs (jdrun fs evs))) as [H1 H2]; [done..|].
      split; [done|]. intros Hu. exists b, l. specialize (H2 Hu) as [??]. done.
    + split; [done|]. rewrite Up. done.
  - cbn. split.
    + intros n j Hj. destruct (HI n j Hj) as (H1 & H2 & H3). split; [done|]. split; [done|].
      intros c Hc. set (d := jj_dir j). destruct (decide (take (length p) d <> p)) as [Hk|Hk].
      * assert (filter (fun x => take (length p) x.1 <> p) (jd_fs (jdrun fs evs)) !! d = jd_fs (jdrun fs evs) !! d) as ->.
        { destruct (jd_fs (jdrun fs evs) !! d) eqn:E.
          - apply map_filter_lookup_Some. done.
          - apply map_filter_lookup_None. by left. }
        by apply H3.
      * left. assert (filter (fun x => take (length p) x.1 <> p) (jd_fs (jdrun fs evs)) !! d = None) as ->; [|done].
        apply map_filter_lookup_None. right. intros x Hx. done.
    + intros Hu. destruct (HU Hu) as (b & l & Hf & Hd & He & Hk). exists b, l. split; [|done].
      unfold in_force in *. rewrite omap_app. cbn. by rewrite app_nil_r.
Qed.
(** A start: every job is configured. *)
Definition at_base (b : list string) (jobs : gmap string jjob) : Prop :=
  forall n j, jobs !! n = Some j -> jj_dir j = b ++ [n].
Lemma base_differ (b : list string) n m : n <> m -> b ++ [n] <> b ++ [m].
Proof. intros Hn H. apply app_inj_tail in H as [_ ?]; done. Qed.
Lemma apply_fresh b fl l : forall jobs fs jobs' fs',
  (forall n c, (YText n, c) ∈ l -> plain n) -> NoDup (map fst l) -> at_base b jobs ->
  apply_all b fl l jobs fs = (jobs', fs', Ok tt) ->
  (forall m, YText m ∉ map fst l -> jobs' !! m = jobs !! m /\
     default None (fs' !! (b ++ [m])) = default None (fs !! (b ++ [m]))) /\
  (forall n c, (YText n, c) ∈ l -> jobs !! n = None ->
     jobs' !! n = Some (MkJjob (b ++ [n]) (Some c)) /\
     default None (fs' !! (b ++ [n])) = Some (file_of (b ++ [n]) c)).
Proof.
  induction l as [|[k c] l IH]; intros jobs fs jobs' fs' Hl Hn HB; cbn.
  { intros [= <- <-]. split; [done|]. intros n c Hin. by apply elem_of_nil in Hin. }
  inversion_clear Hn as [|? ? Hnot Hnd]. destruct k as [n| | |]; cbn [JobDirs.apply_one]; [|done..].
  assert (plain n) as Hp by (apply (Hl n c); left).
  assert (forall n c, (YText n, c) ∈ l -> plain n) as Hl' by (intros m cm Hm; apply (Hl m cm); by right).
  set (j := match jobs !! n with Some j => j | None => _ end).
  assert (jj_dir j = b ++ [n]) as Hd.
  { subst j. destruct (jobs !! n) eqn:E; [by apply HB|]. by apply place_plain. }
  case_bool_decide as HL.
  - intros H. apply IH in H as [H1 H2]; [|done..]. split.
    + intros m Hm. apply not_elem_of_cons in Hm as [_ Hm]. by apply H1.
    + intros m cm Hm Hnone. apply elem_of_cons in Hm as [[= -> ->]|Hm]; [|by apply H2].
      subst j. rewrite Hnone in HL. done.
  - destruct (configure dump (fl n) j c fs) as [fs1 [j1|e]] eqn:C; [|done].
    apply configure_spec in C as [Ho [-> Hf]]. rewrite Hd in *.
    intros H. apply IH in H as [H1 H2]; [| done | done |].
    2:{ intros m jm Hm. destruct (decide (m = n)) as [->|Hmn].
        - rewrite lookup_insert in Hm. by injection Hm as <-.
        - rewrite lookup_insert_ne in Hm by done. by apply HB. }
    split.
    + intros m Hm. apply not_elem_of_cons in Hm as [Hm1 Hm]. destruct (H1 m Hm) as [-> ->].
      rewrite lookup_insert_ne by congruence. split; [done|]. apply Ho. apply base_differ. congruence.
    + intros m cm Hm Hnone. apply elem_of_cons in Hm as [[= -> ->]|Hm].
      * destruct (H1 n Hnot) as [-> ->]. rewrite lookup_insert, Hf. done.
      * apply H2; [done|]. rewrite lookup_insert_ne; [done|]. intros ->.
        apply Hnot. apply elem_of_list_fmap. by exists (YText m, cm).
Qed.
End Proofs.

(** In the daemon: each job is in its own directory, below the base directory that was
    configured when the job appeared. *)
Theorem C107_jobs_partial : forall dump fs evs n j,
  names_ok evs -> jd_jobs (jdrun dump fs evs) !! n = Some j ->
  (exists b, jj_dir j = b ++ [n]) /\
  forall n' j', n' <> n -> jd_jobs (jdrun dump fs evs) !! n' = Some j' -> jj_dir j' <> jj_dir j.
Proof.
  intros dump fs evs n j Hn Hj. destruct (run_inv dump fs evs Hn) as [HI _].
  destruct (HI n j Hj) as (_ & (b & _ & Hb) & _). split; [by exists b|].
  intros n' j' Hne Hj'. destruct (HI n' j' Hj') as (_ & (b' & _ & Hb') & _). by eapply dirs_differ.
Qed.
Print Assumptions C107_jobs_partial.

(** A job name that YAML does not read as a text (123, yes, null) keeps the whole
    daemon from starting. *)
Theorem C107_only_text_refuted : forall dump s base fl l k c,
  (k, c) ∈ l -> (forall n, k <> YText n) ->
  jd_up (jdstep dump s (JdStart base fl l)) = false.
Proof.
  intros dump s base fl l k c Hin Hk. cbn. unfold apply_cfg.
  assert (forall jobs fs, exists x y e, apply_all dump base fl l jobs fs = (x, y, Err e)) as H.
  { induction l as [|[k' c'] l IH]; intros jobs fs; [by apply elem_of_nil in Hin|].
    apply elem_of_cons in Hin as [[= <- <-]|Hin].
    - destruct k as [n| | |]; [by destruct (Hk n)|..]; cbn; by eexists _, _, _.
    - cbn. destruct (apply_one dump base fl k' c' jobs fs) as [[jobs1 fs1] [u|e]]; [|by eexists _, _, _].
      by apply IH. }
  destruct (H ∅ (jd_fs s)) as (x & y & e & ->). done.
Qed.
Print Assumptions C107_only_text_refuted.

(** The program and what it works on, as the section of the configuration says it. *)
Definition as_configured (c : ymap) (exe : string) (o : origin) : Prop :=
  (c !! "type" = Some (YText "rbd") /\ exe = "backy-rbd" /\
   exists pool image full,
     c !! "pool" = Some pool /\ c !! "image" = Some image /\
     (c !! "full-always" = Some full \/ c !! "full-always" = None /\ full = YBool false) /\
     o = ORbd pool image (c !! "vm") (c !! "consul_acl_token") full) \/
  (c !! "type" = Some (YText "file") /\ exe = "backy-file" /\
   exists f, c !! "filename" = Some f /\ o = OFile f).

Lemma configured_iff c exe o :
  as_configured c exe o <-> subcommand c = Ok exe /\ create_source exe c = Ok o.
Proof.
  unfold as_configured, subcommand, create_source, need. split.
  - intros [(Ht & -> & pool & image & full & Hp & Hi & Hf & ->)|(Ht & -> & f & Hf & ->)].
    + rewrite Ht. split; [done|]. rewrite bool_decide_true by done. cbn [res_bind].
      rewrite bool_decide_true by done. rewrite Hp, Hi. cbn [res_bind].
      destruct Hf as [->|[-> ->]]; done.
    + rewrite Ht. split; [done|]. rewrite bool_decide_false by done. rewrite bool_decide_true by done.
      cbn [res_bind]. rewrite bool_decide_true by done. rewrite Hf. done.
  - intros [Hs Hc]. destruct (c !! "type") as [t|] eqn:Ht; [|done].
    destruct t as [t| | |]; try done. injection Hs as <-.
    destruct (bool_decide_reflect ("backy-" +:+ t = "backy-rbd")) as [E|E].
    + left. cbn [res_bind] in Hc. destruct (bool_decide_reflect (YText t = YText "rbd")) as [E2|E2]; [|done].
      rewrite E2. split; [done|]. split; [done|].
      destruct (c !! "pool") as [pool|] eqn:Hp; [|done]. destruct (c !! "image") as [image|] eqn:Hi; [|done].
      cbn [res_bind] in Hc. injection Hc as <-. exists pool, image, (default (YBool false) (c !! "full-always")).
      split; [done|]. split; [done|]. split; [|done].
      destruct (c !! "full-always"); [by left|by right].
    + destruct (bool_decide_reflect ("backy-" +:+ t = "backy-file")) as [E1|E1]; [|done].
      right. cbn [res_bind] in Hc. destruct (bool_decide_reflect (YText t = YText "file")) as [E2|E2]; [|done].
      rewrite E2. split; [done|]. split; [done|].
      destruct (c !! "filename") as [f|] eqn:Hf; [|done]. cbn [res_bind] in Hc. injection Hc as <-. by exists f.
Qed.

(** C108: a process of a configured job runs the program for its source, on the job's own
    directory, and works on the source configured for the job. *)
Theorem C108_source_partial : forall dump load fs evs b l n c j p,
  yaml_ok dump load -> names_ok evs ->
  jd_up (jdrun dump fs evs) = true -> in_force evs = Some (b, l) -> (YText n, c) ∈ l ->
  jd_jobs (jdrun dump fs evs) !! n = Some j ->
  process load (jdrun dump fs evs) n = Ok p ->
  as_configured (se_source c) (jp_exe p) (jp_source p) /\ jp_repo p = jj_dir j.
Proof.
  intros dump load fs evs b l n c j p Y Hn Hu Hf Hin Hj.
  destruct (run_inv dump fs evs Hn) as [HI HU].
  destruct (HU Hu) as (b1 & l1 & Hf1 & Hd & He & _). rewrite Hf in Hf1. injection Hf1 as <- <-.
  destruct (He _ _ Hin) as (n1 & j1 & [= <-] & Hj1 & Hc). rewrite Hj in Hj1. injection Hj1 as <-.
  destruct (HI n j Hj) as (Hp & (b0 & Hb0 & Hdir) & Hfile).
  unfold process. rewrite Hj, Hc.
  destruct (subcommand (se_source c)) as [exe|e] eqn:Hsub; cbn [res_bind]; [|done].
  assert (place [] (path_text (jj_dir j)) = jj_dir j) as Ht.
  { apply text_place. rewrite Hdir. apply Forall_app. split; [done|]. by constructor. }
  rewrite Ht. destruct (Hfile c Hc) as [->| ->]; [done|]. rewrite Y. cbn [jf_source jf_path].
  destruct (create_source exe (se_source c)) as [o|e] eqn:Hcs; cbn [res_bind]; [|done].
  intros Hx. injection Hx as <-. cbn [jp_exe jp_repo jp_source]. rewrite Ht.
  split; [|done]. by apply configured_iff.
Qed.
Print Assumptions C108_source_partial.

(** Right after a start that succeeded all of them can be started, if their sections are
    complete. *)
Theorem C108_started_partial : forall dump load fs evs b fl l n c exe o,
  yaml_ok dump load -> names_ok (evs ++ [JdStart b fl l]) ->
  jd_up (jdrun dump fs (evs ++ [JdStart b fl l])) = true -> (YText n, c) ∈ l ->
  as_configured (se_source c) exe o ->
  process load (jdrun dump fs (evs ++ [JdStart b fl l])) n = Ok (MkJp exe (b ++ [n]) o).
Proof.
  intros dump load fs evs b fl l n c exe o Y Hn Hu Hin Hcf.
  apply configured_iff in Hcf as [Hs Ho].
  destruct (Hn b l) as (Hb & Hd & Hp). { rewrite omap_app. apply elem_of_app; right. cbn. by left. }
  revert Hu. rewrite run_snoc. cbn [jdstep]. unfold apply_cfg.
  destruct (apply_all dump b fl l ∅ (jd_fs (jdrun dump fs evs))) as [[jobs1 fs1] [[]|e]] eqn:A; [|done].
  intros _. apply apply_fresh in A as [_ A]; [|done..]. destruct (A n c Hin eq_refl) as [Hj Hf].
  unfold process. cbn [jd_jobs jd_fs].
  assert (filter (fun x => YText x.1 ∈ map fst l) jobs1 !! n = Some (MkJjob (b ++ [n]) (Some c))) as ->.
  { apply map_filter_lookup_Some. split; [done|]. cbn. apply elem_of_list_fmap. by exists (YText n, c). }
  cbn [jj_last jj_dir]. rewrite Hs. cbn [res_bind].
  assert (place [] (path_text (b ++ [n])) = b ++ [n]) as Ht.
  { apply text_place. apply Forall_app. split; [done|]. constructor; [by eapply Hp|done]. }
  rewrite Ht, Hf, Y. cbn [jf_source jf_path]. rewrite Ho. cbn [res_bind]. by rewrite Ht.
Qed.
Print Assumptions C108_started_partial.

(** ** A concrete case *)
(** Some way to write these files. *)
Global Instance yval_countable : Countable yval.
Proof.
  refine (inj_countable' (fun v => match v with
      | YText s => inl (inl s) | YBool b => inl (inr b) | YNumber z => inr (inl z) | YNull => inr (inr tt) end)
    (fun x => match x with
      | inl (inl s) => YText s | inl (inr b) => YBool b | inr (inl z) => YNumber z | inr (inr _) => YNull end) _).
  by intros [].
Defined.
Global Instance jfile_eq_dec : EqDecision jfile.
Proof. solve_decision. Defined.
Global Instance jfile_countable : Countable jfile.
Proof.
  refine (inj_countable' (fun f => (jf_path f, jf_source f, jf_schedule f))
    (fun x => MkJfile x.1.1 x.1.2 x.2) _). by intros [].
Defined.
Fixpoint bits (p : positive) : bytes :=
  match p with xH => [] | xO p => Byte.x00 :: bits p | xI p => Byte.x01 :: bits p end.
Fixpoint unbits (l : bytes) : positive :=
  match l with
  | [] => xH
  | b :: l => if Byte.eqb b Byte.x00 then xO (unbits l) else xI (unbits l)
  end.
Lemma unbits_bits p : unbits (bits p) = p.
Proof. induction p as [p IH|p IH|]; cbn; [by rewrite IH..|done]. Qed.
Definition ex_dump (f : jfile) : bytes := bits (encode f).
Definition ex_load (b : bytes) : option jfile := decode (unbits b).
Lemma ex_yaml : yaml_ok ex_dump ex_load.
Proof. intros x. unfold ex_load, ex_dump. by rewrite unbits_bits, decode_encode. Qed.
Definition ex_rbd (image : string) : section :=
  MkSection "daily" (list_to_map [("type", YText "rbd"); ("pool", YText "rbd"); ("image", YText image)]).
Definition ex_start (l : list (yval * section)) : jdevent := JdStart ["srv"] (fun _ => 0%nat) l.
Definition ex_dirs : jdirs := {[ ["srv"] := None ]}.
Definition ex_two : list (yval * section) := [(YText "vm1", ex_rbd "vm1.root"); (YText "vm2", ex_rbd "vm2.root")].
Example ex_C108 : names_ok [ex_start ex_two] /\
  jd_up (jdrun ex_dump ex_dirs [ex_start ex_two]) = true /\
  in_force [ex_start ex_two] = Some (["srv"], ex_two) /\
  process ex_load (jdrun ex_dump ex_dirs [ex_start ex_two]) "vm1" =
    Ok (MkJp "backy-rbd" ["srv"; "vm1"] (ORbd (YText "rbd") (YText "vm1.root") None None (YBool false))).
Proof.
  split; [|split; [vm_compute; reflexivity|split; [reflexivity|vm_compute; reflexivity]]].
  intros b l Hin. cbn in Hin. apply elem_of_list_singleton in Hin. injection Hin as -> ->.
  split; [repeat constructor; done|]. split.
  - apply (bool_decide_eq_true_1 _). vm_compute. reflexivity.
  - intros n c Hin. unfold ex_two in Hin.
    repeat (apply elem_of_cons in Hin as [Hin|Hin]; [injection Hin as -> _; repeat split; done|]).
    by apply elem_of_nil in Hin.
Qed.
(** Refuted for arbitrary names: the backups of "vm1" are made of the image that is
    configured for "vm1/.". *)
Definition ex_same : list (yval * section) := [(YText "vm1", ex_rbd "vm1.root"); (YText "vm1/.", ex_rbd "vm2.root")].
Theorem C108_refuted :
  yaml_ok ex_dump ex_load /\
  jd_up (jdrun ex_dump ex_dirs [ex_start ex_same]) = true /\
  in_force [ex_start ex_same] = Some (["srv"], ex_same) /\
  process ex_load (jdrun ex_dump ex_dirs [ex_start ex_same]) "vm1" =
    Ok (MkJp "backy-rbd" ["srv"; "vm1"] (ORbd (YText "rbd") (YText "vm2.root") None None (YBool false))) /\
  create_source "backy-rbd" (se_source (ex_rbd "vm1.root")) =
    Ok (ORbd (YText "rbd") (YText "vm1.root") None None (YBool false)).
Proof.
  split; [exact ex_yaml|]. split; [vm_compute; reflexivity|]. split; [reflexivity|].
  split; vm_compute; reflexivity.
Qed.
Print Assumptions C108_refuted.
