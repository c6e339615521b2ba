(** C120, C121: repositories without a job: what the API lists, and what a request to
    purge one does. *)
From Verif Require Import Proofs.FstreeProofs Proofs.BaseLemmas Props.PPurgeOld.
From Verif Require Import Model.Inactive.

Lemma configure_nodup : forall names old now base base' r, NoDup (map fst base) ->
  configure_all now names old base = (base', r) -> NoDup (map fst base').
Proof.
  induction names as [|n names IH]; intros old now base base' r Hnd; cbn [configure_all]; [by intros [= <- <-]|].
  destruct (bool_decide _); [by apply IH|]. unfold configure_path.
  destruct (alookup n base) as [[]|] eqn:E; [by intros [= <- <-]|by apply IH|apply IH|apply IH].
  - rewrite aset_keys by (by rewrite E). done.
  - rewrite map_app. cbn. apply NoDup_app. split; [done|]. split; [|apply NoDup_singleton].
    intros x Hx Hx1. apply elem_of_list_singleton in Hx1 as ->. by apply alookup_None in E.
Qed.
Lemma dead_elem jobs base n : n ∈ dead_names jobs base <-> n ∉ jobs /\ exists t l, (n, NDir t l) ∈ base.
Proof.
  unfold dead_names. rewrite elem_of_list_fmap. split.
  - intros ([n0 x] & -> & H). apply elem_of_list_In, filter_In in H as [Hin H]. apply elem_of_list_In in Hin.
    cbn [fst snd] in *. apply andb_true_iff in H as [H1 H2]. apply negb_true_iff, bool_decide_eq_false_1 in H1.
    split; [done|]. destruct x; try discriminate. eauto.
  - intros (Hj & t & l & Hin). exists (n, NDir t l). split; [done|]. apply elem_of_list_In, filter_In.
    split; [by apply elem_of_list_In|]. cbn [fst snd]. by rewrite bool_decide_eq_false_2.
Qed.

(** * C120: the list *)
(** After a start or a reload the list has the directories without a job and nothing else,
    each once; these can be touched and purged, jobs can only be touched, and for other
    names nothing happens. *)
Theorem C120_after_reload_partial : forall s now names e,
  NoDup (map fst (pd_base s)) -> (e = PStart now names \/ e = PReload now names /\ pd_up s = true) ->
  let s1 := pstep s e in pd_up s1 = true ->
  NoDup (api_backups s1) /\
  (forall n, n ∈ api_backups s1 <-> n ∉ names /\ exists t l, (n, NDir t l) ∈ pd_base s1) /\
  forall n now',
    (n ∈ api_backups s1 -> (api_touch now' n s1).2 = 204%Z /\ (api_purge now' n s1).2 = 202%Z) /\
    (n ∈ names -> (api_touch now' n s1).2 = 204%Z /\ api_purge now' n s1 = (s1, 403%Z)) /\
    (n ∉ api_backups s1 -> n ∉ names -> api_touch now' n s1 = (s1, 404%Z) /\ api_purge now' n s1 = (s1, 404%Z)).
Proof.
  intros s now names e Hnd He s1 Hup.
  assert (exists old base, configure_all now names old (pd_base s) = (base, Ok tt) /\
            s1 = MkPd base names (dead_names names base) true) as (old & base & Hc & Hs1).
  { destruct He as [->|[-> Hu]]; subst s1; unfold pstep in *; [|rewrite Hu in *; cbn [negb] in *];
      unfold apply_config in *; destruct (configure_all _ _ _ _) as [b [[]|]] eqn:E; try discriminate Hup; eauto. }
  clearbody s1. subst s1. clear He Hup. apply configure_nodup in Hc; [|done].
  unfold api_backups. cbn [pd_dead pd_base].
  assert (Hdead := dead_elem names base). split.
  { unfold dead_names. clear -Hc. induction base as [|[n x] base IH]; [constructor|]. cbn [map fst] in Hc.
    inversion Hc as [|? ? Hn Hc']; subst. cbn [List.filter fst snd]. destruct (_ && _); [|by apply IH].
    cbn [map fst]. constructor; [|by apply IH]. intros Hin. apply Hn. apply elem_of_list_fmap in Hin as (y & -> & Hy).
    apply elem_of_list_In, filter_In in Hy as [Hy _]. apply elem_of_list_fmap. exists y. split; [done|]. by apply elem_of_list_In. }
  split; [done|]. intros n now'. unfold api_touch, api_purge. cbn [pd_dead pd_jobs pd_base pd_up]. split; [|split].
  - intros Hn. rewrite bool_decide_eq_true_2 by done. split; [done|]. apply Hdead in Hn as (_ & t & l & Hin).
    unfold pending_path. by rewrite (alookup_elem_2 n (NDir t l) base).
  - intros Hn. rewrite (bool_decide_eq_true_2 (n ∈ names)), orb_true_r by done. split; [done|].
    rewrite bool_decide_eq_false_2; [done|]. intros H. apply Hdead in H as [H _]. done.
  - intros H1 H2. by rewrite !bool_decide_eq_false_2 by done.
Qed.
Print Assumptions C120_after_reload_partial.

(** Until the next one the list stays as it is. *)
Definition no_reload (e : qevent) : Prop :=
  match e with QDo (PStart _ _) | QDo (PReload _ _) => False | _ => True end.
Lemma qrun_dead es : forall s, Forall no_reload es -> pd_dead (qrun es s) = pd_dead s /\ pd_up (qrun es s) = pd_up s.
Proof.
  induction es as [|e es IH]; intros s He; [done|]. inversion He as [|? ? H1 H2]; subst.
  unfold qrun. cbn [fold_left]. destruct (IH (qstep s e) H2) as [Hd Hu]. unfold qrun in Hd, Hu. rewrite Hd, Hu.
  destruct e as [[]|]; try done; cbn [qstep pstep]; destruct (pd_up s) eqn:E; cbn [negb]; try done.
  - unfold api_touch. by destruct (_ || _).
  - by destruct (bool_decide _).
  - unfold api_purge. destruct (bool_decide _); [|by destruct (bool_decide _)]. by destruct (pending_path _ _ _).
Qed.
(** "exactly the repositories that are there": a repository that the daemon itself has
    removed is still listed until the next reload; a request to purge it ends with an
    internal error. *)
Theorem C120_refuted : forall s clock k name n es,
  pd_up s = true -> NoDup (map fst (pd_base s)) -> name ∈ api_backups s -> pd_base s !! k = Some (name, n) ->
  is_dir_no_symlink n = true -> (forall p m, reach n p m -> (n_mtime m < clock k - days93)%Z) ->
  Forall no_reload es ->
  let s1 := pstep s (PPass clock (fun _ => false) (fun _ => None)) in
  alookup name (pd_base s1) = None /\ (forall now, api_purge now name s1 = (s1, 500%Z)) /\
  name ∈ api_backups (qrun es s1).
Proof.
  intros s clock k name n es Hup Hnd Hn Hk Hd Hold He s1.
  assert (alookup name (pd_base s1) = None) as Hl by exact (C103_gone_partial s clock k name n Hup Hnd Hk Hd Hold).
  assert (pd_dead s1 = pd_dead s) as Hdead.
  { subst s1. unfold pstep. rewrite Hup. done. }
  split; [done|]. split.
  - intros now. unfold api_purge. rewrite Hdead, bool_decide_eq_true_2 by done. unfold pending_path. by rewrite Hl.
  - unfold api_backups. destruct (qrun_dead es s1 He) as [-> _]. by rewrite Hdead.
Qed.
Print Assumptions C120_refuted.

(** * C121: a request to purge *)
(** It has no effect on the other directories: whether a pass of the daemon removes them
    does not depend on it.  A refused one has no effect at all. *)
Lemma pass_others name clock : forall base i v x, alookup name base = Some x -> 
  is_dir_no_symlink x = true -> is_dir_no_symlink v = true ->
  forall n', n' <> name -> NoDup (map fst base) ->
  alookup n' (purge_pass clock (fun _ => false) (fun _ => None) i (aset name v base)) =
  alookup n' (purge_pass clock (fun _ => false) (fun _ => None) i base).
Proof.
  induction base as [|[n0 y] base IH]; intros i v x Hl Hx Hv n' Hne Hnd; [done|].
  cbn [alookup] in Hl. cbn [map fst] in Hnd. inversion Hnd as [|? ? Hni Hnd']; subst.
  cbn [aset]. destruct (decide (name = n0)) as [<-|Hn0].
  - injection Hl as ->. cbn [purge_pass]. rewrite Hx, Hv. cbn [negb].
    destruct (has_recent_changes v _), (has_recent_changes x _); cbn [alookup]; rewrite ?decide_False by done; done.
  - cbn [purge_pass]. destruct (negb _); [|destruct (has_recent_changes _ _)]; cbn [alookup];
      try (destruct (decide (n' = n0)); [done|]); by eapply IH.
Qed.
Theorem C121_others_partial : forall s now name clock n',
  pd_up s = true -> NoDup (map fst (pd_base s)) -> n' <> name ->
  let s1 := (api_purge now name s).1 in
  let pass := PPass clock (fun _ => false) (fun _ => None) in
  alookup n' (pd_base (pstep s1 pass)) = alookup n' (pd_base (pstep s pass)) /\
  ((api_purge now name s).2 <> 202%Z -> s1 = s).
Proof.
  intros s now name clock n' Hup Hnd Hne s1 pass. subst s1 pass. unfold api_purge.
  destruct (bool_decide (name ∈ pd_dead s)); [|by destruct (bool_decide _)].
  unfold pending_path. destruct (alookup name (pd_base s)) as [[t|t|t l]|] eqn:E; cbn [fst snd]; try done.
  - split; [|done]. unfold pstep. cbn [pd_up pd_base]. by rewrite Hup.
  - split; [|done]. unfold pstep. cbn [pd_up pd_base]. rewrite Hup. cbn [negb pd_base].
    eapply pass_others; try done. by destruct (alookup ".purge_pending" l).
Qed.
Print Assumptions C121_others_partial.

(** "A requested purge does not keep the repository longer": the request is a change.
    A repository that would have been removed by the next pass is kept for another 93
    days, if nothing else happens to it - and nothing does (C66). *)
Theorem C121_refuted : forall s now k name t l clock,
  pd_up s = true -> NoDup (map fst (pd_base s)) -> name ∈ api_backups s -> pd_base s !! k = Some (name, NDir t l) ->
  alookup ".purge_pending"%string l = None ->
  (forall p m, reach (NDir t l) p m -> (n_mtime m < clock k - days93)%Z) ->
  let s1 := (api_purge now name s).1 in
  (api_purge now name s).2 = 202%Z /\
  (* without the request *)
  alookup name (pd_base (pstep s (PPass clock (fun _ => false) (fun _ => None)))) = None /\
  (* with it *)
  forall es clock' bad rm, Forall (calm now name) es -> (forall i, (clock' i <= now + days93)%Z) ->
    exists m' l', alookup name (pd_base (pstep (prun es s1) (PPass clock' bad rm))) = Some (NDir m' l').
Proof.
  intros s now k name t l clock Hup Hnd Hn Hk Hp Hold s1. subst s1.
  assert (alookup name (pd_base s) = Some (NDir t l)) as Hl.
  { apply alookup_elem_2; [done|]. by eapply elem_of_list_lookup_2. }
  assert (api_purge now name s = (MkPd (aset name (NDir now (l ++ [(".purge_pending"%string, NFile now)])) (pd_base s))
      (pd_jobs s) (pd_dead s) (pd_up s), 202%Z)) as Hreq.
  { unfold api_purge. rewrite bool_decide_eq_true_2 by done. unfold pending_path. by rewrite Hl, Hp. }
  rewrite Hreq. cbn [fst snd]. split; [done|]. split; [by eapply C103_gone_partial|].
  intros es clock' bad rm He Hc.
  assert (forall s', stands now name (pd_base s') ->
    exists m' l', alookup name (pd_base (pstep s' (PPass clock' bad rm))) = Some (NDir m' l')) as Hpass.
  { intros s' Hst. assert (calm now name (PPass clock' bad rm)) as Hcalm by exact Hc.
    destruct (calm_step now name s' _ Hcalm Hst) as (m' & l' & Hm & _). eauto. }
  apply Hpass, calm_run; [done|]. unfold stands. cbn [pd_base]. rewrite alookup_aset, decide_True by done.
  eexists _, _. split; [done|lia].
Qed.
Print Assumptions C121_refuted.

(** "vm2" has no job since a reload; the request comes after 93 days, the pass an hour
    later. *)
Definition in_s : pdaemon := MkPd (pd_base pu_s) (pd_jobs pu_s) (pd_dead pu_s) (pd_up pu_s).
Definition in_pass : pevent := PPass (fun _ => 8045000%Z) (fun _ => false) (fun _ => None).
Example C120_case :
  api_backups in_s = ["vm2"%string] /\
  alookup "vm2"%string (pd_base (pstep in_s in_pass)) = None /\
  api_backups (qrun [QDo (PTouch 8045100 "vm1")] (pstep in_s in_pass)) = ["vm2"%string] /\
  (api_purge 8045200 "vm2" (pstep in_s in_pass)).2 = 500%Z /\
  api_backups (pstep (pstep in_s in_pass) (PReload 8045300 ["vm1"]%string)) = [].
Proof. vm_compute. done. Qed.
Example C121_case :
  NoDup (map fst (pd_base in_s)) /\ pd_base in_s !! 1 = Some ("vm2"%string, NDir 2000 [("r1.rev", NFile 2000); ("quarantine", NDir 1000 []); ("config", NFile 1000)]%string) /\
  api_purge 8041400 "vm2" in_s =
    (MkPd (aset "vm2"%string (NDir 8041400 [("r1.rev", NFile 2000); ("quarantine", NDir 1000 []); ("config", NFile 1000); (".purge_pending", NFile 8041400)]%string) (pd_base in_s))
       (pd_jobs in_s) (pd_dead in_s) true, 202%Z) /\
  alookup "vm2"%string (pd_base (pstep (api_purge 8041400 "vm2" in_s).1 in_pass)) <> None.
Proof.
  split; [apply (bool_decide_eq_true_1 _); vm_compute; reflexivity|]. split; [vm_compute; reflexivity|].
  split; [vm_compute; reflexivity|]. vm_compute. discriminate.
Qed.
