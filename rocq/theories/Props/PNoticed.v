(** C125: that there are no new backups is noticed. *)
From Verif Require Import Proofs.RevsProofs Proofs.ScanProofs Proofs.SchedProofs2.
From Verif Require Import Props.PSchedule Props.PCli Props.PDaemon Props.PStatus.
From Verif Require Import Spec.Backup Model.Cli Model.Sync Model.Status Model.Revs.

(** ** Specification *)
(** [made r]: when the revision [r] was really made.  Its timestamp is what the clock of
    the server that made it said; at most [d] too late. *)
Definition at_most_ahead (d : Z) (made : rev -> Z) (D : disk) : Prop :=
  forall r, backed_up D r -> (r_ts r <= made r + d)%Z.
(** The newest complete backup was made more than 1.5 times the shortest interval before
    [now]. *)
Definition really_too_old (made : rev -> Z) (S : sched) (D : disk) (now : Z) : Prop :=
  (exists r, backed_up D r) /\
  forall r m, backed_up D r -> shortest S m -> (2 * (now - made r) > 3 * m)%Z.
(** No complete backup with the tag was made within its interval before [now]. *)
Definition really_missed (made : rev -> Z) (S : sched) (D : disk) (now : Z) (t : string) : Prop :=
  exists i, (t, i) ∈ S /\
    forall r, backed_up D r -> t ∈ r_tags r -> (made r + i_interval i <= now)%Z.

Lemma too_old_ahead d made S D now : at_most_ahead d made D -> really_too_old made S D (now - d) ->
  too_old S D now.
Proof.
  intros Ha [Hex Ho]. split; [done|]. intros r m Hr Hm. specialize (Ho r m Hr Hm). specialize (Ha r Hr). lia.
Qed.

(** [backy check] says 2 ... *)
Theorem C125_check_partial O d made D S name reports all now :
  orders_ok O -> rev_files_ok D -> sched_ok S -> at_most_ahead d made D ->
  really_too_old made S D (now - d) ->
  backy_check None (Ok (MkCrepo name S (scan_disk O D) reports)) all now = 2%Z.
Proof.
  intros HO Hd HS Ha Ho. pose proof (too_old_ahead d made S D now Ha Ho) as [[r Hr] Hold].
  set (c := MkCrepo name S (scan_disk O D) reports).
  assert (Hu : usable c). { split; [apply scan_sorted|]. by apply shortest_ex. }
  assert (Hb : forall x, x ∈ scan_disk O D -> is_complete x -> backed_up D x).
  { intros x Hx Hc. split; [|done]. by apply scan_disk_elem in Hx. }
  apply (C60_check_partial None (Ok c) all now [c]); [done| |].
  - intros x Hx. apply elem_of_list_singleton in Hx as ->. done.
  - exists c. split; [left|]. split.
    + exists r. destruct Hr as [Hr1 Hr2]. split; [|done]. cbn. by apply scan_disk_elem.
    + intros m Hm x Hx Hc. cbn in *. apply Hold; [by apply Hb|done].
Qed.
(** ... and the status of the daemon "TOO OLD", with the time since the last backup (or what
    the timestamp leaves of it). *)
Theorem C125_status_partial O d made now v :
  orders_ok O -> rev_files_ok (v_disk v) -> sched_ok (v_sched v) -> at_most_ahead d made (v_disk v) ->
  really_too_old made (v_sched v) (v_disk v) (now - d) ->
  exists e, status_of O now now v = Ok e /\ e_sla e = "TOO OLD"%string /\
    exists r, backed_up (v_disk v) r /\ (now - made r - d <= e_overdue e)%Z /\ (0 < e_overdue e)%Z.
Proof.
  intros HO Hd HS Ha Ho. pose proof (too_old_ahead d made _ _ now Ha Ho) as Hold.
  destruct (status_ok O now now v HO Hd HS) as (e & He & Hde & _). exists e. split; [done|]. split.
  - destruct (ds_sla _ _ _ _ Hde) as [[_ Hn]|[Hs _]]; done.
  - destruct (ds_overdue _ _ _ _ Hde) as [[Hn _]|(_ & r & [Hr _] & Hov)]; [done|].
    exists r. split; [done|]. rewrite Hov. specialize (Ha r Hr). split; [lia|].
    destruct (shortest_ex _ HS) as (m & Hm & Hpos). destruct Hold as [_ Hold]. specialize (Hold r m Hr Hm). lia.
Qed.
(** A tag without a backup is part of the next run, which is at once unless a slot is near. *)
Theorem C125_caught_up_partial fl O d made D (S : sched) spread now ideal T t :
  orders_ok O -> rev_files_ok D -> at_most_ahead d made D ->
  (forall t i, (t, i) ∈ S -> (i_interval i <= now)%Z) ->
  next_ideal fl S now spread = Ok (ideal, T) ->
  really_missed made S D (now - d) t -> (exists r, backed_up D r) ->
  exists time run, next fl S (scan_disk O D) now spread now now now = Ok (time, run) /\ t ∈ run /\
    (time <= now + 5 * 60 * 1000000)%Z.
Proof.
  intros HO Hd Ha Hi Hid (i & Hin & Hm) [r0 Hr0].
  assert (Hmiss : is_missed S (scan_disk O D) now t).
  { exists i. split; [done|]. intros (r & Hr & Hc & Ht & Hts).
    assert (Hb : backed_up D r) by (split; [by apply scan_disk_elem in Hr|done]).
    specialize (Hm r Hb Ht). specialize (Ha r Hb). lia. }
  assert (Hne : scan_disk O D <> []).
  { destruct Hr0 as [Hr0 _]. apply (scan_disk_elem O) in Hr0; [|done..]. intros H. rewrite H in Hr0. by apply elem_of_nil in Hr0. }
  destruct (C40_next fl S (scan_disk O D) now spread now now now ideal T Hi Hid) as (time & run & Hn & H1 & H2 & H3).
  exists time, run. split; [done|]. split; [by apply H1|].
  destruct (decide (now + 5 * 60 * 1000000 < ideal)%Z) as [Hlt|Hge].
  - destruct H2 as [-> _]; [split_and!; [by exists t|done|done]|]. lia.
  - destruct H3 as [-> _]; [intros (_ & _ & ?); done|]. lia.
Qed.
Print Assumptions C125_check_partial.
Print Assumptions C125_status_partial.
Print Assumptions C125_caught_up_partial.

(** A server came up with a clock that was ten years ahead and made one backup, [f].  A
    hundred days later the clock has long been right and every backup since has failed (the
    volume is gone): check says 0, the status is "OK", nothing is missed. *)
Definition day : Z := (86400 * 1000000)%Z.
Definition nt_sched : sched := [("daily", MkItem (86400 * 1000000) 5)]%Z.
Definition nt_now : Z := (739935 * day)%Z.
Definition nt_f : rev := s_rev "f" (nt_now + 3550 * day) (Some 5%Z) ["daily"] "".
Definition nt_made (r : rev) : Z := if bool_decide (r_uuid r = "f") then (nt_now - 100 * day)%Z else r_ts r.
Definition nt_revs : list rev := [nt_f; s_rev "g" (nt_now - 101 * day) (Some 5%Z) ["daily"] ""].
Definition nt_job (n : string) (l : list rev) : jobview :=
  connected (MkJv n (s_disk l) (MkQuar ∅ ∅) [] nt_sched "failed" (Some (nt_now + day)%Z) {["daily"]}).
Lemma nt_backed r : backed_up (s_disk nt_revs) r -> r ∈ nt_revs.
Proof.
  intros [H _]. unfold s_disk in H. cbn [d_revs] in H. apply elem_of_list_to_map_2 in H. apply elem_of_list_fmap in H as (x & Hx & H).
  apply (f_equal snd) in Hx. cbn [snd] in Hx. by subst x.
Qed.
Lemma nt_sched_ok : sched_ok nt_sched.
Proof.
  split; [done|]. split.
  - apply (bool_decide_eq_true_1 _). vm_compute. reflexivity.
  - intros t i H. apply elem_of_list_singleton in H as [= -> ->]. cbn. lia.
Qed.
Lemma nt_old : really_too_old nt_made nt_sched (s_disk nt_revs) nt_now.
Proof.
  split.
  - exists nt_f. split; [vm_compute; reflexivity|]. by unfold is_complete.
  - intros r m Hr Hm. apply nt_backed in Hr.
    assert (m = 86400 * 1000000)%Z as ->.
    { destruct Hm as [(t & i & Hi & <-) _]. apply elem_of_list_singleton in Hi as [= -> ->]. done. }
    repeat (apply elem_of_cons in Hr as [->|Hr]; [vm_compute; reflexivity|]). by apply elem_of_nil in Hr.
Qed.
Theorem C125_refuted :
  sched_ok nt_sched /\ really_too_old nt_made nt_sched (s_disk nt_revs) nt_now /\
  really_missed nt_made nt_sched (s_disk nt_revs) nt_now "daily" /\
  backy_check None (Ok (MkCrepo "vm1" nt_sched (scan_disk s_O (s_disk nt_revs)) [])) [] nt_now = 0%Z /\
  (exists e, status_of s_O nt_now nt_now (nt_job "vm1" nt_revs) = Ok e /\ e_sla e = "OK"%string /\ e_overdue e = 0%Z) /\
  ~ is_missed nt_sched (scan_disk s_O (s_disk nt_revs)) nt_now "daily".
Proof.
  split; [apply nt_sched_ok|]. split; [apply nt_old|]. split; [|split; [|split; [|]]].
  - exists (MkItem (86400 * 1000000) 5). split; [left|]. intros r Hr _. apply nt_backed in Hr.
    repeat (apply elem_of_cons in Hr as [->|Hr]; [vm_compute; discriminate|]). by apply elem_of_nil in Hr.
  - vm_compute. reflexivity.
  - eexists. split; [vm_compute; reflexivity|]. split; reflexivity.
  - intros H. apply missed_spec in H.
    + revert H. apply (bool_decide_eq_true_1 _). vm_compute. reflexivity.
    + intros t i Hi. apply elem_of_list_singleton in Hi as [= -> ->]. vm_compute. discriminate.
Qed.
(** With such a revision at a peer that has more backups of the job, the job leaves each of
    its own backups to the peer, also those the peer never makes. *)
Theorem C125_peer_refuted :
  let p := PStatus.MkPeer s_O (fun _ => (nt_now, nt_now)) [nt_job "vm1" nt_revs] in
  PStatus.peer_ok p /\
  (forall r, backed_up (s_disk nt_revs) r -> (nt_made r <= nt_now - 100 * day)%Z) /\
  leave_to_peer "vm1" 1 nt_now [("peer"%string, Some p)] [Ask (Some p)] /\
  leave_to_peer "vm1" 1 (nt_now + 3000 * day) [("peer"%string, Some p)] [Ask (Some p)].
Proof.
  cbv zeta. split_and!.
  - split; [apply s_O_ok|]. intros v Hv. apply elem_of_list_singleton in Hv as ->.
    split; [apply s_disk_ok|]. split; [apply nt_sched_ok|vm_compute; reflexivity].
  - intros r Hr. apply nt_backed in Hr.
    repeat (apply elem_of_cons in Hr as [->|Hr]; [vm_compute; discriminate|]). by apply elem_of_nil in Hr.
  - eexists. vm_compute. reflexivity.
  - eexists. vm_compute. reflexivity.
Qed.
Print Assumptions C125_refuted.
Print Assumptions C125_peer_refuted.
(** Ten years later (3650 days ahead) the same revision is noticed. *)
Example ex_C125 :
  at_most_ahead (3650 * day) nt_made (s_disk nt_revs) /\
  really_too_old nt_made nt_sched (s_disk nt_revs) (nt_now + 3552 * day - 3650 * day) /\
  rev_files_ok (s_disk nt_revs) /\
  backy_check None (Ok (MkCrepo "vm1" nt_sched (scan_disk s_O (s_disk nt_revs)) [])) [] (nt_now + 3552 * day) = 2%Z.
Proof.
  split_and!.
  - intros r Hr. apply nt_backed in Hr.
    repeat (apply elem_of_cons in Hr as [->|Hr]; [vm_compute; discriminate|]). by apply elem_of_nil in Hr.
  - split.
    + exists nt_f. split; [vm_compute; reflexivity|]. by unfold is_complete.
    + intros r m Hr Hm. apply nt_backed in Hr.
      assert (m = 86400 * 1000000)%Z as ->.
      { destruct Hm as [(t & i & Hi & <-) _]. apply elem_of_list_singleton in Hi as [= -> ->]. done. }
      repeat (apply elem_of_cons in Hr as [->|Hr]; [vm_compute; reflexivity|]). by apply elem_of_nil in Hr.
  - apply s_disk_ok.
  - vm_compute. reflexivity.
Qed.
