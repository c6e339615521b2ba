(** C77, C78: the status a daemon reports, and what a job concludes from it. *)
From Verif Require Import Proofs.RevsProofs Proofs.ScanProofs Proofs.SchedProofs2.
From Verif Require Import Props.PSchedule Props.PCli Props.PDaemon.
From Verif Require Import Spec.Backup Model.Cli Model.Sync Model.Status Model.Revs.

(** ** Specification *)
(** A directory holds the complete revision [r]. *)
Definition backed_up (d : disk) (r : rev) : Prop :=
  d_revs d !! r_uuid r = Some r /\ is_complete r.
(** Of the complete revisions the one with the latest timestamp. *)
Definition newest (d : disk) (r : rev) : Prop :=
  backed_up d r /\ forall r', backed_up d r' -> (r_ts r' <= r_ts r)%Z.
(** There are exactly [n] revisions with the property. *)
Definition are (n : Z) (P : rev -> Prop) : Prop :=
  exists l : list rev, NoDup l /\ (forall r, r ∈ l <-> P r) /\ n = Z.of_nat (length l).
(** The tags [X], each once, those with a shorter interval first, and between them commas. *)
Definition lists_tags (S : sched) (X : gset string) (text : string) : Prop :=
  exists l, NoDup l /\ (forall t, t ∈ l <-> t ∈ X) /\ text = joined "," l /\
    forall a b t u i j, l !! a = Some t -> l !! b = Some u -> (a < b)%nat ->
      (t, i) ∈ S -> (u, j) ∈ S -> (i_interval i <= i_interval j)%Z.
(** A schedule with at least one tag, each given once, with positive intervals. *)
Definition sched_ok (S : sched) : Prop :=
  S <> [] /\ NoDup (map fst S) /\ forall t i, (t, i) ∈ S -> (0 < i_interval i)%Z.
(** The service level is violated at [now]. *)
Definition too_old (S : sched) (d : disk) (now : Z) : Prop :=
  (exists r, backed_up d r) /\
  forall r m, backed_up d r -> shortest S m -> (2 * (now - r_ts r) > 3 * m)%Z.

(** What the entry about a job has to say: [now1] and [now2] are times at which it was
    computed. *)
Record describes (now1 now2 : Z) (v : jobview) (e : entry) : Prop := {
  ds_name : e_job e = v_name v;
  ds_status : e_status e = v_status v;
  ds_next : e_next e = v_next v;
  ds_next_tags : match e_next_tags e with
                 | Some t => lists_tags (v_sched v) (v_next_tags v) t
                 | None => v_next_tags v = ∅
                 end;
  ds_sla : e_sla e = "OK"%string /\ ~ too_old (v_sched v) (v_disk v) now1 \/
           e_sla e = "TOO OLD"%string /\ too_old (v_sched v) (v_disk v) now1;
  ds_overdue : ~ too_old (v_sched v) (v_disk v) now2 /\ e_overdue e = 0%Z \/
               too_old (v_sched v) (v_disk v) now2 /\
               exists r, newest (v_disk v) r /\ e_overdue e = (now2 - r_ts r)%Z;
  ds_last : (e_last e = None /\ e_last_tags e = None /\ e_last_duration e = None /\
             forall r, ~ backed_up (v_disk v) r) \/
            exists r t, newest (v_disk v) r /\ e_last e = Some (r_ts r) /\
              e_last_duration e = s_duration (r_stats r) /\
              e_last_tags e = Some t /\ lists_tags (v_sched v) (r_tags r) t;
  ds_manual : exists l, e_manual e = joined ", " l /\ NoDup l /\
      forall t, t ∈ l <-> is_manual t = true /\ exists r, backed_up (v_disk v) r /\ t ∈ r_tags r;
  ds_unsynced : are (e_unsynced e) (fun r => backed_up (v_disk v) r /\
                  r_server r <> ""%string /\ r_tags r <> r_orig r);
  ds_local : are (e_local e) (fun r => backed_up (v_disk v) r /\ r_server r = ""%string) }.

(** ** C78 *)
Lemma clean_elem O d r : orders_ok O -> rev_files_ok d ->
  r ∈ get_history true false (scan_disk O d) <-> backed_up d r.
Proof.
  intros HO Hd. rewrite get_history_elem, scan_disk_elem by done.
  unfold backed_up, is_complete, is_clean. destruct (s_duration (r_stats r)); naive_solver.
Qed.
Lemma scan_nodup O d : NoDup (scan_disk O d).
Proof. exact (NoDup_fmap_1 _ _ (scan_disk_nodup O d)). Qed.
Lemma scan_sorted O d : StronglySorted by_time (scan_disk O d).
Proof. apply scan_list_sorted. Qed.
Lemma clean_newest O d r : orders_ok O -> rev_files_ok d ->
  last (get_history true false (scan_disk O d)) = Some r -> newest d r.
Proof.
  intros HO Hd Hl. split.
  - apply (clean_elem O); [done..|]. by apply last_Some_elem_of.
  - intros r' Hr'. eapply (sorted_last (get_history true false (scan_disk O d))); [|done|by apply clean_elem].
    apply filter_sorted, scan_sorted.
Qed.
Lemma shortest_ex (S : sched) : sched_ok S -> exists m, shortest S m /\ (0 < m)%Z.
Proof.
  intros (Hne & _ & Hpos). unfold shortest.
  assert (H : exists t i, (t, i) ∈ S /\ forall t' i', (t', i') ∈ S -> (i_interval i <= i_interval i')%Z).
  { clear Hpos. induction S as [|[t i] S IH]; [done|]. destruct S as [|p S].
    - exists t, i. split; [left|]. intros t' i' Hi. apply elem_of_list_singleton in Hi as [= -> ->]. lia.
    - destruct (IH ltac:(discriminate)) as (t1 & i1 & Hi1 & Hmin).
      destruct (decide (i_interval i <= i_interval i1)%Z) as [Hle|Hgt].
      + exists t, i. split; [left|]. intros t' i' Hi. apply elem_of_cons in Hi as [[= -> ->]|Hi]; [lia|].
        specialize (Hmin _ _ Hi). lia.
      + exists t1, i1. split; [by right|]. intros t' i' Hi. apply elem_of_cons in Hi as [[= -> ->]|Hi]; [lia|].
        by apply (Hmin t' i'). }
  destruct H as (t & i & Hi & Hmin). exists (i_interval i). split; [split; [by exists t, i|done]|by apply (Hpos t)].
Qed.
Lemma overdue_spec O d (S : sched) now : orders_ok O -> rev_files_ok d -> sched_ok S ->
  exists x, sla_overdue S (scan_disk O d) now = Ok x /\
    (~ too_old S d now /\ x = 0%Z \/
     too_old S d now /\ x <> 0%Z /\ exists r, newest d r /\ x = (now - r_ts r)%Z).
Proof.
  intros HO Hd HS. destruct (shortest_ex S HS) as (m & Hm & Hpos).
  unfold sla_overdue. destruct (last (get_history true false (scan_disk O d))) as [r|] eqn:Hl.
  - pose proof (clean_newest O d r HO Hd Hl) as Hr.
    assert (Hmin : min_list (map (fun p => i_interval p.2) S) = Some m).
    { pose proof (min_list_spec (map (fun p => i_interval p.2) S)) as Hs.
      destruct (min_list _) as [y|] eqn:E.
      - destruct Hs as [A B]. destruct Hm as [(t & i & Hi & Him) Hle].
        apply elem_of_list_fmap in A as ([t' i'] & -> & A). apply Hle in A. cbn in A |- *.
        assert (i_interval i ∈ map (fun p : string * item => i_interval p.2) S) as Hin.
        { apply elem_of_list_fmap. by exists (t, i). }
        specialize (B _ Hin). cbn in B. f_equal. lia.
      - destruct S; [by destruct HS as [HS _]|]. done. }
    rewrite Hmin. destruct (2 * (now - r_ts r) >? 3 * m)%Z eqn:E; eexists; (split; [done|]).
    + right. apply Z.gtb_lt in E. split_and!; [|lia|by exists r].
      split; [exists r; apply Hr|]. intros r' m' Hr' Hm'. rewrite (shortest_unique S m' m) by done.
      apply Hr in Hr'. lia.
    + left. rewrite Z.gtb_ltb in E. apply Z.ltb_ge in E. split; [|done]. intros [_ Ho].
      specialize (Ho r m (proj1 Hr) Hm). lia.
  - exists 0%Z. split; [done|]. left. split; [|done]. intros [[r Hr] _].
    apply (clean_elem O) in Hr; [|done..]. apply last_None in Hl. rewrite Hl in Hr. by apply elem_of_nil in Hr.
Qed.
Lemma lists_tags_intro O S X : orders_ok O -> sched_ok S -> lists_tags S X (joined "," (sorted_tags S (o_set O X))).
Proof.
  intros [_ HO] (_ & Hnd & Hpos). destruct (C43_sorted S (o_set O X) Hnd Hpos) as (H1 & H2 & H3 & _).
  exists (sorted_tags S (o_set O X)). split_and!; [done| |done|done].
  intros t. rewrite H2, HO. apply elem_of_elements.
Qed.
Lemma status_ok O now1 now2 v : orders_ok O -> rev_files_ok (v_disk v) -> sched_ok (v_sched v) ->
  exists e, status_of O now1 now2 v = Ok e /\ describes now1 now2 v e /\
    e_reports e = Z.of_nat (length (v_reports v)).
Proof.
  intros HO Hd HS. unfold status_of, sla.
  destruct (overdue_spec O _ _ now1 HO Hd HS) as (x1 & -> & Hx1).
  destruct (overdue_spec O _ _ now2 HO Hd HS) as (x2 & -> & Hx2). cbn [res_bind].
  eexists. split; [reflexivity|]. split; [|done].
  set (h := scan_disk O (v_disk v)) in *. set (c := get_history true false h).
  assert (Hc : forall r, r ∈ c <-> backed_up (v_disk v) r) by (intros; by apply clean_elem).
  constructor; cbn [e_job e_sla e_overdue e_status e_last e_last_tags e_last_duration e_next
    e_next_tags e_manual e_unsynced e_local]; try done.
  - case_bool_decide; [done|]. by apply lists_tags_intro.
  - destruct Hx1 as [[? ->]|(? & ? & _)]; [left; done|right].
    assert ((x1 =? 0)%Z = false) as -> by (by apply Z.eqb_neq). done.
  - destruct Hx2 as [?|(? & ? & ?)]; [by left|by right].
  - destruct (last c) as [r|] eqn:Hl.
    + right. pose proof (clean_newest O _ r HO Hd Hl) as Hr.
      eexists r, _. split_and!; [done..| |done|by apply lists_tags_intro].
      cbn. destruct Hr as [[_ Hr] _]. unfold is_complete in Hr. by destruct (s_duration (r_stats r)).
    + left. split_and!; [done..|]. intros r Hr. apply Hc in Hr. apply last_None in Hl.
      rewrite Hl in Hr. by apply elem_of_nil in Hr.
  - set (X := ⋃ _). exists (o_set O X). destruct HO as [_ HO]. split_and!; [done| |].
    + rewrite HO. apply NoDup_elements.
    + intros t. rewrite HO, elem_of_elements. unfold X. rewrite elem_of_union_list. split.
      * intros (Y & HY & Ht). apply elem_of_list_fmap in HY as (r & -> & Hr).
        apply elem_of_filter in Ht as [? ?]. split; [done|]. exists r. split; [by apply Hc|done].
      * intros (? & r & Hr & Ht). eexists. split; [apply elem_of_list_fmap; exists r; split; [done|by apply Hc]|].
        by apply elem_of_filter.
  - eexists. split_and!; [| |reflexivity].
    + apply NoDup_filter, NoDup_filter, scan_nodup.
    + intros r. rewrite elem_of_list_filter, Hc. unfold pending.
      rewrite andb_true_iff, !negb_true_iff, !bool_decide_eq_false. naive_solver.
  - eexists. split_and!; [| |reflexivity].
    + apply NoDup_filter, scan_nodup.
    + intros r. rewrite get_history_elem. rewrite <- Hc. unfold c. rewrite get_history_elem.
      unfold is_local. rewrite bool_decide_eq_true. naive_solver.
Qed.

(** The reply to a status request: for every job the filter selects, in the daemon's order,
    one entry, which describes the job's directory as it is at that moment.
    What is missing: the number of problem reports ([C78_refuted]). *)
Theorem C78_status_partial O clock q jobs :
  orders_ok O ->
  (forall v, v ∈ jobs -> rev_files_ok (v_disk v) /\ sched_ok (v_sched v)) ->
  exists es, status_reply O clock q jobs = Ok es /\
    Forall2 (fun v e => describes (clock (v_name v)).1 (clock (v_name v)).2 v e)
      (filter (fun v => asked q (v_name v) = true) jobs) es.
Proof.
  intros HO Hj. induction jobs as [|v jobs IH].
  - exists []. split; [done|constructor].
  - destruct IH as (es & IH & Hes). { intros v' Hv'. apply Hj. by right. }
    cbn [status_reply]. rewrite filter_cons. destruct (decide (asked q (v_name v) = true)) as [Ha|Ha].
    + rewrite Ha. destruct (Hj v) as [H1 H2]; [left|].
      destruct (status_ok O (clock (v_name v)).1 (clock (v_name v)).2 v HO H1 H2) as (e & -> & He & _).
      cbn [res_bind]. rewrite IH. cbn [res_bind]. exists (e :: es). split; [done|]. by constructor.
    + apply not_true_is_false in Ha. rewrite Ha. exists es. done.
Qed.
(** The number of problem reports is right as long as none was added or deleted since the
    current round of the job's loop began. *)
Theorem C78_reports_partial O now1 now2 v e :
  status_of O now1 now2 (connected v) = Ok e ->
  exists l, NoDup l /\ (forall id, id ∈ l <-> is_Some (q_files (v_quarantine v) !! (id ++ ".report")%string)) /\
    e_reports e = Z.of_nat (length l).
Proof.
  unfold status_of. intros H. destruct (sla _ _ _); [|done]. cbn [res_bind] in H.
  destruct (sla_overdue _ _ _); [|done]. cbn [res_bind] in H.
  exists (scan_reports (v_quarantine v)). destruct (C61_list (v_quarantine v)) as [H1 H2].
  split_and!; [done..|]. apply (f_equal (fun x => match x with Ok e => e_reports e | Err _ => 0%Z end)) in H.
  cbn in H. symmetry. exact H.
Qed.
(** A report that another process stores in the job's directory while the job waits or runs
    ("backy verify", or the backup itself): the daemon's object is not involved. *)
Definition report_found (r : report) (v : jobview) : jobview :=
  MkJv (v_name v) (v_disk v) (store_report r (v_quarantine v)) (v_reports v) (v_sched v)
    (v_status v) (v_next v) (v_next_tags v).
Definition s_rev (u : string) (ts : Z) (dur : option Z) (tags : list string) (server : string) : rev :=
  MkRev u ts (MkStats 0 dur None) (list_to_set tags) ∅ TRUSTED server.
Definition s_disk (l : list rev) : disk := MkDisk ∅ ∅ (list_to_map (map (fun r => (r_uuid r, r)) l)).
Definition s_O : orders := MkOrders map_to_list elements.
Definition s_sched : sched := [("daily", MkItem 100 5); ("hourly", MkItem 10 5)]%Z.
Definition s_job (name : string) (l : list rev) : jobview :=
  connected (MkJv name (s_disk l) (MkQuar ∅ ∅) [] s_sched "waiting for deadline" (Some 900%Z) {["daily"]}).
Definition s_revs : list rev :=
  [s_rev "a" 100 (Some 5%Z) ["daily"; "manual:x"] ""; s_rev "b" 300 (Some 7%Z) ["hourly"; "daily"] "";
   s_rev "c" 200 (Some 6%Z) ["hourly"] "peer"; s_rev "d" 400 None ["hourly"] ""]%Z.
(** A problem report stored during a round is not counted. *)
Theorem C78_refuted : exists r v e,
  status_of s_O 320 320 (report_found r (connected v)) = Ok e /\
  rp_uuid r ∈ scan_reports (v_quarantine (report_found r (connected v))) /\
  e_reports e = 0%Z.
Proof.
  exists (MkReport "x" "" []), (s_job "vm1" s_revs).
  eexists. split; [vm_compute; reflexivity|]. split; [|reflexivity].
  vm_compute. left.
Qed.
Print Assumptions C78_status_partial.
Print Assumptions C78_reports_partial.
Print Assumptions C78_refuted.
Lemma s_O_ok : orders_ok s_O.
Proof. split; intros; reflexivity. Qed.
Lemma s_sched_ok : sched_ok s_sched.
Proof.
  split; [done|]. split.
  - apply (bool_decide_eq_true_1 _). vm_compute. reflexivity.
  - intros t i H. repeat (apply elem_of_cons in H as [[= -> ->]|H]; [cbn; lia|]). by apply elem_of_nil in H.
Qed.
Lemma s_disk_ok l : rev_files_ok (s_disk l).
Proof.
  intros n r H. cbn in H. apply elem_of_list_to_map_2 in H. apply elem_of_list_fmap in H as (x & [= -> ->] & _). done.
Qed.
Example ex_C78 :
  status_of s_O 320 320 (s_job "vm1" s_revs) =
    Ok (MkEntry "vm1" "TOO OLD" 20 "waiting for deadline" (Some 300%Z) (Some "hourly,daily") (Some 7%Z)
          (Some 900%Z) (Some "daily") "manual:x" 0 1 2) /\
  status_reply s_O (fun _ => (320, 320)%Z) (Named "vm1") [s_job "vm2" []; s_job "vm1" s_revs] =
    res_bind (status_of s_O 320 320 (s_job "vm1" s_revs)) (fun e => Ok [e]) /\
  (forall v, v ∈ [s_job "vm2" []; s_job "vm1" s_revs] -> rev_files_ok (v_disk v) /\ sched_ok (v_sched v)).
Proof.
  split; [vm_compute; reflexivity|]. split; [vm_compute; reflexivity|].
  intros v Hv. repeat (apply elem_of_cons in Hv as [->|Hv]; [split; [apply s_disk_ok|apply s_sched_ok]|]).
  by apply elem_of_nil in Hv.
Qed.

(** ** C77 *)
(** A peer at the moment it is asked: the order in which its directories are listed, its
    clock, and its jobs. *)
Record peer_state := MkPeer { pe_orders : orders; pe_clock : string -> Z * Z; pe_jobs : list jobview }.
(** Job names: letters, digits, "_", "-" and "." (they are directory names). *)
Definition valid_name (s : string) : bool := str_all (fun c => plain_char c || bool_decide (c = "."%char)) s.
Definition plain_name (s : string) : bool := str_all plain_char s.
Definition peer_ok (p : peer_state) : Prop :=
  orders_ok (pe_orders p) /\
  forall v, v ∈ pe_jobs p -> rev_files_ok (v_disk v) /\ sched_ok (v_sched v) /\ valid_name (v_name v) = true.
(** What it answers to the job [name] of another server; [None]: it cannot be reached. *)
Definition says (name : string) (p : option peer_state) : reply :=
  match p with
  | None => RClient
  | Some p => answer (status_reply (pe_orders p) (pe_clock p) (ask_about name) (pe_jobs p))
  end.
(** What happens while a job waits: a request to run at once, or the peer is asked again. *)
Inductive moment := Now | Ask (p : option peer_state).
Definition as_pause (name : string) (x : moment) : pause :=
  match x with Now => PRun | Ask p => PReply (says name p) end.
(** The decision of the job [name] with [local] complete revisions here, planned for [next]. *)
Definition leave_to_peer (name : string) (local next : Z) (peers : list (string * option peer_state))
    (l : list moment) : Prop :=
  exists n, wait_for_leader local next (map (fun p => (p.1, says name p.2)) peers) (map (as_pause name) l)
            = Decided true n.
(** A peer, asked at the beginning or later. *)
Definition was_asked (peers : list (string * option peer_state)) (l : list moment) (p : peer_state) : Prop :=
  (exists server, (server, Some p) ∈ peers) \/ Ask (Some p) ∈ l.

Lemma match_plain p s : plain_name p = true -> valid_name s = true -> match_name p s = true -> p = s.
Proof.
  revert s. induction p as [|a p IH]; intros [|c s] Hp Hs H.
  - done.
  - exfalso. cbn in Hs, H. destruct s; [|done]. apply bool_decide_eq_true in H. subst c.
    vm_compute in Hs. done.
  - exfalso. cbn in H. by destruct a as [[] [] [] [] [] [] [] []].
  - cbn in Hp, Hs. apply andb_true_iff in Hp as [Ha Hp]. apply andb_true_iff in Hs as [Hc Hs].
    assert (a <> "."%char) as Hd. { intros ->. vm_compute in Ha. done. }
    assert (bool_decide (a = c) && match_name p s = true) as H'.
    { revert H. cbn [match_name]. clear -Hd. by destruct a as [[] [] [] [] [] [] [] []]. }
    apply andb_true_iff in H' as [H1 H2]. apply bool_decide_eq_true in H1. subst c. f_equal. by apply IH.
Qed.
(** What a peer says first is about the job of that name. *)
Lemma says_spec name p st l : plain_name name = true -> peer_ok p ->
  says name (Some p) = RStatus (st :: l) ->
  exists v, v ∈ pe_jobs p /\ v_name v = name /\
    are (t_local_revs st) (fun r => backed_up (v_disk v) r /\ r_server r = ""%string) /\
    (forall t, t_last st = Some t -> exists r, newest (v_disk v) r /\ r_ts r = t).
Proof.
  intros Hn [HO Hj] H. cbn in H.
  destruct (C78_status_partial (pe_orders p) (pe_clock p) (ask_about name) (pe_jobs p) HO) as (es & Hes & HF).
  { intros v Hv. destruct (Hj v Hv) as (? & ? & _). done. }
  rewrite Hes in H. cbn in H. injection H as H. destruct es as [|e es]; [done|].
  cbn in H. injection H as <- _.
  apply Forall2_cons_inv_r in HF as (v & vs & Hde & _ & Hf).
  assert (Hv : v ∈ filter (fun v => asked (ask_about name) (v_name v) = true) (pe_jobs p)) by (rewrite Hf; left).
  apply elem_of_list_filter in Hv as [Ha Hv]. exists v. split_and!; [done| | |].
  - symmetry. apply match_plain; [done| |done]. by destruct (Hj v Hv) as (_ & _ & ?).
  - cbn. apply Hde.
  - cbn. intros t Ht. destruct (ds_last _ _ _ _ Hde) as [(H1 & _)|(r & _ & H1 & H2 & _)].
    + rewrite Ht in H1. done.
    + exists r. split; [done|]. rewrite Ht in H2. by injection H2.
Qed.

(** A job leaves its backup to the peers only if a peer has more complete revisions of the
    same job than are here, and a peer then has a complete revision of the same job not
    older than five minutes before the planned time.
    What is missing: names with a dot ([C77_refuted]). *)
Theorem C77_same_job_partial name local next peers l :
  plain_name name = true ->
  (forall p, was_asked peers l p -> peer_ok p) ->
  leave_to_peer name local next peers l ->
  (exists server p v k, (server, Some p) ∈ peers /\ v ∈ pe_jobs p /\ v_name v = name /\
     are k (fun r => backed_up (v_disk v) r /\ r_server r = ""%string) /\ (local < k)%Z) /\
  (exists p v r, was_asked peers l p /\ v ∈ pe_jobs p /\ v_name v = name /\
     backed_up (v_disk v) r /\ (next - r_ts r < 300 * 1000000)%Z).
Proof.
  intros Hn Hok [n Hw]. apply C47_leader in Hw.
  destruct Hw as (i & server & st & Hrep & Hloc & _ & _ & st' & t & Hfrom & Ht & Hlt).
  destruct Hrep as [k Hk]. apply list_lookup_fmap_Some in Hk as ([s q] & Hk & Hq).
  cbn [fst snd] in Hq. injection Hq as -> Hq'. destruct q as [p|]; [|done].
  assert (Hin : (s, Some p) ∈ peers) by (by eapply elem_of_list_lookup_2).
  assert (Hp : peer_ok p). { apply Hok. left. by exists s. }
  destruct (says_spec name p st k Hn Hp (eq_sym Hq')) as (v & Hv & Hvn & Hcount & Hlast).
  split; [by exists s, p, v, (t_local_revs st)|].
  destruct Hfrom as [->|[r' Hr]].
  - destruct (Hlast t Ht) as (r & [Hr _] & Hts). exists p, v, r.
    split_and!; try done; [left; by exists s|]. by rewrite Hts.
  - apply elem_of_list_fmap in Hr as (m & Hm & Hml). destruct m as [|[p'|]]; [done| |done].
    cbn [as_pause] in Hm. injection Hm as Hm.
    assert (Hp' : peer_ok p'). { apply Hok. by right. }
    destruct (says_spec name p' st' r' Hn Hp' (eq_sym Hm)) as (v' & Hv' & Hvn' & _ & Hlast').
    destruct (Hlast' t Ht) as (r & [Hr' _] & Hts). exists p', v', r.
    split_and!; try done; [by right|]. by rewrite Hts.
Qed.
(** With a dot in its name a job can be taken for another one: the peer has no backup of
    "vm.1" at all, but lots of "vm-1". *)
Theorem C77_refuted : exists name local next peers l,
  valid_name name = true /\ (forall p, was_asked peers l p -> peer_ok p) /\
  leave_to_peer name local next peers l /\
  forall p v, was_asked peers l p -> v ∈ pe_jobs p -> v_name v = name -> forall r, ~ backed_up (v_disk v) r.
Proof.
  set (p := MkPeer s_O (fun _ => (320, 320)%Z) [s_job "vm-1" s_revs; s_job "vm.1" []]).
  exists "vm.1", 0%Z, 310%Z, [("peer", Some p)], [].
  assert (Hasked : forall p', was_asked [("peer", Some p)] [] p' -> p' = p).
  { intros p' [[s Hs]|Hs]; [|by apply elem_of_nil in Hs]. apply elem_of_list_singleton in Hs. by injection Hs. }
  split; [reflexivity|]. split; [|split].
  - intros p' Hp'. rewrite (Hasked p' Hp'). split; [exact s_O_ok|].
    intros v Hv. unfold p in Hv; cbn [pe_jobs] in Hv.
    repeat (apply elem_of_cons in Hv as [->|Hv]; [split_and!; [apply s_disk_ok|apply s_sched_ok|reflexivity]|]).
    by apply elem_of_nil in Hv.
  - exists 0%nat. vm_compute. reflexivity.
  - intros p' v Hp' Hv Hname r [Hr _]. rewrite (Hasked p' Hp') in Hv. unfold p in Hv; cbn [pe_jobs] in Hv.
    apply elem_of_cons in Hv as [->|Hv]; [vm_compute in Hname; done|].
    apply elem_of_list_singleton in Hv as ->. vm_compute in Hr. done.
Qed.
Print Assumptions C77_same_job_partial.
Print Assumptions C77_refuted.
Example ex_C77 :
  let p := MkPeer s_O (fun _ => (320, 320)%Z) [s_job "vm2" []; s_job "vm1" s_revs] in
  leave_to_peer "vm1" 1 310 [("gone", None); ("peer", Some p)] [] /\
  ~ leave_to_peer "vm1" 2 310 [("gone", None); ("peer", Some p)] [] /\
  ~ leave_to_peer "vm2" 0 310 [("gone", None); ("peer", Some p)] [].
Proof.
  split; [exists 0%nat; vm_compute; reflexivity|].
  split; intros [n H]; vm_compute in H; discriminate.
Qed.
