(** C119: a changed schedule and the backup that has just been made. *)
From Verif Require Import Model.JobLoop Model.Rounds Proofs.LifeThms Proofs.ScanProofs Proofs.RestoreProofs Proofs.ExEnv.
From Verif Require Import Props.PExpire Props.PBackup Props.PLife Props.PReload Props.PRepo Props.PSchedule Props.PJobLoop Props.PRounds.
From Verif Require Import Model.RbdBackup.

(** A run makes its backup with the tags it was planned with (scheduler.py:208-210,
    243-259); expiry uses the schedule of the moment, which a reload has changed in place
    (daemon/__init__.py:103-109) if the job's own section stayed the same. *)

(** The newest backup of a repository that only the daemon works on is still there and
    can be restored after any number of further rounds, as long as one of its tags is in the
    schedule whenever there is an expiry.  What is missing: that all of its tags may have
    left the schedule ([C119_all_gone], [C119_refuted]). *)
Theorem C119_newest_kept_partial E st0 (tr : trace) st ph i r t :
  (0 < CS E)%Z -> lzo_ok E -> nothing_yet st0 ->
  rounds E false st0 tr st ph -> Forall honest tr -> NoDup (all_started tr) ->
  no_collision E (lf_disk st0) (all_effects tr) -> clock_ok tr ->
  completed tr st i r -> (forall k r', i < k -> ~ completed tr st k r') -> t ∈ r_tags r ->
  (forall s ev l iso now S0, (s, ev, l) ∈ tr -> cmd_of ev = Some (LExpire iso now S0) ->
     sched_ok S0 /\ exists it, (t, it) ∈ S0 /\ (0 < i_keep it)%Z) ->
  (exists rv, d_revs (lf_disk st) !! r_uuid r = Some rv /\ is_clean rv = true /\ t ∈ r_tags rv) /\
  exists c, taken tr (r_uuid r) c /\ restores E st (r_uuid r) c.
Proof.
  intros H1 H2 H3 Hr Hh Hnd Hnc Hck Hi Hlast Ht Hs.
  apply (C105_kept_partial E st0 tr st ph i r t); try done.
  - intros s ev l iso now S0 Hin Hc. eapply Hs; done.
  - intros j s ev l iso now S0 Hij Hj Hc. apply elem_of_list_lookup_2 in Hj.
    destruct (Hs s ev l iso now S0 Hj Hc) as (HS & it & Hit & Hk). split; [done|]. exists it. split; [done|].
    right. intros (js & _ & Hlen & Hjs). destruct js as [|k js]; [cbn in Hlen; lia|].
    destruct (Hjs k) as ([Hk1 _] & r' & Hc' & _); [left|]. exact (Hlast k r' Hk1 Hc').
Qed.
Print Assumptions C119_newest_kept_partial.

(** The tags of a run belong to the schedule it was planned with. *)
Lemma planned_tags fl O S spread t s time tags tag : rounding fl -> S <> [] -> sensible S spread t ->
  plan_run fl O S spread t s = Ok (time, tags) -> tag ∈ tags -> tag ∈ map fst S.
Proof.
  intros Hf HS Hse Hp Htag. pose proof (planned fl O S spread t s time tags Hf HS Hse Hp) as H.
  destruct (tn_clock t) as [[[c0 c1] c2] c3]. destruct H as (h & p & _ & _ & H).
  apply elem_of_list_fmap. destruct (H tag Htag) as [(i & Hi & _)|(i & n & Hi & _)]; by exists (tag, i).
Qed.
(** If all tags of a schedule are renamed, the expiry at the end of the next run - made
    with tags planned before - removes every local revision that has no manual tag, and
    the one that has just been made is among them. *)
Theorem C119_all_gone fl O Oe iso now S S' spread t s (js : jstate) time tags :
  rounding fl -> S <> [] -> sensible S spread t -> orders_ok Oe ->
  plan_run fl O S spread t js = Ok (time, tags) ->
  (forall x, x ∈ map fst S -> x ∉ map fst S') -> sched_ok S' ->
  rev_files_ok (w_disk (rs_w s)) ->
  (* what is there: the new backup, and older ones with tags of the old schedule *)
  (forall u r, drevs s !! u = Some r -> r_server r = "" ->
     r_tags r = tags \/ forall x, x ∈ r_tags r -> x ∈ map fst S) ->
  (forall x, x ∈ map fst S -> ~ manual x) ->
  exists s', expire Oe iso now S' s = (s', Ok tt) /\
    forall u r, drevs s' !! u = Some r -> r_server r <> "".
Proof.
  intros Hf HS Hse HO Hp Hd HS' Hrf Hall Hm.
  destruct (C35_expire_manual_and_removal Oe iso now S' s HO Hrf HS') as (s' & He & _ & _ & Hr & Hnone & _).
  exists s'. split; [done|]. intros u r Hu Hsrv.
  destruct (drevs s !! u) as [y|] eqn:Hy; [|rewrite (Hnone u Hy) in Hu; discriminate].
  destruct (Hr u y Hy) as [Hgone Hk]. destruct (Hk r Hu) as (K & HK & ->). cbn in Hsrv.
  assert (drevs s' !! u = None) as Hn; [|congruence].
  apply Hgone. split; [done|]. intros x (Hx & Hx').
  assert (x ∈ map fst S) as HxS.
  { destruct (Hall u y Hy Hsrv) as [Ht|Ht]; [|by apply Ht]. rewrite Ht in Hx.
    exact (planned_tags fl O S spread t js time tags x Hf HS Hse Hp Hx). }
  destruct Hx' as [Hx'|(i & Hi & _)]; [exact (Hm x HxS Hx')|].
  apply (Hd x HxS). apply elem_of_list_fmap. by exists (x, i).
Qed.
Print Assumptions C119_all_gone.

(** ** A concrete case *)
(** One backup a day, ten to be kept.  At noon of the second day the tag "daily" is
    renamed to "nightly" in the schedule, and the daemon reloads; the job waits for its
    midnight run, as before. *)
Definition n_S : sched := [("daily"%string, MkItem 86400000000 10)].
Definition n_S' : sched := [("nightly"%string, MkItem 86400000000 10)].
Definition n_b (st : life_state) (c : string) (diff : bytes) (u : string) (ts : Z) : lcmd :=
  LBackup (Some (scan_disk ex_O (lf_disk st))) false (l_B c diff) (d_r u ts).
Definition n_t1 : Z := (noon + hm 24 0 + 1000000)%Z.
Definition n_t2 : Z := (noon + hm 48 0 + 1000000)%Z.
Definition n_x1 : lcmd := LExpire (fun _ => None) (fun _ => (n_t1 + 60000000)%Z) n_S.
Definition n_x2 : lcmd := LExpire (fun _ => None) (fun _ => (n_t2 + 60000000)%Z) n_S'.
Definition n_c1 := n_b l_st0 "abcdefgh" [] "1" n_t1.
Definition n_s1 := then_ l_st0 n_c1.
Definition n_s2 := then_ n_s1 LClean.
Definition n_s3 := then_ n_s2 d_p.
Definition n_s4 := then_ n_s3 n_x1.
Definition n_s5 := then_ n_s4 (LPush []).
Definition n_s6 := then_ n_s5 LGc.
Definition n_c2 := n_b n_s6 "abXYefgh" (enc_diff (l_ms "backy-1" "backy-2") [DData 2 (bs "XY")]) "2" n_t2.
Definition n_s7 := then_ n_s6 n_c2.
Definition n_s8 := then_ n_s7 LClean.
Definition n_s9 := then_ n_s8 d_p.
Definition n_s10 := then_ n_s9 n_x2.
Definition n_s11 := then_ n_s10 (LPush []).
Definition n_s12 := then_ n_s11 LGc.
Definition n_tr : trace :=
  [d_ok l_st0 n_c1; d_ok n_s1 LClean; d_ok n_s2 d_p; d_ok n_s3 n_x1; d_ok n_s4 (LPush []); d_ok n_s5 LGc;
   d_ok n_s6 n_c2; d_ok n_s7 LClean; d_ok n_s8 d_p; d_ok n_s9 n_x2; d_ok n_s10 (LPush []); d_ok n_s11 LGc].
Lemma n_rounds : rounds ex_env false l_st0 n_tr n_s12 Waiting /\ rounds ex_env false l_st0 (take 9 n_tr) n_s9 Pulled.
Proof.
  assert (H6 : rounds ex_env false l_st0 (take 6 n_tr) n_s6 Waiting).
  { apply (d_step (take 5 n_tr) n_s5 Pushed LGc Waiting); [|vm_compute; reflexivity|reflexivity|exact I].
    apply (d_step (take 4 n_tr) n_s4 Expired (LPush []) Pushed); [|vm_compute; reflexivity|reflexivity|exact I].
    apply (d_step (take 3 n_tr) n_s3 Pulled n_x1 Expired); [|vm_compute; reflexivity|reflexivity|exact I].
    apply (d_step (take 2 n_tr) n_s2 Tidied d_p Pulled); [|vm_compute; reflexivity|reflexivity|exact I].
    apply (d_step (take 1 n_tr) n_s1 Made LClean Tidied); [|vm_compute; reflexivity|reflexivity|exact I].
    apply (d_step (take 0 n_tr) l_st0 Waiting n_c1 Made); [|vm_compute; reflexivity|reflexivity|reflexivity].
    apply (rounds_nil ex_env false l_st0). }
  assert (H9 : rounds ex_env false l_st0 (take 9 n_tr) n_s9 Pulled).
  { apply (d_step (take 8 n_tr) n_s8 Tidied d_p Pulled); [|vm_compute; reflexivity|reflexivity|exact I].
    apply (d_step (take 7 n_tr) n_s7 Made LClean Tidied); [|vm_compute; reflexivity|reflexivity|exact I].
    apply (d_step (take 6 n_tr) n_s6 Waiting n_c2 Made); [|vm_compute; reflexivity|reflexivity|reflexivity].
    exact H6. }
  split; [|exact H9].
  apply (d_step (take 11 n_tr) n_s11 Pushed LGc Waiting); [|vm_compute; reflexivity|reflexivity|exact I].
  apply (d_step (take 10 n_tr) n_s10 Expired (LPush []) Pushed); [|vm_compute; reflexivity|reflexivity|exact I].
  apply (d_step (take 9 n_tr) n_s9 Pulled n_x2 Expired); [|vm_compute; reflexivity|reflexivity|exact I].
  exact H9.
Qed.
Lemma n_made : map made n_tr = [Some (d_r "1" n_t1); None; None; None; None; None; Some (d_r "2" n_t2);
  None; None; None; None; None].
Proof. reflexivity. Qed.
Lemma n_makes j r : makes n_tr j r -> j = 0 /\ r = d_r "1" n_t1 \/ j = 6 /\ r = d_r "2" n_t2.
Proof.
  intros H. apply makes_made in H. rewrite n_made in H.
  do 12 (destruct j as [|j]; [try discriminate H; apply (inj Some), (inj Some) in H as <-; auto|]). discriminate H.
Qed.
Lemma n_clock : clock_ok n_tr.
Proof.
  intros i j ri rj Hi Hj Hlt.
  destruct (n_makes i ri Hi) as [[-> ->]|[-> ->]], (n_makes j rj Hj) as [[-> ->]|[-> ->]];
    first [exfalso; lia|reflexivity].
Qed.
Lemma n_sched_ok (x : string) :
  x = "daily"%string \/ x = "nightly"%string -> sched_ok [(x, MkItem 86400000000 10)].
Proof.
  intros Hx. split; [apply NoDup_singleton|]. intros t i Hin. apply elem_of_list_singleton in Hin. injection Hin as -> ->.
  split; [|split; [|done]].
  - destruct Hx as [->| ->]; (split; [done|]; split; [reflexivity|]; split;
      [intros c Hc; cbn in Hc; repeat (apply elem_of_cons in Hc as [->|Hc]; [reflexivity|]); apply elem_of_nil in Hc; done
      |cbn; repeat split; intros He; discriminate He]).
  - destruct Hx as [->| ->]; intros [y Hy]; discriminate Hy.
Qed.
Lemma n_expiries : map expiry n_tr = [None; None; None; Some n_S; None; None; None; None; None; Some n_S'; None; None].
Proof. reflexivity. Qed.
Lemma n_schedules : schedules_ok n_tr.
Proof.
  intros s ev l iso now S0 Hin Hc. apply (elem_of_list_fmap_1 expiry) in Hin.
  change (expiry <$> n_tr) with (map expiry n_tr) in Hin. rewrite n_expiries in Hin.
  unfold expiry in Hin. cbn [fst snd] in Hin. rewrite Hc in Hin.
  repeat (apply elem_of_cons in Hin as [Hin|Hin]; [first [discriminate Hin|injection Hin as ->; apply n_sched_ok; auto]|]).
  inversion Hin.
Qed.
Lemma n_honest : Forall honest n_tr.
Proof.
  apply Forall_cons; split.
  { split; [exists n_t1, {["daily"%string]}; reflexivity|].
    intros c [= <-]. split; [reflexivity|]. intros p a s Hp. vm_compute in Hp. discriminate Hp. }
  do 5 (apply Forall_cons; split; [exact I || (intros p a Hp; inversion Hp)|]).
  apply Forall_cons; split.
  { split; [exists n_t2, {["daily"%string]}; reflexivity|].
    intros c [= <-]. split; [reflexivity|]. intros p a s Hp Ha. vm_compute in Hp. injection Hp as <-.
    value (lf_snaps n_s6) Hs. rewrite Hs in Ha. cbn [r_uuid] in Ha |- *.
    apply elem_of_cons in Ha as [Ha|Ha]; [discriminate Ha|].
    apply elem_of_list_singleton in Ha. injection Ha as ->.
    exact l_stream2. }
  do 5 (apply Forall_cons; split; [exact I || (intros p a Hp; inversion Hp)|]). constructor.
Qed.
Lemma n_nodup : NoDup (all_started n_tr).
Proof. vm_compute. repeat constructor; set_solver. Qed.
(** What the job planned after the first run, and what it plans after the second. *)
Definition n_wait : turn := calm (d_revs (lf_disk n_s6)) (hm 24 2) JOk.
Definition n_next : turn := calm (d_revs (lf_disk n_s12)) (hm 48 2) JOk.
Definition planned_is (S : sched) (t : turn) (at_ : Z) (tags : list string) : bool :=
  match plan_run fl36 ex_O S 0 t loop_start with
  | Ok (time, T) => (time =? at_)%Z && bool_decide (elements T = tags)
  | Err _ => false
  end.
(** Both rounds succeed from the first step to the last, and then nothing is left of two
    backups; the next one is due a day later. *)
Theorem C119_refuted :
  rounds ex_env false l_st0 n_tr n_s12 Waiting /\ Forall honest n_tr /\ NoDup (all_started n_tr) /\
  clock_ok n_tr /\ schedules_ok n_tr /\
  (* each made with the tags planned *)
  planned_is n_S n_wait (noon + hm 48 0) (elements (r_tags (d_r "2" n_t2))) = true /\
  n_tr !! 0 = Some (d_ok l_st0 n_c1) /\ completed n_tr n_s12 0 (d_r "1" n_t1) /\
  n_tr !! 6 = Some (d_ok n_s6 n_c2) /\ completed n_tr n_s12 6 (d_r "2" n_t2) /\
  (* nothing is left *)
  d_revs (lf_disk n_s12) = ∅ /\ d_chunks (lf_disk n_s12) = ∅ /\
  planned_is n_S' n_next (noon + hm 72 0) ["nightly"%string] = true.
Proof.
  split; [exact (proj1 n_rounds)|]. split; [exact n_honest|]. split; [exact n_nodup|]. split; [exact n_clock|].
  split; [exact n_schedules|]. split; [vm_compute; reflexivity|].
  split; [reflexivity|]. split.
  { split; [eexists _, _, _, _, _, _; split; [reflexivity|reflexivity]|].
    value (d_revs (lf_disk n_s1) !! "1") Hv. eexists. split; [exact Hv|]. split; reflexivity. }
  split; [reflexivity|]. split.
  { split; [eexists _, _, _, _, _, _; split; [reflexivity|reflexivity]|].
    value (d_revs (lf_disk n_s7) !! "2") Hv. eexists. split; [exact Hv|]. split; reflexivity. }
  split; [apply map_to_list_empty_iff; vm_compute; reflexivity|].
  split; [apply map_to_list_empty_iff; vm_compute; reflexivity|]. vm_compute. reflexivity.
Qed.
Print Assumptions C119_refuted.
(** Up to the expiry both backups were there, and the promise applies: until then "daily"
    was in the schedule. *)
Example ex_C119 :
  map fst (map_to_list (d_revs (lf_disk n_s9))) = ["2"; "1"] /\
  exists c, taken (take 9 n_tr) "2" c /\ restores ex_env n_s9 "2" c.
Proof.
  split; [vm_compute; reflexivity|].
  apply (C119_newest_kept_partial ex_env l_st0 (take 9 n_tr) n_s9 Pulled 6 (d_r "2" n_t2) "daily").
  - exact ex_CS.
  - exact ex_lzo.
  - exact l_nothing.
  - exact (proj2 n_rounds).
  - apply Forall_take, n_honest.
  - vm_compute. repeat constructor; set_solver.
  - apply ex_no_collision.
  - intros i j ri rj (s1 & e1 & l1 & k1 & a1 & b1 & Hi & Hci) (s2 & e2 & l2 & k2 & a2 & b2 & Hj & Hcj).
    apply n_clock.
    + exists s1, e1, l1, k1, a1, b1. split; [|exact Hci]. apply (lookup_take_Some n_tr 9 i). done.
    + exists s2, e2, l2, k2, a2, b2. split; [|exact Hcj]. apply (lookup_take_Some n_tr 9 j). done.
  - split; [eexists _, _, _, _, _, _; split; [reflexivity|reflexivity]|].
    value (d_revs (lf_disk n_s7) !! "2") Hv. eexists. split; [exact Hv|]. split; reflexivity.
  - intros k r' Hk [(s2 & e2 & l2 & k2 & a2 & b2 & Hj & Hcj) _].
    assert (makes n_tr k r') as H.
    { exists s2, e2, l2, k2, a2, b2. split; [|exact Hcj]. apply (lookup_take_Some n_tr 9 k). done. }
    destruct (n_makes k r' H) as [[-> _]|[-> _]]; lia.
  - cbn. set_solver.
  - intros s ev l iso now S0 Hin Hc. apply (elem_of_list_fmap_1 expiry) in Hin.
    change (expiry <$> take 9 n_tr) with [None; None; None; Some n_S; None; None; None; None; None (A := sched)] in Hin.
    unfold expiry in Hin. cbn [fst snd] in Hin. rewrite Hc in Hin.
    repeat (apply elem_of_cons in Hin as [Hin|Hin]; [first [discriminate Hin|injection Hin as ->]|]); [|inversion Hin].
    split; [apply n_sched_ok; auto|]. exists (MkItem 86400000000 10). split; [left|done].
Qed.
