(** C96: after the newest backup was distrusted, the next one is full. *)
From Verif Require Import Proofs.BackupThms Proofs.ExEnv Proofs.LifeSteps Props.PBackup Props.PVocab.
From Verif Require Import Props.PBaseDir.
From Verif Require Import Model.RbdBackup.

(** ** Specification *)
(** An ordinary revision id. *)
Definition plain (u : string) : Prop := ~ (exists a b, u = a +:+ "backy-" +:+ b).
(** Some time after [s1] a backup of [r] is about to choose its parent: nobody made
    snapshots of old revisions again; [h1] are the revisions before [r]. *)
Record later (s1 : rst) (r : rev) (h1 : list rev) (s2 : rst) : Prop := {
  lt_hist : exists h2, rs_hist s2 = h1 ++ r :: h2;
  lt_ids : NoDup (map r_uuid (rs_hist s2));
  lt_plain : forall x, x ∈ h1 -> plain (r_uuid x);
  lt_trust : r_trust r <> DISTRUSTED;
  lt_snaps : forall n, n ∈ map fst (rs_snaps s2) -> n ∈ map fst (rs_snaps s1) \/ n = snap_name (r_uuid r) }.

(** A backup of [r1], the newest local revision then, has ended (with whatever
    result) and could clean up the snapshots.  If [r1] is distrusted by the time of the
    next backup, that backup has no parent: it is full ([backup_body]). *)
Theorem C96_full_partial :
  forall E O B r1 s s1 rb B2 r2 h1 s2 c,
  orders_ok O -> repo_ok E O r1 s -> backup E O false B r1 s = (s1, rb) ->
  bk_ready B = true -> bk_snap B = Ok c -> bk_ls B = None -> (forall n, bk_rm_fail B n = false) ->
  (exists h, get_history false true (rs_hist s) = h ++ [r1]) ->
  later s1 r2 h1 s2 -> bk_info B2 = None ->
  (forall x, x ∈ h1 -> r_uuid x = r_uuid r1 -> r_trust x = DISTRUSTED) ->
  (ceph_parent false B2 r2 s2).2 = Ok None.
Proof.
  intros E O B r1 s s1 rb B2 r2 h1 s2 c HO Hrepo Hrun Hready Hsn Hls Hrm (h & Hh) [[h2 L1] L2 L3 L4 L5] Hinfo Hdis.
  destruct (C19_cleanup_partial E O false B r1 s s1 rb c HO Hrepo Hrun Hready Hsn) as (_ & _ & Hk).
  specialize (Hk Hls).
  destruct (C18_parent B2 s2 h1 r2 h2 L1 L2 L4 Hinfo) as (x & Hx & _ & Hnone).
  rewrite Hx. f_equal. apply Hnone. intros y Hy (G1 & G2 & G3).
  assert (Hyr : r_uuid y <> r_uuid r2).
  { intros Heq. rewrite L1, map_app in L2. apply NoDup_app in L2 as (_ & L2 & _).
    apply (L2 (r_uuid y)); [apply elem_of_list_fmap; eauto|]. rewrite Heq. left. }
  destruct (L5 _ G3) as [Hin|Hin].
  2:{ apply Hyr. unfold snap_name in Hin. injection Hin. done. }
  apply elem_of_list_fmap in Hin as ([n a] & Hn & Hin). cbn in Hn. subst n.
  destruct (Hk _ Hin) as [Hf|(_ & h' & z & Hz & Hu)].
  - cbn [fst]. unfold startswith, snap_name. clear. change ("backy-" ++ r_uuid y)%string with ("backy-" +:+ r_uuid y).
    apply prefix_spec. eauto.
  - cbn in Hf. rewrite Hrm in Hf. done.
  - rewrite Hh in Hz. apply app_inj_tail in Hz as [_ <-]. cbn [fst] in Hu.
    rewrite V_snap_uuid in Hu by (apply L3; done). apply G1. apply Hdis; done.
Qed.
Print Assumptions C96_full_partial.

(** The backup of "new" kept the snapshot of "new" alone; "new" is then distrusted. *)
Definition ex_third : rev := MkRev "third" 3 (MkStats 0 None None) {["daily"]} {["daily"]} TRUSTED "".
Definition ex_after (B : bk) : rst :=
  let s1 := (backup ex_env ex_O false B ex_new ex_s).1 in
  MkRst (rs_w s1) [ex_old; with_trust DISTRUSTED ex_new; ex_third]
    (rs_snaps s1 ++ [("backy-third"%string, bs "abXYefgZ")]).
Lemma plain_old : plain "old".
Proof.
  intros (a & b & H). assert (Hl := f_equal String.length H).
  rewrite !len_append in Hl. cbn in Hl. lia.
Qed.
Lemma plain_new : plain "new".
Proof.
  intros (a & b & H). assert (Hl := f_equal String.length H).
  rewrite !len_append in Hl. cbn in Hl. lia.
Qed.
Lemma ex_later B : later (backup ex_env ex_O false B ex_new ex_s).1 ex_third
  [ex_old; with_trust DISTRUSTED ex_new] (ex_after B).
Proof.
  constructor.
  - exists []. reflexivity.
  - apply (bool_decide_eq_true_1 _). vm_compute. reflexivity.
  - intros x Hx. apply elem_of_cons in Hx as [->|Hx]; [exact plain_old|].
    apply elem_of_list_singleton in Hx as ->. exact plain_new.
  - discriminate.
  - unfold ex_after. cbn zeta. cbn [rs_snaps]. generalize (rs_snaps (backup ex_env ex_O false B ex_new ex_s).1). intros l n Hn.
    rewrite map_app in Hn. apply elem_of_app in Hn as [Hn|Hn]; [left; exact Hn|right].
    apply elem_of_list_singleton in Hn. exact Hn.
Qed.
Example C96_hypotheses :
  orders_ok ex_O /\ repo_ok ex_env ex_O ex_new ex_s /\
  (backup ex_env ex_O false ex_B ex_new ex_s).2 = Ok true /\
  map fst (rs_snaps (backup ex_env ex_O false ex_B ex_new ex_s).1) = ["manual"; "backy-new"] /\
  (exists h, get_history false true (rs_hist ex_s) = h ++ [ex_new]) /\
  later (backup ex_env ex_O false ex_B ex_new ex_s).1 ex_third
    [ex_old; with_trust DISTRUSTED ex_new] (ex_after ex_B) /\
  (ceph_parent false ex_B ex_third (ex_after ex_B)).2 = Ok None /\
  (* had it not been distrusted, the next backup would be incremental *)
  (ceph_parent false ex_B ex_third (set_hist [ex_old; ex_new; ex_third] (ex_after ex_B))).2 = Ok (Some ex_new).
Proof.
  split; [exact ex_orders|]. split; [exact ex_repo|]. split; [vm_compute; reflexivity|].
  split; [vm_compute; reflexivity|]. split; [exists [ex_old]; vm_compute; reflexivity|].
  split; [apply ex_later|]. split; vm_compute; reflexivity.
Qed.

(** In general it fails: when the previous backup could not remove the snapshot of an
    older revision (for example because it is mapped), it still ended with success, and
    the next backup builds on that older revision although the newest is distrusted. *)
Definition c96_B : bk :=
  MkBk true (Ok (bs "abXYefgh")) None (enc_diff ex_ms ex_ds) (bs "abXYefgh")
    (Ok (bs "abXYefgh")) [1%Z; 0%Z] (fun _ => false) 7 None (fun n => String.eqb n "backy-old").
Theorem C96_refuted :
  ~ (forall E O B r1 s s1 B2 r2 h1 s2 c,
     orders_ok O -> repo_ok E O r1 s -> backup E O false B r1 s = (s1, Ok true) ->
     bk_ready B = true -> bk_snap B = Ok c -> bk_ls B = None ->
     (exists h, get_history false true (rs_hist s) = h ++ [r1]) ->
     later s1 r2 h1 s2 -> bk_info B2 = None ->
     (exists h x, h1 = h ++ [x] /\ r_uuid x = r_uuid r1 /\ r_trust x = DISTRUSTED) ->
     (ceph_parent false B2 r2 s2).2 = Ok None).
Proof.
  intros H.
  assert (Hrun := run_is (backup ex_env ex_O false c96_B ex_new) ex_s (Ok true) ltac:(vm_compute; reflexivity)).
  assert (Hp : (ceph_parent false ex_B ex_third (ex_after c96_B)).2 = Ok (Some ex_old)) by (vm_compute; reflexivity).
  rewrite (H ex_env ex_O c96_B ex_new ex_s _ ex_B ex_third [ex_old; with_trust DISTRUSTED ex_new] (ex_after c96_B) (bs "abXYefgh")
             ex_orders ex_repo Hrun eq_refl eq_refl eq_refl) in Hp.
  - discriminate.
  - exists [ex_old]. vm_compute. reflexivity.
  - apply ex_later.
  - reflexivity.
  - exists [ex_old], (with_trust DISTRUSTED ex_new). repeat split.
Qed.
Print Assumptions C96_refuted.
