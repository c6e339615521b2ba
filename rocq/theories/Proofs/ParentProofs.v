(** Which revision an incremental backup builds on (C18). *)
From Verif Require Export Proofs.BackupSelf.

(** A revision a diff may be based on, as far as the history tells. *)
Definition usable (srv : string) (y : rev) : Prop :=
  r_trust y <> DISTRUSTED /\ r_server y = srv.
Global Instance usable_dec srv y : Decision (usable srv y).
Proof. unfold usable. apply _. Defined.

Lemma gp_loop_app u srv h1 r h2 prev :
  (forall y, y ∈ h1 -> r_uuid y <> u) -> usable srv r -> r_uuid r = u ->
  get_parent_loop false u srv (h1 ++ r :: h2) prev =
  match last (filter (usable srv) h1) with Some p => Some p | None => prev end.
Proof.
  intros Hn [Hr1 Hr2] Hru. revert prev. induction h1 as [|y h1 IH]; intros prev; cbn [app get_parent_loop].
  - rewrite (bool_decide_false (r_trust r = DISTRUSTED)) by done. cbn [negb andb].
    rewrite (bool_decide_false (r_server r <> srv)) by (intros H; apply H; done).
    rewrite bool_decide_true by done. done.
  - specialize (IH ltac:(intros z Hz; apply Hn; right; done)). cbn [negb andb].
    destruct (decide (usable srv y)) as [[H1 H2]|Hu].
    + rewrite (bool_decide_false (r_trust y = DISTRUSTED)) by done.
      rewrite (bool_decide_false (r_server y <> srv)) by (intros H; apply H; done).
      rewrite bool_decide_false by (apply Hn; left). rewrite IH, filter_cons_True by done.
      destruct (filter (usable srv) h1) as [|z l] eqn:Hf; [done|].
      rewrite last_cons_cons. destruct (last (z :: l)) as [x|] eqn:Hl; [done|].
      apply last_None in Hl. done.
    + rewrite filter_cons_False by done. unfold usable in Hu.
      destruct (decide (r_trust y = DISTRUSTED)) as [Ht|Ht].
      { rewrite bool_decide_true by done. apply IH. }
      rewrite (bool_decide_false (r_trust y = DISTRUSTED)) by done.
      rewrite bool_decide_true by tauto. apply IH.
Qed.
Lemma nodup_before (h1 h2 : list rev) r :
  NoDup (map r_uuid (h1 ++ r :: h2)) -> forall y, y ∈ h1 -> r_uuid y <> r_uuid r.
Proof.
  intros Hnd y Hy Heq. rewrite map_app in Hnd. apply NoDup_app in Hnd as (_ & Hd & _).
  apply (Hd (r_uuid y)).
  - apply elem_of_list_fmap. eauto.
  - cbn. rewrite Heq. left.
Qed.
Lemma get_parent_spec h1 r h2 :
  NoDup (map r_uuid (h1 ++ r :: h2)) -> r_trust r <> DISTRUSTED ->
  get_parent false (h1 ++ r :: h2) r = last (filter (usable (r_server r)) h1).
Proof.
  intros Hnd Hr. unfold get_parent. rewrite gp_loop_app; [|apply (nodup_before h1 h2 r Hnd)|done|done].
  destruct (last _); done.
Qed.
Lemma last_filter_split {A} (Q : A -> Prop) {HdecQ : forall x, Decision (Q x)} (l : list A) p :
  last (filter Q l) = Some p ->
  exists la lb, l = la ++ p :: lb /\ Q p /\ filter Q lb = [].
Proof.
  induction l as [|x l IH]; [done|].
  destruct (decide (Q x)) as [Hx|Hx].
  - rewrite filter_cons_True by done. destruct (filter Q l) as [|y l'] eqn:Hf.
    + cbn. intros ?; simplify_eq. exists [], l. done.
    + rewrite last_cons_cons. intros H. destruct (IH H) as (la & lb & -> & ? & ?).
      exists (x :: la), lb. done.
  - rewrite filter_cons_False by done. intros H. destruct (IH H) as (la & lb & -> & ? & ?).
    exists (x :: la), lb. done.
Qed.

Definition usable_snap (s : rst) (srv : string) (y : rev) : Prop :=
  usable srv y /\ snap_name (r_uuid y) ∈ map fst (rs_snaps s).
Global Instance usable_snap_dec s srv y : Decision (usable_snap s srv y).
Proof. unfold usable_snap. apply _. Defined.

Lemma filter_sub_nil {A} (Q R : A -> Prop) {HdecQ : forall x, Decision (Q x)} {HdecR : forall x, Decision (R x)} (l : list A) :
  (forall x, R x -> Q x) -> filter Q l = [] -> filter R l = [].
Proof.
  intros HRQ. induction l as [|x l IH]; [done|]. destruct (decide (R x)).
  - rewrite filter_cons_True by auto. done.
  - rewrite (filter_cons_False R) by done. destruct (decide (Q x)).
    + rewrite filter_cons_True by done. done.
    + rewrite filter_cons_False by done. apply IH.
Qed.

Lemma ceph_parent_loop_spec fuel s h1 r h2 :
  rs_hist s = h1 ++ r :: h2 -> NoDup (map r_uuid (rs_hist s)) ->
  r_trust r <> DISTRUSTED -> length h1 < fuel ->
  ceph_parent_loop fuel None s r = Ok (last (filter (usable_snap s (r_server r)) h1)).
Proof.
  revert h1 r h2. induction fuel as [|fuel IH]; intros h1 r h2 Hh Hnd Hr Hl; [lia|].
  cbn [ceph_parent_loop]. pose proof Hnd as Hnd0. rewrite Hh in Hnd |- *.
  rewrite get_parent_spec by done.
  destruct (last (filter (usable (r_server r)) h1)) as [p|] eqn:Hlast.
  - apply last_filter_split in Hlast as (la & lb & -> & [Hp1 Hp2] & Hf).
    assert (Hf' : filter (usable_snap s (r_server r)) lb = []).
    { eapply filter_sub_nil; [|exact Hf]. intros x []; done. }
    rewrite filter_app. unfold snap_exists. case_bool_decide as Hsn.
    + rewrite filter_cons_True by done. rewrite Hf', last_snoc. done.
    + rewrite filter_cons_False by (intros [_ ?]; done). rewrite Hf', app_nil_r.
      rewrite (IH la p (lb ++ r :: h2)); [rewrite Hp2; done| |done|done|].
      * rewrite Hh, <- app_assoc. done.
      * rewrite app_length in Hl. cbn in Hl. lia.
  - apply last_None in Hlast. rewrite (filter_sub_nil (usable (r_server r)) (usable_snap s (r_server r))); [done| |done].
    intros x []; done.
Qed.
Lemma ceph_parent_spec af B s h1 r h2 :
  rs_hist s = h1 ++ r :: h2 -> NoDup (map r_uuid (rs_hist s)) ->
  r_trust r <> DISTRUSTED -> bk_info B = None ->
  (ceph_parent af B r s).2 =
    Ok (if af then None else last (filter (usable_snap s (r_server r)) h1)).
Proof.
  intros Hh Hnd Hr Hb. unfold ceph_parent. destruct af; [done|]. cbn [snd]. rewrite Hb.
  eapply ceph_parent_loop_spec; try done. rewrite Hh, app_length. cbn. lia.
Qed.
(** Whatever "rbd info" does: a chosen parent precedes the revision. *)
Lemma ceph_parent_before af B s h1 r h2 p :
  rs_hist s = h1 ++ r :: h2 -> NoDup (map r_uuid (rs_hist s)) ->
  r_trust r <> DISTRUSTED -> (ceph_parent af B r s).2 = Ok (Some p) ->
  p ∈ h1 /\ usable_snap s (r_server r) p.
Proof.
  intros Hh Hnd Hr. unfold ceph_parent. destruct af; [done|]. cbn [snd].
  destruct (bk_info B) as [e|].
  - cbn [ceph_parent_loop Nat.add]. destruct (get_parent _ _ _); done.
  - rewrite (ceph_parent_loop_spec _ s h1 r h2) by (try done; rewrite Hh, app_length; cbn; lia).
    intros H. assert (Hl : last (filter (usable_snap s (r_server r)) h1) = Some p) by congruence.
    apply last_Some_elem_of, elem_of_list_filter in Hl as [? ?]. done.
Qed.
