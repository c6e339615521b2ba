(** What commands on metadata write, tags included. *)
From Verif Require Export Model.Cluster Proofs.LifeThms Props.PSync.
From Verif Require Import Model.RbdBackup.

Section Meta.
Context (O : orders) (W : rev -> Prop) (R : string -> Prop).
Hypothesis HO : orders_ok O.
Hypothesis HWorig : forall x t, W x -> W (with_orig t x).
Let D := fun _ : bytes => True.
Notation MI := (MI W). Notation MQ := (MQ W). Notation metaok := (metaok W R).
Ltac mbind := apply HT_M_bind; [apply _|intros; apply _| |].

Lemma HT_C_remove f r :
  (f = true \/ is_local r = true -> R (r_uuid r)) -> (f = false -> is_local r = false -> W (with_tags ∅ r)) ->
  HT D MI metaok (rev_remove f r) MQ.
Proof.
  intros H1 H2. unfold rev_remove. apply HT_M_if; intros Hb.
  - destruct f, (is_local r); try done.
    mbind; [apply HT_M_upd; auto|]. intros _. apply HT_M_write. auto.
  - apply HT_M_get. intros s0 H0.
    apply HT_M_bind; [apply _|intros; apply Grows_modify; done| |].
    + apply HT_M_if; intros _; [|apply HT_M_ret]. apply HT_M_eff. cbn. apply H1.
      destruct f, (is_local r); auto; done.
    + intros _. apply HT_modify; [done|]. intros s (G1 & Gn & G2). split; [done|]. cbn.
      split; [apply NoDup_uuid_filter; done|]. intros x [Hx _]%hist_del_elem. auto.
Qed.
Lemma HT_C_clean : (forall x, W x -> is_local x = true -> is_clean x = false -> R (r_uuid x)) ->
  HT D MI metaok repo_clean MQ.
Proof.
  intros HR. unfold repo_clean. apply HT_M_get. intros s0 (_ & Hn0 & H0).
  apply HT_M_mfor; [apply _|]. intros x Hx. apply get_history_elem in Hx as (Hx & _ & Hl).
  assert (Hlx : is_local x = true) by auto.
  apply HT_M_if; intros Hc; [apply HT_M_ret|]. apply HT_C_remove; [auto|congruence].
Qed.
Lemma HT_C_tag_one a tags ar r : W r ->
  (forall t, new_tags a tags (r_tags r) = Some t -> W (with_tags t r)) ->
  (forall t, new_tags a tags (r_tags r) = Some t -> ar = true -> t = ∅ -> is_local r = true -> R (r_uuid r)) ->
  HT D MI metaok (tag_one a tags ar r) MQ.
Proof.
  intros Hr HW HR. unfold tag_one. destruct (new_tags a tags (r_tags r)) as [t|] eqn:Ht; [|apply HT_raise; done].
  mbind; [apply HT_M_upd; auto|]. intros _. apply HT_M_if; intros Hb; [|apply HT_M_write; auto].
  apply andb_true_iff in Hb as [Hb1 Hb2]. apply bool_decide_eq_true in Hb1.
  apply HT_C_remove.
  - intros [?|Hl]; [done|]. eapply HR; done.
  - intros _ _. change (with_tags ∅ (with_tags t r)) with (with_tags ∅ r). rewrite <- Hb1. auto.
Qed.
Lemma HT_C_tags iso S0 a spec tags ex ar f s0 :
  MI s0 ->
  (forall l y t, find_revisions (scan_disk O (w_disk (rs_w s0))) iso spec = Ok l -> y ∈ l ->
     new_tags a tags (r_tags y) = Some t ->
     W (with_tags t y) /\ (ar = true -> t = ∅ -> is_local y = true -> R (r_uuid y))) ->
  HT D (fun s => s = s0) metaok (repo_tags O iso S0 a spec tags ex ar f) MQ.
Proof.
  intros H0 HR. unfold repo_tags.
  eapply HT_bind with (Q := fun s r => s = set_hist (scan_disk O (w_disk (rs_w s0))) s0);
    [apply _|intros; apply _|apply HT_modify; [intros; done|intros ? ->; done]| |].
  2:{ intros s e ->. apply MI_scan; [done|apply H0]. }
  intros _. cbn beta. apply HT_get. intros ? ->. cbn [rs_hist set_hist].
  set (s1 := set_hist _ s0). assert (HI1 : MI s1) by (apply MI_scan; [done|apply H0]).
  eapply HT_weaken with (I := MI) (Q := MQ); [|intros ? ->; done|done|done].
  apply HT_M_lift; [intros; apply _|]. intros l Hl.
  pose proof (find_revisions_uuids _ iso spec l (scan_disk_nodup O (w_disk (rs_w s0))) Hl) as [_ Hin].
  assert (HW : forall x, x ∈ l -> W x) by (intros x Hx; apply (proj2 (proj2 HI1)), Hin; done).
  mbind. { apply HT_M_if; intros _; [apply HT_M_assert|apply HT_M_ret]. }
  intros _. apply HT_M_if; intros _; [apply HT_M_ret|]. mbind; [|intros; apply HT_M_ret].
  apply HT_M_mfor; [apply _|]. intros x Hx. apply HT_C_tag_one; [auto| |].
  - intros t Ht. apply (HR l x t); done.
  - intros t Ht. apply (HR l x t); done.
Qed.
Lemma HT_C_push (l : list rev) :
  (forall x, x ∈ l -> W x /\ R (r_uuid x)) -> HT D MI metaok (mfor l settle) MQ.
Proof.
  intros Hl. apply HT_M_mfor; [apply _|]. intros r Hx. destruct (Hl r Hx) as [Hr HR].
  unfold settle. apply HT_M_if; intros Hb.
  - apply HT_C_remove; [auto|done].
  - mbind; [apply HT_M_upd; apply HWorig; done|]. intros _. apply HT_M_write. apply HWorig. done.
Qed.
Lemma HT_C_dead peers :
  (forall x, W x -> r_server x <> "" -> R (r_uuid x)) -> HT D MI metaok (remove_dead peers) MQ.
Proof.
  intros HR. unfold remove_dead. apply HT_M_get. intros s0 (_ & Hn0 & H0). apply HT_M_mfor; [apply _|].
  intros x Hx. apply HT_M_if; intros Hb; [|apply HT_M_ret].
  apply andb_true_iff in Hb as [Hb _]. apply negb_true_iff, bool_decide_eq_false in Hb.
  apply HT_C_remove; [auto|done].
Qed.
Lemma HT_C_pull_local same p l :
  (forall x, x ∈ l -> W x) -> (forall x, W x -> r_server x = p -> forall y, W y -> r_uuid y = r_uuid x -> R (r_uuid y)) ->
  HT D MI metaok (pull_local O same p l) MQ.
Proof.
  intros Hl HR. unfold pull_local. apply HT_M_get. intros s0 (_ & Hn0 & H0). mbind.
  - apply HT_M_mfor; [apply _|]. intros u Hu. rewrite (proj2 HO) in Hu.
    apply elem_of_elements, elem_of_difference in Hu as [Hu _].
    apply elem_of_list_to_set, elem_of_list_fmap in Hu as (x & -> & Hx).
    apply elem_of_list_filter in Hx as [Hxp Hx].
    apply HT_M_get. intros s1 (_ & Hn1 & H1). apply HT_M_lift; [intros; apply _|]. intros y Hy.
    apply find_by_uuid_elem in Hy as [Hy Hyu].
    apply HT_C_remove; [|done]. intros _. apply (HR x); auto.
  - intros _. apply HT_M_mfor; [apply _|]. intros x Hx. apply HT_M_if; intros _; [|apply HT_M_write; auto].
    apply HT_M_get. intros s1 _. apply HT_M_lift; [intros; apply _|]. intros y _.
    apply HT_M_if; intros _; [apply HT_M_ret|apply HT_M_write; auto].
Qed.
Lemma HT_C_pull same peers replies :
  (forall x, W x -> r_server x <> "" -> forall y, W y -> r_uuid y = r_uuid x -> R (r_uuid y)) ->
  (forall p a, (p, a) ∈ replies -> p <> "" /\ forall l r, a = Ok l -> r ∈ l -> W r) ->
  HT D MI metaok (pull_metadata O same peers replies) MQ.
Proof.
  intros HR Hrep. unfold pull_metadata. mbind; [apply HT_C_dead; eauto|]. intros _.
  induction replies as [|[p a] replies IH]; cbn [pull_all]; [apply HT_M_ret|].
  destruct (Hrep p a ltac:(left)) as [Hp Ha].
  assert (Hl : forall l, (forall x, x ∈ l -> W x) -> HT D MI metaok (pull_local O same p l) MQ).
  { intros l Hl. apply HT_C_pull_local; [done|]. intros x Hx Hxp. apply HR; [done|congruence]. }
  assert (Hnil : HT D MI metaok (pull_local O same p []) MQ) by (apply Hl; intros x Hx; inversion Hx).
  mbind.
  - unfold pull_single. destruct a as [l|[]]; try (apply HT_raise; done); try apply HT_M_ret;
      (mbind; [first [exact Hnil|apply Hl; intros; eapply Ha; done]|intros; apply HT_M_ret]).
  - intros e. mbind; [|intros; apply HT_M_ret]. apply IH. intros p' a' Hin. apply Hrep. right. done.
Qed.
End Meta.
