(** Commands that only touch metadata: what they write and what they remove. *)
From Verif Require Export Spec.Life Proofs.SyncProofs Proofs.BackupNc.

Global Typeclasses Opaque repo_tags repo_rm repo_clean tag_one expire expire_tag expire_foreign
  expire_untagged remove_dead pull_local pull_single pull_all pull_metadata settle validate_tags.

Lemma find_by_uuid_elem h u r : find_by_uuid h u = Ok r -> r ∈ h /\ r_uuid r = u.
Proof.
  unfold find_by_uuid. destruct (list_find _ h) as [[i z]|] eqn:Hz; [|done]. intros [= ->].
  apply list_find_Some in Hz as (H1 & H2 & _). split; [eapply elem_of_list_lookup_2; done|done].
Qed.

(** ** Growth *)
Global Instance Grows_tag_one a tags ar r : Grows (tag_one a tags ar r).
Proof. unfold tag_one. destruct (new_tags _ _ _); apply _. Qed.
Global Instance Grows_validate S0 t : Grows (validate_tags S0 t).
Proof. unfold validate_tags. apply _. Qed.
Global Instance Grows_tags O iso S0 a spec tags ex ar f : Grows (repo_tags O iso S0 a spec tags ex ar f).
Proof. unfold repo_tags. apply _. Qed.
Global Instance Grows_rm l : Grows (repo_rm l).
Proof. unfold repo_rm. apply _. Qed.
Global Instance Grows_clean : Grows repo_clean.
Proof. unfold repo_clean. apply _. Qed.
Global Instance Grows_expire_tag iso now t i : Grows (expire_tag iso now t i).
Proof. unfold expire_tag. apply _. Qed.
Global Instance Grows_foreign S0 r : Grows (expire_foreign S0 r).
Proof. unfold expire_foreign. apply _. Qed.
Global Instance Grows_untagged r : Grows (expire_untagged r).
Proof. unfold expire_untagged. apply _. Qed.
Global Instance Grows_expire O iso now S0 : Grows (expire O iso now S0).
Proof. unfold expire. apply _. Qed.
Global Instance Grows_dead peers : Grows (remove_dead peers).
Proof. unfold remove_dead. apply _. Qed.
Global Instance Grows_pull_local O same p l : Grows (pull_local O same p l).
Proof. unfold pull_local. apply _. Qed.
Global Instance Grows_pull_single O same p a : Grows (pull_single O same p a).
Proof. unfold pull_single. destruct a as [l|[]]; apply _. Qed.
Global Instance Grows_pull_all O same l : Grows (pull_all O same l).
Proof. induction l as [|[p a] l IH]; cbn [pull_all]; apply _. Qed.
Global Instance Grows_pull O same peers l : Grows (pull_metadata O same peers l).
Proof. unfold pull_metadata. apply _. Qed.
Global Instance Grows_settle r : Grows (settle r).
Proof. unfold settle. apply _. Qed.

Section Meta.
Context (O : orders) (W : rev -> Prop) (R : string -> Prop).
Hypothesis HO : orders_ok O.
Hypothesis HWtags : forall x t, W x -> W (with_tags t x).
Hypothesis HWtrust : forall x t, W x -> W (with_trust t x).
Hypothesis HWorig : forall x t, W x -> W (with_orig t x).
Let D := fun _ : bytes => True.

(** Only revisions that satisfy [W] are on disk or in memory. *)
Definition MD (d : disk) : Prop := rev_files_ok d /\ forall n x, d_revs d !! n = Some x -> W x.
Definition MI (s : rst) : Prop :=
  MD (w_disk (rs_w s)) /\ NoDup (map r_uuid (rs_hist s)) /\ forall x, x ∈ rs_hist s -> W x.
Definition MQ {A} (s : rst) (r : res A) : Prop := MI s.
(** Only those are written, and only names in [R] are removed. *)
Definition metaok (e : eff) : Prop :=
  match e with
  | ETmp => True
  | ERevPut n x => r_uuid x = n /\ W x
  | ERevDel n => R n
  | _ => False
  end.
Lemma metaok_eff e d : metaok e -> MD d -> MD (apply_eff e d) /\ data_same d (apply_eff e d).
Proof.
  intros He [H1 H2]. destruct e; cbn in He; try done.
  - destruct He as [He1 He2]. split; [|done]. split; intros k y; cbn.
    + destruct (decide (n = k)) as [<-|Hne].
      * rewrite lookup_insert. intros ?; simplify_eq. done.
      * rewrite lookup_insert_ne by done. apply H1.
    + destruct (decide (n = k)) as [<-|Hne].
      * rewrite lookup_insert. intros ?; simplify_eq. done.
      * rewrite lookup_insert_ne by done. apply H2.
  - split; [|done]. split; intros k y; cbn; rewrite lookup_delete_Some; intros [_ ?]; eauto.
Qed.
Lemma metaok_replay l d : Forall metaok l -> MD d -> MD (replay l d) /\ data_same d (replay l d).
Proof.
  revert d. induction l as [|e l IH]; intros d Hf Hk; [done|].
  apply Forall_cons in Hf as [He Hf]. rewrite replay_cons. destruct (metaok_eff e d He Hk) as [G1 [G2 G3]].
  destruct (IH _ Hf G1) as [K1 [K2 K3]]. split; [done|]. split; [rewrite K2|rewrite K3]; done.
Qed.
Lemma MI_scan s : MD (w_disk (rs_w s)) -> MI (set_hist (scan_disk O (w_disk (rs_w s))) s).
Proof.
  intros [H1 H2]. split; [done|]. split; [apply scan_disk_nodup|]. cbn. intros x Hx. apply scan_disk_elem in Hx; [|done..]. eauto.
Qed.

Lemma HT_M_bind {A B} (m1 : M rst A) (k : A -> M rst B) :
  Grows m1 -> (forall a, Grows (k a)) ->
  HT D MI metaok m1 MQ -> (forall a, HT D MI metaok (k a) MQ) -> HT D MI metaok (bind m1 k) MQ.
Proof.
  intros G1 G2 H1 H2. eapply HT_bind; [apply _|apply _|exact H1| |done]. intros a. apply H2.
Qed.
Ltac mbind := apply HT_M_bind; [apply _|intros; apply _| |].
Lemma HT_M_if {A} (b : bool) (m1 m2 : M rst A) :
  (b = true -> HT D MI metaok m1 MQ) -> (b = false -> HT D MI metaok m2 MQ) ->
  HT D MI metaok (if b then m1 else m2) MQ.
Proof. destruct b; auto. Qed.
Lemma HT_M_get {A} (k : rst -> M rst A) :
  (forall s0, MI s0 -> HT D MI metaok (k s0) MQ) -> HT D MI metaok (bind get k) MQ.
Proof.
  intros Hk. apply HT_get. intros s0 H0.
  eapply HT_weaken; [apply (Hk s0 H0)|intros ? ->; done|done|done].
Qed.
Lemma HT_M_lift {A B} (r : res A) (k : A -> M rst B) :
  (forall a, Grows (k a)) -> (forall a, r = Ok a -> HT D MI metaok (k a) MQ) ->
  HT D MI metaok (let* a := lift r in k a)%M MQ.
Proof.
  intros G H. destruct r as [a|e].
  - intros s l Hs Hl HD. exact (H a eq_refl s l Hs Hl HD).
  - intros s l Hs Hl HD. unfold bind, lift in *. cbn [fst snd] in *.
    pose proof (delta_unique _ _ _ _ Hl (delta_nil s s eq_refl)) as ->. done.
Qed.
Lemma HT_M_ret {A} (a : A) : HT D MI metaok (ret a) MQ.
Proof. apply HT_ret. done. Qed.
Lemma HT_M_eff e : metaok e -> HT D MI metaok (eff_ e) MQ.
Proof.
  intros He. apply HT_eff. intros s [H1 H2]. split; [done|].
  destruct (metaok_eff e _ He H1) as [G _]. split; done.
Qed.
Lemma HT_M_upd r : W r -> HT D MI metaok (upd r) MQ.
Proof.
  intros Hr. apply HT_modify; [done|]. intros s (H1 & Hn & H2). split; [done|]. cbn.
  split; [rewrite hist_set_uuids; done|]. intros x Hx. apply hist_set_elem in Hx as [->|[Hx _]]; auto.
Qed.
Lemma HT_M_write r : W r -> HT D MI metaok (write_info r) MQ.
Proof.
  intros Hr. unfold write_info. mbind; [apply HT_M_eff; done|]. intros _.
  mbind; [apply HT_M_eff; done|]. intros _. apply HT_M_eff. done.
Qed.
Lemma HT_M_remove f r :
  (f = true \/ is_local r = true -> R (r_uuid r)) -> (f = false -> is_local r = false -> W r) ->
  HT D MI metaok (rev_remove f r) MQ.
Proof.
  intros H1 H2. unfold rev_remove. apply HT_M_if; intros Hb.
  - destruct f, (is_local r); try done.
    mbind; [apply HT_M_upd; auto|]. intros _. apply HT_M_write. auto.
  - apply HT_M_get. intros s0 H0.
    apply HT_M_bind; [apply _|intros; apply Grows_modify; done| |].
    + apply HT_M_if; intros _; [|apply HT_M_ret]. apply HT_M_eff. cbn. apply H1.
      destruct f, (is_local r); auto; done.
    + intros _. apply HT_modify; [done|]. intros s (G1 & Gn & G2). split; [done|]. cbn.
      split; [apply NoDup_uuid_filter; done|]. intros x [Hx _]%hist_del_elem. auto.
Qed.
Lemma HT_M_mfor {B} (l : list B) (body : B -> M rst unit) {Hb : forall x, Grows (body x)} :
  (forall x, x ∈ l -> HT D MI metaok (body x) MQ) -> HT D MI metaok (mfor l body) MQ.
Proof.
  intros H. apply HT_mfor; [apply _| |done]. intros x Hx.
  eapply HT_weaken; [apply H; done|done|done|]. intros s []; done.
Qed.
Lemma HT_M_scan : HT D MI metaok (scan O) MQ.
Proof. apply HT_modify; [done|]. intros s (H & _). apply MI_scan. done. Qed.
Lemma HT_M_assert b e : HT D MI metaok (massert b e) MQ.
Proof. apply HT_assert; done. Qed.

(** ** The commands *)
Lemma HT_M_distrust (l : list rev) : (forall x, x ∈ l -> W x) -> HT D MI metaok (distrust l) MQ.
Proof.
  intros Hl. unfold distrust. apply HT_M_mfor; [intros; apply _|]. intros x Hx.
  mbind; [apply HT_M_assert|]. intros _. mbind; [apply HT_M_upd; auto|]. intros _.
  apply HT_M_write. auto.
Qed.
Lemma HT_M_rm (l : list rev) :
  (forall x, x ∈ l -> W x /\ (is_local x = true -> R (r_uuid x))) -> HT D MI metaok (repo_rm l) MQ.
Proof.
  intros Hl. apply HT_M_mfor; [apply _|]. intros x Hx. destruct (Hl x Hx).
  apply HT_M_remove; [|done]. intros [?|?]; [done|auto].
Qed.
Lemma HT_M_clean_list (l : list rev) :
  (forall x, x ∈ l -> is_local x = true /\ (is_clean x = false -> R (r_uuid x))) ->
  HT D MI metaok (mfor l (fun r => if is_clean r then ret tt else rev_remove false r)) MQ.
Proof.
  intros Hl. apply HT_M_mfor; [apply _|]. intros x Hx. destruct (Hl x Hx) as [H1 H2].
  apply HT_M_if; intros Hc; [apply HT_M_ret|].
  apply HT_M_remove; [auto|congruence].
Qed.
Lemma HT_M_clean : (forall x, W x -> is_local x = true -> is_clean x = false -> R (r_uuid x)) ->
  HT D MI metaok repo_clean MQ.
Proof.
  intros HR. unfold repo_clean. apply HT_M_get. intros s0 (_ & Hn0 & H0). apply HT_M_clean_list.
  intros x Hx. apply get_history_elem in Hx as (Hx & _ & Hl). auto.
Qed.
Lemma HT_M_tag_one a tags ar r : W r ->
  (forall t, new_tags a tags (r_tags r) = Some t -> ar = true -> t = ∅ -> is_local r = true -> R (r_uuid r)) ->
  HT D MI metaok (tag_one a tags ar r) MQ.
Proof.
  intros Hr HR. unfold tag_one. destruct (new_tags a tags (r_tags r)) as [t|] eqn:Ht; [|apply HT_raise; done].
  mbind; [apply HT_M_upd; auto|]. intros _. apply HT_M_if; intros Hb; [|apply HT_M_write; auto].
  apply andb_true_iff in Hb as [Hb1 Hb2]. apply bool_decide_eq_true in Hb1.
  apply HT_M_remove; [|auto]. intros [?|Hl]; [done|]. eapply HR; done.
Qed.
Lemma HT_M_tags iso S0 a spec tags ex ar f s0 :
  MI s0 ->
  (forall l y t, find_revisions (scan_disk O (w_disk (rs_w s0))) iso spec = Ok l -> y ∈ l ->
     new_tags a tags (r_tags y) = Some t -> ar = true -> t = ∅ -> is_local y = true -> R (r_uuid y)) ->
  HT D (fun s => s = s0) metaok (repo_tags O iso S0 a spec tags ex ar f) MQ.
Proof.
  intros H0 HR. unfold repo_tags.
  eapply HT_bind with (Q := fun s r => s = set_hist (scan_disk O (w_disk (rs_w s0))) s0);
    [apply _|intros; apply _|apply HT_modify; [intros; done|intros ? ->; done]| |].
  2:{ intros s e ->. apply MI_scan, H0. }
  intros _. cbn beta. apply HT_get. intros ? ->. cbn [rs_hist set_hist].
  set (s1 := set_hist _ s0). assert (HI1 : MI s1) by (apply MI_scan, H0).
  eapply HT_weaken with (I := MI) (Q := MQ); [|intros ? ->; done|done|done].
  apply HT_M_lift; [intros; apply _|]. intros l Hl.
  pose proof (find_revisions_uuids _ iso spec l (scan_disk_nodup O (w_disk (rs_w s0))) Hl) as [_ Hin].
  assert (HW : forall x, x ∈ l -> W x) by (intros x Hx; apply (proj2 (proj2 HI1)), Hin; done).
  mbind. { apply HT_M_if; intros _; [apply HT_M_assert|apply HT_M_ret]. }
  intros _. apply HT_M_if; intros _; [apply HT_M_ret|]. mbind; [|intros; apply HT_M_ret].
  apply HT_M_mfor; [apply _|]. intros x Hx. apply HT_M_tag_one; [auto|]. eauto.
Qed.
Lemma HT_M_settle r : W r -> (r_tags r = ∅ -> R (r_uuid r)) -> HT D MI metaok (settle r) MQ.
Proof.
  intros Hr HR. unfold settle. apply HT_M_if; intros Hb.
  - apply bool_decide_eq_true in Hb. apply HT_M_remove; [auto|done].
  - mbind; [apply HT_M_upd; apply HWorig; done|]. intros _. apply HT_M_write. apply HWorig. done.
Qed.
Lemma HT_M_push (l : list rev) :
  (forall x, x ∈ l -> W x /\ R (r_uuid x)) -> HT D MI metaok (mfor l settle) MQ.
Proof. intros Hl. apply HT_M_mfor; [apply _|]. intros x Hx. destruct (Hl x Hx). apply HT_M_settle; auto. Qed.
Lemma HT_M_dead peers :
  (forall x, W x -> r_server x <> "" -> R (r_uuid x)) -> HT D MI metaok (remove_dead peers) MQ.
Proof.
  intros HR. unfold remove_dead. apply HT_M_get. intros s0 (_ & Hn0 & H0). apply HT_M_mfor; [apply _|].
  intros x Hx. apply HT_M_if; intros Hb; [|apply HT_M_ret].
  apply andb_true_iff in Hb as [Hb _]. apply negb_true_iff, bool_decide_eq_false in Hb.
  apply HT_M_remove; [auto|done].
Qed.
Lemma HT_M_pull_local same p l :
  (forall x, x ∈ l -> W x) -> (forall x, W x -> r_server x = p -> forall y, W y -> r_uuid y = r_uuid x -> R (r_uuid y)) ->
  HT D MI metaok (pull_local O same p l) MQ.
Proof.
  intros Hl HR. unfold pull_local. apply HT_M_get. intros s0 (_ & Hn0 & H0). mbind.
  - apply HT_M_mfor; [apply _|]. intros u Hu. rewrite (proj2 HO) in Hu.
    apply elem_of_elements, elem_of_difference in Hu as [Hu _].
    apply elem_of_list_to_set, elem_of_list_fmap in Hu as (x & -> & Hx).
    apply elem_of_list_filter in Hx as [Hxp Hx].
    apply HT_M_get. intros s1 (_ & Hn1 & H1). apply HT_M_lift; [intros; apply _|]. intros y Hy.
    apply find_by_uuid_elem in Hy as [Hy Hyu].
    apply HT_M_remove; [|done]. intros _. apply (HR x); auto.
  - intros _. apply HT_M_mfor; [apply _|]. intros x Hx. apply HT_M_if; intros _; [|apply HT_M_write; auto].
    apply HT_M_get. intros s1 _. apply HT_M_lift; [intros; apply _|]. intros y _.
    apply HT_M_if; intros _; [apply HT_M_ret|apply HT_M_write; auto].
Qed.
Lemma HT_M_pull same peers replies :
  (forall x, W x -> r_server x <> "" -> forall y, W y -> r_uuid y = r_uuid x -> R (r_uuid y)) ->
  (forall p a, (p, a) ∈ replies -> p <> "" /\ forall l r, a = Ok l -> r ∈ l -> W r) ->
  HT D MI metaok (pull_metadata O same peers replies) MQ.
Proof.
  intros HR Hrep. unfold pull_metadata. mbind; [apply HT_M_dead; eauto|]. intros _.
  induction replies as [|[p a] replies IH]; cbn [pull_all]; [apply HT_M_ret|].
  destruct (Hrep p a ltac:(left)) as [Hp Ha].
  assert (Hl : forall l, (forall x, x ∈ l -> W x) -> HT D MI metaok (pull_local O same p l) MQ).
  { intros l Hl. apply HT_M_pull_local; [done|]. intros x Hx Hxp. apply HR; [done|congruence]. }
  assert (Hnil : HT D MI metaok (pull_local O same p []) MQ) by (apply Hl; intros x Hx; inversion Hx).
  mbind.
  - unfold pull_single. destruct a as [l|[]]; try (apply HT_raise; done); try apply HT_M_ret;
      (mbind; [first [exact Hnil|apply Hl; intros; eapply Ha; done]|intros; apply HT_M_ret]).
  - intros e. mbind; [|intros; apply HT_M_ret]. apply IH. intros p' a' Hin. apply Hrep. right. done.
Qed.
Lemma HT_M_expire iso now S0 : (forall x, W x -> is_local x = true -> R (r_uuid x)) ->
  HT D MI metaok (expire O iso now S0) MQ.
Proof.
  intros HR. unfold expire. mbind; [apply HT_M_scan|]. intros _. mbind.
  { apply HT_M_mfor; [apply _|]. intros [t i] _. unfold expire_tag. cbn [fst snd].
    apply HT_M_get. intros s0 (_ & Hn0 & H0). apply HT_M_lift; [intros; apply _|]. intros l Hl.
    destruct (find_revisions_uuids _ _ _ _ Hn0 Hl) as [_ Hin].
    apply HT_M_if; intros _; [apply HT_M_ret|]. apply HT_M_mfor; [apply _|]. intros x Hx.
    assert (HWx : W x) by (apply H0, Hin; eapply slice_sub; done).
    apply HT_M_if; intros _; [apply HT_M_ret|]. apply HT_M_if; intros _; [apply HT_raise; done|].
    mbind; [apply HT_M_upd; auto|]. intros _. apply HT_M_write. auto. }
  intros _. apply HT_M_get. intros s0 (_ & Hn0 & H0). mbind.
  { apply HT_M_mfor; [apply _|]. intros x Hx. unfold expire_foreign.
    apply HT_M_if; intros _; [apply HT_M_ret|].
    mbind; [apply HT_M_upd; auto|]. intros _. apply HT_M_write. auto. }
  intros _. apply HT_M_get. intros s1 (_ & Hn1 & H1). apply HT_M_mfor; [apply _|]. intros x Hx.
  unfold expire_untagged. apply HT_M_if; intros _; [|apply HT_M_ret].
  apply HT_M_remove; [|auto]. intros [?|?]; [done|auto].
Qed.
End Meta.
