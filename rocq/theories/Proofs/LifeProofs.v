(** One command of a repository's life, at whatever point it stops. *)
From Verif Require Export Proofs.LifePut Proofs.ExpireProofs.
From Verif Require Import Model.RbdBackup.

(** A local revision that is marked complete. *)
Definition good_rev (d : disk) (u : string) : Prop :=
  exists y, d_revs d !! u = Some y /\ is_local y = true /\ is_clean y = true.
(** The map of [u] and the chunks it names are as before. *)
Definition data_kept (E : env) (u : string) (d d' : disk) : Prop :=
  forall m sz, d_maps d !! u = Some (MapJson m sz) -> d_maps d' !! u = Some (MapJson m sz) /\
    forall id h c, m !! id = Some h -> chunk_content E d h = Some c -> chunk_content E d' h = Some c.
Lemma data_kept_refl E u d : data_kept E u d d.
Proof. intros m sz Hm. done. Qed.
Lemma data_kept_trans E u d1 d2 d3 : data_kept E u d1 d2 -> data_kept E u d2 d3 -> data_kept E u d1 d3.
Proof.
  intros H1 H2 m sz Hm. destruct (H1 m sz Hm) as [G1 G2]. destruct (H2 m sz G1) as [K1 K2].
  split; [done|]. intros id h c Hh Hc. eauto.
Qed.
Lemma data_same_kept E u d d' : data_same d d' -> data_kept E u d d'.
Proof. intros [H1 H2] m sz Hm. rewrite H2. split; [done|]. unfold chunk_content. rewrite H1. done. Qed.
Lemma data_kept_image E u d d' c : data_kept E u d d' -> image_is E d u c -> image_is E d' u c.
Proof.
  intros H (m & Hm & Hc). destruct (H _ _ Hm) as [G1 G2]. exists m. split; [done|].
  intros i b Hb. destruct (Hc i b Hb) as (h & x & ? & ? & ?). exists h, x. eauto.
Qed.
Lemma data_kept_readable E u d d' : data_kept E u d d' -> readable E d u -> readable E d' u.
Proof.
  intros H (m & sz & Hm & Hc). destruct (H _ _ Hm) as [G1 G2]. exists m, sz. split; [done|].
  intros id h Hh. destruct (Hc id h Hh) as [c Hcc]. exists c. eauto.
Qed.

Section Step.
Context (E : env) (O : orders) (D : bytes -> Prop).
Hypothesis HCS : (0 < CS E)%Z.
Hypothesis Hlzo : lzo_ok E.
Hypothesis HO : orders_ok O.
Hypothesis Dinj : forall c1 c2, D c1 -> D c2 -> hash E c1 = hash E c2 -> c1 = c2.

(** ** Commands that write data: a complete revision stays *)
(** What [u] needs for that. *)
Definition in_order (u : string) (d : disk) : Prop :=
  rev_files_ok d /\ good_rev d u /\ readable E d u /\
  forall m sz id h c, d_maps d !! u = Some (MapJson m sz) -> m !! id = Some h ->
    chunk_content E d h = Some c -> D c.
Lemma J_start u s : in_order u (w_disk (rs_w s)) -> rs_hist s = scan_disk O (w_disk (rs_w s)) ->
  exists m sz rv, d_revs (w_disk (rs_w s)) !! u = Some rv /\ r_uuid rv = u /\ is_local rv = true /\
    is_clean rv = true /\ d_maps (w_disk (rs_w s)) !! u = Some (MapJson m sz) /\
    J E D (w_disk (rs_w s)) u m sz rv s.
Proof.
  intros (Hf & (rv & Hrv & Hl & Hc) & (m & sz & Hm & Hr) & HD) Hh. exists m, sz, rv.
  assert (Hu : r_uuid rv = u) by (apply Hf; done).
  assert (HK : Kept E D (w_disk (rs_w s)) u m sz rv (w_disk (rs_w s))).
  { constructor; [done| |done|].
    - exists rv. split; [done|]. unfold okv. rewrite Hl. exists (r_trust rv). rewrite with_trust_self. done.
    - intros _ id h Hid. destruct (Hr id h Hid) as [c Hcc]. exists c.
      split; [done|]. split; [done|]. eapply HD; done. }
  do 5 (split; [done|]). split; [done|]. rewrite Hh. eapply (KH_scan E O D HO); done.
Qed.
Lemma kept_in_order u m sz rv d d' : is_local rv = true -> is_clean rv = true ->
  d_maps d !! u = Some (MapJson m sz) -> Kept E D d u m sz rv d' -> in_order u d' /\ data_kept E u d d'.
Proof.
  intros Hl Hc Hm HK. destruct HK as [K1 (x & Hx & Hok) K3 K4].
  assert (Hxl : is_local x = true) by (unfold okv in Hok; rewrite Hl in Hok; destruct Hok as [t ->]; done).
  assert (Hxc : is_clean x = true) by (unfold okv in Hok; rewrite Hl in Hok; destruct Hok as [t ->]; done).
  split.
  - split; [done|]. split; [exists x; done|]. split.
    + exists m, sz. split; [auto|]. intros id h Hh. destruct (K4 Hl id h Hh) as (c & _ & ? & _). eauto.
    + intros m' sz' id h c Hm' Hh Hcc. rewrite K3 in Hm' by done. injection Hm' as <- <-.
      destruct (K4 Hl id h Hh) as (c' & _ & H1 & H2). congruence.
  - intros m' sz' Hm'. rewrite Hm in Hm'. injection Hm' as <- <-. split; [auto|].
    intros id h c Hh Hcc. destruct (K4 Hl id h Hh) as (c' & H0 & H1 & _). congruence.
Qed.
(** A command that leaves every complete revision alone. *)
Lemma run_keeps {A} (mm : M rst A) u s s' x l k :
  in_order u (w_disk (rs_w s)) -> rs_hist s = scan_disk O (w_disk (rs_w s)) ->
  (forall m sz rv, d_revs (w_disk (rs_w s)) !! u = Some rv -> r_uuid rv = u -> is_local rv = true ->
     J E D (w_disk (rs_w s)) u m sz rv s ->
     HT D (fun s1 => s1 = s) (harmless E D u m rv) mm (fun _ _ => True)) ->
  mm s = (s', x) -> delta s s' l -> (forall c, EFlush c ∈ l -> D c) ->
  in_order u (replay (take k l) (w_disk (rs_w s))) /\
  data_kept E u (w_disk (rs_w s)) (replay (take k l) (w_disk (rs_w s))).
Proof.
  intros Hio Hh Hmm Hrun Hl HD. destruct (J_start u s Hio Hh) as (m & sz & rv & H1 & H2 & H3 & H4 & H5 & HJ).
  assert (Hf : Forall (harmless E D u m rv) l).
  { destruct (Hmm m sz rv H1 H2 H3 HJ s l eq_refl) as [Hf _]; [rewrite Hrun; done|done|done]. }
  apply (kept_in_order u m sz rv); try done.
  eapply (harmless_replay E D Hlzo Dinj _ u m sz rv H2); [apply Forall_take; done|].
  apply HJ.
Qed.
(** One that never makes another revision complete. *)
Definition notgood (x : rev) : Prop := is_local x && is_clean x = false.
Lemma run_makes_none {A} (mm : M rst A) u s s' x l k :
  rev_files_ok (w_disk (rs_w s)) -> ~ good_rev (w_disk (rs_w s)) u ->
  rs_hist s = scan_disk O (w_disk (rs_w s)) ->
  (U u notgood s -> HT (fun _ => True) (fun s1 => s1 = s) (nc u notgood) mm (fun _ _ => True)) ->
  mm s = (s', x) -> delta s s' l ->
  rev_files_ok (replay (take k l) (w_disk (rs_w s))) /\ ~ good_rev (replay (take k l) (w_disk (rs_w s))) u.
Proof.
  intros Hf Hng Hh Hmm Hrun Hl.
  assert (Hd : forall y, d_revs (w_disk (rs_w s)) !! u = Some y -> notgood y).
  { intros y Hy. unfold notgood. destruct (is_local y) eqn:H1, (is_clean y) eqn:H2; try done.
    exfalso. apply Hng. exists y. done. }
  assert (HU : U u notgood s).
  { constructor; [done|done|]. rewrite Hh. intros y Hy Hyu. apply scan_disk_elem in Hy; [|done..].
    rewrite Hyu in Hy. auto. }
  destruct (Hmm HU s l eq_refl) as [Hfl _]; [rewrite Hrun; done|done|].
  destruct (nc_replay u notgood (take k l) (w_disk (rs_w s))) as [G1 G2]; [apply Forall_take; done|done|].
  split; [done|]. intros (y & Hy & Hyl & Hyc). specialize (G2 y Hy). unfold notgood in G2.
  rewrite Hyl, Hyc in G2. done.
Qed.

(** *** Garbage collection and verification *)
Lemma HT_J_gcverify c u m sz rv s :
  r_uuid rv = u -> is_local rv = true -> J E D (w_disk (rs_w s)) u m sz rv s ->
  (c = LGc \/ exists v, c = LVerify v) ->
  HT D (fun s1 => s1 = s) (harmless E D u m rv) (exec E O c) (fun _ _ => True).
Proof.
  intros Hu Hl HJ Hc. set (d0 := w_disk (rs_w s)) in *.
  assert (Hv : forall x : rev, (r_uuid x = u -> is_local x = true /\ okv rv x) ->
    HT D (J E D d0 u m sz rv) (harmless E D u m rv) (do_ verify E O x; ret true)%M (JQ E D d0 u m sz rv)).
  { intros x Hx. apply HT_J_bind; [apply _|intros; apply _|apply HT_J_verify; done|].
    intros _. apply HT_ret. done. }
  destruct Hc as [->|[v ->]]; cbn [exec].
  - eapply HT_weaken with (I := J E D d0 u m sz rv) (Q := JQ E D d0 u m sz rv); [|intros ? ->; done|done|done].
    apply HT_J_bind; [apply _|intros; apply _|apply HT_J_gc with O; done|]. intros _. apply HT_ret. done.
  - intros ? l -> Hl' HD. unfold bind at 1 in Hl'. cbn [get] in *.
    unfold bind at 1 in Hl'. unfold lift in *.
    destruct (find_by_uuid (rs_hist s) v) as [x|e] eqn:Hx.
    2:{ pose proof (delta_unique _ _ _ _ Hl' (delta_nil s s eq_refl)) as ->. done. }
    split; [|done]. apply find_by_uuid_elem in Hx as [Hx Hxv].
    refine (proj1 (Hv x _ s l HJ Hl' HD)). intros Hxu.
    pose proof (kh_all _ _ _ (proj2 HJ) x Hx Hxu) as Hok. split; [|done].
    unfold okv in Hok. rewrite Hl in Hok. destruct Hok as [t ->]. done.
Qed.
Lemma HT_U_gcverify c u s :
  U u notgood s -> (c = LGc \/ exists v, c = LVerify v) ->
  HT (fun _ => True) (fun s1 => s1 = s) (nc u notgood) (exec E O c) (fun _ _ => True).
Proof.
  intros HU Hc.
  assert (Hv : forall x : rev, (r_uuid x = u -> notgood x) ->
    HT (fun _ => True) (U u notgood) (nc u notgood) (do_ verify E O x; ret true)%M (UQ u notgood)).
  { intros x Hx. apply HT_U_bind; [apply _|intros; apply _|apply HT_U_verify|intros; apply HT_ret; done].
    - intros y t Hy. exact Hy.
    - done.
    - intros Hxu Hxl. unfold notgood. change (is_local (with_tags ∅ x)) with (is_local x). rewrite Hxl. done. }
  destruct Hc as [->|[v ->]]; cbn [exec].
  - eapply HT_weaken with (I := U u notgood) (Q := UQ u notgood); [|intros ? ->; done|done|done].
    apply HT_U_bind; [apply _|intros; apply _|apply HT_U_gc|]. intros _. apply HT_ret. done.
  - intros ? l -> Hl' HD. unfold bind at 1 in Hl'. cbn [get] in *.
    unfold bind at 1 in Hl'. unfold lift in *.
    destruct (find_by_uuid (rs_hist s) v) as [x|e] eqn:Hx.
    2:{ pose proof (delta_unique _ _ _ _ Hl' (delta_nil s s eq_refl)) as ->. done. }
    split; [|done]. apply find_by_uuid_elem in Hx as [Hx Hxv].
    refine (proj1 (Hv x _ s l HU Hl' HD)). intros Hxu. apply (u_hist _ _ _ HU); done.
Qed.
Lemma HT_P_gcverify c : (c = LGc \/ exists v, c = LVerify v) ->
  HT D (fun _ => True) (putok E D None) (exec E O c) (fun _ _ => True).
Proof.
  assert (Hv : forall x, HT D (fun _ => True) (putok E D None) (do_ verify E O x; ret true)%M (fun _ _ => True)).
  { intros x. apply HT_P_bind; [apply _|intros; apply _|apply HT_P_verify|intros; apply HT_P_ret]. }
  intros [->|[v ->]]; cbn [exec].
  - apply HT_P_bind; [apply _|intros; apply _|apply HT_P_gc|intros; apply HT_P_ret].
  - intros s l _ Hl HD. split; [|done]. unfold bind at 1 in Hl. cbn [get] in *.
    unfold bind at 1 in Hl. unfold lift in *.
    destruct (find_by_uuid (rs_hist s) v) as [x|e] eqn:Hx.
    2:{ pose proof (delta_unique _ _ _ _ Hl (delta_nil s s eq_refl)) as ->. done. }
    apply (Hv x s l I Hl HD).
Qed.
End Step.

(** ** Commands that only touch metadata *)
Definition meta_cond (O : orders) (W : rev -> Prop) (R : string -> Prop) (c : lcmd) (s : rst) : Prop :=
  match c with
  | LClean => forall x, W x -> is_local x = true -> is_clean x = false -> R (r_uuid x)
  | LRm iso spec => forall l x, find_revisions (rs_hist s) iso spec = Ok l -> x ∈ l ->
      is_local x = true -> R (r_uuid x)
  | LDistrust _ _ => True
  | LTags iso _ a spec tags _ ar _ =>
      forall l y t, find_revisions (scan_disk O (w_disk (rs_w s))) iso spec = Ok l -> y ∈ l ->
        new_tags a tags (r_tags y) = Some t -> ar = true -> t = ∅ -> is_local y = true -> R (r_uuid y)
  | LExpire _ _ _ => forall x, W x -> is_local x = true -> R (r_uuid x)
  | LPull _ _ replies =>
      (forall x, W x -> r_server x <> "" -> forall y, W y -> r_uuid y = r_uuid x -> R (r_uuid y)) /\
      (forall p a, (p, a) ∈ replies -> p <> "" /\ forall l r, a = Ok l -> r ∈ l -> W r)
  | LPush _ => forall x, W x -> r_server x <> "" -> R (r_uuid x)
  | _ => False
  end.
Lemma HT_M_exec E O (W : rev -> Prop) (R : string -> Prop) c s :
  orders_ok O -> (forall x t, W x -> W (with_tags t x)) -> (forall x t, W x -> W (with_trust t x)) ->
  (forall x t, W x -> W (with_orig t x)) ->
  MI W s -> meta_cond O W R c s ->
  HT (fun _ => True) (fun s1 => s1 = s) (metaok W R) (exec E O c) (fun _ _ => True).
Proof.
  intros HO H1 H2 H3 HI Hc.
  assert (Hw : forall mm : M rst bool, HT (fun _ => True) (MI W) (metaok W R) mm (MQ W) ->
    HT (fun _ => True) (fun s1 => s1 = s) (metaok W R) mm (fun _ _ => True)).
  { intros mm Hm. eapply HT_weaken; [exact Hm|intros ? ->; done|done|done]. }
  assert (Hr : forall A (mm : M rst A), Grows mm -> HT (fun _ => True) (MI W) (metaok W R) mm (MQ W) ->
    HT (fun _ => True) (MI W) (metaok W R) (do_ mm; ret true)%M (MQ W)).
  { intros A mm Hg Hm. apply HT_M_bind; [done|intros; apply _|done|]. intros _. apply HT_M_ret. }
  assert (Hf : forall iso spec (f : list rev -> M rst unit), (forall l, Grows (f l)) ->
    (forall l, find_revisions (rs_hist s) iso spec = Ok l -> (forall x, x ∈ l -> W x) ->
       HT (fun _ => True) (MI W) (metaok W R) (f l) (MQ W)) ->
    HT (fun _ => True) (fun s1 => s1 = s) (metaok W R)
      (let* s := get in let* l := lift (find_revisions (rs_hist s) iso spec) in do_ f l; ret true)%M
      (fun _ _ => True)).
  { intros iso spec f Hg Hff. apply HT_get. intros ? ->. apply Hw. apply HT_M_lift; [intros; apply _|].
    intros l Hl. apply Hr; [apply _|]. apply Hff; [done|]. intros x Hx.
    apply (proj2 (proj2 HI)). apply (proj2 (find_revisions_uuids _ _ _ _ (proj1 (proj2 HI)) Hl) x). done. }
  destruct c; cbn [exec meta_cond] in *; try done.
  - apply Hw, Hr; [apply _|]. apply HT_M_clean; done.
  - apply Hf; [apply _|]. intros l Hl HW. apply HT_M_rm; [done|]. intros x Hx. split; [auto|]. eauto.
  - apply Hf; [apply _|]. intros l Hl HW. apply HT_M_distrust; done.
  - eapply HT_weaken; [apply (HT_M_tags O W R HO H1 iso S0 a spec tags expect autoremove force s HI)|done|done|done].
    done.
  - apply Hw, Hr; [apply _|]. apply HT_M_expire; done.
  - apply Hw, Hr; [apply _|]. apply HT_M_pull; try done; apply Hc.
  - apply HT_get. intros ? ->. apply Hw, Hr; [apply _|]. apply HT_M_push; try done. intros x Hx.
    apply elem_of_list_filter in Hx as [[Hx _] Hin]. unfold pending in Hx.
    apply andb_true_iff in Hx as [Hx _]. apply negb_true_iff, bool_decide_eq_false in Hx.
    assert (W x) by (apply HI; done). auto.
Qed.
