(** Reasoning about operations on a repository. *)
From Verif Require Export Spec.Backup Proofs.ChunkedLog.

(** [s'] is reached from [s] by the effects [l]. *)
Definition delta (s s' : rst) (l : list eff) : Prop :=
  w_log (rs_w s') = w_log (rs_w s) ++ l /\
  w_disk (rs_w s') = replay l (w_disk (rs_w s)).
Lemma delta_nil s s' : rs_w s' = rs_w s -> delta s s' [].
Proof. unfold delta. intros ->. rewrite app_nil_r. done. Qed.
Lemma delta_nil' s s' :
  w_log (rs_w s') = w_log (rs_w s) -> w_disk (rs_w s') = w_disk (rs_w s) -> delta s s' [].
Proof. unfold delta. intros -> ->. rewrite app_nil_r. done. Qed.
Lemma delta_trans s1 s2 s3 l1 l2 :
  delta s1 s2 l1 -> delta s2 s3 l2 -> delta s1 s3 (l1 ++ l2).
Proof.
  intros [A1 B1] [A2 B2]. split.
  - rewrite A2, A1, app_assoc. done.
  - rewrite B2, B1, replay_app. done.
Qed.

Lemma delta_unique s s' l l' : delta s s' l -> delta s s' l' -> l = l'.
Proof. intros [H1 _] [H2 _]. rewrite H1 in H2. apply app_inv_head in H2. done. Qed.

(** The log only grows, and the disk is what the log says. *)
Class Grows {A} (m : M rst A) : Prop := grows : forall s, exists l, delta s (m s).1 l.
Global Hint Mode Grows - ! : typeclass_instances.
Global Instance Grows_ret {A} (a : A) : Grows (ret a).
Proof. intros s. exists []. apply delta_nil. done. Qed.
Global Instance Grows_raise {A} e : Grows (@raise rst A e).
Proof. intros s. exists []. apply delta_nil. done. Qed.
Global Instance Grows_lift {A} (r : res A) : Grows (lift r).
Proof. intros s. exists []. apply delta_nil. done. Qed.
Global Instance Grows_get : Grows get.
Proof. intros s. exists []. apply delta_nil. done. Qed.
Global Instance Grows_assert b e : Grows (massert b e).
Proof. intros s. exists []. destruct b; apply delta_nil; done. Qed.
Global Instance Grows_eff e : Grows (eff_ e).
Proof. intros s. exists [e]. done. Qed.
Global Instance Grows_bind {A B} (m : M rst A) (k : A -> M rst B) :
  Grows m -> (forall a, Grows (k a)) -> Grows (bind m k).
Proof.
  intros Hm Hk s. unfold bind. destruct (Hm s) as [l Hl].
  destruct (m s) as [s1 [a|e]]; cbn in *; [|eauto].
  destruct (Hk a s1) as [l2 Hl2]. exists (l ++ l2). eapply delta_trans; done.
Qed.
Global Instance Grows_mfor {B} (l : list B) (body : B -> M rst unit) :
  (forall x, Grows (body x)) -> Grows (mfor l body).
Proof. intros Hb. induction l; cbn [mfor]; apply _. Qed.
Global Instance Grows_if {A} (b : bool) (m1 m2 : M rst A) :
  Grows m1 -> Grows m2 -> Grows (if b then m1 else m2).
Proof. destruct b; auto. Qed.
Global Instance Grows_opt {A B} (o : option B) (f : B -> M rst A) (m : M rst A) :
  (forall b, Grows (f b)) -> Grows m -> Grows (match o with Some b => f b | None => m end).
Proof. destruct o; auto. Qed.
Global Instance Grows_res {A B} (o : res B) (f : B -> M rst A) (m : exn -> M rst A) :
  (forall b, Grows (f b)) -> (forall e, Grows (m e)) ->
  Grows (match o with Ok b => f b | Err e => m e end).
Proof. destruct o; auto. Qed.
Lemma Grows_modify f : (forall s, rs_w (f s) = rs_w s) -> Grows (modify f).
Proof. intros H s. exists []. apply delta_nil, H. Qed.
Global Instance Grows_upd r : Grows (upd r).
Proof. apply Grows_modify. done. Qed.
Global Instance Grows_write_info r : Grows (write_info r).
Proof. unfold write_info. apply _. Qed.
Global Instance Grows_chmod : Grows chmod_info.
Proof. unfold chmod_info. apply _. Qed.
Global Instance Grows_remove f r : Grows (rev_remove f r).
Proof.
  unfold rev_remove. destruct (_ && _).
  - apply Grows_bind; apply _.
  - apply Grows_bind; [apply _|]. intros s. apply Grows_bind; [apply _|]. intros _.
    apply Grows_modify. done.
Qed.
Global Instance Grows_scan O : Grows (scan O).
Proof. apply Grows_modify. done. Qed.
Global Instance Grows_distrust l : Grows (distrust l).
Proof. unfold distrust. apply _. Qed.

Global Typeclasses Opaque ret raise lift get massert eff_ bind mfor modify upd write_info
  chmod_info rev_remove scan distrust.
Ltac grows := intros; repeat lazymatch goal with
  | |- Grows (bind _ _) => apply Grows_bind; [apply _|intros ?] end; apply _.

(** Hoare triples that also describe the effects; [D] holds of all content that
    was flushed. *)
Definition HT {A} (D : bytes -> Prop) (I : rst -> Prop) (H : eff -> Prop)
    (m : M rst A) (Q : rst -> res A -> Prop) : Prop :=
  forall s l, I s -> delta s (m s).1 l -> (forall x, EFlush x ∈ l -> D x) ->
    Forall H l /\ Q (m s).1 (m s).2.

Section HT.
Context (D : bytes -> Prop).
Implicit Types I : rst -> Prop.

Lemma HT_bind {A B} I H (m : M rst A) (k : A -> M rst B) Q Q' :
  Grows m -> (forall a, Grows (k a)) ->
  HT D I H m Q -> (forall a, HT D (fun s => Q s (Ok a)) H (k a) Q') ->
  (forall s e, Q s (Err e) -> Q' s (Err e)) -> HT D I H (bind m k) Q'.
Proof.
  intros Hm Hk H1 H2 He s l Hs Hl HD. destruct (Hm s) as [l1 Hl1]. unfold bind in *.
  specialize (H1 s l1 Hs Hl1). destruct (m s) as [s1 [a|e]]; cbn [fst snd] in *.
  - destruct (Hk a s1) as [l2 Hl2].
    pose proof (delta_unique _ _ _ _ Hl (delta_trans _ _ _ _ _ Hl1 Hl2)) as ->.
    destruct H1 as [Hf1 HQ1]. { intros x Hx. apply HD, elem_of_app. auto. }
    destruct (H2 a s1 l2 HQ1 Hl2) as [Hf2 HQ2]. { intros x Hx. apply HD, elem_of_app. auto. }
    split; [apply Forall_app; done|done].
  - pose proof (delta_unique _ _ _ _ Hl Hl1) as ->. destruct (H1 HD). split; auto.
Qed.
Lemma HT_weaken {A} I I' (H H' : eff -> Prop) (m : M rst A) (Q Q' : rst -> res A -> Prop) :
  HT D I H m Q -> (forall s, I' s -> I s) -> (forall e, H e -> H' e) ->
  (forall s r, Q s r -> Q' s r) -> HT D I' H' m Q'.
Proof.
  intros Hm HI HH HQ s l Hs Hl HD. destruct (Hm s l (HI s Hs) Hl HD) as [Hf ?].
  split; [|auto]. eapply Forall_impl; done.
Qed.
Lemma HT_pure {A} I H (m : M rst A) (Q : rst -> res A -> Prop) :
  (forall s, I s -> w_disk (rs_w (m s).1) = w_disk (rs_w s) /\
     w_log (rs_w (m s).1) = w_log (rs_w s) /\ Q (m s).1 (m s).2) -> HT D I H m Q.
Proof.
  intros Hm s l Hs Hl HD. destruct (Hm s Hs) as (H1 & H2 & H3).
  pose proof (delta_unique _ _ _ _ Hl (delta_nil' _ _ H2 H1)) as ->. done.
Qed.
Lemma HT_ret {A} I H (a : A) (Q : rst -> res A -> Prop) :
  (forall s, I s -> Q s (Ok a)) -> HT D I H (ret a) Q.
Proof. intros HQ. apply HT_pure. intros s Hs. cbn. auto. Qed.
Lemma HT_raise {A} I H e (Q : rst -> res A -> Prop) :
  (forall s, I s -> Q s (Err e)) -> HT D I H (raise e) Q.
Proof. intros HQ. apply HT_pure. intros s Hs. cbn. auto. Qed.
Lemma HT_lift {A} I H (r : res A) (Q : rst -> res A -> Prop) :
  (forall s, I s -> Q s r) -> HT D I H (lift r) Q.
Proof. intros HQ. apply HT_pure. intros s Hs. cbn. auto. Qed.
Lemma HT_get {A} I H (k : rst -> M rst A) Q :
  (forall s0, I s0 -> HT D (fun s => s = s0) H (k s0) Q) -> HT D I H (bind get k) Q.
Proof. intros Hk s l Hs Hl HD. unfold bind, get in *. eapply Hk; done. Qed.
Lemma HT_eff I (H : eff -> Prop) e (Q : rst -> res unit -> Prop) :
  (forall s, I s -> H e /\ Q (set_w (do_eff e (rs_w s)) s) (Ok tt)) ->
  HT D I H (eff_ e) Q.
Proof.
  intros HQ s l Hs Hl HD. destruct (HQ s Hs) as [He HQs].
  assert (Hd : delta s (eff_ e s).1 [e]) by done.
  pose proof (delta_unique _ _ _ _ Hl Hd) as ->.
  split; [constructor; done|apply HQs].
Qed.
Lemma HT_modify I H f (Q : rst -> res unit -> Prop) :
  (forall s, I s -> rs_w (f s) = rs_w s) ->
  (forall s, I s -> Q (f s) (Ok tt)) -> HT D I H (modify f) Q.
Proof.
  intros Hw HQ. apply HT_pure. intros s Hs. cbn. rewrite (Hw s Hs). auto.
Qed.
Lemma HT_assert I H b e (Q : rst -> res unit -> Prop) :
  (forall s, I s -> b = true -> Q s (Ok tt)) -> (forall s, I s -> b = false -> Q s (Err e)) ->
  HT D I H (massert b e) Q.
Proof. intros H1 H2. apply HT_pure. intros s Hs. destruct b; cbn; auto. Qed.
Lemma HT_at {A} I H (m : M rst A) Q :
  (forall s0, I s0 -> HT D (fun s => s = s0) H m Q) -> HT D I H m Q.
Proof. intros Hm s l Hs. apply (Hm s Hs s l eq_refl). Qed.
Lemma HT_mfor {B} I H (l : list B) (body : B -> M rst unit) (Q : rst -> res unit -> Prop)
    {Hb : forall x, Grows (body x)} :
  (forall x, x ∈ l -> HT D I H (body x)
     (fun s r => match r with Ok _ => I s | Err e => Q s (Err e) end)) ->
  (forall s, I s -> Q s (Ok tt)) -> HT D I H (mfor l body) Q.
Proof.
  intros Hbody HQ. induction l as [|x l IH]; cbn [mfor]; [apply HT_ret; done|].
  eapply HT_bind; [apply _|intros; apply _|apply Hbody; left| |].
  - intros a. cbn. apply IH. intros y Hy. apply Hbody. right. done.
  - cbn. auto.
Qed.
End HT.
Ltac hbind := eapply HT_bind; [apply _|intros; apply _| | |].

(** ** Scanning *)
Lemma insert_by_perm {A} (le : A -> A -> bool) x l : insert_by le x l ≡ₚ x :: l.
Proof.
  induction l as [|y l IH]; cbn; [done|]. destruct (le x y); [done|].
  rewrite IH. apply Permutation_swap.
Qed.
Lemma isort_perm' {A} (le : A -> A -> bool) l : isort le l ≡ₚ l.
Proof. induction l as [|x l IH]; cbn; [done|]. rewrite insert_by_perm, IH. done. Qed.

Lemma first_by_uuid_sub l seen x :
  x ∈ first_by_uuid l seen -> x ∈ l /\ r_uuid x ∉ seen.
Proof.
  revert seen. induction l as [|y l IH]; intros seen; cbn; [set_solver|].
  case_decide as Hy.
  - intros Hx. apply IH in Hx as [? ?]. split; [right|]; done.
  - intros [->|Hx]%elem_of_cons; [split; [left|]; done|].
    apply IH in Hx as [? Hn]. split; [right; done|]. set_solver.
Qed.
Lemma first_by_uuid_uniq l seen : NoDup (map r_uuid (first_by_uuid l seen)).
Proof.
  revert seen. induction l as [|y l IH]; intros seen; cbn; [constructor|].
  case_decide; [apply IH|]. cbn. constructor; [|apply IH].
  intros (z & Hz & Hin)%elem_of_list_fmap. apply first_by_uuid_sub in Hin as [_ Hn]. set_solver.
Qed.
Lemma first_by_uuid_all l seen x :
  NoDup (map r_uuid l) -> x ∈ l -> r_uuid x ∉ seen -> x ∈ first_by_uuid l seen.
Proof.
  revert seen. induction l as [|y l IH]; intros seen Hnd Hx Hn; cbn; [inversion Hx|].
  apply NoDup_cons in Hnd as [Hy Hnd]. apply elem_of_cons in Hx as [->|Hx].
  - rewrite decide_False by done. left.
  - case_decide; [apply IH; done|]. right. apply IH; try done.
    intros [Heq|?]%elem_of_cons; [|done]. apply Hy. rewrite <- Heq.
    apply elem_of_list_fmap. eauto.
Qed.

Lemma scan_disk_elem O d x :
  orders_ok O -> rev_files_ok d ->
  x ∈ scan_disk O d <-> d_revs d !! r_uuid x = Some x.
Proof.
  intros [HO _] Hd. unfold scan_disk, scan_list. rewrite isort_perm'.
  assert (Hin : forall y, y ∈ map snd (o_revs O (d_revs d)) <-> d_revs d !! r_uuid y = Some y).
  { intros y. rewrite elem_of_list_fmap. split.
    - intros ([n rv] & -> & Hy). rewrite HO in Hy. apply elem_of_map_to_list in Hy.
      cbn. rewrite (Hd _ _ Hy). done.
    - intros Hy. exists (r_uuid y, y). split; [done|]. rewrite HO. apply elem_of_map_to_list. done. }
  split.
  - intros Hx. apply Hin. eapply first_by_uuid_sub, Hx.
  - intros Hx. apply first_by_uuid_all; [|apply Hin; done|set_solver].
    assert (Hp : map r_uuid (map snd (o_revs O (d_revs d))) = map fst (o_revs O (d_revs d))).
    { rewrite map_map. apply map_ext_in. intros [n rv] Hn. cbn.
      apply Hd. apply elem_of_map_to_list. rewrite <- HO. apply elem_of_list_In. done. }
    rewrite Hp. rewrite HO. apply NoDup_fst_map_to_list.
Qed.
Lemma scan_disk_nodup O d : NoDup (map r_uuid (scan_disk O d)).
Proof.
  unfold scan_disk, scan_list. rewrite isort_perm'. apply first_by_uuid_uniq.
Qed.

(** ** Mutated histories *)
Lemma hist_set_uuids r h : map r_uuid (hist_set r h) = map r_uuid h.
Proof.
  unfold hist_set. rewrite map_map. apply map_ext. intros x. case_decide; done.
Qed.
Lemma hist_set_elem r h x :
  x ∈ hist_set r h -> x = r \/ (x ∈ h /\ r_uuid x <> r_uuid r).
Proof.
  unfold hist_set. intros (y & -> & Hy)%elem_of_list_fmap. case_decide; auto.
Qed.
Lemma hist_set_keep r h x :
  x ∈ h -> r_uuid x <> r_uuid r -> x ∈ hist_set r h.
Proof.
  intros Hx Hn. unfold hist_set. apply elem_of_list_fmap. exists x.
  rewrite decide_False by done. done.
Qed.
Lemma hist_set_in r h x :
  x ∈ h -> r_uuid x = r_uuid r -> r ∈ hist_set r h.
Proof.
  intros Hx Hn. unfold hist_set. apply elem_of_list_fmap. exists x.
  rewrite decide_True by done. done.
Qed.
Lemma hist_del_elem u h x : x ∈ hist_del u h <-> x ∈ h /\ r_uuid x <> u.
Proof. unfold hist_del. rewrite elem_of_list_filter. tauto. Qed.
Lemma get_history_elem c l h x :
  x ∈ get_history c l h <->
  x ∈ h /\ (c = true -> is_clean x = true) /\ (l = true -> is_local x = true).
Proof.
  unfold get_history. rewrite elem_of_list_filter.
  destruct c, l, (is_clean x), (is_local x); cbn; naive_solver.
Qed.
