(** C45: worker slots. *)
From Verif Require Import Model.Daemon.

(** How many tasks are inside the block guarded by the semaphore [x]. *)
Definition running_on (x : sem) (s : slots) : nat := length (filter (fun w => w.2 = x) (sl_run s)).

Inductive slots_reached : slots -> Prop :=
| sr_init : slots_reached slots_init
| sr_step s s' : slots_reached s -> slot_step s s' -> slots_reached s'.

Definition slots_inv (s : slots) : Prop :=
  (forall g f, match sl_limits s !! g with
     | Some n => exists v, sl_value s !! (g, f) = Some v /\ (v + running_on (g, f) s = n)%nat
     | None => sl_value s !! (g, f) = None
     end) /\
  Forall (fun w => (w.2.1 < length (sl_limits s))%nat) (sl_run s).

Lemma running_cons w s l v wt : running_on w.2 (MkSlots l v wt (w :: sl_run s)) = Datatypes.S (running_on w.2 s).
Proof. unfold running_on. cbn [sl_run]. by rewrite filter_cons_True. Qed.

Lemma slots_inv_step s s' : slots_inv s -> slot_step s s' -> slots_inv s'.
Proof.
  intros [Hv Hr] Hs. destruct Hs as [limit s|j fast s Hne|a b w s v Hw Hval|a b w s Hw|a b w s v Hw Hval].
  - unfold set_limit. case_bool_decide; [done|]. split.
    + intros g f. cbn [sl_limits sl_value]. unfold running_on. cbn [sl_run].
      destruct (decide (g = length (sl_limits s))) as [->|Hg].
      * rewrite lookup_app_r by lia. rewrite Nat.sub_diag. cbn.
        exists limit. split.
        -- destruct f; [rewrite lookup_insert_ne by done|]; by rewrite lookup_insert.
        -- assert (filter (fun w => w.2 = (length (sl_limits s), f)) (sl_run s) = []) as ->; [|cbn; lia].
           clear -Hr. induction Hr as [|w l Hw Hl IH]; [done|].
           rewrite filter_cons_False; [done|]. intros Heq. rewrite Heq in Hw. cbn in Hw. lia.
      * rewrite !lookup_insert_ne by congruence. specialize (Hv g f).
        destruct (decide (g < length (sl_limits s))%nat).
        -- rewrite lookup_app_l by done. exact Hv.
        -- rewrite (lookup_ge_None_2 (sl_limits s)) in Hv by lia.
           rewrite lookup_app_r by lia. destruct (g - length (sl_limits s))%nat eqn:E; [lia|]. done.
    + cbn. eapply Forall_impl; [exact Hr|]. cbn. intros w Hw. rewrite app_length. lia.
  - split; [exact Hv|exact Hr].
  - split.
    + intros g f. cbn [sl_limits sl_value].
      destruct (decide ((g, f) = w.2)) as [Heq|Hne].
      * specialize (Hv g f). rewrite Heq in Hv |- *. destruct (sl_limits s !! g) as [n|].
        -- destruct Hv as (v' & Hv1 & Hv2). exists v. rewrite lookup_insert. split; [done|].
           rewrite running_cons. assert (v' = Datatypes.S v) by congruence. lia.
        -- congruence.
      * rewrite lookup_insert_ne by done. specialize (Hv g f).
        unfold running_on in *. cbn [sl_run]. rewrite filter_cons_False by congruence. exact Hv.
    + cbn. constructor; [|exact Hr]. destruct w as [j [g f]]. cbn in *.
      specialize (Hv g f). destruct (sl_limits s !! g) eqn:E; [by apply lookup_lt_Some in E|congruence].
  - split; [exact Hv|exact Hr].
  - assert (Hrun : forall x, running_on x s =
       (running_on x (MkSlots (sl_limits s) (sl_value s) (sl_wait s) (a ++ b)) + if decide (w.2 = x) then 1 else 0)%nat).
    { intros x. unfold running_on. cbn [sl_run]. rewrite Hw, !filter_app, !app_length, filter_cons.
      destruct (decide (w.2 = x)); cbn; lia. }
    split.
    + intros g f. cbn [sl_limits sl_value]. specialize (Hv g f). rewrite Hrun in Hv.
      destruct (decide (w.2 = (g, f))) as [Heq|Hne].
      * rewrite Heq in *. rewrite lookup_insert. destruct (sl_limits s !! g) as [n|]; [|congruence].
        destruct Hv as (v' & Hv1 & Hv2). exists (Datatypes.S v). split; [done|].
        unfold running_on in *; cbn [sl_run] in *. assert (v' = v) by congruence. lia.
      * rewrite lookup_insert_ne by done. destruct (sl_limits s !! g) as [n|]; [|exact Hv].
        destruct Hv as (v' & Hv1 & Hv2). exists v'. split; [done|].
        unfold running_on in *; cbn [sl_run] in *. lia.
    + cbn. rewrite Hw in Hr. apply Forall_app in Hr as [H1 H2]. apply Forall_cons in H2 as [_ H2].
      apply Forall_app. split; done.
Qed.
Lemma slots_reached_inv s : slots_reached s -> slots_inv s.
Proof.
  induction 1 as [|s s' _ IH Hs]; [|by eapply slots_inv_step]. split; [|constructor].
  intros g f. done.
Qed.

(** Never are more jobs inside the block of one semaphore than its limit. *)
Theorem C45_per_semaphore_partial s g fast limit :
  slots_reached s -> sl_limits s !! g = Some limit -> (running_on (g, fast) s <= limit)%nat.
Proof.
  intros Hs Hg. destruct (slots_reached_inv s Hs) as [Hv _]. specialize (Hv g fast).
  rewrite Hg in Hv. destruct Hv as (v & _ & Hv). lia.
Qed.
Lemma total_bound (run : list (nat * sem)) (limits : list nat) :
  Forall (fun w => (w.2.1 < length limits)%nat) run ->
  (forall g f n, limits !! g = Some n -> (length (filter (fun w => w.2 = (g, f)) run) <= n)%nat) ->
  (length run <= 2 * sum_list limits)%nat.
Proof.
  revert run. induction limits as [|n limits IH] using rev_ind; intros run Hr Hl.
  - destruct Hr as [|w l Hw _]; [cbn; lia|cbn in Hw; lia].
  - set (m := length limits).
    assert (Hsplit : forall l : list (nat * sem), (length l =
      length (filter (fun w => w.2 = (m, true)) l) + length (filter (fun w => w.2 = (m, false)) l) +
      length (filter (fun w => w.2.1 <> m) l))%nat).
    { clear. induction l as [|[j [g f]] l IH]; [done|]. rewrite !filter_cons. cbn [snd fst].
      destruct (decide (g = m)) as [->|Hg].
      - destruct (decide (m <> m)); [done|].
        destruct f; repeat case_decide; try done; cbn; lia.
      - repeat case_decide; try congruence; cbn; lia. }
    rewrite (Hsplit run).
    assert (H1 : (length (filter (fun w => w.2.1 <> m) run) <= 2 * sum_list limits)%nat).
    { apply IH.
      - apply Forall_forall. intros w Hw. apply elem_of_list_filter in Hw as [Hn Hw].
        rewrite Forall_forall in Hr. specialize (Hr _ Hw). rewrite app_length in Hr. cbn in Hr.
        unfold m in Hn. lia.
      - intros g f k Hk. rewrite list_filter_filter.
        etransitivity; [|apply (Hl g f k); by apply lookup_app_l_Some].
        clear. induction run as [|w l IH]; [done|]. rewrite !filter_cons.
        destruct (decide (w.2 = (g, f))); destruct (decide (w.2 = (g, f) /\ w.2.1 <> m)); cbn; try tauto; lia. }
    assert (Hm : (limits ++ [n]) !! m = Some n) by (rewrite lookup_app_r, Nat.sub_diag by lia; done).
    pose proof (Hl m true n Hm). pose proof (Hl m false n Hm).
    assert (Hsum : sum_list (limits ++ [n]) = (sum_list limits + n)%nat).
    { clear. induction limits as [|x l IH]; cbn; lia. }
    rewrite Hsum. lia.
Qed.
(** In all, at most twice the limit -- once for fast and once for slow jobs -- and
    after changes of the limit at most twice the sum of the limits there were. *)
Theorem C45_total_partial s :
  slots_reached s -> (length (sl_run s) <= 2 * sum_list (sl_limits s))%nat.
Proof.
  intros Hs. pose proof (slots_reached_inv s Hs) as [Hv Hr]. apply total_bound; [exact Hr|].
  intros g f n Hn. by apply C45_per_semaphore_partial.
Qed.
Corollary C45_constant_partial s limit :
  slots_reached s -> sl_limits s = [limit] -> (length (sl_run s) <= 2 * limit)%nat.
Proof. intros Hs Hl. pose proof (C45_total_partial s Hs) as H. rewrite Hl in H. cbn in H. lia. Qed.
(** As claimed, with the limit alone, it is false: one fast and one slow job run with a
    limit of 1; and the bounds above are reached. *)
Theorem C45_refuted :
  exists s, slots_reached s /\ sl_limits s = [1%nat] /\ length (sl_run s) = 2%nat.
Proof.
  set (s1 := set_limit 1 slots_init).
  set (s2 := MkSlots [1%nat] (sl_value s1) [(7%nat, (0%nat, true))] []).
  set (s3 := MkSlots [1%nat] (sl_value s1) [(8%nat, (0%nat, false)); (7%nat, (0%nat, true))] []).
  set (s4 := MkSlots [1%nat] (<[(0%nat, false) := 0%nat]> (sl_value s1)) [(7%nat, (0%nat, true))] [(8%nat, (0%nat, false))]).
  exists (MkSlots [1%nat] (<[(0%nat, true) := 0%nat]> (sl_value s4)) [] [(7%nat, (0%nat, true)); (8%nat, (0%nat, false))]).
  split; [|done].
  eapply (sr_step s4); [eapply (sr_step s3); [eapply (sr_step s2); [eapply (sr_step s1); [eapply (sr_step slots_init); [constructor|]|]|]|]|].
  - apply st_reload.
  - apply (st_want 7 true s1). done.
  - apply (st_want 8 false s2). done.
  - apply (st_get [] [(7%nat, (0%nat, true))] (8%nat, (0%nat, false)) s3 0); done.
  - apply (st_get [] [] (7%nat, (0%nat, true)) s4 0); done.
Qed.
Print Assumptions C45_per_semaphore_partial.
Print Assumptions C45_total_partial.
Print Assumptions C45_constant_partial.
Print Assumptions C45_refuted.
