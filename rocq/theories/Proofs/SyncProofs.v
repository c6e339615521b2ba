(** Pulling and pushing metadata (C50-C52, C69). *)
From Verif Require Export Proofs.ExpireProofs Model.Sync.

Lemma NoDup_uuid_filter (P : rev -> Prop) (HP : forall x, Decision (P x)) h :
  NoDup (map r_uuid h) -> NoDup (map r_uuid (filter P h)).
Proof.
  induction h as [|x h IH]; [constructor|]. intros Hn. cbn in Hn. apply NoDup_cons in Hn as [Hx Hn].
  destruct (decide (P x)) as [Hd|Hd].
  - rewrite filter_cons_True by done. cbn. apply NoDup_cons. split; [|by apply IH].
    intros Hi. apply Hx. apply elem_of_list_fmap in Hi as (y & -> & Hy).
    apply elem_of_list_filter in Hy as [_ Hy]. apply elem_of_list_fmap. by exists y.
  - rewrite filter_cons_False by done. by apply IH.
Qed.

(** ** Logs that touch only metadata files *)
Definition keys (e : list eff) : list string :=
  omap (fun x => match x with ERevPut n _ | ERevDel n => Some n | _ => None end) e.
Definition meta_only (e : list eff) : Prop :=
  Forall (fun x => match x with ETmp | ERevPut _ _ | ERevDel _ => True | _ => False end) e.
Lemma keys_app a b : keys (a ++ b) = keys a ++ keys b.
Proof. apply omap_app. Qed.
Lemma meta_app a b : meta_only a -> meta_only b -> meta_only (a ++ b).
Proof. apply Forall_app_2. Qed.
Lemma replay_cons x e d : replay (x :: e) d = replay e (apply_eff x d).
Proof. reflexivity. Qed.
Lemma replay_meta e d : meta_only e ->
  data_same d (replay e d) /\ forall u, u ∉ keys e -> d_revs (replay e d) !! u = d_revs d !! u.
Proof.
  intros He. revert d. induction He as [|x e Hx He IH]; intros d; [split; [done|done]|].
  rewrite replay_cons. destruct (IH (apply_eff x d)) as [[IH1 IH2] IH3]. unfold keys in *. cbn [omap list_omap].
  destruct x; try done; cbn in *.
  - split; [done|]. intros u Hu. rewrite IH3 by set_solver. apply lookup_insert_ne. set_solver.
  - split; [done|]. intros u Hu. rewrite IH3 by set_solver. apply lookup_delete_ne. set_solver.
Qed.
Lemma log_between e d k : meta_only e -> NoDup (keys e) ->
  data_same d (replay (take k e) d) /\
  in_between (d_revs d) (d_revs (replay e d)) (d_revs (replay (take k e) d)).
Proof.
  intros He Hn. rewrite <- (take_drop k e) in He, Hn. rewrite <- (take_drop k e) at 2.
  set (a := take k e) in *. set (b := drop k e) in *. clearbody a b. apply Forall_app in He as [Ha Hb].
  rewrite keys_app in Hn. apply NoDup_app in Hn as (_ & Hd & _).
  split; [by apply replay_meta|]. intros u. rewrite replay_app.
  destruct (decide (u ∈ keys a)) as [Hu|Hu].
  - right. symmetry. by apply replay_meta; [|apply Hd].
  - left. by apply replay_meta.
Qed.

(** ** Removing revisions by uuid *)
Lemma remove_force r s : exists e, delta s (rev_remove true r s).1 e /\ (rev_remove true r s).2 = Ok tt /\
  meta_only e /\ (keys e = [] \/ keys e = [r_uuid r]) /\
  (forall u, drevs (rev_remove true r s).1 !! u = if decide (u = r_uuid r) then None else drevs s !! u) /\
  rs_hist (rev_remove true r s).1 = hist_del (r_uuid r) (rs_hist s).
Proof.
  unfold rev_remove. cbn [negb andb]. unfold bind, get. cbn.
  destruct (bool_decide (is_Some (drevs s !! r_uuid r))) eqn:Hb.
  - exists [ERevDel (r_uuid r)]. unfold delta. cbn. split; [done|]. split; [done|].
    split; [by repeat constructor|]. split; [by right|]. split; [|done].
    intros u. case_decide as Hu; [subst; apply lookup_delete|by apply lookup_delete_ne].
  - exists []. unfold delta. cbn. rewrite app_nil_r. split; [done|]. split; [done|].
    split; [constructor|]. split; [by left|]. split; [|done].
    intros u. case_decide as Hu; [subst|done]. apply bool_decide_eq_false in Hb.
    destruct (drevs s !! r_uuid r); [exfalso; apply Hb; eauto|done].
Qed.
Lemma find_uuid h (r : rev) : NoDup (map r_uuid h) -> r ∈ h -> find_by_uuid h (r_uuid r) = Ok r.
Proof.
  intros Hn Hr. unfold find_by_uuid. destruct (list_find _ h) as [[i x]|] eqn:E.
  - apply list_find_Some in E as (Hi & Hx & _). f_equal.
    apply (uuid_inj h); [done|by eapply elem_of_list_lookup_2|done|done].
  - apply list_find_None in E. rewrite Forall_forall in E. by destruct (E r Hr).
Qed.
Lemma remove_uuids us s :
  NoDup us -> NoDup (map r_uuid (rs_hist s)) -> (forall u, u ∈ us -> exists r, r ∈ rs_hist s /\ r_uuid r = u) ->
  let m := fun u : string => (let* s := get in let* r := lift (find_by_uuid (rs_hist s) u) in rev_remove true r)%M in
  let s' := (mfor us m s).1 in
  (mfor us m s).2 = Ok tt /\
  (exists e, delta s s' e /\ meta_only e /\ NoDup (keys e) /\ forall u, u ∈ keys e -> u ∈ us) /\
  (forall u, drevs s' !! u = if decide (u ∈ us) then None else drevs s !! u) /\
  rs_hist s' = filter (fun r => r_uuid r ∉ us) (rs_hist s).
Proof.
  intros Hus Hn Hin m. revert s Hn Hin. induction Hus as [|u us Hu Hus IH]; intros s Hn Hin s'.
  - subst s'. cbn. split_and!; [done| |done|].
    + exists []. split_and!; [by apply delta_nil|constructor|constructor|set_solver].
    + symmetry. clear. induction (rs_hist s) as [|x h IH]; [done|].
      rewrite filter_cons_True by set_solver. by rewrite IH.
  - destruct (Hin u ltac:(left)) as (r & Hr & Hru).
    assert (Hm : m u s = rev_remove true r s).
    { unfold m, bind, get, lift. subst u. rewrite (find_uuid _ r) by done. done. }
    destruct (remove_force r s) as (e1 & D1 & O1 & M1 & K1 & V1 & H1).
    subst s'. cbn [mfor]. unfold bind at 1 2 3 4. rewrite Hm.
    destruct (rev_remove true r s) as [s1 x1]. cbn [fst snd] in *. subst x1. cbn [fst snd].
    destruct (IH s1) as (I1 & (e2 & D2 & M2 & N2 & K2) & V2 & H2).
    { rewrite H1. unfold hist_del. clear -Hn. induction (rs_hist s) as [|x h IH]; [constructor|].
      cbn in Hn. apply NoDup_cons in Hn as [Hx Hn]. destruct (decide (r_uuid x ≠ r_uuid r)) as [Hd|Hd].
      - rewrite filter_cons_True by done. cbn. apply NoDup_cons. split; [|by apply IH].
        intros Hi. apply Hx. apply elem_of_list_fmap in Hi as (y & -> & Hy).
        apply elem_of_list_filter in Hy as [_ Hy]. apply elem_of_list_fmap. by exists y.
      - rewrite filter_cons_False by done. by apply IH. }
    { intros v Hv. destruct (Hin v ltac:(by right)) as (x & Hx & Hxv). exists x. split; [|done].
      rewrite H1. unfold hist_del. apply elem_of_list_filter. split; [|done]. intros ?. apply Hu. congruence. }
    split; [done|]. split; [|split].
    + exists (e1 ++ e2). split; [by eapply delta_trans|]. split; [by apply meta_app|]. rewrite keys_app.
      split.
      * destruct K1 as [->| ->]; [done|]. cbn. apply NoDup_cons. split; [|done].
        intros Hk. apply Hu. rewrite <- Hru. auto.
      * intros v Hv. apply elem_of_app in Hv as [Hv|Hv]; [|right; auto].
        destruct K1 as [K1|K1]; rewrite K1 in Hv; [by apply elem_of_nil in Hv|].
        apply elem_of_list_singleton in Hv as ->. rewrite Hru. left.
    + intros v. rewrite V2, V1, Hru. destruct (decide (v = u)) as [->|Hv].
      * rewrite (decide_True (P := u ∈ u :: us)) by left. by destruct (decide (u ∈ us)).
      * destruct (decide (v ∈ us)) as [Hi|Hi].
        -- rewrite decide_True by (by right). done.
        -- rewrite decide_False by (intros [?|?]%elem_of_cons; done). done.
    + rewrite H2, H1. unfold hist_del. rewrite Hru. clear.
      induction (rs_hist s) as [|x h IH]; [done|].
      destruct (decide (r_uuid x = u)) as [E|E].
      * rewrite filter_cons_False by tauto. rewrite (filter_cons_False _ x h) by (rewrite E; set_solver). done.
      * rewrite (filter_cons_True _ x) by done.
        destruct (decide (r_uuid x ∈ us)) as [Hi|Hi].
        -- rewrite (filter_cons_False _ x) by tauto. rewrite (filter_cons_False _ x) by set_solver. done.
        -- rewrite (filter_cons_True _ x) by done. rewrite (filter_cons_True _ x) by set_solver. by f_equal.
Qed.

(** ** Writing fetched revisions *)
Lemma write_spec r s : delta s (write_info r s).1 [ETmp; ETmp; ERevPut (r_uuid r) r] /\
  (write_info r s).2 = Ok tt /\ drevs (write_info r s).1 = <[r_uuid r := r]> (drevs s) /\
  rs_hist (write_info r s).1 = rs_hist s.
Proof. unfold delta. cbn. rewrite <- !app_assoc. done. Qed.
Lemma write_fetched (skip : rev -> rst -> bool) (m : rev -> M rst unit) l s :
  NoDup (map r_uuid l) ->
  (forall r s', r ∈ l -> rs_hist s' = rs_hist s -> drevs s' !! r_uuid r = drevs s !! r_uuid r ->
     m r s' = write_info r s' \/ (m r s' = (s', Ok tt) /\ drevs s' !! r_uuid r = Some r)) ->
  let s' := (mfor l m s).1 in
  (mfor l m s).2 = Ok tt /\
  (exists e, delta s s' e /\ meta_only e /\ NoDup (keys e) /\ forall u, u ∈ keys e -> u ∈ map r_uuid l) /\
  (forall r, r ∈ l -> drevs s' !! r_uuid r = Some r) /\
  (forall u, u ∉ map r_uuid l -> drevs s' !! u = drevs s !! u) /\
  rs_hist s' = rs_hist s.
Proof.
  revert s. induction l as [|r l IH]; intros s Hn Hm s'.
  - subst s'. cbn. split_and!; try done; [|set_solver].
    exists []. split_and!; [by apply delta_nil|constructor|constructor|set_solver].
  - cbn in Hn. apply NoDup_cons in Hn as [Hr Hn].
    assert (exists e, delta s (m r s).1 e /\ (m r s).2 = Ok tt /\ meta_only e /\
      (keys e = [] \/ keys e = [r_uuid r]) /\ drevs (m r s).1 !! r_uuid r = Some r /\
      (forall u, u <> r_uuid r -> drevs (m r s).1 !! u = drevs s !! u) /\ rs_hist (m r s).1 = rs_hist s)
      as (e1 & D1 & O1 & M1 & K1 & V1 & W1 & H1).
    { destruct (Hm r s) as [->|[-> Hd]]; [left|done|done| |].
      - destruct (write_spec r s) as (A & B & C & D). eexists. split; [exact A|]. rewrite C.
        split_and!; try done; [by repeat constructor|by right|apply lookup_insert|].
        intros u Hu. by apply lookup_insert_ne.
      - exists []. split_and!; try done; [by apply delta_nil|constructor|by left]. }
    subst s'. cbn [mfor]. unfold bind. destruct (m r s) as [s1 x1]. cbn [fst snd] in *. subst x1.
    destruct (IH s1 Hn) as (I1 & (e2 & D2 & M2 & N2 & K2) & V2 & W2 & H2).
    { intros x t Hx Ht Hd. apply Hm; [by right|congruence|]. rewrite Hd. apply W1. intros E. apply Hr.
      rewrite <- E. apply elem_of_list_fmap. by exists x. }
    split; [done|]. split; [|split; [|split]].
    + exists (e1 ++ e2). split; [by eapply delta_trans|]. split; [by apply meta_app|]. rewrite keys_app. cbn. split.
      * destruct K1 as [->| ->]; [done|]. cbn. apply NoDup_cons. split; [|done]. intros Hk. apply Hr. auto.
      * intros v Hv. apply elem_of_app in Hv as [Hv|Hv]; [|right; auto].
        destruct K1 as [K1|K1]; rewrite K1 in Hv; [by apply elem_of_nil in Hv|].
        apply elem_of_list_singleton in Hv as ->. left.
    + intros x Hx. apply elem_of_cons in Hx as [->|Hx]; [|by apply V2]. by rewrite W2.
    + intros u Hu. cbn in Hu. rewrite W2, W1; [done|set_solver|set_solver].
    + congruence.
Qed.

(** ** The local part of a pull *)
(** The record [r] is on disk. *)
Definition on_disk (s : rst) (r : rev) : Prop := drevs s !! r_uuid r = Some r.
(** Revisions of server [p] in memory are those on disk. *)
Definition mirror (p : string) (s : rst) : Prop :=
  forall r, r_server r = p -> on_disk s r <-> r ∈ rs_hist s.
(** Every identifier belongs to one server. *)
Definition owned (owner : string -> string) (s : rst) : Prop :=
  (forall u r, drevs s !! u = Some r -> r_uuid r = u /\ r_server r = owner u) /\
  (forall r, r ∈ rs_hist s -> r_server r = owner (r_uuid r)) /\
  NoDup (map r_uuid (rs_hist s)).
(** Only files of [p] were touched, each once. *)
Definition touched (owner : string -> string) (P : string -> Prop) (s s' : rst) : Prop :=
  exists e, delta s s' e /\ meta_only e /\ NoDup (keys e) /\ forall u, u ∈ keys e -> P (owner u).
Lemma touched_other owner P s s' u : touched owner P s s' -> ~ P (owner u) -> drevs s' !! u = drevs s !! u.
Proof.
  intros (e & [_ He] & M & _ & K) Hu. rewrite He. apply replay_meta; [done|]. intros Hk. by apply Hu, K.
Qed.
Lemma touched_refl owner P s : touched owner P s s.
Proof. exists []. split_and!; [by apply delta_nil|constructor|constructor|set_solver]. Qed.
Lemma touched_trans owner (P Q : string -> Prop) s s1 s2 : touched owner P s s1 -> touched owner Q s1 s2 ->
  (forall x, P x -> Q x -> False) -> touched owner (fun x => P x \/ Q x) s s2.
Proof.
  intros (e1 & D1 & M1 & N1 & K1) (e2 & D2 & M2 & N2 & K2) HPQ.
  exists (e1 ++ e2). split; [by eapply delta_trans|]. split; [by apply meta_app|]. rewrite keys_app. split.
  - apply NoDup_app. split_and!; [done| |done]. intros u Hu Hv. eapply HPQ; eauto.
  - intros u Hu. apply elem_of_app in Hu as [Hu|Hu]; auto.
Qed.
Lemma touched_weaken owner (P Q : string -> Prop) s s' : touched owner P s s' -> (forall x, P x -> Q x) -> touched owner Q s s'.
Proof. intros (e & D & M & N & K) H. exists e. split_and!; auto. Qed.
Lemma touched_killed owner P s s' d : touched owner P s s' -> killed s s' d ->
  data_same (w_disk (rs_w s)) d /\ in_between (drevs s) (drevs s') (d_revs d).
Proof.
  intros (e & [D1 D2] & M & N & _) (e' & k & Hl & ->). rewrite D1 in Hl. apply app_inv_head in Hl as <-.
  rewrite D2. by apply log_between.
Qed.
Lemma touched_data owner P s s' : touched owner P s s' -> data_same (w_disk (rs_w s)) (w_disk (rs_w s')).
Proof. intros (e & [_ ->] & M & _). by apply replay_meta. Qed.

Definition local_uuids (p : string) (h : list rev) : gset string :=
  list_to_set (map r_uuid (filter (fun r => r_server r = p) h)).
Lemma pull_local_eq O same p l s :
  pull_local O same p l s =
  match mfor (o_set O (local_uuids p (rs_hist s) ∖ list_to_set (map r_uuid l)))
          (fun u => let* s := get in let* r := lift (find_by_uuid (rs_hist s) u) in rev_remove true r)%M s with
  | (s1, Ok _) => mfor l (fun r =>
       if bool_decide (r_uuid r ∈ local_uuids p (rs_hist s)) then
         (let* s := get in
         let* x := lift (find_by_uuid (rs_hist s) (r_uuid r)) in
         if bool_decide (r = x) && same (r_uuid r) then ret tt else write_info r)%M
       else write_info r) s1
  | (s1, Err e) => (s1, Err e)
  end.
Proof. reflexivity. Qed.
Lemma pull_local_spec O same owner p l s :
  orders_ok O -> owned owner s -> mirror p s -> NoDup (map r_uuid l) ->
  (forall r, r ∈ l -> r_server r = p /\ owner (r_uuid r) = p) ->
  let s' := (pull_local O same p l s).1 in
  (pull_local O same p l s).2 = Ok tt /\ touched owner (eq p) s s' /\ owned owner s' /\
  (forall r, r_server r = p -> on_disk s' r <-> r ∈ l) /\
  (forall r, r_server r <> p -> r ∈ rs_hist s' <-> r ∈ rs_hist s).
Proof.
  intros [_ HO] (Ho1 & Ho2 & Ho3) Hmir Hn Hl s'. subst s'. rewrite pull_local_eq.
  set (local := local_uuids p (rs_hist s)).
  assert (Hlocal : forall u, u ∈ local <-> exists r, r ∈ rs_hist s /\ r_server r = p /\ r_uuid r = u).
  { intros u. unfold local, local_uuids. rewrite elem_of_list_to_set, elem_of_list_fmap. split.
    - intros (r & -> & Hr). apply elem_of_list_filter in Hr as [? ?]. eauto.
    - intros (r & Hr & Hp & <-). exists r. split; [done|]. by apply elem_of_list_filter. }
  clearbody local.
  set (us := o_set O (local ∖ list_to_set (map r_uuid l))).
  assert (Hus : forall u, u ∈ us <-> u ∈ local /\ u ∉ map r_uuid l).
  { intros u. unfold us. rewrite HO, elem_of_elements, elem_of_difference, elem_of_list_to_set. done. }
  assert (Hnd : NoDup us) by (unfold us; rewrite HO; apply NoDup_elements).
  clearbody us.
  destruct (remove_uuids us s Hnd Ho3) as (A1 & (e1 & D1 & M1 & N1 & K1) & V1 & H1).
  { intros u Hu. apply Hus in Hu as [Hu _]. apply Hlocal in Hu as (r & Hr & _ & ?). eauto. }
  cbv zeta in *.
  match goal with |- context [mfor us ?f s] => set (m1 := f) in * end.
  destruct (mfor us m1 s) as [s1 x1] eqn:E1. cbn [fst snd] in A1, D1, V1, H1. subst x1.
  match goal with |- context [mfor l ?f s1] => set (m2 := f) end.
  assert (Hmem : forall r, r ∈ rs_hist s1 <-> r ∈ rs_hist s /\ r_uuid r ∉ us).
  { intros r. rewrite H1, elem_of_list_filter. tauto. }
  assert (Hnd1 : NoDup (map r_uuid (rs_hist s1))).
  { rewrite H1. clear -Ho3. induction (rs_hist s) as [|x h IH]; [constructor|]. cbn in Ho3.
    apply NoDup_cons in Ho3 as [Hx Hn]. destruct (decide (r_uuid x ∉ us)) as [Hd|Hd].
    - rewrite filter_cons_True by done. cbn. apply NoDup_cons. split; [|by apply IH].
      intros Hi. apply Hx. apply elem_of_list_fmap in Hi as (y & -> & Hy).
      apply elem_of_list_filter in Hy as [_ Hy]. apply elem_of_list_fmap. by exists y.
    - rewrite filter_cons_False by done. by apply IH. }
  destruct (write_fetched (fun _ _ => true) m2 l s1 Hn) as (A2 & (e2 & D2 & M2 & N2 & K2) & V2 & W2 & H2).
  { intros r t Hr Ht Hd. unfold m2. destruct (bool_decide (r_uuid r ∈ local)) eqn:Eb; [|by left].
    apply bool_decide_eq_true in Eb. apply Hlocal in Eb as (x & Hx & Hxp & Hxu).
    assert (Hx1 : x ∈ rs_hist t).
    { rewrite Ht, Hmem. split; [done|]. rewrite Hus, Hxu. intros [_ Hc]. apply Hc, elem_of_list_fmap. by exists r. }
    assert (Hf : find_by_uuid (rs_hist t) (r_uuid r) = Ok x).
    { rewrite <- Hxu. apply find_uuid; [by rewrite Ht|done]. }
    unfold bind, get, lift. rewrite Hf. destruct (bool_decide (r = x)) eqn:Ex; cbn [andb]; [|by left].
    apply bool_decide_eq_true in Ex as <-. destruct (same (r_uuid r)); [right|by left]. split; [done|].
    rewrite Hd, V1. rewrite decide_False.
    - apply Hmir; done.
    - rewrite Hus. intros [_ Hc]. apply Hc, elem_of_list_fmap. by exists r. }
  destruct (mfor l m2 s1) as [s2 x2]. cbn [fst snd] in *. subst x2. split; [done|].
  assert (Htouch : touched owner (eq p) s s2).
  { exists (e1 ++ e2). split; [by eapply delta_trans|]. split; [by apply meta_app|]. rewrite keys_app. split.
    - apply NoDup_app. split_and!; [done| |done]. intros u Hu Hv. apply K1, Hus in Hu as [_ Hu]. auto.
    - intros u Hu. apply elem_of_app in Hu as [Hu|Hu].
      + apply K1, Hus in Hu as [Hu _]. apply Hlocal in Hu as (r & Hr & Hp & <-). rewrite <- Hp. auto.
      + apply K2, elem_of_list_fmap in Hu as (r & -> & Hr). symmetry. by apply Hl. }
  assert (Hdisk : forall r, r_server r = p -> on_disk s2 r <-> r ∈ l).
  { intros r Hp. split; [|by apply V2]. unfold on_disk. intros Hd.
    destruct (decide (r_uuid r ∈ map r_uuid l)) as [Hi|Hi].
    - apply elem_of_list_fmap in Hi as (x & Hx & Hxl). rewrite Hx, (V2 x Hxl) in Hd. by simplify_eq.
    - rewrite (W2 _ Hi), V1 in Hd. destruct (decide (r_uuid r ∈ us)) as [Hc|Hc]; [done|].
      exfalso. apply Hc, Hus. split; [|done]. apply Hlocal. exists r. split_and!; [|done|done]. by apply Hmir. }
  split; [done|]. split; [|split; [done|]].
  - split; [|split].
    + intros u r Hd. destruct (decide (p = owner u)) as [->|Hne].
      * destruct (decide (u ∈ map r_uuid l)) as [Hi|Hi].
        -- apply elem_of_list_fmap in Hi as (x & -> & Hx). rewrite (V2 x Hx) in Hd. injection Hd as <-.
           split; [done|]. by apply Hl.
        -- rewrite (W2 _ Hi), V1 in Hd. destruct (decide (u ∈ us)); [done|]. by apply Ho1.
      * rewrite (touched_other owner _ _ _ u Htouch Hne) in Hd. by apply Ho1.
    + intros r. rewrite H2, Hmem. intros [? _]. by apply Ho2.
    + by rewrite H2.
  - intros r Hp. rewrite H2, Hmem. split; [tauto|]. intros Hr. split; [done|]. rewrite Hus. intros [Hc _].
    apply Hlocal in Hc as (x & Hx & Hxp & Hxu). apply Hp. rewrite <- Hxp. f_equal. by apply (uuid_inj (rs_hist s)).
Qed.

(** ** Dead peers *)
Lemma remove_sel (c : rev -> bool) l s :
  NoDup (map r_uuid l) ->
  let m := fun r => if c r then rev_remove true r else ret tt in
  let s' := (mfor l m s).1 in
  let gone := map r_uuid (filter (fun r => c r = true) l) in
  (mfor l m s).2 = Ok tt /\
  (exists e, delta s s' e /\ meta_only e /\ NoDup (keys e) /\ forall u, u ∈ keys e -> u ∈ gone) /\
  (forall u, drevs s' !! u = if decide (u ∈ gone) then None else drevs s !! u) /\
  rs_hist s' = filter (fun r => r_uuid r ∉ gone) (rs_hist s).
Proof.
  intros Hn m. revert s. induction l as [|r l IH]; intros s s' gone.
  - subst s' gone. cbn. split_and!; try done.
    + exists []. split_and!; [by apply delta_nil|constructor|constructor|set_solver].
    + symmetry. clear. induction (rs_hist s) as [|x h IH]; [done|].
      rewrite filter_cons_True by set_solver. by rewrite IH.
  - cbn in Hn. apply NoDup_cons in Hn as [Hr Hn]. specialize (IH Hn).
    assert (Hng : r_uuid r ∉ map r_uuid (filter (fun r => c r = true) l)).
    { intros Hc. apply Hr. apply elem_of_list_fmap in Hc as (y & -> & Hy).
      apply elem_of_list_filter in Hy as [_ Hy]. apply elem_of_list_fmap. by exists y. }
    assert (Hstep : mfor (r :: l) m s = match m r s with (s1, Ok _) => mfor l m s1 | (s1, Err e) => (s1, Err e) end)
      by reflexivity.
    subst s' gone. rewrite Hstep. destruct (c r) eqn:Ec.
    2: { assert (Hm : m r s = (s, Ok tt)) by (unfold m; by rewrite Ec).
         rewrite Hm, (filter_cons_False _ r l) by congruence. apply IH. }
    assert (Hm : m r s = rev_remove true r s) by (unfold m; by rewrite Ec). rewrite Hm.
    rewrite (filter_cons_True _ r l) by done. cbn [map].
    destruct (remove_force r s) as (e1 & D1 & O1 & M1 & K1 & V1 & H1).
    destruct (rev_remove true r s) as [s1 x1]. cbn [fst snd] in *. subst x1.
    destruct (IH s1) as (I1 & (e2 & D2 & M2 & N2 & K2) & V2 & H2).
    set (g := map r_uuid (filter (fun r => c r = true) l)) in *. clearbody g. cbn [fst snd].
    split; [done|]. split; [|split].
    + exists (e1 ++ e2). split; [by eapply delta_trans|]. split; [by apply meta_app|]. rewrite keys_app. split.
      * destruct K1 as [->| ->]; [done|]. cbn. apply NoDup_cons. split; [|done]. intros Hk. apply Hng. auto.
      * intros v Hv. apply elem_of_app in Hv as [Hv|Hv]; [|right; auto].
        destruct K1 as [K1|K1]; rewrite K1 in Hv; [by apply elem_of_nil in Hv|].
        apply elem_of_list_singleton in Hv as ->. left.
    + intros v. rewrite V2, V1. destruct (decide (v = r_uuid r)) as [->|Hv].
      * rewrite (decide_True (P := r_uuid r ∈ r_uuid r :: g)) by left. by destruct (decide (r_uuid r ∈ g)).
      * destruct (decide (v ∈ g)) as [Hi|Hi].
        -- rewrite decide_True by (by right). done.
        -- rewrite decide_False by (intros [?|?]%elem_of_cons; done). done.
    + rewrite H2, H1. unfold hist_del. clear.
      induction (rs_hist s) as [|x h IH]; [done|].
      destruct (decide (r_uuid x = r_uuid r)) as [E|E].
      * rewrite filter_cons_False by tauto. rewrite (filter_cons_False _ x h) by (rewrite E; set_solver). done.
      * rewrite (filter_cons_True _ x) by done.
        destruct (decide (r_uuid x ∈ g)) as [Hi|Hi].
        -- rewrite (filter_cons_False _ x) by tauto. rewrite (filter_cons_False _ x) by set_solver. done.
        -- rewrite (filter_cons_True _ x) by done. rewrite (filter_cons_True _ x) by set_solver. by f_equal.
Qed.

(** ** All peers *)
Definition kept_after (a : res (list rev)) (before : Prop) (r : rev) : Prop :=
  match a with
  | Ok l => r ∈ l
  | Err ClientConnectionError => before
  | Err _ => False
  end.
(** The replies that count as errors. *)
Definition is_error (a : res (list rev)) : bool :=
  match a with
  | Ok _ | Err (ClientResponseError 404) | Err (ClientResponseError 403) => false
  | Err _ => true
  end.
(** A reply a peer can give: revisions of its own, each once, or a client error. *)
Definition reply_ok (owner : string -> string) (p : string) (a : res (list rev)) : Prop :=
  match a with
  | Ok l => NoDup (map r_uuid l) /\ forall r, r ∈ l -> r_server r = p /\ owner (r_uuid r) = p
  | Err e => is_client_error e = true
  end.
Lemma on_disk_other owner P s s' r : touched owner P s s' -> owned owner s -> owned owner s' ->
  ~ P (r_server r) -> on_disk s' r <-> on_disk s r.
Proof.
  intros Ht [Ho _] [Ho' _] Hp. unfold on_disk. split; intros Hd.
  - rewrite <- (touched_other owner P s s'); [done|done|]. by destruct (Ho' _ _ Hd) as [_ <-].
  - rewrite (touched_other owner P s s'); [done|done|]. by destruct (Ho _ _ Hd) as [_ <-].
Qed.
Lemma pull_single_spec O same owner p a s :
  orders_ok O -> owned owner s -> mirror p s -> reply_ok owner p a ->
  let s' := (pull_single O same p a s).1 in
  (pull_single O same p a s).2 = Ok (is_error a) /\ touched owner (eq p) s s' /\ owned owner s' /\
  (forall r, r_server r = p -> on_disk s' r <-> kept_after a (on_disk s r) r) /\
  (forall r, r_server r <> p -> r ∈ rs_hist s' <-> r ∈ rs_hist s).
Proof.
  intros HO Ho Hm Ha.
  assert (Hnone : forall b : bool, let k : M rst bool := (do_ pull_local O same p []; ret b)%M in
    (k s).2 = Ok b /\ touched owner (eq p) s (k s).1 /\ owned owner (k s).1 /\
    (forall r, r_server r = p -> on_disk (k s).1 r <-> False) /\
    (forall r, r_server r <> p -> r ∈ rs_hist (k s).1 <-> r ∈ rs_hist s)).
  { intros b k. destruct (pull_local_spec O same owner p [] s HO Ho Hm) as (A & B & C & D & F);
      [constructor|set_solver|]. unfold k, bind. destruct (pull_local O same p [] s) as [s1 x]. cbn [fst snd] in *.
    subst x. cbn. split_and!; try done; try apply C. intros r Hr. rewrite D by done. split; [set_solver|done]. }
  destruct a as [l|e]; cbn [pull_single].
  - destruct Ha as [Ha1 Ha2]. destruct (pull_local_spec O same owner p l s HO Ho Hm Ha1 Ha2) as (A & B & C & D & F).
    unfold bind. destruct (pull_local O same p l s) as [s1 x]. cbn [fst snd] in *. subst x. cbn. done.
  - destruct e; try done; cbn [kept_after].
    + destruct (Hnone (negb (bool_decide (status = 404%Z \/ status = 403%Z)))) as [A B].
      split; [|exact B]. rewrite A. f_equal. unfold is_error.
      destruct (decide (status = 404%Z)) as [->|H4]; [done|]. destruct (decide (status = 403%Z)) as [->|H3]; [done|].
      rewrite bool_decide_eq_false_2 by tauto. cbn [negb]. symmetry.
      destruct status as [|q|q]; try done. destruct q; try done; repeat (destruct q; try done).
    + cbn. split_and!; try done; try apply Ho. apply touched_refl.
Qed.
Fixpoint sum_errors (l : list (string * res (list rev))) : Z :=
  match l with
  | [] => 0
  | (_, a) :: l => sum_errors l + if is_error a then 1 else 0
  end%Z.
Lemma pull_all_spec O same owner replies s :
  orders_ok O -> owned owner s -> NoDup (map fst replies) ->
  (forall p a, (p, a) ∈ replies -> mirror p s /\ reply_ok owner p a) ->
  let s' := (pull_all O same replies s).1 in
  (pull_all O same replies s).2 = Ok (sum_errors replies) /\
  touched owner (fun p => p ∈ map fst replies) s s' /\ owned owner s' /\
  (forall p a r, (p, a) ∈ replies -> r_server r = p -> on_disk s' r <-> kept_after a (on_disk s r) r).
Proof.
  intros HO. revert s. induction replies as [|[p a] l IH]; intros s Ho Hn Hl.
  - cbn. split_and!; try done; try apply Ho; [|set_solver]. exists [].
    split_and!; [by apply delta_nil|constructor|constructor|set_solver].
  - cbn in Hn. apply NoDup_cons in Hn as [Hp Hn].
    destruct (Hl p a ltac:(left)) as [Hm Ha].
    destruct (pull_single_spec O same owner p a s HO Ho Hm Ha) as (A1 & T1 & O1 & D1 & H1).
    cbv zeta. cbn [pull_all]. unfold bind. destruct (pull_single O same p a s) as [s1 x1]. cbn [fst snd] in *. subst x1.
    destruct (IH s1 O1 Hn) as (A2 & T2 & O2 & D2).
    { intros q b Hq. destruct (Hl q b ltac:(by right)) as [Hmq Hb]. split; [|done].
      assert (q <> p) as Hqp by (intros ->; apply Hp, elem_of_list_fmap; by exists (p, b)).
      intros r Hr. rewrite (on_disk_other owner _ s s1 r T1 Ho O1) by congruence.
      rewrite H1 by congruence. by apply Hmq. }
    destruct (pull_all O same l s1) as [s2 x2]. cbn [fst snd] in *. subst x2. cbn. split; [done|]. split; [|split; [done|]].
    + eapply touched_weaken; [eapply touched_trans; [exact T1|exact T2|]|].
      * by intros x <- Hx.
      * intros x [<-|Hx]; [left|by right].
    + intros q b r Hq Hr. apply elem_of_cons in Hq as [[= -> ->]|Hq].
      * rewrite (on_disk_other owner _ s1 s2 r T2 O1 O2) by (by rewrite Hr). by apply D1.
      * assert (q <> p) as Hqp by (intros ->; apply Hp, elem_of_list_fmap; by exists (p, b)).
        rewrite (D2 q b r Hq Hr). pose proof (on_disk_other owner _ s s1 r T1 Ho O1 ltac:(congruence)) as E.
        destruct b as [|[]]; cbn; tauto.
Qed.
