(** Upgrading a version-1 chunk store (C63). *)
From Verif Require Import Model.StoreV2.

(** Specification: the chunk [n] of directory [d1] is in the store, at its old or
    its new place, with content [c]. *)
Definition holds (s : vstore) (d1 n : string) (c : bytes) : Prop :=
  v2 s !! (d1, n) = Some c \/ exists d2, v1 s !! (d1, d2, n) = Some c.
(** Files with the same name have the same content, as names are content hashes. *)
Definition agree (s : vstore) : Prop :=
  forall d1 n c c', holds s d1 n c -> holds s d1 n c' -> c = c'.
(** A store as the released versions write them: the marker is there only in a
    version-2 store. *)
Definition store_ok (s : vstore) : Prop :=
  agree s /\ (v_marker s = true -> v1 s = ∅).

(** Any number of openings, each killed somewhere (or failing). *)
Inductive openings : vstore -> vstore -> Prop :=
| op_none s : openings s s
| op_killed s rs ds k s' r s'' :
    listing s rs ds -> vrun s (take k (opening s rs ds)) = (s', r) ->
    openings s' s'' -> openings s s''.

Lemma rename_holds s d1 d2 n s' r : agree s ->
  vrun1 s (VRename d1 d2 n) = (s', r) ->
  forall e m c, holds s' e m c <-> holds s e m c.
Proof.
  intros Ha H e m c. cbn in H. destruct (v1 s !! (d1, d2, n)) as [c0|] eqn:E;
    injection H as <- <-; [|done].
  unfold holds; cbn. split.
  - intros [H|[d H]].
    + apply lookup_insert_Some in H as [[Heq <-]|[_ H]]; [|by left].
      injection Heq as <- <-. right. by exists d2.
    + apply lookup_delete_Some in H as [_ H]. right. by exists d.
  - intros H. destruct (decide ((e, m) = (d1, n))) as [Heq|Hne].
    + injection Heq as -> ->. left. rewrite lookup_insert. f_equal.
      eapply Ha; [right; by exists d2|exact H].
    + destruct H as [H|[d H]].
      * left. by rewrite lookup_insert_ne.
      * right. exists d. rewrite lookup_delete_ne; [done|]. congruence.
Qed.
Lemma vrun1_holds s e s' r : agree s -> vrun1 s e = (s', r) ->
  forall d n c, holds s' d n c <-> holds s d n c.
Proof.
  intros Ha H. destruct e as [d1 d2 n|d1 d2|].
  - by eapply rename_holds.
  - cbn in H. destruct (decide (occupied s d1 d2)); by injection H as <- <-.
  - by injection H as <- <-.
Qed.
Lemma agree_iff s s' : (forall d n c, holds s' d n c <-> holds s d n c) -> agree s -> agree s'.
Proof. intros H Ha d n c c' H1%H H2%H. by eapply Ha. Qed.
Lemma vrun_holds l : forall s s' r, agree s -> vrun s l = (s', r) ->
  forall d n c, holds s' d n c <-> holds s d n c.
Proof.
  induction l as [|e l IH]; intros s s' r Ha H d n c; cbn in H; [by injection H as <- <-|].
  destruct (vrun1 s e) as [s1 [[]|x]] eqn:E.
  - pose proof (vrun1_holds _ _ _ _ Ha E) as H1. rewrite <- H1.
    eapply IH; [|exact H]. by eapply agree_iff.
  - injection H as <- <-. by eapply vrun1_holds.
Qed.

Lemma renames_run rs : forall s, NoDup rs -> (forall k, k ∈ rs -> is_Some (v1 s !! k)) ->
  exists s', vrun s (map (fun '(d1, d2, n) => VRename d1 d2 n) rs) = (s', Ok tt) /\
    (forall k, v1 s' !! k = if bool_decide (k ∈ rs) then None else v1 s !! k) /\
    v_dirs s' = v_dirs s /\ v_stray s' = v_stray s /\ v_marker s' = v_marker s.
Proof.
  induction rs as [|[[d1 d2] n] rs IH]; intros s Hnd Hin.
  - exists s. split_and!; try done.
  - apply NoDup_cons in Hnd as [Hni Hnd].
    destruct (Hin (d1, d2, n) ltac:(left)) as [c Hc].
    cbn. rewrite Hc.
    destruct (IH (MkV (delete (d1, d2, n) (v1 s)) (<[(d1, n) := c]> (v2 s))
                     (v_dirs s) (v_stray s) (v_marker s)) Hnd) as (s' & Hrun & H1 & H2 & H3 & H4).
    { intros k Hk. cbn. rewrite lookup_delete_ne; [apply Hin; by right|]. by intros <-. }
    exists s'. split_and!; [exact Hrun| |done..].
    intros k. rewrite H1. cbn [v1].
    destruct (bool_decide_reflect (k ∈ rs)) as [Hb|Hb].
    + rewrite bool_decide_true; [done|by right].
    + destruct (decide (k = (d1, d2, n))) as [->|Hne].
      * rewrite bool_decide_true by left. by rewrite lookup_delete.
      * rewrite bool_decide_false; [by rewrite lookup_delete_ne|].
        by intros [?|?]%elem_of_cons.
Qed.
Lemma rmdirs_run ds : forall s, v1 s = ∅ -> (forall k, k ∈ ds -> k ∉ v_stray s) ->
  exists s', vrun s (map (fun '(d1, d2) => VRmdir d1 d2) ds) = (s', Ok tt) /\
    v1 s' = ∅ /\ v2 s' = v2 s /\ v_dirs s' = v_dirs s ∖ list_to_set ds /\
    v_stray s' = v_stray s /\ v_marker s' = v_marker s.
Proof.
  induction ds as [|[d1 d2] ds IH]; intros s H1 Hs.
  - exists s. split_and!; try done. cbn. set_solver.
  - cbn. destruct (decide (occupied s d1 d2)) as [[Ho|[n [c Ho]]]|_].
    { exfalso. by apply (Hs (d1, d2)); [left|]. }
    { rewrite H1 in Ho. by rewrite lookup_empty in Ho. }
    destruct (IH (MkV (v1 s) (v2 s) (v_dirs s ∖ {[(d1, d2)]}) (v_stray s) (v_marker s)))
      as (s' & Hrun & ? & ? & Hd & ? & ?); [done|cbn; intros k Hk; apply Hs; by right|].
    exists s'. split_and!; try done. rewrite Hd. cbn. set_solver.
Qed.
Lemma vrun_app l1 : forall l2 s,
  vrun s (l1 ++ l2) =
  match vrun s l1 with (s', Ok _) => vrun s' l2 | (s', Err e) => (s', Err e) end.
Proof.
  induction l1 as [|e l1 IH]; intros l2 s; cbn; [done|].
  destruct (vrun1 s e) as [s1 [[]|x]]; [apply IH|done].
Qed.

Lemma full_run s rs ds : store_ok s -> listing s rs ds ->
  (v_marker s = false -> forall k, k ∈ v_dirs s -> k ∉ v_stray s) ->
  exists s', vrun s (opening s rs ds) = (s', Ok tt) /\ v1 s' = ∅ /\ v_marker s' = true /\
    (v_marker s = false -> v_dirs s' = ∅).
Proof.
  intros [Ha Hm] (Hn1 & Hrs & Hn2 & Hds) Hst. unfold opening.
  destruct (v_marker s) eqn:Em; [exists s; split_and!; try done; by apply Hm|].
  destruct (renames_run rs s Hn1) as (s1 & R1 & H1 & D1 & S1 & M1); [intros k; apply Hrs|].
  assert (v1 s1 = ∅) as He.
  { apply map_empty. intros k. rewrite H1. case_bool_decide as Hb; [done|].
    apply eq_None_not_Some. by rewrite <- Hrs. }
  destruct (rmdirs_run ds s1 He) as (s2 & R2 & V1 & V2 & D2 & S2 & M2).
  { intros k Hk. rewrite S1. apply Hst; [done|]. by apply Hds. }
  eexists. split; [rewrite vrun_app, R1, vrun_app, R2; reflexivity|]. cbn.
  split_and!; [done|done|]. intros _. rewrite D2, D1. apply set_eq. intros k.
  rewrite elem_of_difference, elem_of_list_to_set, Hds. set_solver.
Qed.

Lemma marker_run l : forall s s' r, vrun s l = (s', r) -> VMarker ∉ l -> v_marker s' = v_marker s.
Proof.
  induction l as [|e l IH]; intros s s' r H Hn; cbn in H; [by injection H as <- <-|].
  apply not_elem_of_cons in Hn as [He Hn].
  assert (v_marker (vrun1 s e).1 = v_marker s) as Hm.
  { destruct e as [d1 d2 n|d1 d2|]; cbn; [by destruct (v1 s !! _)|by destruct (decide _)|done]. }
  destruct (vrun1 s e) as [s1 [[]|x]]; cbn in Hm.
  - rewrite <- Hm. by eapply IH.
  - by injection H as <- <-.
Qed.

Lemma killed_ok s rs ds k s' r : store_ok s -> listing s rs ds ->
  vrun s (take k (opening s rs ds)) = (s', r) -> store_ok s'.
Proof.
  intros [Ha Hm] Hl H. split.
  { eapply agree_iff; [|exact Ha]. by eapply vrun_holds. }
  unfold opening in H. destruct (v_marker s) eqn:Em.
  { rewrite take_nil in H. injection H as <- <-. by rewrite Em in *. }
  destruct Hl as (Hn1 & Hrs & Hn2 & Hds).
  set (R := map (fun '(d1, d2, n) => VRename d1 d2 n) rs) in *.
  set (D := map (fun '(d1, d2) => VRmdir d1 d2) ds) in *.
  assert (VMarker ∉ R /\ VMarker ∉ D) as [HR HD].
  { split; intros Hin; apply elem_of_list_fmap in Hin as (x & Hx & _).
    - by destruct x as [[??]?]. - by destruct x. }
  destruct (decide (k <= length (R ++ D))%nat) as [Hk|Hk].
  - rewrite app_assoc, take_app_le in H by done.
    apply marker_run in H; [congruence|].
    intros Hin. apply elem_of_take in Hin as (i & Hi & _).
    apply elem_of_list_lookup_2, elem_of_app in Hi. tauto.
  - rewrite take_ge in H by (rewrite !app_length in *; cbn; lia).
    destruct (renames_run rs s Hn1) as (s1 & R1 & H1 & D1 & S1 & M1); [intros j; apply Hrs|].
    fold R in R1. rewrite vrun_app, R1, vrun_app in H.
    assert (v1 s1 = ∅) as He.
    { apply map_empty. intros j. rewrite H1. case_bool_decide as Hb; [done|].
      apply eq_None_not_Some. by rewrite <- Hrs. }
    assert (forall l s s' r, (forall e, e ∈ l -> exists a b, e = VRmdir a b) ->
              vrun s l = (s', r) -> v1 s' = v1 s) as Hv.
    { clear. induction l as [|e l IH]; intros s s' r Hl H; cbn in H; [by injection H as <- <-|].
      destruct (Hl e ltac:(left)) as (a & b & ->). cbn in H.
      destruct (decide (occupied s a b)); [by injection H as <- <-|].
      apply IH in H; [by rewrite H|]. intros e He. apply Hl. by right. }
    destruct (vrun s1 D) as [s2 [[]|x]] eqn:E2.
    + cbn in H. injection H as <- <-. cbn. intros _. erewrite Hv; [exact He| |exact E2].
      intros e Hin. apply elem_of_list_fmap in Hin as ([a b] & -> & _). by eexists _, _.
    + injection H as <- <-. apply marker_run in E2; [|done]. congruence.
Qed.

(** C63, crash points: however far the upgrade got before it was killed or failed,
    every chunk is still there with its content, at its old or its new place. *)
Theorem C63_crash s rs ds k :
  store_ok s -> listing s rs ds ->
  forall d n c, holds (vrun s (take k (opening s rs ds))).1 d n c <-> holds s d n c.
Proof.
  intros [Ha _] Hl. destruct (vrun s _) as [s' r] eqn:E. cbn. by eapply vrun_holds.
Qed.
Print Assumptions C63_crash.

(** C63: after any number of interrupted openings, an opening that finds nothing
    but chunks in the old directories succeeds, and then every chunk is at its new
    place, nothing is at an old one and the store is marked as upgraded. *)
Theorem C63_upgraded_partial s0 s rs ds :
  store_ok s0 -> openings s0 s -> listing s rs ds ->
  (v_marker s = false -> forall k, k ∈ v_dirs s -> k ∉ v_stray s) ->
  let '(s', r) := vrun s (opening s rs ds) in
  r = Ok tt /\ v1 s' = ∅ /\ v_marker s' = true /\
  forall d n c, v2 s' !! (d, n) = Some c <-> holds s0 d n c.
Proof.
  intros Hok Hop Hl Hst.
  assert (store_ok s /\ forall d n c, holds s d n c <-> holds s0 d n c) as [Hok' Hh].
  { clear Hl Hst. induction Hop as [s|s rs' ds' k s' r s'' Hl Hrun Hop IH]; [done|].
    pose proof (killed_ok _ _ _ _ _ _ Hok Hl Hrun) as Hk.
    destruct (IH Hk) as [H1 H2]. split; [done|]. intros d n c. rewrite H2.
    eapply vrun_holds; [apply Hok|exact Hrun]. }
  destruct (full_run _ _ _ Hok' Hl Hst) as (s' & Hrun & He & Hm & _). rewrite Hrun.
  split_and!; [done..|]. intros d n c.
  rewrite <- Hh, <- (vrun_holds _ _ _ _ (proj1 Hok') Hrun). unfold holds. split; [by left|].
  intros [?|[d2 H]]; [done|]. rewrite He in H. by rewrite lookup_empty in H.
Qed.
Print Assumptions C63_upgraded_partial.

Lemma stray_run ds l k : forall s, NoDup ds -> k ∈ ds -> v1 s = ∅ ->
  k ∈ v_stray s -> k ∈ v_dirs s ->
  exists s', vrun s (map (fun '(d1, d2) => VRmdir d1 d2) ds ++ l) = (s', Err OSError) /\
    v_marker s' = v_marker s /\ k ∈ v_dirs s' /\ k ∈ v_stray s'.
Proof.
  induction ds as [|[d1 d2] ds IH]; intros s Hnd Hin H1 Hs Hd; [by apply elem_of_nil in Hin|].
  apply NoDup_cons in Hnd as [Hni Hnd]. cbn.
  destruct (decide (occupied s d1 d2)) as [Ho|Ho]; [by exists s|].
  apply elem_of_cons in Hin as [->|Hin]; [by exfalso; apply Ho; left|].
  destruct (IH (MkV (v1 s) (v2 s) (v_dirs s ∖ {[(d1, d2)]}) (v_stray s) (v_marker s)))
    as (s' & Hrun & ? & ? & ?); [done..| |by exists s'].
  cbn. apply elem_of_difference. split; [done|]. intros ->%elem_of_singleton. done.
Qed.

(** C63 is false when an old directory holds any other file: this and every further
    opening fails, and the marker is never written. *)
Theorem C63_refuted s rs ds k :
  v_marker s = false -> listing s rs ds -> k ∈ v_dirs s -> k ∈ v_stray s ->
  let '(s', r) := vrun s (opening s rs ds) in
  r = Err OSError /\ v_marker s' = false /\ k ∈ v_dirs s' /\ k ∈ v_stray s'.
Proof.
  intros Hm (Hn1 & Hrs & Hn2 & Hds) Hk Hst. unfold opening. rewrite Hm.
  destruct (renames_run rs s Hn1) as (s1 & R1 & H1 & D1 & S1 & M1); [intros j; apply Hrs|].
  assert (v1 s1 = ∅) as He.
  { apply map_empty. intros j. rewrite H1. case_bool_decide as Hb; [done|].
    apply eq_None_not_Some. by rewrite <- Hrs. }
  destruct (stray_run ds [VMarker] k s1) as (s' & Hrun & Hm' & ? & ?);
    [done|by apply Hds|done|by rewrite S1|by rewrite D1|].
  rewrite vrun_app, R1, Hrun. split_and!; [done|congruence|done..].
Qed.
Print Assumptions C63_refuted.

(** A store with two chunks, killed after the first rename. *)
Definition ex_v1 : vstore :=
  MkV (<[("ab", "cd", "abcd1") := [Byte.x01]]> {[("ab", "ce", "abce2") := [Byte.x02]]}) ∅
      {[("ab", "cd"); ("ab", "ce")]} ∅ false.
Example ex_C63 :
  let rs := [("ab", "cd", "abcd1"); ("ab", "ce", "abce2")] in
  let ds := [("ab", "cd"); ("ab", "ce")] in
  store_ok ex_v1 /\ listing ex_v1 rs ds /\
  let s1 := (vrun ex_v1 (take 1 (opening ex_v1 rs ds))).1 in
  v2 s1 !! ("ab", "abcd1") = Some [Byte.x01] /\ v1 s1 !! ("ab", "ce", "abce2") = Some [Byte.x02] /\
  let s2 := (vrun s1 (opening s1 [("ab", "ce", "abce2")] ds)).1 in
  v2 s2 !! ("ab", "abcd1") = Some [Byte.x01] /\ v2 s2 !! ("ab", "abce2") = Some [Byte.x02] /\
  v_marker s2 = true.
Proof.
  cbn zeta. split_and!; [| |vm_compute; reflexivity..].
  - split; [|done]. intros d n c c' H H'.
    unfold holds, ex_v1 in H, H'; cbn [v1 v2] in H, H'.
    destruct H as [H|[e H]]; [by rewrite lookup_empty in H|].
    destruct H' as [H'|[e' H']]; [by rewrite lookup_empty in H'|].
    rewrite lookup_insert_Some, lookup_singleton_Some in H, H'. naive_solver.
  - split_and!.
    + repeat constructor; set_solver.
    + intros k. unfold ex_v1; cbn [v1].
      rewrite lookup_insert_is_Some', elem_of_cons, elem_of_list_singleton.
      split; intros [->|H]; try (by left); right.
      * subst k. by rewrite lookup_singleton.
      * destruct H as [c H]. by apply lookup_singleton_Some in H as [<- _].
    + repeat constructor; set_solver.
    + intros k. unfold ex_v1; cbn [v_dirs]. set_solver.
Qed.
