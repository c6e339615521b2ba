(** Snapshot requests (C62). *)
From Verif Require Import Model.Snapshots.

(** A request by backy for the VM [vm] (specification). *)
Definition our_request (vm : string) (v : kval) : Prop :=
  exists snap, v = KReq vm snap /\ exists r, snap = ("backy-" ++ r)%string.

Lemma prefix_spec p s : String.prefix p s = true <-> exists r, s = (p ++ r)%string.
Proof.
  revert s. induction p as [|a p IH]; intros s; cbn.
  - split; [intros _; by exists s|by destruct s].
  - destruct s as [|b s]; [split; [done|by intros [? ?]]|].
    cbn; destruct (Ascii.ascii_dec a b) as [->|Hne].
    + rewrite (IH s). split; intros [r Hr]; exists r; [by subst|by injection Hr].
    + split; [done|]. intros [r Hr]. by injection Hr.
Qed.

Lemma our_dec vm v : our_request vm v \/ ~ our_request vm v.
Proof.
  destruct v as [w snap|e|]; [|by right; intros (?&?&?)..].
  destruct (decide (w = vm)) as [->|Hne].
  - destruct (String.prefix "backy-" snap) eqn:E.
    + left. exists snap. split; [done|]. by apply prefix_spec.
    + right. intros (s & Hs & Hp). injection Hs as ->. apply prefix_spec in Hp. congruence.
  - right. intros (s & Hs & _). injection Hs as -> ->. done.
Qed.

(** Whatever is in the store, only backy's own requests for this VM and garbage
    ever disappear, and nothing is changed. *)
Lemma cleanup_untouched vm keys kv kv' r k v :
  cleanup vm keys kv = (kv', r) -> kv !! k = Some v ->
  ~ our_request vm v -> v <> KGarbage -> kv' !! k = Some v.
Proof.
  revert kv. induction keys as [|key rest IH]; intros kv H Hk Hn Hg; cbn in H; [by injection H as <- <-|].
  destruct (kv !! key) as [[w snap|e|]|] eqn:E.
  - case_bool_decide as Hw; [by eapply IH|]. subst w.
    destruct (String.prefix "backy-" snap) eqn:Ep; [|by eapply IH].
    eapply IH; [exact H| |done..]. rewrite lookup_delete_ne; [done|]. intros ->.
    apply Hn. exists snap. split; [congruence|]. by apply prefix_spec.
  - by injection H as <- <-.
  - injection H as <- <-. rewrite lookup_delete_ne; [done|]. intros ->. congruence.
  - by eapply IH.
Qed.
Lemma cleanup_sub vm keys kv kv' r k v :
  cleanup vm keys kv = (kv', r) -> kv' !! k = Some v -> kv !! k = Some v.
Proof.
  revert kv. induction keys as [|key rest IH]; intros kv H Hk; cbn in H; [by injection H as <- <-|].
  destruct (kv !! key) as [[w snap|e|]|] eqn:E.
  - case_bool_decide as Hw; [by eapply IH|].
    destruct (String.prefix "backy-" snap) eqn:Ep; [|by eapply IH].
    specialize (IH _ H Hk). by apply lookup_delete_Some in IH as [_ ?].
  - by injection H as <- <-.
  - injection H as <- <-. by apply lookup_delete_Some in Hk as [_ ?].
  - by eapply IH.
Qed.
Lemma cleanup_ok vm keys kv kv' :
  cleanup vm keys kv = (kv', Ok tt) ->
  forall k v, k ∈ keys -> kv' !! k = Some v -> ~ our_request vm v.
Proof.
  revert kv. induction keys as [|key rest IH]; intros kv H k v Hin Hk; cbn in H; [by apply elem_of_nil in Hin|].
  apply elem_of_cons in Hin as [->|Hin].
  - destruct (kv !! key) as [[w snap|e|]|] eqn:E; [|done..|].
    + case_bool_decide as Hw.
      * pose proof (cleanup_sub _ _ _ _ _ _ _ H Hk) as Hv.
        intros (s & -> & _). congruence.
      * destruct (String.prefix "backy-" snap) eqn:Ep.
        -- pose proof (cleanup_sub _ _ _ _ _ _ _ H Hk) as Hv. by rewrite lookup_delete in Hv.
        -- pose proof (cleanup_sub _ _ _ _ _ _ _ H Hk) as Hv.
           intros (s & -> & Hs). assert (s = snap) as -> by congruence.
           apply prefix_spec in Hs. congruence.
    + pose proof (cleanup_sub _ _ _ _ _ _ _ H Hk) as Hv. congruence.
  - destruct (kv !! key) as [[w snap|e|]|] eqn:E; [|done..|by eapply IH].
    case_bool_decide as Hw; [by eapply IH|].
    destruct (String.prefix "backy-" snap) eqn:Ep; by eapply IH.
Qed.
Lemma cleanup_total vm keys kv :
  (forall k v, kv !! k = Some v -> exists w s, v = KReq w s) ->
  (cleanup vm keys kv).2 = Ok tt.
Proof.
  revert kv. induction keys as [|key rest IH]; intros kv Hw; cbn; [done|].
  destruct (kv !! key) as [v|] eqn:E; [|by apply IH].
  destruct (Hw _ _ E) as (w & s & ->).
  case_bool_decide; [by apply IH|].
  destruct (String.prefix "backy-" s); [|by apply IH].
  apply IH. intros k v Hk. apply lookup_delete_Some in Hk as [_ Hk]. by eapply Hw.
Qed.

(** C62, the part that holds: when the entries below "snapshot/" are well-formed
    requests, then after the attempt -- however it ended -- none of backy's requests
    for this VM remains, every other entry is unchanged, and the attempt's own
    outcome is what the caller sees. *)
Theorem C62_cleanup_partial vm name key tried others keys kv :
  let kv1 := others (<[key := KReq vm name]> kv) in
  (forall k v, kv1 !! k = Some v -> exists w s, v = KReq w s) ->
  (forall k, k ∈ keys kv1 <-> is_Some (kv1 !! k)) ->
  let '(kv2, r) := create_snapshot vm name key tried others keys kv in
  r = tried /\
  forall k v, kv2 !! k = Some v <-> kv1 !! k = Some v /\ ~ our_request vm v.
Proof.
  intros kv1 Hw Hkeys. unfold create_snapshot. fold kv1.
  destruct (cleanup vm (keys kv1) kv1) as [kv2 r] eqn:E.
  pose proof (cleanup_total vm (keys kv1) kv1 Hw) as Hr. rewrite E in Hr. cbn in Hr. subst r.
  split; [done|]. intros k v. split.
  - intros Hk. pose proof (cleanup_sub _ _ _ _ _ _ _ E Hk) as H1. split; [done|].
    eapply cleanup_ok; [exact E| |exact Hk]. apply Hkeys. by eexists.
  - intros [Hk Hn]. eapply cleanup_untouched; [exact E|done..|].
    destruct (Hw _ _ Hk) as (?&?&->). done.
Qed.
Print Assumptions C62_cleanup_partial.

(** C62, for any contents: entries of other VMs, requests not made by backy and
    entries of other shapes are never touched, and a success means that backy's
    requests are gone. *)
Theorem C62_others vm name key tried others keys kv :
  let kv1 := others (<[key := KReq vm name]> kv) in
  let '(kv2, r) := create_snapshot vm name key tried others keys kv in
  (forall k v, kv1 !! k = Some v -> ~ our_request vm v -> v <> KGarbage ->
     kv2 !! k = Some v) /\
  (forall k v, kv2 !! k = Some v -> kv1 !! k = Some v) /\
  (r = Ok tt -> tried = Ok tt /\
     forall k v, k ∈ keys kv1 -> kv2 !! k = Some v -> ~ our_request vm v).
Proof.
  intros kv1. unfold create_snapshot. fold kv1.
  destruct (cleanup vm (keys kv1) kv1) as [kv2 r] eqn:E.
  assert (forall k v, kv1 !! k = Some v -> ~ our_request vm v -> v <> KGarbage ->
     kv2 !! k = Some v) by (intros; by eapply cleanup_untouched).
  assert (forall k v, kv2 !! k = Some v -> kv1 !! k = Some v) by (intros; by eapply cleanup_sub).
  destruct r as [[]|e].
  - split_and!; [done|done|]. intros ->. split; [done|]. by eapply cleanup_ok.
  - split_and!; done.
Qed.
Print Assumptions C62_others.

(** C62 is false of the code for garbage: the entry is deleted, but the backup then
    fails although the snapshot exists, and requests behind it stay. *)
Theorem C62_refuted :
  exists kv keys,
    let kv1 := <["snapshot/new" := KReq "vm" "backy-1"]> kv in
    (forall k, k ∈ keys kv1 <-> is_Some (kv1 !! k)) /\
    let '(kv2, r) := create_snapshot "vm" "backy-1" "snapshot/new" (Ok tt) id keys kv in
    r = Err TypeError /\
    kv2 !! "snapshot/bad" = None /\
    kv2 !! "snapshot/new" = Some (KReq "vm" "backy-1") /\
    our_request "vm" (KReq "vm" "backy-1").
Proof.
  exists {["snapshot/bad" := KGarbage]}, (fun m => (map_to_list m).*1).
  split.
  - intros k. rewrite elem_of_list_fmap. split.
    + intros ([k' v] & -> & H). apply elem_of_map_to_list in H. by eexists.
    + intros [v Hv]. exists (k, v). split; [done|]. by apply elem_of_map_to_list.
  - assert (our_request "vm" (KReq "vm" "backy-1")) by (exists "backy-1"; split; [done|by exists "1"]).
    destruct (create_snapshot _ _ _ _ _ _ _) as [kv2 r] eqn:E.
    vm_compute in E. injection E as <- <-. split_and!; [done|vm_compute; reflexivity..|done].
Qed.
Print Assumptions C62_refuted.

(** Two VMs, an old request and a foreign one: exactly backy's two requests for "vm"
    go. *)
Example ex_C62 :
  let kv := {["snapshot/a" := KReq "vm" "backy-0"]} ∪ {["snapshot/b" := KReq "vm2" "backy-0"]}
            ∪ ({["snapshot/c" := KReq "vm" "manual"]} : kvstore) in
  let '(kv2, r) := create_snapshot "vm" "backy-1" "snapshot/d" (Err TimeOutError) id
                     (fun m => (map_to_list m).*1) kv in
  r = Err TimeOutError /\ elements (dom kv2 : gset string) = ["snapshot/b"; "snapshot/c"].
Proof. vm_compute. split; reflexivity. Qed.
