(** C106: what several servers keep together. *)
From Verif Require Import Proofs.ClusterStep.
From Verif Require Import Model.RbdBackup.

(** Assumptions about what happened: the exports and replies are what Ceph and the
    servers deliver, identifiers are new and of backy's kind, no two chunks collide, the
    schedules can be configured. *)
Definition fair (E : env) (tr : list entry) : Prop :=
  Forall (fun e => honest (e_before e, e_what e, e_effects e)) tr /\
  NoDup (ids tr) /\ (forall u, u ∈ ids tr -> id_word u) /\
  no_collision E (MkDisk ∅ ∅ ∅) (concat (map e_effects tr)) /\ schedules_fine tr.
Lemma fair_snoc E tr x : fair E (tr ++ [x]) -> fair E tr.
Proof.
  intros (H1 & H2 & H3 & H4 & H5). apply Forall_app in H1 as [H1 _].
  split; [done|]. rewrite ids_app in H2, H3. split; [apply NoDup_app in H2; tauto|].
  split; [intros u Hu; apply H3, elem_of_app; auto|]. split.
  - intros c1 c2 G1 G2. apply H4; rewrite map_app, concat_app;
      [destruct G1; [auto|right]|destruct G2; [auto|right]]; apply elem_of_app; auto.
  - intros e iso now S0 He. eapply H5, elem_of_app. auto.
Qed.
Lemma runs_inv E V0 tr V : (0 < CS E)%Z -> lzo_ok E -> at_start V0 -> runs E V0 tr V -> fair E tr -> CI tr V.
Proof.
  intros HCS Hlzo Hat Hr. induction Hr as [|tr V p sv ev st' l ph' Hr IH Hp Ha Hev Hn Hk Hans
    |tr V p d u r iso sv O ev st' l Hr IH Hw Hu Hpe Hp Ha Hput Hev|tr V p sv b Hr IH Hp]; intros Hfair.
  - assert (Hempty : forall p d, was [] V0 p d -> d = MkDisk ∅ ∅ ∅).
    { intros p d [(sv & H1 & ->)|(e & H1 & _)]; [|inversion H1]. destruct (Hat _ _ H1) as (_ & H2 & _). apply H2. }
    constructor.
    + intros p d Hw n y Hy. rewrite (Hempty _ _ Hw) in Hy. cbn in Hy. rewrite lookup_empty in Hy. done.
    + intros p _. constructor.
    + intros p sv Hp _. destruct (Hat _ _ Hp) as (_ & _ & H). done.
    + intros p d u rv Hw Hy. rewrite (Hempty _ _ Hw) in Hy. cbn in Hy. rewrite lookup_empty in Hy. done.
    + intros p sv u rv Hp Hph. destruct (Hat _ _ Hp) as (_ & _ & H). rewrite H in Hph. destruct Hph; done.
    + intros i p r t q d rv Hx. apply completed_makes, makes_at_lt in Hx. cbn in Hx. lia.
    + intros i p r t Hx. apply completed_makes, makes_at_lt in Hx. cbn in Hx. lia.
  - pose proof (IH (fair_snoc _ _ _ Hfair)) as HCI. destruct Hfair as (F1 & F2 & F3 & F4 & F5).
    apply Forall_app in F1 as [_ F1]. apply Forall_cons in F1 as [F1 _].
    apply (ci_step E V0); try done.
    + eapply runs_start; done.
    + apply legit_own; done.
    + intros Hb. destruct Ha as [->|Ha]; [|congruence]. cbn in Hn. injection Hn as <-. eapply (ci_rest _ _ HCI); done.
  - pose proof (IH (fair_snoc _ _ _ Hfair)) as HCI. destruct Hfair as (F1 & F2 & F3 & F4 & F5).
    apply Forall_app in F1 as [_ F1]. apply Forall_cons in F1 as [F1 _].
    pose proof (ci_rest _ _ HCI _ _ Hp Ha) as Hph.
    apply (ci_step E V0); try done.
    + eapply runs_start; done.
    + eapply legit_put; done.
  - specialize (IH Hfair).
    assert (Hws : forall q d, was tr (<[p := MkServer (sv_life sv) Waiting b]> V) q d -> was tr V q d).
    { intros q d [(sv1 & H1 & H2)|H]; [|right; done].
      apply lookup_insert_Some in H1 as [[<- <-]|[_ H1]]; left; eauto. }
    destruct IH as [I1 I2 I3 I4 I5 I6 I7]. constructor.
    + eauto.
    + intros q [svq Hq]. apply I2. apply lookup_insert_Some in Hq as [[<- _]|[_ Hq]]; eauto.
    + intros q svq Hq. apply lookup_insert_Some in Hq as [[_ <-]|[_ Hq]]; [done|eauto].
    + eauto.
    + intros q svq u rv Hq Hph. apply lookup_insert_Some in Hq as [[_ <-]|[_ Hq]]; [destruct Hph; done|eauto].
    + eauto.
    + intros i q r t H1 H2 H3. destruct (I7 i q r t H1 H2 H3) as (sv1 & rv & G1 & G2).
      destruct (decide (q = p)) as [->|Hne].
      * rewrite Hp in G1. injection G1 as <-. exists (MkServer (sv_life sv) Waiting b), rv. rewrite lookup_insert. done.
      * exists sv1, rv. rewrite lookup_insert_ne by done. done.
Qed.

(** Servers that exchange backups of a job, each reading, expiring and changing what it
    knows about the others, lose none that is to be kept: a backup that was completed is still
    on the server that made it and can be restored there, unless an expiry somewhere found
    that it is older than the retention of each of its tags and that as many other
    backups as are to be kept, not older than it, were completed by all servers together. *)
Theorem C106_kept :
  forall E V0 tr V i p r t,
  (0 < CS E)%Z -> lzo_ok E -> at_start V0 -> runs E V0 tr V -> fair E tr ->
  completed_at tr i p r -> t ∈ r_tags r -> spared_at tr i (r_ts r) t ->
  exists sv rv c, V !! p = Some sv /\
    d_revs (lf_disk (sv_life sv)) !! r_uuid r = Some rv /\ is_clean rv = true /\ t ∈ r_tags rv /\
    taken (on p tr) (r_uuid r) c /\ restores E (sv_life sv) (r_uuid r) c.
Proof.
  intros E V0 tr V i p r t H1 H2 H3 Hr Hfair Hi Ht Hs.
  pose proof (runs_inv E V0 tr V H1 H2 H3 Hr Hfair) as HCI.
  destruct (ci_keep _ _ HCI i p r t Hi Ht Hs) as (sv & rv & G1 & G2 & G3 & G4).
  assert (Htv : t ∈ r_tags rv).
  { eapply (ci_copy _ _ HCI); [exact Hi|done|done|left; exists sv; done|done]. }
  destruct (runs_start E V0 tr V p sv Hr G1) as (sv0 & Hsv0 & Hlife).
  destruct (H3 _ _ Hsv0) as (_ & H0 & _). destruct Hfair as (F1 & F2 & F3 & F4 & F5).
  destruct (C70_restores_the_snapshot_partial E (sv_life sv0) (on p tr) (sv_life sv) (r_uuid r) rv H1 H2 H0 Hlife
    (ci_beh _ _ HCI p ltac:(eauto)) (nodup_on tr p F2) (nc_on E tr p _ F4 (proj1 H0)) G2 G4 G3) as (c & T1 & T2).
  exists sv, rv, c. done.
Qed.
Print Assumptions C106_kept.

(** A backup that reports success is completed. *)
Lemma reported E V0 tr V i e O known af B r : (0 < CS E)%Z -> lzo_ok E -> at_start V0 -> runs E V0 tr V -> fair E tr ->
  tr !! i = Some e -> e_what e = Ran O (LBackup known af B r) (Ok true) -> completed_at tr i (e_who e) r.
Proof.
  intros HCS Hlzo Hat Hr.
  assert (Hstep : forall tr V p sv ev st' l ph' b, runs E V0 tr V -> V !! p = Some sv ->
    happens E (sv_life sv) ev st' l ->
    let x := MkEntry p (sv_life sv) ev l st' in
    runs E V0 (tr ++ [x]) (<[p := MkServer st' ph' b]> V) -> fair E (tr ++ [x]) ->
    (forall i e, tr !! i = Some e -> e_what e = Ran O (LBackup known af B r) (Ok true) -> completed_at tr i (e_who e) r) ->
    forall i e, (tr ++ [x]) !! i = Some e -> e_what e = Ran O (LBackup known af B r) (Ok true) -> completed_at (tr ++ [x]) i (e_who e) r).
  { clear -HCS Hlzo Hat. intros tr V p sv ev st' l ph' b Hr Hp Hev x Hr' Hfair IH i e Hi He.
    pose proof (runs_inv E V0 _ _ HCS Hlzo Hat Hr' Hfair) as HCI.
    pose proof Hi as Hi0. apply lookup_app_Some in Hi as [Hi|[Hge Hi]]; [apply completed_at_app; eauto|].
    destruct (i - length tr) as [|k] eqn:Hk; [|done]. cbn in Hi. injection Hi as <-.
    cbn [e_what e_who x] in *. subst ev.
    destruct (runs_start E V0 tr V p sv Hr Hp) as (sv0 & Hsv0 & Hlife). destruct (Hat _ _ Hsv0) as (_ & H0 & _).
    pose proof (ci_beh _ _ HCI p ltac:(rewrite lookup_insert; eauto)) as Hb.
    destruct Hfair as (F1 & F2 & F3 & F4 & F5).
    pose proof (nodup_on _ p F2) as Hnd. pose proof (nc_on E _ p _ F4 (proj1 H0)) as Hnc.
    rewrite on_snoc in Hb, Hnd, Hnc. cbn [e_who x e_before e_what e_effects] in Hb, Hnd, Hnc.
    rewrite decide_True in Hb, Hnd, Hnc by done.
    destruct (life_done E (sv_life sv0) (on p tr) (sv_life sv) O known af B r st' l HCS Hlzo H0 Hlife Hev Hb Hnd Hnc)
      as (rv & G1 & G2 & G3). apply bool_decide_eq_true in G2.
    exists x, known, af, B, rv. done. }
  revert i e. induction Hr as [|tr V p sv ev st' l ph' Hr IH Hp Ha Hev Hn Hk Hans
    |tr V p d u r0 iso sv O' ev st' l Hr IH Hw Hu Hpe Hp Ha Hput Hev|tr V p sv b Hr IH Hp]; intros i e Hfair.
  - done.
  - revert i e. eapply Hstep; [exact Hr|exact Hp|exact Hev| |exact Hfair|].
    + eapply runs_own; done.
    + intros i e. apply IH. eapply fair_snoc. done.
  - revert i e. eapply (Hstep tr V _ _ _ _ _ (sv_phase sv) false); [exact Hr|exact Hp|exact Hev| |exact Hfair|].
    + eapply runs_put; done.
    + intros i e. apply IH. eapply fair_snoc. done.
  - apply IH. done.
Qed.

(** In particular the newest [n] backups of a tag of which [n] are to be kept. *)
Theorem C106_newest :
  forall E V0 tr V i e O known af B r t n,
  (0 < CS E)%Z -> lzo_ok E -> at_start V0 -> runs E V0 tr V -> fair E tr ->
  (* wherever backups expire, [n] copies of [t] are to be kept *)
  (forall e iso now S0, e ∈ tr -> cmd_of (e_what e) = Some (LExpire iso now S0) ->
     exists it, (t, it) ∈ S0 /\ i_keep it = Z.of_nat n) ->
  (* event [i] made the revision [r] with tag [t] and reported success *)
  tr !! i = Some e -> e_what e = Ran O (LBackup known af B r) (Ok true) -> t ∈ r_tags r ->
  (* fewer than [n] other backups with [t] that are not older were completed, on all servers *)
  ~ (exists js, NoDup js /\ length js = n /\
       forall k, k ∈ js -> k <> i /\ exists p r', completed_at tr k p r' /\ t ∈ r_tags r' /\ (r_ts r <= r_ts r')%Z) ->
  exists sv c, V !! e_who e = Some sv /\ taken (on (e_who e) tr) (r_uuid r) c /\ restores E (sv_life sv) (r_uuid r) c.
Proof.
  intros E V0 tr V i e O known af B r t n H1 H2 H3 Hr Hfair Hkeep Hi He Ht Hn.
  pose proof (reported E V0 tr V i e O known af B r H1 H2 H3 Hr Hfair Hi He) as Hco.
  destruct (C106_kept E V0 tr V i (e_who e) r t H1 H2 H3 Hr Hfair Hco Ht) as (sv & rv & c & G1 & _ & _ & _ & G2).
  { intros j e' iso now S0 _ Hj He'. apply elem_of_list_lookup_2 in Hj.
    destruct (Hkeep _ _ _ _ Hj He') as (it & Hit & Hk). exists it. split; [done|].
    right. intros (js & N1 & N2 & N3). apply Hn. exists js. split; [done|]. split; [lia|].
    intros k Hkj. destruct (N3 k Hkj) as (K1 & _ & K2). done. }
  exists sv, c. done.
Qed.
Print Assumptions C106_newest.

(** ** A concrete case *)
(** One copy of "daily" is to be kept.  Server "a" makes a backup, then the job moves to
    server "b", which makes the next one and reads what "a" has.  The backup on "a" expires,
    as "b" finds, and is removed there. *)
Definition k_a0 := l_st0.
Definition k_b0 := l_st0.
Definition k_c1 := d_b k_a0 "abcdefgh" [] "revision1" 100.
Definition k_a1 := then_ k_a0 k_c1.
Definition k_c2 := d_b k_b0 "abXYefgZ" [] "revision2" 300.
Definition k_b1 := then_ k_b0 k_c2.
Definition k_b2 := then_ k_b1 LClean.
Definition k_reply := map (mark "a") (get_history true true (scan_disk ex_O (lf_disk k_a1))).
Definition k_p : lcmd := LPull (fun _ => true) ["a"%string] [("a"%string, Ok k_reply)].
Definition k_b3 := then_ k_b2 k_p.
Definition k_b4 := then_ k_b3 (d_x 305).
Definition k_r : rev := default (d_r "revision1" 100) (d_revs (lf_disk k_b4) !! "revision1").
Definition k_put := Cluster.put (fun _ => None) k_r.
Definition k_a2 := then_ k_a1 k_put.
Definition k_b5 := then_ k_b4 (LPush ["revision1"]).
Definition k_ok (p : string) (st : life_state) (c : lcmd) : entry :=
  MkEntry p st (Ran ex_O c (Ok true)) (effs st c) (then_ st c).
Definition k_tr : list entry :=
  [k_ok "a" k_a0 k_c1; k_ok "b" k_b0 k_c2; k_ok "b" k_b1 LClean; k_ok "b" k_b2 k_p; k_ok "b" k_b3 (d_x 305);
   k_ok "a" k_a1 k_put; k_ok "b" k_b4 (LPush ["revision1"])].
Definition k_V0 : gmap string server :=
  <["b" := MkServer k_b0 Waiting false]> (<["a" := MkServer k_a0 Waiting true]> ∅).
Definition k_V2 : gmap string server :=
  <["b" := MkServer k_b0 Waiting true]> (<["a" := MkServer k_a1 Waiting false]>
    (<["a" := MkServer k_a1 Made true]> k_V0)).
Definition k_V6 : gmap string server :=
  <["a" := MkServer k_a2 Waiting false]> (<["b" := MkServer k_b4 Expired true]> (<["b" := MkServer k_b3 Pulled true]>
  (<["b" := MkServer k_b2 Tidied true]> (<["b" := MkServer k_b1 Made true]> k_V2)))).
Definition k_V : gmap string server := <["b" := MkServer k_b5 Pushed true]> k_V6.
Lemma k_own tr V p st ph c ph' : runs ex_env k_V0 tr V -> V !! p = Some (MkServer st ph true) ->
  (exec ex_env ex_O c (opened ex_O st)).2 = Ok true -> step_phase ph (Ran ex_O c (Ok true)) = Some ph' ->
  match c with LBackup known _ _ _ => known = Some (scan_disk ex_O (lf_disk st)) | _ => True end ->
  answered tr V p (Ran ex_O c (Ok true)) ->
  runs ex_env k_V0 (tr ++ [k_ok p st c]) (<[p := MkServer (then_ st c) ph' true]> V).
Proof.
  intros Hr Hp Hx Hs Hk Ha.
  apply (runs_own ex_env k_V0 tr V p (MkServer st ph true) _ (then_ st c) (effs st c) ph'); try assumption.
  - right. reflexivity.
  - apply ran. exact Hx.
  - unfold knows. cbn [cmd_of]. destruct c; try exact I. exists ex_O. split; [exact ex_orders|]. exact Hk.
Qed.
Lemma ok_inj {A} (x y : A) : Ok x = Ok y -> y = x.
Proof. intros H. injection H. done. Qed.
Lemma k_at (m : gmap string server) i x : <[i := x]> m !! i = Some x.
Proof. apply lookup_insert. Qed.
Lemma k_past (m : gmap string server) i j x y : i <> j -> m !! j = Some y -> <[i := x]> m !! j = Some y.
Proof. intros H. rewrite lookup_insert_ne by done. done. Qed.
Ltac k_walk := lazymatch goal with
  | |- <[?i := _]> _ !! ?i = _ => apply k_at
  | |- <[_ := _]> _ !! _ = _ => apply k_past; [discriminate|k_walk]
  end.
Ltac k_look := unfold k_V0, k_V2, k_V6; k_walk.
Lemma k_runs2 : runs ex_env k_V0 (take 1 k_tr) k_V2.
Proof.
  apply (runs_switch ex_env k_V0 (take 1 k_tr) _ "b" (MkServer k_b0 Waiting false) true).
  - apply (runs_switch ex_env k_V0 (take 1 k_tr) _ "a" (MkServer k_a1 Made true) false).
    + apply (k_own [] k_V0 "a" k_a0 Waiting k_c1 Made); [apply runs_nil|k_look|vm_compute; reflexivity|reflexivity|reflexivity|exact I].
    + k_look.
  - k_look.
Qed.
Lemma k_pending : d_revs (lf_disk k_b4) !! "revision1" = Some k_r /\ pending k_r = true /\ r_server k_r = "a".
Proof. split; [|split; vm_compute; reflexivity]. unfold k_r. value (d_revs (lf_disk k_b4) !! "revision1") Hv. rewrite Hv. reflexivity. Qed.
Lemma k_runs : runs ex_env k_V0 k_tr k_V.
Proof.
  assert (H5 : runs ex_env k_V0 (take 5 k_tr) (<["b" := MkServer k_b4 Expired true]> (<["b" := MkServer k_b3 Pulled true]>
    (<["b" := MkServer k_b2 Tidied true]> (<["b" := MkServer k_b1 Made true]> k_V2))))).
  { apply (k_own (take 4 k_tr) _ "b" k_b3 Pulled (d_x 305) Expired); [|k_look|vm_compute; reflexivity|reflexivity|exact I|exact I].
    apply (k_own (take 3 k_tr) _ "b" k_b2 Tidied k_p Pulled); [|k_look|vm_compute; reflexivity|reflexivity|exact I|].
    - apply (k_own (take 2 k_tr) _ "b" k_b1 Made LClean Tidied); [|k_look|vm_compute; reflexivity|reflexivity|exact I|exact I].
      apply (k_own (take 1 k_tr) _ "b" k_b0 Waiting k_c2 Made); [|k_look|vm_compute; reflexivity|reflexivity|reflexivity|exact I].
      exact k_runs2.
    - intros q a Hq. apply elem_of_list_singleton in Hq. injection Hq as -> ->. split; [discriminate|]. split; [discriminate|].
      intros l Hl. exists ex_O, (lf_disk k_a1). split; [exact ex_orders|]. split.
      + left. exists (MkServer k_a1 Waiting false). split; [k_look|cbn [sv_life]; reflexivity].
      + rewrite (ok_inj _ _ Hl). unfold k_reply. reflexivity. }
  apply (k_own (take 6 k_tr) k_V6 "b" k_b4 Expired (LPush ["revision1"]) Pushed);
    [|k_look|vm_compute; reflexivity|reflexivity|exact I|exact I].
  destruct k_pending as (P1 & P2 & P3).
  pose proof (runs_put ex_env k_V0 (take 5 k_tr) _ "b" (lf_disk k_b4) "revision1" k_r (fun _ => None)
    (MkServer k_a1 Waiting false) ex_O (Ran ex_O k_put (Ok true)) k_a2 (effs k_a1 k_put) H5) as H.
  rewrite P3 in H. apply H; clear H.
  - left. exists (MkServer k_b4 Expired true). split; [k_look|cbn [sv_life]; reflexivity].
  - exact P1.
  - exact P2.
  - k_look.
  - reflexivity.
  - right. eexists. reflexivity.
  - apply ran. vm_compute. reflexivity.
Qed.
Definition k_expiry (e : entry) : option sched :=
  match cmd_of (e_what e) with Some (LExpire _ _ S0) => Some S0 | _ => None end.
Lemma k_sched e iso now S0 : e ∈ k_tr -> cmd_of (e_what e) = Some (LExpire iso now S0) -> S0 = d_S.
Proof.
  intros Hin Hc. apply (elem_of_list_fmap_1 k_expiry) in Hin.
  change (k_expiry <$> k_tr) with [None; None; None; None; Some d_S; None; None] in Hin.
  unfold k_expiry in Hin. rewrite Hc in Hin.
  repeat (apply elem_of_cons in Hin as [Hin|Hin]; [first [discriminate Hin|injection Hin as ->; done]|]). inversion Hin.
Qed.
Lemma k_fair : fair ex_env k_tr.
Proof.
  split.
  { apply Forall_cons; split.
    { split; [exists 100%Z, {["daily"%string]}; reflexivity|].
      intros c [= <-]. split; [reflexivity|]. intros p a s Hp. vm_compute in Hp. discriminate Hp. }
    apply Forall_cons; split.
    { split; [exists 300%Z, {["daily"%string]}; reflexivity|].
      intros c [= <-]. split; [reflexivity|]. intros p a s Hp. vm_compute in Hp. discriminate Hp. }
    apply Forall_cons; split; [exact I|]. apply Forall_cons; split.
    { intros p a Hp. apply elem_of_list_singleton in Hp. injection Hp as -> ->. split; [discriminate|].
      intros l r Hl Hr. rewrite (ok_inj _ _ Hl) in Hr. unfold k_reply in Hr. apply elem_of_list_fmap in Hr as (y & -> & _). reflexivity. }
    do 3 (apply Forall_cons; split; [exact I|]). constructor. }
  split; [change (ids k_tr) with ["revision1"; "revision2"]; apply (bool_decide_eq_true_1 _); vm_compute; reflexivity|].
  split.
  { change (ids k_tr) with ["revision1"; "revision2"]. intros u Hu.
    repeat (apply elem_of_cons in Hu as [->|Hu]; [apply id_word_alnum|]); try (by apply elem_of_nil in Hu); try (cbn; lia).
    1,3: intros c Hc; cbn in Hc; repeat (apply elem_of_cons in Hc as [->|Hc]; [reflexivity|]); by apply elem_of_nil in Hc.
    all: eexists; split; [left|reflexivity]. }
  split; [apply ex_no_collision|].
  intros e iso now S0 He Hc. rewrite (k_sched _ _ _ _ He Hc). exact d_sched_ok.
Qed.
Lemma k_start : at_start k_V0.
Proof.
  intros p sv Hp. unfold k_V0 in Hp. apply lookup_insert_Some in Hp as [[<- <-]|[_ Hp]].
  - split; [discriminate|]. split; [exact l_nothing|reflexivity].
  - apply lookup_insert_Some in Hp as [[<- <-]|[_ Hp]]; [|rewrite lookup_empty in Hp; discriminate Hp].
    split; [discriminate|]. split; [exact l_nothing|reflexivity].
Qed.
Definition k_made (e : entry) : option rev :=
  match cmd_of (e_what e) with Some (LBackup _ _ _ r) => Some r | _ => None end.
Lemma k_makes j p r : makes_at k_tr j p r -> j = 0 /\ r = d_r "revision1" 100 \/ j = 1 /\ r = d_r "revision2" 300.
Proof.
  intros (e & known & af & B & H & _ & Hc).
  assert (Hm : map k_made k_tr !! j = Some (Some r)).
  { rewrite list_lookup_fmap, H. cbn. unfold k_made. rewrite Hc. reflexivity. }
  change (map k_made k_tr) with [Some (d_r "revision1" 100); Some (d_r "revision2" 300); None; None; None; None; None] in Hm.
  do 7 (destruct j as [|j]; [try discriminate Hm; injection Hm as <-; auto|]). discriminate Hm.
Qed.
Example C106_case :
  runs ex_env k_V0 k_tr k_V /\ fair ex_env k_tr /\ at_start k_V0 /\
  (* what "b" knows after reading, and after the expiry has been agreed on *)
  map fst (map_to_list (d_revs (lf_disk k_b3))) = ["revision2"; "revision1"] /\
  map fst (map_to_list (d_revs (lf_disk k_b5))) = ["revision2"] /\
  (* "a" has removed its revision *)
  map fst (map_to_list (d_revs (lf_disk k_a1))) = ["revision1"] /\
  map fst (map_to_list (d_revs (lf_disk k_a2))) = [] /\
  exists sv c, k_V !! "b" = Some sv /\ taken (on "b" k_tr) "revision2" c /\ restores ex_env (sv_life sv) "revision2" c.
Proof.
  split; [exact k_runs|]. split; [exact k_fair|]. split; [exact k_start|].
  split; [vm_compute; reflexivity|]. split; [vm_compute; reflexivity|].
  split; [vm_compute; reflexivity|]. split; [vm_compute; reflexivity|].
  apply (C106_newest ex_env k_V0 k_tr k_V 1 (k_ok "b" k_b0 k_c2) ex_O (Some (scan_disk ex_O (lf_disk k_b0))) false
    (l_B "abXYefgZ" []) (d_r "revision2" 300) "daily" 1).
  - exact ex_CS.
  - exact ex_lzo.
  - exact k_start.
  - exact k_runs.
  - exact k_fair.
  - intros e iso now S0 He Hc. rewrite (k_sched _ _ _ _ He Hc). exists (MkItem 10 1). split; [left|reflexivity].
  - reflexivity.
  - reflexivity.
  - cbn. set_solver.
  - intros (js & _ & Hlen & Hjs). destruct js as [|j js]; [discriminate Hlen|].
    destruct (Hjs j) as [Hj (p & r' & Hm & _ & Hts)]; [left|]. apply completed_makes in Hm.
    destruct (k_makes j p r' Hm) as [[-> ->]|[-> _]]; [|lia]. vm_compute in Hts. exact (Hts eq_refl).
Qed.
