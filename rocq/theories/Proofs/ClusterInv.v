(** The invariant behind C106. *)
From Verif Require Export Proofs.ClusterMeta Props.PRounds Proofs.ScanProofs Proofs.RestoreProofs Proofs.ExEnv Props.PBackup Props.PLife.
From Verif Require Export Spec.Cluster.
From Verif Require Import Model.RbdBackup.

(** ** Where the metadata on disk comes from *)
Definition stems (c : lcmd) (d : disk) (u : string) (rv' : rev) : Prop :=
  (exists known af B r, c = LBackup known af B r /\ u = r_uuid r /\
     r_ts rv' = r_ts r /\ r_tags rv' = r_tags r /\ r_server rv' = "") \/
  (exists same peers replies q l, c = LPull same peers replies /\ (q, Ok l) ∈ replies /\ rv' ∈ l) \/
  (exists rv, d_revs d !! u = Some rv /\ r_ts rv' = r_ts rv /\ r_server rv' = r_server rv /\ is_clean rv' = is_clean rv /\
     (r_tags rv' = r_tags rv \/ (is_expire c /\ r_tags rv' ⊆ r_tags rv) \/
      exists iso S0 tags ex ar f, c = LTags iso S0 ASet u tags ex ar f /\ r_tags rv' = tags)).
Definition allowed (c : lcmd) : Prop :=
  match c with
  | LBackup _ _ _ r => r_server r = ""
  | LClean | LPush _ | LGc => True
  | LPull _ _ replies => forall q a, (q, a) ∈ replies -> q <> ""
  | LExpire _ _ S0 => sched_ok S0
  | LTags _ _ ASet spec _ _ _ _ => id_word spec
  | _ => False
  end.
Lemma cstep_origin E O c st s' x l k u rv' :
  orders_ok O -> exec E O c (opened O st) = (s', x) -> delta (opened O st) s' l ->
  rev_files_ok (lf_disk st) -> allowed c ->
  d_revs (replay (take k l) (lf_disk st)) !! u = Some rv' -> stems c (lf_disk st) u rv'.
Proof.
  intros HO Hrun Hl Hf Hal Hrv'. set (s := opened O st) in *. set (d := lf_disk st) in *.
  assert (Hold : (match c with LBackup _ _ _ _ | LGc | LExpire _ _ _ => True | _ => False end) -> stems c d u rv').
  { intros Hc. set (ph := match c with LBackup _ _ _ _ => Waiting | LGc => Pushed | _ => Pulled end).
    destruct (step_origin E O c st s' x l k ph u rv') as [H|(rv & H1 & H2 & H3 & H4 & H5 & H6)]; try done.
    - destruct c; done.
    - intros n y Hp. destruct c; done.
    - intros iso now S0 ->. done.
    - intros known af B r ->. done.
    - left. done.
    - right. right. exists rv. split; [done|]. split; [done|]. split; [done|]. split; [done|].
      destruct (decide (r_tags rv' = r_tags rv)); [auto|]. right. left. split; [|done].
      destruct c; try (exfalso; apply n; apply H6; intros (? & ? & ? & Hx); done). eexists _, _, _. done. }
  set (W := fun y : rev => stems c d (r_uuid y) y).
  assert (HMD : MD W d).
  { split; [done|]. intros n y Hy. right. right. exists y. rewrite (Hf n y Hy). split; [done|]. auto. }
  assert (HI : MI W s).
  { split; [done|]. split; [apply scan_disk_nodup|]. intros y Hy.
    apply scan_disk_elem in Hy; [|done..]. eapply HMD. done. }
  assert (Hmeta : HT (fun _ => True) (fun s1 => s1 = s) (metaok W (fun _ => True)) (exec E O c) (fun _ _ => True) ->
    stems c d u rv').
  { intros Ht. assert (Hm : Forall (metaok W (fun _ => True)) l).
    { refine (proj1 (Ht s l eq_refl _ _)); [rewrite Hrun; exact Hl|done]. }
    destruct (metaok_replay W (fun _ => True) (take k l) d) as [[G1 G2] _]; [apply Forall_take; done|done|].
    pose proof (G2 u rv' Hrv') as G. unfold W in G. rewrite (G1 u rv' Hrv') in G. done. }
  assert (Hw : forall mm : M rst bool, HT (fun _ => True) (MI W) (metaok W (fun _ => True)) mm (MQ W) ->
    HT (fun _ => True) (fun s1 => s1 = s) (metaok W (fun _ => True)) mm (fun _ _ => True)).
  { intros mm Hm. eapply HT_weaken; [exact Hm|intros ? ->; done|done|done]. }
  assert (Hr : forall A (mm : M rst A), Grows mm -> HT (fun _ => True) (MI W) (metaok W (fun _ => True)) mm (MQ W) ->
    HT (fun _ => True) (MI W) (metaok W (fun _ => True)) (do_ mm; ret true)%M (MQ W)).
  { intros A mm Hg Hm. apply HT_M_bind; [done|intros; apply _|done|]. intros _. apply HT_M_ret. }
  destruct c as [known af B r|v| | |iso spec|iso spec|iso S0 a spec tags ex ar force|iso now S0|same peers replies|acc];
    cbn [allowed] in Hal; try done; try (apply Hold; done); apply Hmeta; cbn [exec].
  - apply Hw, Hr; [apply _|]. apply HT_C_clean. done.
  - destruct a; try done.
    eapply HT_weaken; [apply (HT_C_tags O W (fun _ => True) HO iso S0 ASet spec tags ex ar force s HI)|done|done|done].
    intros lr y t Hfr Hy Ht. split; [|done]. cbn [new_tags] in Ht. injection Ht as <-.
    rewrite (find_id _ iso spec (scan_disk_nodup O (w_disk (rs_w s))) Hal) in Hfr.
    destruct (List.find (fun r => bool_decide (r_uuid r = spec)) (scan_disk O (w_disk (rs_w s)))) as [z|] eqn:Ef; [|done].
    injection Hfr as <-. apply elem_of_list_singleton in Hy as ->.
    apply find_some in Ef as [Hx Hu]. apply elem_of_list_In in Hx. apply bool_decide_eq_true in Hu.
    apply scan_disk_elem in Hx; [|done..]. change (w_disk (rs_w s)) with d in Hx.
    right. right. exists z. cbn [r_uuid with_tags r_ts r_server is_clean r_tags r_stats]. split; [done|]. split; [done|].
    split; [done|]. split; [done|]. right. right. rewrite Hu. eexists _, _, _, _, _, _. done.
  - apply Hw, Hr; [apply _|]. apply HT_C_pull; [done|done|].
    intros p a Hp. split; [eapply Hal; done|]. intros lr z -> Hz. right. left.
    eexists _, _, _, _, _. done.
  - apply HT_get. intros ? ->. apply Hw, Hr; [apply _|]. apply HT_C_push.
    + intros y t Hy. destruct Hy as [(? & ? & ? & ? & ? & _)|[(? & ? & ? & ? & ? & ? & _)|Hy]]; [done..|].
      right. right. exact Hy.
    + intros y Hy. split; [|done]. apply elem_of_list_filter in Hy as [_ Hy]. apply HI. done.
Qed.

(** ** Traces *)
Lemma completed_makes tr j p r : completed_at tr j p r -> makes_at tr j p r.
Proof. intros (e & known & af & B & rv & H1 & H2 & H3 & _). exists e, known, af, B. done. Qed.
Lemma makes_at_lt tr j p r : makes_at tr j p r -> j < length tr.
Proof. intros (e & known & af & B & H & _). apply lookup_lt_Some in H. done. Qed.
Lemma makes_at_fun tr j p1 r1 p2 r2 : makes_at tr j p1 r1 -> makes_at tr j p2 r2 -> p1 = p2 /\ r1 = r2.
Proof.
  intros (e & known & af & B & H & H1 & H2) (e' & known' & af' & B' & H' & H1' & H2').
  rewrite H in H'. injection H' as <-. rewrite H2 in H2'. injection H2' as <- <- <- <-. split; congruence.
Qed.
Lemma makes_at_app tr x j p r : makes_at tr j p r -> makes_at (tr ++ [x]) j p r.
Proof. intros (e & known & af & B & H & H1). exists e, known, af, B. split; [apply lookup_app_l_Some; done|done]. Qed.
Lemma makes_at_snoc tr x j p r : makes_at (tr ++ [x]) j p r ->
  makes_at tr j p r \/ (j = length tr /\ e_who x = p /\ exists known af B, cmd_of (e_what x) = Some (LBackup known af B r)).
Proof.
  intros (e & known & af & B & H & H1 & H2). apply lookup_app_Some in H as [H|[Hge H]].
  - left. exists e, known, af, B. done.
  - right. destruct (j - length tr) as [|n] eqn:Hn; [|done]. cbn in H. injection H as ->.
    split; [lia|]. split; [done|]. exists known, af, B. done.
Qed.
Lemma completed_at_app tr x j p r : completed_at tr j p r -> completed_at (tr ++ [x]) j p r.
Proof.
  intros (e & known & af & B & rv & H & H1). exists e, known, af, B, rv. split; [apply lookup_app_l_Some; done|done].
Qed.
Lemma completed_at_snoc tr x j p r : completed_at (tr ++ [x]) j p r -> j < length tr -> completed_at tr j p r.
Proof.
  intros (e & known & af & B & rv & H & H1) Hj. exists e, known, af, B, rv. split; [|done].
  rewrite lookup_app_l in H by done. done.
Qed.
Lemma spared_at_snoc tr x i ts t : spared_at (tr ++ [x]) i ts t -> spared_at tr i ts t.
Proof.
  intros H j e iso now S0 Hij Hj He.
  destruct (H j e iso now S0 Hij) as (it & H2 & H3); [apply lookup_app_l_Some; done|done|].
  exists it. split; [done|]. destruct H3 as [H3|H3]; [auto|right].
  intros (js & N1 & N2 & N3). apply H3. exists js. split; [done|]. split; [done|]. intros k Hk.
  destruct (N3 k Hk) as (K1 & K2 & p & r & K3 & K4). split; [done|]. split; [done|]. exists p, r.
  split; [apply completed_at_app; done|done].
Qed.
Lemma ids_app tr x : ids (tr ++ [x]) = ids tr ++ started (e_what x).
Proof. unfold ids. rewrite map_app, concat_app. cbn. rewrite app_nil_r. done. Qed.
Lemma ids_makes tr u : u ∈ ids tr <-> exists j p r, makes_at tr j p r /\ r_uuid r = u.
Proof.
  induction tr as [|x tr IH] using rev_ind.
  { split; [intros H; inversion H|]. intros (j & p & r & H & _). apply makes_at_lt in H. cbn in H. lia. }
  rewrite ids_app, elem_of_app, IH. split.
  - intros [(j & p & r & H1 & H2)|H].
    + exists j, p, r. split; [|done]. apply makes_at_app. done.
    + unfold started in H. destruct (cmd_of (e_what x)) as [[known af B r| | | | | | | | |]|] eqn:Hc; try (inversion H; done).
      apply elem_of_list_singleton in H. exists (length tr), (e_who x), r. split; [|done].
      exists x, known, af, B. rewrite lookup_app_r, Nat.sub_diag by done. done.
  - intros (j & p & r & H1 & H2). apply makes_at_snoc in H1 as [H1|(-> & _ & known & af & B & H1)].
    + left. eauto.
    + right. unfold started. rewrite H1, H2. left.
Qed.
Lemma makes_unique tr i j p q r1 r2 : NoDup (ids tr) -> makes_at tr i p r1 -> makes_at tr j q r2 ->
  r_uuid r1 = r_uuid r2 -> i = j /\ p = q /\ r1 = r2.
Proof.
  intros Hn Hi Hj Hu. assert (Hij : i = j); [|subst j; split; [done|eapply makes_at_fun; done]].
  revert i j Hi Hj. induction tr as [|z tr IH] using rev_ind; intros i j Hi Hj; [apply makes_at_lt in Hi; cbn in Hi; lia|].
  rewrite ids_app in Hn. apply NoDup_app in Hn as (N1 & N2 & _).
  apply makes_at_snoc in Hi as [Hi|(-> & _ & k1 & a1 & b1 & Hi)], Hj as [Hj|(-> & _ & k2 & a2 & b2 & Hj)].
  - apply IH; done.
  - exfalso. apply (N2 (r_uuid r1)); [apply ids_makes; eauto|]. unfold started. rewrite Hj, Hu. left.
  - exfalso. apply (N2 (r_uuid r2)); [apply ids_makes; eauto|]. unfold started. rewrite Hi, Hu. left.
  - done.
Qed.
Lemma on_snoc p tr x : on p (tr ++ [x]) =
  on p tr ++ if decide (e_who x = p) then [(e_before x, e_what x, e_effects x)] else [].
Proof.
  unfold on. rewrite filter_app, map_app. f_equal. rewrite filter_cons. destruct (decide (e_who x = p)); done.
Qed.
Lemma ids_on p tr : sublist (all_started (on p tr)) (ids tr).
Proof.
  induction tr as [|x tr IH] using rev_ind; [done|]. rewrite on_snoc, ids_app.
  destruct (decide (e_who x = p)).
  - rewrite started_app. apply sublist_app; done.
  - rewrite app_nil_r. apply sublist_inserts_r. done.
Qed.
Lemma effects_on p tr x : x ∈ all_effects (on p tr) -> exists e, e ∈ tr /\ x ∈ e_effects e.
Proof.
  unfold all_effects, on. rewrite map_map. cbn. intros H. apply elem_of_list_In, in_concat in H as (l & Hl & Hx).
  apply in_map_iff in Hl as (e & <- & He). apply elem_of_list_In in He. apply elem_of_list_filter in He as [_ He].
  exists e. split; [done|]. apply elem_of_list_In. done.
Qed.
Lemma runs_start E V0 tr V p sv : runs E V0 tr V -> V !! p = Some sv ->
  exists sv0, V0 !! p = Some sv0 /\ life E (sv_life sv0) (on p tr) (sv_life sv).
Proof.
  intros Hr. revert p sv. induction Hr as [|tr V p sv ev st' l ph' Hr IH Hp Ha Hev Hn Hk Hans
    |tr V p d u r iso sv O ev st' l Hr IH Hw Hu Hpe Hp Ha Hput Hev|tr V p sv b Hr IH Hp]; intros q sv1 Hq.
  - exists sv1. split; [done|constructor].
  - rewrite on_snoc. cbn [e_who e_before e_what e_effects]. apply lookup_insert_Some in Hq as [[<- <-]|[Hne Hq]].
    + destruct (IH _ _ Hp) as (sv0 & H1 & H2). exists sv0. split; [done|].
      rewrite decide_True by done. econstructor; done.
    + rewrite decide_False by done. rewrite app_nil_r. apply IH. done.
  - rewrite on_snoc. cbn [e_who e_before e_what e_effects]. apply lookup_insert_Some in Hq as [[<- <-]|[Hne Hq]].
    + destruct (IH _ _ Hp) as (sv0 & H1 & H2). exists sv0. split; [done|].
      rewrite decide_True by done. econstructor; done.
    + rewrite decide_False by done. rewrite app_nil_r. apply IH. done.
  - apply lookup_insert_Some in Hq as [[<- <-]|[Hne Hq]]; cbn; apply IH; done.
Qed.

(** ** The invariant *)
Definition owner (p : string) (rv : rev) : string := if decide (r_server rv = "") then p else r_server rv.
Record CI (tr : list entry) (V : gmap string server) : Prop := {
  ci_files : forall p d, was tr V p d -> rev_files_ok d;
  ci_beh : forall p, is_Some (V !! p) -> Forall behaves (on p tr);
  ci_rest : forall p sv, V !! p = Some sv -> sv_active sv = false -> sv_phase sv = Waiting;
  ci_orig : forall p d u rv, was tr V p d -> d_revs d !! u = Some rv ->
    (r_server rv <> "" -> is_clean rv = true) /\
    exists j r, makes_at tr j (owner p rv) r /\ r_uuid r = u /\ r_ts rv = r_ts r /\ r_tags rv ⊆ r_tags r /\
      (is_clean rv = true -> completed_at tr j (owner p rv) r);
  ci_tidy : forall p sv u rv, V !! p = Some sv -> sv_phase sv = Tidied \/ sv_phase sv = Pulled ->
    d_revs (lf_disk (sv_life sv)) !! u = Some rv -> is_clean rv = true;
  ci_copy : forall i p r t q d rv, completed_at tr i p r -> t ∈ r_tags r -> spared_at tr i (r_ts r) t ->
    was tr V q d -> d_revs d !! r_uuid r = Some rv -> t ∈ r_tags rv;
  ci_keep : forall i p r t, completed_at tr i p r -> t ∈ r_tags r -> spared_at tr i (r_ts r) t ->
    exists sv rv, V !! p = Some sv /\ d_revs (lf_disk (sv_life sv)) !! r_uuid r = Some rv /\
      is_clean rv = true /\ r_server rv = "" }.
Lemma was_step tr V p sv ev l st' ph' b q d : V !! p = Some sv ->
  was (tr ++ [MkEntry p (sv_life sv) ev l st']) (<[p := MkServer st' ph' b]> V) q d <->
  was tr V q d \/ (q = p /\ d = lf_disk st').
Proof.
  intros Hp. split.
  - intros [(sv1 & H1 & H2)|(e & H1 & H2 & H3)].
    + apply lookup_insert_Some in H1 as [[<- <-]|[Hne H1]]; [auto|]. left. left. eauto.
    + apply elem_of_app in H1 as [H1|H1]; [left; right; eauto|].
      apply elem_of_list_singleton in H1 as ->. cbn in H2, H3. subst. left. left. eauto.
  - intros [[(sv1 & H1 & H2)|(e & H1 & H2 & H3)]|[-> ->]].
    + destruct (decide (q = p)) as [->|Hne].
      * right. eexists. split; [apply elem_of_app; right; left|]. cbn. split; [done|]. congruence.
      * left. exists sv1. rewrite lookup_insert_ne by done. done.
    + right. exists e. split; [apply elem_of_app; auto|done].
    + left. eexists. split; [apply lookup_insert|done].
Qed.
(** In the view of a server, the newer copies are completed backups. *)
Lemma not_outdated_at tr V p sv O i po r t it now rv : orders_ok O -> CI tr V -> NoDup (ids tr) ->
  V !! p = Some sv -> sv_phase sv = Pulled ->
  makes_at tr i po r -> d_revs (lf_disk (sv_life sv)) !! r_uuid r = Some rv -> r_ts rv = r_ts r ->
  ((now - i_keep it * i_interval it <= r_ts r)%Z \/
   ~ exists js, NoDup js /\ Z.of_nat (length js) = i_keep it /\
       forall k, k ∈ js -> k <> i /\ k < length tr /\
         exists p r', completed_at tr k p r' /\ t ∈ r_tags r' /\ (r_ts r <= r_ts r')%Z) ->
  ~ outdated (scan_disk O (lf_disk (sv_life sv))) now t it rv.
Proof.
  intros HO HCI Hids Hp Hph Hi Hrv Hts [Hw|Hn] (_ & Hpos & (a & b & Hh & Hlen) & Hold); [lia|].
  assert (Hwas : was tr V p (lf_disk (sv_life sv))) by (left; eauto).
  pose proof (ci_files _ _ HCI _ _ Hwas) as Hf.
  apply Hn. clear Hn. set (h := scan_disk O (lf_disk (sv_life sv))) in *. set (fb := filter (fun x => t ∈ r_tags x) b) in *.
  assert (Hnd : NoDup (map r_uuid h)) by apply scan_disk_nodup.
  assert (Hso : StronglySorted by_time h).
  { unfold h, scan_disk. apply scan_list_sorted. }
  rewrite Hh in Hso, Hnd. rewrite map_app in Hnd. cbn [map] in Hnd. apply NoDup_app in Hnd as (_ & _ & Hnd).
  apply NoDup_cons in Hnd as [Hnd1 Hnd2].
  assert (Hsb : Forall (by_time rv) b).
  { clear -Hso. induction a as [|y a IH]; cbn in Hso; apply StronglySorted_inv in Hso as [H1 H2]; auto. }
  set (R := fun (x : rev) (j : nat) => exists px rx, r_uuid rx = r_uuid x /\ r_ts x = r_ts rx /\
    r_tags x ⊆ r_tags rx /\ completed_at tr j px rx).
  destruct (PRounds.choose R fb) as [m Hm].
  { intros x Hx. apply elem_of_list_filter in Hx as [_ Hx].
    assert (Hin : x ∈ h) by (rewrite Hh; apply elem_of_app; right; right; done).
    apply scan_disk_elem in Hin; [|done..].
    destruct (ci_orig _ _ HCI _ _ _ _ Hwas Hin) as (_ & j & rx & H1 & H2 & H3 & H4 & H5).
    exists j, (owner p x), rx. split; [done|]. split; [done|]. split; [done|]. apply H5. eapply (ci_tidy _ _ HCI); [done|auto|done]. }
  assert (Hnm : NoDup m).
  { assert (Hnf : NoDup (map r_uuid fb)).
    { unfold fb. clear -Hnd2. induction b as [|x b IH]; [constructor|]. cbn [map] in Hnd2.
      apply NoDup_cons in Hnd2 as [H1 H2]. rewrite filter_cons. destruct (decide _); [|auto].
      cbn [map]. apply NoDup_cons. split; [|auto]. intros Hx. apply H1.
      apply elem_of_list_fmap in Hx as (y & -> & Hy). apply elem_of_list_filter in Hy as [_ Hy].
      apply elem_of_list_fmap. eauto. }
    clear -Hm Hnf. induction Hm as [|x j fb m HR Hm IH]; [constructor|]. cbn [map] in Hnf.
    apply NoDup_cons in Hnf as [H1 H2]. apply NoDup_cons. split; [|auto]. intros Hj. apply H1.
    apply elem_of_list_lookup in Hj as [n Hj]. destruct (Forall2_lookup_r _ _ _ _ _ Hm Hj) as (y & Hy & HRy).
    destruct HR as (px & rx & A1 & _ & _ & A2), HRy as (py & ry & B1 & _ & _ & B2).
    destruct (makes_at_fun _ _ _ _ _ _ (completed_makes _ _ _ _ A2) (completed_makes _ _ _ _ B2)) as [_ Hxy].
    rewrite <- A1, Hxy, B1. apply elem_of_list_fmap.
    exists y. split; [done|]. eapply elem_of_list_lookup_2. done. }
  exists (take (Z.to_nat (i_keep it)) m). split; [rewrite <- (take_drop (Z.to_nat (i_keep it)) m) in Hnm; apply NoDup_app in Hnm; tauto|]. split.
  { rewrite take_length. apply Forall2_length in Hm. unfold zlen in Hlen. lia. }
  intros k Hk. apply elem_of_take in Hk as (n & Hn & _).
  destruct (Forall2_lookup_r _ _ _ _ _ Hm Hn) as (x & Hx & px & rx & A2 & A3 & A4 & A5).
  apply elem_of_list_lookup_2 in Hx. apply elem_of_list_filter in Hx as [Htx Hxb].
  rewrite Forall_forall in Hsb. pose proof (Hsb x Hxb) as Hxt. unfold by_time in Hxt.
  split; [|split; [eapply makes_at_lt; apply completed_makes; done|exists px, rx; split; [done|split; [set_solver|lia]]]].
  intros ->. destruct (makes_at_fun _ _ _ _ _ _ (completed_makes _ _ _ _ A5) Hi) as [_ ->].
  apply Hnd1. apply elem_of_list_fmap. exists x. split; [|done]. rewrite <- A2. symmetry. rewrite (Hf _ _ Hrv). done.
Qed.
(** What a command may find. *)
Definition legit (tr : list entry) (V : gmap string server) (p : string) (sv : server) (ev : event) (ph' : Rounds.phase) : Prop :=
  match cmd_of ev with
  | None => ph' = sv_phase sv
  | Some c =>
      match c with
      | LBackup _ _ _ _ => knows (sv_life sv) ev
      | LClean | LGc | LPush _ => True
      | LPull _ _ _ => answered tr V p ev
      | LExpire _ _ _ => sv_phase sv = Pulled
      | LTags _ _ _ _ _ _ _ _ => exists p0 d0 u0 r0 iso, was tr V p0 d0 /\ d_revs d0 !! u0 = Some r0 /\
          r_server r0 = p /\ pending r0 = true /\ c = Cluster.put iso r0
      | _ => False
      end /\
      (ph' = Tidied \/ ph' = Pulled -> exists O, ev = Ran O LClean (Ok true) \/
         (sv_phase sv = Tidied /\ exists same peers replies, ev = Ran O (LPull same peers replies) (Ok true)))
  end.
Lemma legit_own tr V p sv ev ph' : step_phase (sv_phase sv) ev = Some ph' -> knows (sv_life sv) ev ->
  answered tr V p ev -> legit tr V p sv ev ph'.
Proof.
  unfold legit. destruct ev as [O c x|O c|]; cbn [cmd_of].
  - intros Hs Hk Ha. split.
    + destruct c; try done; cbn in Hs; destruct x as [[]|]; destruct (sv_phase sv); done.
    + intros Hph. exists O.
      destruct c, x as [[]|]; cbn in Hs; destruct (sv_phase sv); try done; try (injection Hs as <-; destruct Hph; done);
        try (left; done); try (right; split; [done|eexists _, _, _; done]);
        try (destruct peers, replies; done).
  - intros Hs Hk Ha. split.
    + destruct c; try done; cbn in Hs; destruct (sv_phase sv); done.
    + intros Hph. exfalso. destruct c; cbn in Hs; destruct (sv_phase sv); try done; try (injection Hs as <-; destruct Hph; done);
        try (destruct peers, replies; done).
  - intros Hs _ _. cbn in Hs. congruence.
Qed.
