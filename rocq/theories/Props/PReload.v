(** C46, C65: applying a configuration. *)
From Verif Require Import Model.Daemon.

(** The states a daemon reaches by successful reloads (starting is the first one); in
    between the task of a job may die. *)
Definition lose_task (t : nat) (d : daemon) : daemon :=
  MkDaemon (dm_jobs d) (dm_dead d) (dm_scheds d) (dm_heap d) (dm_next d) (dm_alive d ∖ {[t]}) (dm_events d).
Inductive reached (ok : config -> Prop) : daemon -> Prop :=
| re_init : reached ok daemon_init
| re_reload conn c dirs d d' :
    reached ok d -> NoDup (map fst (cf_jobs c)) -> NoDup (map fst (cf_schedules c)) -> ok c ->
    reload conn c dirs d = (d', Ok tt) -> reached ok d'
| re_die t d : reached ok d -> reached ok (lose_task t d).

(** The events about the job [n]. *)
Definition about (n : string) (evs : list jev) : list jev := filter (fun e => ev_name e = n) evs.

(** ** Invariants *)
Definition dinv (d : daemon) : Prop :=
  (forall n j, dm_jobs d !! n = Some j ->
     exists c t id, j = MkJob (Some c) (Some t) (Some id) /\ (t < dm_next d)%nat) /\
  (forall n m j k, dm_jobs d !! n = Some j -> dm_jobs d !! m = Some k -> j_task j = j_task k -> n = m) /\
  (forall s id, dm_scheds d !! s = Some id -> (id < dm_next d)%nat) /\
  (forall s s' id, dm_scheds d !! s = Some id -> dm_scheds d !! s' = Some id -> s = s').

Definition apply_ev (a : gset nat) (e : jev) : gset nat :=
  match e with EvStop _ t => a ∖ {[t]} | EvStart _ t => {[t]} ∪ a end.
(** What a part of a reload that concerns the jobs in [N] does. *)
Definition part (N : list string) (d d' : daemon) (evs : list jev) : Prop :=
  dm_events d' = dm_events d ++ evs /\
  dm_alive d' = foldl apply_ev (dm_alive d) evs /\
  (dm_next d <= dm_next d')%nat /\
  (forall e, e ∈ evs -> ev_name e ∈ N) /\
  (forall n t, EvStop n t ∈ evs -> exists j, dm_jobs d !! n = Some j /\ j_task j = Some t) /\
  (forall n t, EvStart n t ∈ evs -> (dm_next d <= t < dm_next d')%nat) /\
  (forall m, m ∉ N -> dm_jobs d' !! m = dm_jobs d !! m) /\
  dm_scheds d' = dm_scheds d /\ dm_heap d' = dm_heap d.

Lemma part_nil d : part [] d d [].
Proof.
  split_and!; try done; try (by rewrite app_nil_r); intros; try (by apply elem_of_nil in H); done.
Qed.
Lemma part_app N1 N2 d1 d2 d3 e1 e2 :
  part N1 d1 d2 e1 -> part N2 d2 d3 e2 -> (forall n, n ∈ N1 -> n ∉ N2) ->
  part (N1 ++ N2) d1 d3 (e1 ++ e2).
Proof.
  intros (A1 & A2 & A3 & A4 & A5 & A6 & A7 & A8 & A9) (B1 & B2 & B3 & B4 & B5 & B6 & B7 & B8 & B9) Hd.
  split_and!.
  - by rewrite B1, A1, app_assoc.
  - by rewrite B2, A2, foldl_app.
  - lia.
  - intros e [H|H]%elem_of_app; apply elem_of_app; auto.
  - intros n t [H|H]%elem_of_app; [auto|]. destruct (B5 n t H) as (j & Hj & Ht).
    exists j. split; [|done]. rewrite <- A7; [done|]. intros Hn. apply (Hd n Hn).
    apply (B4 _ H).
  - intros n t [H|H]%elem_of_app; [specialize (A6 n t H)|specialize (B6 n t H)]; lia.
  - intros m Hm. rewrite elem_of_app in Hm. rewrite B7, A7; tauto.
  - congruence.
  - congruence.
Qed.

(** ** One job *)
(** What happened to the job [n] configured as [c]. *)
Definition job_result (n : string) (c : jcfg) (d d' : daemon) (evs : list jev) : Prop :=
  match dm_jobs d !! n with
  | Some j =>
      (j_last j = Some c -> dm_jobs d' !! n = Some j /\ evs = []) /\
      (j_last j <> Some c -> exists t t' id, j_task j = Some t /\
         dm_jobs d' !! n = Some (MkJob (Some c) (Some t') (Some id)) /\
         (exists s, c_schedule c = Some s /\ dm_scheds d !! s = Some id) /\
         evs = [EvStop n t; EvStart n t'])
  | None => exists t' id,
      dm_jobs d' !! n = Some (MkJob (Some c) (Some t') (Some id)) /\
      (exists s, c_schedule c = Some s /\ dm_scheds d !! s = Some id) /\
      evs = [EvStart n t']
  end.
Lemma configure_ok scheds conn c j j' : configure_job scheds conn c j = Ok j' ->
  exists s id, c_schedule c = Some s /\ scheds !! s = Some id /\ j' = MkJob (Some c) (j_task j) (Some id).
Proof.
  unfold configure_job. destruct (c_schedule c) as [s|]; [|done].
  destruct (scheds !! s) as [id|] eqn:E; [|done]. destruct (c_source c); [|done].
  destruct conn; [|done]. intros [= <-]. by exists s, id.
Qed.
Lemma dinv_start n c id d :
  dinv d -> dinv (start_job n (MkJob (Some c) None (Some id)) d).
Proof.
  intros (I1 & I2 & I3 & I4). unfold start_job; cbn. split_and!; cbn.
  - intros m j. destruct (decide (m = n)) as [->|Hm].
    + rewrite lookup_insert. intros [= <-]. eexists _, _, _. split; [done|lia].
    + rewrite lookup_insert_ne by done. intros Hj. destruct (I1 m j Hj) as (c' & t & i & -> & Ht).
      eexists _, _, _. split; [done|lia].
  - intros m m' j k. destruct (decide (m = n)) as [->|Hm]; destruct (decide (m' = n)) as [->|Hm']; [done| | |].
    + rewrite lookup_insert, lookup_insert_ne by done. intros [= <-] Hk Ht. cbn in Ht.
      destruct (I1 m' k Hk) as (c' & t & i & -> & Hlt). cbn in Ht. injection Ht as <-. lia.
    + rewrite lookup_insert, lookup_insert_ne by done. intros Hj [= <-] Ht. cbn in Ht.
      destruct (I1 m j Hj) as (c' & t & i & -> & Hlt). cbn in Ht. injection Ht as ->. lia.
    + rewrite !lookup_insert_ne by done. apply I2.
  - intros s i Hs. specialize (I3 s i Hs). lia.
  - done.
Qed.
Lemma dinv_same d d' : dm_jobs d' = dm_jobs d -> dm_scheds d' = dm_scheds d -> dm_next d' = dm_next d ->
  dinv d -> dinv d'.
Proof. intros H1 H2 H3. unfold dinv. by rewrite H1, H2, H3. Qed.
Lemma apply_job_ok conn n c d d' :
  dinv d -> apply_job conn n c d = (d', Ok tt) ->
  dinv d' /\ exists evs, part [n] d d' evs /\ job_result n c d d' evs.
Proof.
  intros Hi H. unfold apply_job in H. destruct (dm_jobs d !! n) as [j|] eqn:Ej; cbn in H.
  - destruct (proj1 Hi n j Ej) as (c0 & t & id0 & -> & Ht). cbn in H.
    case_bool_decide as Hc.
    + injection H as <-. split; [done|]. exists []. split.
      * destruct (part_nil d) as (P1 & P2 & P3 & P4 & P5 & P6 & P7 & P8 & P9).
        split_and!; try done. intros e He. by apply elem_of_nil in He.
      * unfold job_result. rewrite Ej. cbn. split; [done|congruence].
    + destruct (configure_job _ _ _ _) as [j'|e] eqn:Ec; [|done]. injection H as <-.
      destruct (configure_ok _ _ _ _ _ Ec) as (s & id & Hs & Hid & ->). cbn in Hid |- *. split.
      * apply dinv_start. eapply dinv_same; [..|exact Hi]; done.
      * exists [EvStop n t; EvStart n (dm_next d)]. split.
        -- split_and!; cbn; try done; try lia.
           ++ by rewrite <- app_assoc.
           ++ intros e He. repeat (apply elem_of_cons in He as [->|He]; [by left|]). by apply elem_of_nil in He.
           ++ intros m u Hin. apply elem_of_cons in Hin as [[= -> ->]|Hin]; [eauto|]. by apply elem_of_list_singleton in Hin.
           ++ intros m u Hin. apply elem_of_cons in Hin as [?|Hin]; [done|].
              apply elem_of_list_singleton in Hin as [= -> ->]. lia.
           ++ intros m Hm. rewrite lookup_insert_ne; [done|]. intros ->. apply Hm. by left.
        -- unfold job_result. rewrite Ej. cbn. split; [congruence|]. intros _.
           exists t, (dm_next d), id. rewrite lookup_insert. split_and!; eauto.
  - cbn in H. destruct (configure_job _ _ _ _) as [j'|e] eqn:Ec; [|done]. injection H as <-.
    destruct (configure_ok _ _ _ _ _ Ec) as (s & id & Hs & Hid & ->). cbn in Hid |- *. split.
    + by apply dinv_start.
    + exists [EvStart n (dm_next d)]. split.
      * split_and!; cbn; try done; try lia.
        -- intros e He. apply elem_of_list_singleton in He as ->. by left.
        -- intros m u Hin. by apply elem_of_list_singleton in Hin.
        -- intros m u Hin. apply elem_of_list_singleton in Hin as [= -> ->]. lia.
        -- intros m Hm. rewrite lookup_insert_ne; [done|]. intros ->. apply Hm. by left.
      * unfold job_result. rewrite Ej. cbn. exists (dm_next d), id. rewrite lookup_insert. split_and!; eauto.
Qed.
Lemma about_other (N : list string) (evs : list jev) n :
  (forall e, e ∈ evs -> ev_name e ∈ N) -> n ∉ N -> about n evs = [].
Proof.
  intros H Hn. unfold about. induction evs as [|e l IH]; [done|].
  rewrite filter_cons_False.
  - apply IH. intros e' He'. apply H. by right.
  - intros <-. apply Hn, H. by left.
Qed.
Lemma about_self (evs : list jev) n : (forall e, e ∈ evs -> ev_name e ∈ [n]) -> about n evs = evs.
Proof.
  intros H. unfold about. induction evs as [|e l IH]; [done|].
  rewrite filter_cons_True.
  - f_equal. apply IH. intros e' He'. apply H. by right.
  - apply elem_of_list_singleton, H. by left.
Qed.
Lemma about_app n a b : about n (a ++ b) = about n a ++ about n b.
Proof. apply filter_app. Qed.

Lemma apply_jobs_ok conn l : forall d d',
  NoDup (map fst l) -> dinv d -> apply_jobs conn l d = (d', Ok tt) ->
  dinv d' /\ exists evs, part (map fst l) d d' evs /\
    forall n c, (n, c) ∈ l -> job_result n c d d' (about n evs).
Proof.
  induction l as [|[n c] l IH]; intros d d' Hnd Hi H; cbn in H.
  - injection H as <-. split; [done|]. exists []. split; [apply part_nil|].
    intros n c Hin. by apply elem_of_nil in Hin.
  - destruct (apply_job conn n c d) as [d1 [[]|e]] eqn:E; [|done].
    cbn in Hnd. apply NoDup_cons in Hnd as [Hn Hnd].
    destruct (apply_job_ok _ _ _ _ _ Hi E) as (Hi1 & e1 & P1 & R1).
    destruct (IH _ _ Hnd Hi1 H) as (Hi2 & e2 & P2 & R2). split; [done|].
    assert (Hdisj : forall m, m ∈ [n] -> m ∉ map fst l) by (intros m ->%elem_of_list_singleton; done).
    exists (e1 ++ e2). split; [exact (part_app [n] (map fst l) _ _ _ _ _ P1 P2 Hdisj)|].
    destruct P1 as (_ & _ & _ & N1 & _ & _ & J1 & S1 & _).
    destruct P2 as (_ & _ & _ & N2 & _ & _ & J2 & S2 & _).
    intros m cm Hin. apply elem_of_cons in Hin as [[= -> ->]|Hin]; rewrite about_app.
    + rewrite (about_self e1) by done. rewrite (about_other (map fst l) e2) by done. rewrite app_nil_r.
      unfold job_result in *. rewrite J2 by done. exact R1.
    + assert (Hm : m ∈ map fst l) by (apply elem_of_list_fmap; by exists (m, cm)).
      assert (Hmn : m ∉ [n]) by (intros ->%elem_of_list_singleton; done).
      rewrite (about_other [n] e1) by done. cbn [app].
      specialize (R2 m cm Hin). unfold job_result in *. rewrite J1, S1 in R2 by done. exact R2.
Qed.

(** ** Dropping jobs *)
Lemma drop_jobs_ok keep l : forall d, dinv d -> NoDup (map fst l) ->
  (forall n j, (n, j) ∈ l -> dm_jobs d !! n = Some j) ->
  let d' := drop_jobs keep l d in
  dinv d' /\ exists evs, part (filter (fun n => n ∉ keep) (map fst l)) d d' evs /\
    dm_next d' = dm_next d /\
    (forall n j, (n, j) ∈ l -> n ∉ keep ->
       dm_jobs d' !! n = None /\ exists t, j_task j = Some t /\ about n evs = [EvStop n t]).
Proof.
  induction l as [|[n j] l IH]; intros d Hi Hnd Hl; cbn zeta.
  - split; [done|]. exists []. split; [apply part_nil|]. split; [done|].
    intros n j Hin. by apply elem_of_nil in Hin.
  - cbn in Hnd. apply NoDup_cons in Hnd as [Hn Hnd].
    assert (Hj : dm_jobs d !! n = Some j) by (apply Hl; left).
    destruct (proj1 Hi n j Hj) as (c0 & t & id0 & -> & Ht).
    cbn [drop_jobs map fst]. destruct (decide (n ∈ keep)) as [Hk|Hk].
    + rewrite filter_cons_False by tauto.
      destruct (IH d Hi Hnd) as (Hi' & evs & P & Hx & R); [intros; apply Hl; by right|].
      split; [done|]. exists evs. split; [done|]. split; [done|].
      intros m k Hin Hm. apply elem_of_cons in Hin as [[= -> ->]|Hin]; [done|]. by apply R.
    + rewrite filter_cons_True by done. cbn [stop_job j_task snd dm_jobs dm_dead dm_scheds dm_heap dm_next dm_alive dm_events].
      set (d1 := MkDaemon (delete n (dm_jobs d)) _ _ _ _ _ _).
      assert (Hi1 : dinv d1).
      { destruct Hi as (I1 & I2 & I3 & I4). split_and!; cbn; [| |done|done].
        - intros m k Hm. apply lookup_delete_Some in Hm as [_ Hm]. by apply (I1 m).
        - intros m m' k k' Hm Hm'. apply lookup_delete_Some in Hm as [_ Hm].
          apply lookup_delete_Some in Hm' as [_ Hm']. by apply I2. }
      destruct (IH d1 Hi1 Hnd) as (Hi' & evs & P & Hx & R).
      { intros m k Hin. cbn. rewrite lookup_delete_ne; [apply Hl; by right|].
        intros <-. apply Hn. apply elem_of_list_fmap. by exists (n, k). }
      split; [done|]. exists ([EvStop n t] ++ evs).
      assert (P1 : part [n] d d1 [EvStop n t]).
      { split_and!; cbn; try done; try lia.
        - intros e He. apply elem_of_list_singleton in He as ->. by left.
        - intros m u Hin. apply elem_of_list_singleton in Hin as [= -> ->]. eauto.
        - intros m u Hin. by apply elem_of_list_singleton in Hin.
        - intros m Hm. rewrite lookup_delete_ne; [done|]. intros ->. apply Hm. by left. }
      assert (Hdisj : forall m, m ∈ [n] -> m ∉ filter (fun n => n ∉ keep) (map fst l)).
      { intros m ->%elem_of_list_singleton Hf. apply elem_of_list_filter in Hf as [_ Hf]. done. }
      split; [exact (part_app _ _ _ _ _ _ _ P1 P Hdisj)|]. split; [done|].
      destruct P as (_ & _ & _ & N2 & _ & _ & J2 & _).
      intros m k Hin Hm. apply elem_of_cons in Hin as [[= -> ->]|Hin]; rewrite about_app.
      * rewrite J2 by (apply Hdisj; by left). split; [apply lookup_delete|].
        exists t. split; [done|].
        rewrite (about_other _ evs n N2) by (apply Hdisj; by left).
        rewrite (about_self [EvStop n t] n); [done|]. intros e ->%elem_of_list_singleton. by left.
      * assert (m <> n) as Hmn.
        { intros ->. apply Hn. apply elem_of_list_fmap. by exists (n, k). }
        rewrite (about_other [n] [EvStop n t] m); [|intros e ->%elem_of_list_singleton; by left|
          by intros ?%elem_of_list_singleton].
        by apply R.
Qed.

(** ** Reading the schedules *)
Lemma read_schedules_spec l : forall old new heap nxt new' heap' nxt',
  NoDup (map fst l) ->
  (forall s id, old !! s = Some id -> (id < nxt)%nat) ->
  (forall s s' id, old !! s = Some id -> old !! s' = Some id -> s = s') ->
  (forall s id, new !! s = Some id -> s ∉ map fst l /\ (id < nxt)%nat /\
     forall s', old !! s' = Some id -> s' = s) ->
  (forall s s' id, new !! s = Some id -> new !! s' = Some id -> s = s') ->
  read_schedules l old new heap nxt = (new', heap', nxt') ->
  (nxt <= nxt')%nat /\
  (forall s id, new' !! s = Some id -> (id < nxt')%nat) /\
  (forall s s' id, new' !! s = Some id -> new' !! s' = Some id -> s = s') /\
  (forall s id, new !! s = Some id -> new' !! s = Some id /\ heap' !! id = heap !! id) /\
  (forall s x, (s, x) ∈ l -> exists id, new' !! s = Some id /\ heap' !! id = Some x /\
     (forall i, old !! s = Some i -> id = i)) /\
  (forall s, is_Some (new' !! s) -> is_Some (new !! s) \/ s ∈ map fst l).
Proof.
  induction l as [|[s x] l IH]; intros old new heap nxt new' heap' nxt' Hnd Ho Hoi Hn Hni H; cbn in H.
  - injection H as <- <- <-. split_and!; try done.
    + intros s id Hs. by apply (Hn s).
    + intros s x Hin. by apply elem_of_nil in Hin.
    + intros s Hs. by left.
  - cbn in Hnd. apply NoDup_cons in Hnd as [Hs Hnd].
    set (id := default nxt (old !! s)).
    set (nx := if decide (is_Some (old !! s)) then nxt else Datatypes.S nxt).
    assert (H' : read_schedules l old (<[s := id]> new) (<[id := x]> heap) nx = (new', heap', nxt')).
    { unfold id, nx. destruct (old !! s) as [i|]; cbn.
      - rewrite decide_True by (by eexists). exact H.
      - rewrite decide_False by (intros [? ?]; done). exact H. }
    assert (Hid : (id < nx)%nat /\ (nxt <= nx)%nat /\ (forall i, old !! s = Some i -> id = i) /\
                  (forall s', old !! s' = Some id -> s' = s) /\
                  (forall s', new !! s' = Some id -> s' = s)).
    { unfold id, nx. destruct (old !! s) as [i|] eqn:E; cbn.
      - rewrite decide_True by (by eexists). split_and!; [by apply (Ho s)|lia|congruence| |].
        + intros s' Hs'. by apply (Hoi _ _ i).
        + intros s' Hs'. symmetry. apply (proj2 (proj2 (Hn s' i Hs'))). done.
      - rewrite decide_False by (intros [? ?]; done). split_and!; [lia|lia|done| |].
        + intros s' Hs'. apply Ho in Hs'. lia.
        + intros s' Hs'. apply Hn in Hs' as (_ & ? & _). lia. }
    clearbody id nx. clear H. destruct Hid as (Hid & Hnx & Hidold & Hidu & Hidn).
    apply IH in H'; [|done|intros s' i Hs'; specialize (Ho s' i Hs'); lia|done| |].
    + destruct H' as (A1 & A2 & A3 & A4 & A5 & A6). split_and!; [lia|done|done| | |].
      * intros s' i Hs'. assert (s' <> s) as Hne.
        { intros ->. apply Hn in Hs' as (Hx & _). apply Hx. by left. }
        destruct (A4 s' i) as [B1 B2]; [by rewrite lookup_insert_ne|]. split; [done|].
        rewrite B2. rewrite lookup_insert_ne; [done|]. intros <-. by apply Hne, Hidn.
      * intros s' y Hin. apply elem_of_cons in Hin as [[= -> ->]|Hin]; [|by apply A5].
        destruct (A4 s id) as [B1 B2]; [by rewrite lookup_insert|].
        exists id. rewrite B2, lookup_insert. done.
      * intros s' Hs'. destruct (A6 s' Hs') as [Hx|Hx]; [|right; by right].
        apply lookup_insert_is_Some' in Hx as [->|Hx]; [right; by left|by left].
    + intros s' i Hs'. destruct (decide (s' = s)) as [->|Hne].
      * rewrite lookup_insert in Hs'. injection Hs' as <-. split_and!; [done|done|]. auto.
      * rewrite lookup_insert_ne in Hs' by done. destruct (Hn s' i Hs') as (B1 & B2 & B3).
        split_and!; [|lia|done]. intros Hx. apply B1. by right.
    + intros s1 s2 i H1 H2.
      destruct (decide (s1 = s)) as [->|N1]; destruct (decide (s2 = s)) as [->|N2]; [done| | |].
      * rewrite lookup_insert in H1. injection H1 as <-. rewrite lookup_insert_ne in H2 by done.
        symmetry. by apply Hidn.
      * rewrite lookup_insert in H2. injection H2 as <-. rewrite lookup_insert_ne in H1 by done.
        by apply Hidn.
      * rewrite lookup_insert_ne in H1, H2 by done. by apply (Hni _ _ i).
Qed.
Lemma read_config_spec c d : dinv d -> NoDup (map fst (cf_schedules c)) ->
  let d' := read_config c d in
  dinv d' /\ dm_jobs d' = dm_jobs d /\ dm_alive d' = dm_alive d /\ dm_events d' = dm_events d /\
  (dm_next d <= dm_next d')%nat /\
  (forall s x, (s, x) ∈ cf_schedules c -> exists id, dm_scheds d' !! s = Some id /\
     dm_heap d' !! id = Some x /\ (forall i, dm_scheds d !! s = Some i -> id = i)) /\
  (forall s, is_Some (dm_scheds d' !! s) -> s ∈ map fst (cf_schedules c)).
Proof.
  intros (I1 & I2 & I3 & I4) Hnd. unfold read_config.
  destruct (read_schedules _ _ _ _ _) as [[sc heap] nxt] eqn:E.
  apply read_schedules_spec in E as (A1 & A2 & A3 & A4 & A5 & A6);
    [|done|done|done|intros s id Hs; by rewrite lookup_empty in Hs|intros s s' id Hs; by rewrite lookup_empty in Hs].
  cbn. split_and!; try done.
  - split_and!; cbn; try done.
    intros n j Hj. destruct (I1 n j Hj) as (c0 & t & i & -> & Ht). eexists _, _, _. split; [done|lia].
  - intros s Hs. destruct (A6 s Hs) as [[? Hx]|?]; [by rewrite lookup_empty in Hx|done].
Qed.

(** ** The whole reload *)
Lemma reload_ok conn c dirs d d' :
  dinv d -> NoDup (map fst (cf_jobs c)) -> NoDup (map fst (cf_schedules c)) ->
  reload conn c dirs d = (d', Ok tt) ->
  dinv d' /\ exists evs d1 evs1 evs2, evs = evs1 ++ evs2 /\
    dm_events d' = dm_events d ++ evs /\
    dm_alive d' = foldl apply_ev (dm_alive d) evs /\
    (forall n t, EvStop n t ∈ evs -> exists j, dm_jobs d !! n = Some j /\ j_task j = Some t) /\
    (forall n t, EvStart n t ∈ evs -> (dm_next d <= t)%nat) /\
    dm_scheds d' = dm_scheds (read_config c d) /\ dm_heap d' = dm_heap (read_config c d) /\
    dm_scheds d1 = dm_scheds (read_config c d) /\ dm_jobs d1 = dm_jobs d /\
    (forall n cf, (n, cf) ∈ cf_jobs c -> job_result n cf d1 d' (about n evs)) /\
    (forall n, n ∉ map fst (cf_jobs c) -> dm_jobs d' !! n = None /\
       match dm_jobs d !! n with
       | Some j => exists t, j_task j = Some t /\ about n evs = [EvStop n t]
       | None => about n evs = []
       end) /\
    dm_dead d' = dead_repos d' dirs.
Proof.
  intros Hi Hn1 Hn2 H. unfold reload, apply_config in H.
  destruct (read_config_spec c d Hi Hn2) as (Hi0 & J0 & L0 & V0 & X0 & S0 & S0').
  set (d0 := read_config c d) in *.
  destruct (apply_jobs conn (cf_jobs c) d0) as [d2 [[]|e]] eqn:E; [|done].
  destruct (apply_jobs_ok _ _ _ _ Hn1 Hi0 E) as (Hi2 & e1 & P1 & R1).
  destruct (drop_jobs_ok (map fst (cf_jobs c)) (map_to_list (dm_jobs d2)) d2 Hi2) as (Hi3 & e2 & P2 & X2 & R2).
  { apply NoDup_fst_map_to_list. }
  { intros n j Hin. by apply elem_of_map_to_list. }
  set (d3 := drop_jobs _ _ d2) in *.
  injection H as <-. split; [eapply dinv_same; [..|exact Hi3]; done|].
  exists (e1 ++ e2), d0, e1, e2. cbn.
  destruct P1 as (A1 & A2 & A3 & A4 & A5 & A6 & A7 & A8 & A9).
  destruct P2 as (B1 & B2 & B3 & B4 & B5 & B6 & B7 & B8 & B9).
  set (N2 := filter (fun n => n ∉ map fst (cf_jobs c)) (map fst (map_to_list (dm_jobs d2)))) in *.
  assert (Hdisj : forall n, n ∈ map fst (cf_jobs c) -> n ∉ N2).
  { intros n Hn Hf. apply elem_of_list_filter in Hf as [Hf _]. done. }
  split_and!; [done| | | | | | |done|done| | |].
  - by rewrite B1, A1, V0, app_assoc.
  - by rewrite B2, A2, L0, foldl_app.
  - intros n t [Hin|Hin]%elem_of_app.
    + destruct (A5 n t Hin) as (j & Hj & Ht). rewrite J0 in Hj. eauto.
    + destruct (B5 n t Hin) as (j & Hj & Ht). exists j. split; [|done]. rewrite <- J0, <- A7; [done|].
      intros Hx. by apply (Hdisj n Hx), (B4 _ Hin).
  - intros n t [Hin|Hin]%elem_of_app; [specialize (A6 n t Hin)|specialize (B6 n t Hin)]; lia.
  - congruence.
  - congruence.
  - intros n cf Hin. assert (Hn : n ∈ map fst (cf_jobs c)) by (apply elem_of_list_fmap; by exists (n, cf)).
    rewrite about_app, (about_other N2 e2), app_nil_r by auto.
    specialize (R1 n cf Hin). unfold job_result in *. cbn. rewrite B7 by auto. exact R1.
  - intros n Hn. rewrite about_app, (about_other _ e1 n A4 Hn). cbn [app].
    specialize (A7 n Hn). rewrite J0 in A7. rewrite <- A7.
    destruct (dm_jobs d2 !! n) as [j|] eqn:Ej.
    + apply elem_of_map_to_list in Ej. destruct (R2 n j Ej Hn) as [? ?]. done.
    + assert (n ∉ N2) as Hx.
      { intros Hf. apply elem_of_list_filter in Hf as [_ Hf].
        apply elem_of_list_fmap in Hf as ([n' j] & -> & Hin). apply elem_of_map_to_list in Hin. cbn in *. congruence. }
      rewrite B7 by done. split; [done|]. by apply (about_other N2).
  - done.
Qed.
Lemma reached_inv ok d : reached ok d -> dinv d.
Proof.
  induction 1 as [|conn c dirs d d' _ IH H1 H2 _ H|t d _ IH].
  - split_and!; cbn; intros; try done.
  - by eapply reload_ok.
  - eapply dinv_same; [..|exact IH]; done.
Qed.

Lemma fold_alive_other (t : nat) evs : forall a,
  (forall n, EvStop n t ∉ evs) -> (forall n, EvStart n t ∉ evs) ->
  (t ∈ foldl apply_ev a evs <-> t ∈ a).
Proof.
  induction evs as [|e l IH]; intros a H1 H2; cbn; [done|].
  rewrite IH; [|intros n Hn; apply (H1 n); by right|intros n Hn; apply (H2 n); by right].
  destruct e as [n u|n u]; cbn.
  - assert (u <> t) by (intros ->; apply (H1 n); by left). set_solver.
  - assert (u <> t) by (intros ->; apply (H2 n); by left). set_solver.
Qed.
Lemma fold_alive_stopped (t : nat) evs : forall a,
  (exists n, EvStop n t ∈ evs) -> (forall n, EvStart n t ∉ evs) -> t ∉ foldl apply_ev a evs.
Proof.
  induction evs as [|e l IH]; intros a [n H1] H2; [by apply elem_of_nil in H1|]. cbn.
  assert (H2' : forall n, EvStart n t ∉ l) by (intros m Hm; apply (H2 m); by right).
  apply elem_of_cons in H1 as [<-|H1]; [|apply IH; eauto]. cbn.
  assert (Hgen : forall a, t ∉ a -> t ∉ foldl apply_ev a l).
  { clear -H2'. induction l as [|e l IH]; intros a Ha; cbn; [done|].
    apply IH; [intros m Hm; apply (H2' m); by right|].
    destruct e as [m u|m u]; cbn; [set_solver|].
    assert (u <> t) by (intros ->; apply (H2' m); by left). set_solver. }
  apply Hgen. set_solver.
Qed.
Lemma fold_alive_started (t : nat) evs : forall a,
  (exists n, EvStart n t ∈ evs) -> (forall n, EvStop n t ∉ evs) -> t ∈ foldl apply_ev a evs.
Proof.
  induction evs as [|e l IH]; intros a [n H1] H2; [by apply elem_of_nil in H1|]. cbn.
  assert (H2' : forall n, EvStop n t ∉ l) by (intros m Hm; apply (H2 m); by right).
  apply elem_of_cons in H1 as [<-|H1]; [|apply IH; eauto]. cbn.
  assert (Hgen : forall a, t ∈ a -> t ∈ foldl apply_ev a l).
  { clear -H2'. induction l as [|e l IH]; intros a Ha; cbn; [done|].
    apply IH; [intros m Hm; apply (H2' m); by right|].
    destruct e as [m u|m u]; cbn; [|set_solver].
    assert (u <> t) by (intros ->; apply (H2' m); by left). set_solver. }
  apply Hgen. set_solver.
Qed.

(** C46: after any history of successful reloads, a reload that succeeds leaves exactly
    the configured jobs, each with its new configuration.  A job whose configuration did
    not change is not touched: same object, same task, neither stopped nor started
    (so it runs afterwards if it ran before).  A changed job is stopped once and
    started once, a new job is started once, and a removed job is stopped.  The
    other directories become the inactive repositories. *)
Theorem C46_reload (ok : config -> Prop) d conn c dirs d' :
  reached ok d -> NoDup (map fst (cf_jobs c)) -> NoDup (map fst (cf_schedules c)) ->
  reload conn c dirs d = (d', Ok tt) ->
  exists evs, dm_events d' = dm_events d ++ evs /\
  (forall n, is_Some (dm_jobs d' !! n) <-> n ∈ map fst (cf_jobs c)) /\
  (forall n cf, (n, cf) ∈ cf_jobs c ->
     exists j', dm_jobs d' !! n = Some j' /\ j_last j' = Some cf /\
     match dm_jobs d !! n with
     | Some j =>
         (j_last j = Some cf -> j' = j /\ about n evs = [] /\
            exists t, j_task j = Some t /\ (t ∈ dm_alive d' <-> t ∈ dm_alive d)) /\
         (j_last j <> Some cf -> exists t t', j_task j = Some t /\ j_task j' = Some t' /\
            about n evs = [EvStop n t; EvStart n t'] /\ t ∉ dm_alive d' /\ t' ∈ dm_alive d')
     | None => exists t', j_task j' = Some t' /\ about n evs = [EvStart n t'] /\ t' ∈ dm_alive d'
     end) /\
  (forall n j, dm_jobs d !! n = Some j -> n ∉ map fst (cf_jobs c) ->
     exists t, j_task j = Some t /\ about n evs = [EvStop n t] /\ t ∉ dm_alive d') /\
  (forall n, n ∈ dm_dead d' <-> (n, true) ∈ dirs /\ n ∉ map fst (cf_jobs c)).
Proof.
  intros Hr Hn1 Hn2 H. pose proof (reached_inv _ _ Hr) as Hi.
  destruct (reload_ok _ _ _ _ _ Hi Hn1 Hn2 H)
    as (Hi' & evs & d1 & e1 & e2 & _ & Hev & Hal & Hstop & Hstart & _ & _ & _ & J1 & Hres & Hgone & Hdead).
  destruct Hi as (I1 & I2 & I3 & I4).
  assert (Hin : forall n e, e ∈ about n evs -> e ∈ evs).
  { intros n e He. apply elem_of_list_filter in He. tauto. }
  assert (Hfresh : forall n t, EvStart n t ∈ evs -> forall m, EvStop m t ∉ evs).
  { intros n t H1 m H2. apply Hstart in H1. apply Hstop in H2 as (j & Hj & Ht).
    destruct (I1 m j Hj) as (?&?&?&->&?). cbn in Ht. injection Ht as ->. lia. }
  assert (Hst : forall n t, EvStop n t ∈ evs -> t ∉ dm_alive d').
  { intros n t H1. rewrite Hal. apply fold_alive_stopped; [eauto|]. intros m H2. by apply (Hfresh m t H2 n). }
  assert (Hsa : forall n t, EvStart n t ∈ evs -> t ∈ dm_alive d').
  { intros n t H1. rewrite Hal. apply fold_alive_started; [eauto|]. by eapply Hfresh. }
  exists evs. split; [done|].
  assert (Hjobs : forall n cf, (n, cf) ∈ cf_jobs c ->
     exists j', dm_jobs d' !! n = Some j' /\ j_last j' = Some cf /\
     match dm_jobs d !! n with
     | Some j =>
         (j_last j = Some cf -> j' = j /\ about n evs = [] /\
            exists t, j_task j = Some t /\ (t ∈ dm_alive d' <-> t ∈ dm_alive d)) /\
         (j_last j <> Some cf -> exists t t', j_task j = Some t /\ j_task j' = Some t' /\
            about n evs = [EvStop n t; EvStart n t'] /\ t ∉ dm_alive d' /\ t' ∈ dm_alive d')
     | None => exists t', j_task j' = Some t' /\ about n evs = [EvStart n t'] /\ t' ∈ dm_alive d'
     end).
  { intros n cf Hc. specialize (Hres n cf Hc). unfold job_result in Hres. rewrite J1 in Hres.
    destruct (dm_jobs d !! n) as [j|] eqn:Ej.
    - destruct Hres as [R1 R2]. destruct (decide (j_last j = Some cf)) as [Hl|Hl].
      + destruct (R1 Hl) as [Hj He]. exists j. split_and!; [done|done| |done].
        intros _. split; [done|]. split; [done|].
        destruct (I1 n j Ej) as (cc & t & id & -> & Ht). exists t. split; [done|].
        rewrite Hal. apply fold_alive_other.
        * intros m Hm. destruct (Hstop m t Hm) as (k & Hk & Hkt).
          assert (n = m) as <- by (eapply I2; [exact Ej|exact Hk|by rewrite Hkt]).
          assert (EvStop n t ∈ about n evs) as Hx by (apply elem_of_list_filter; done).
          rewrite He in Hx. by apply elem_of_nil in Hx.
        * intros m Hm. apply Hstart in Hm. lia.
      + destruct (R2 Hl) as (t & t' & id & Ht & Hj & _ & He).
        eexists. split; [exact Hj|]. split; [done|]. split; [done|]. intros _.
        exists t, t'. split_and!; [done|done|done| |].
        * apply (Hst n), (Hin n). rewrite He. by left.
        * apply (Hsa n), (Hin n). rewrite He. right. by left.
    - destruct Hres as (t' & id & Hj & _ & He). eexists. split; [exact Hj|]. split; [done|].
      exists t'. split_and!; [done|done|]. apply (Hsa n), (Hin n). rewrite He. by left. }
  assert (Hdom : forall n, is_Some (dm_jobs d' !! n) <-> n ∈ map fst (cf_jobs c)).
  { intros n. split.
    - intros [j Hj]. destruct (decide (n ∈ map fst (cf_jobs c))) as [|Hn]; [done|].
      destruct (Hgone n Hn) as [Hx _]. congruence.
    - intros Hn. apply elem_of_list_fmap in Hn as ([m cf] & -> & Hc).
      destruct (Hjobs m cf Hc) as (j' & Hj & _). by eexists. }
  split_and!; [done|done| |].
  - intros n j Hj Hn. destruct (Hgone n Hn) as [_ Hx]. rewrite Hj in Hx.
    destruct Hx as (t & Ht & He). exists t. split_and!; [done|done|].
    apply (Hst n), (Hin n). rewrite He. by left.
  - intros n. rewrite Hdead. unfold dead_repos. rewrite elem_of_list_to_set, elem_of_list_fmap.
    rewrite <- (Hdom n). split.
    + intros ([m b] & -> & Hf). apply elem_of_list_filter in Hf as [[Hx Hb] Hf]. cbn in Hx, Hb |- *.
      subst b. split; [done|]. intros [? ?]. congruence.
    + intros [H1 H2]. exists (n, true). split; [done|]. apply elem_of_list_filter. split; [|done].
      split; [|done]. cbn. by apply eq_None_not_Some.
Qed.
Print Assumptions C46_reload.

(** A reload fails when a new or changed job names an unknown schedule, has no
    source or its repository cannot be opened; then nothing runs any longer. *)
Theorem C46_failure conn c dirs d n cf :
  NoDup (map fst (cf_jobs c)) -> NoDup (map fst (cf_schedules c)) -> dinv d ->
  (n, cf) ∈ cf_jobs c ->
  (forall j, dm_jobs d !! n = Some j -> j_last j <> Some cf) ->
  (c_source cf = None \/ (exists e, conn n = Err e) \/
   forall s, c_schedule cf = Some s -> s ∉ map fst (cf_schedules c)) ->
  exists d' e, reload conn c dirs d = (d', Err e) /\ dm_alive d' = ∅.
Proof.
  intros Hn1 Hn2 Hi Hin Hch Hbad.
  destruct (reload conn c dirs d) as [d' [[]|e]] eqn:E.
  - exfalso. pose proof E as E0. unfold reload, apply_config in E.
    destruct (apply_jobs conn (cf_jobs c) (read_config c d)) as [d2 [[]|e]] eqn:Ea; [|done].
    destruct (read_config_spec c d Hi Hn2) as (Hi0 & J0 & _ & _ & _ & _ & S0).
    (* the job's own configure succeeded *)
    assert (Hgen : forall l d0 d2, dinv d0 -> NoDup (map fst l) -> apply_jobs conn l d0 = (d2, Ok tt) ->
      dm_jobs d0 !! n = dm_jobs d !! n -> dm_scheds d0 = dm_scheds (read_config c d) -> (n, cf) ∈ l -> False).
    { clear -Hch Hbad S0. induction l as [|[m cm] l IH]; intros d0 d2 Hi0 Hnd Ha HJ HS Hin; [by apply elem_of_nil in Hin|].
      cbn in Ha. destruct (apply_job conn m cm d0) as [d1 [[]|e]] eqn:E1; [|done].
      cbn in Hnd. apply NoDup_cons in Hnd as [Hm Hnd].
      apply elem_of_cons in Hin as [[= <- <-]|Hin].
      - unfold apply_job in E1. rewrite HJ in E1. case_bool_decide as Hl.
        + destruct (dm_jobs d !! n) as [j|] eqn:Ej; cbn in Hl; [by apply (Hch j)|done].
        + destruct (stop_job n _ d0) as [j' d0'] eqn:Es.
          assert (dm_scheds d0' = dm_scheds d0) as HS'.
          { unfold stop_job in Es. destruct (j_task _); by injection Es as <- <-. }
          rewrite HS', HS in E1. unfold configure_job in E1.
          destruct (c_schedule cf) as [s|]; [|done].
          destruct (dm_scheds (read_config c d) !! s) as [id|] eqn:Eid; [|done].
          destruct (c_source cf); [|done]. destruct (conn n) eqn:En; [|done].
          destruct Hbad as [?|[[??]|Hb]]; [done|done|]. apply (Hb s eq_refl), S0. by eexists.
      - destruct (apply_job_ok _ _ _ _ _ Hi0 E1) as (Hi1 & evs & P & _).
        destruct P as (_ & _ & _ & _ & _ & _ & J & S1 & _).
        eapply IH; [exact Hi1|exact Hnd|exact Ha| |congruence|exact Hin].
        rewrite J; [done|]. intros ->%elem_of_list_singleton. apply Hm.
        apply elem_of_list_fmap. by exists (m, cf). }
    eapply Hgen; [exact Hi0|exact Hn1|exact Ea|by rewrite J0|done|exact Hin].
  - exists d', e. split; [done|]. unfold reload in E.
    destruct (apply_config conn c dirs (read_config c d)) as [d2 [[]|e2]]; [done|].
    by injection E as <- <-.
Qed.
Print Assumptions C46_failure.

(** ** C65: schedules *)
(** Every job names a schedule of the same configuration. *)
Definition names_schedules (c : config) : Prop :=
  forall n cf, (n, cf) ∈ cf_jobs c -> exists s, c_schedule cf = Some s /\ s ∈ map fst (cf_schedules c).
Definition sinv (d : daemon) : Prop :=
  forall n j cf s, dm_jobs d !! n = Some j -> j_last j = Some cf -> c_schedule cf = Some s ->
    dm_scheds d !! s = j_sched j.
Lemma reload_sinv conn c dirs d d' :
  dinv d -> sinv d -> NoDup (map fst (cf_jobs c)) -> NoDup (map fst (cf_schedules c)) ->
  names_schedules c -> reload conn c dirs d = (d', Ok tt) ->
  sinv d' /\ forall n cf s x, (n, cf) ∈ cf_jobs c -> c_schedule cf = Some s -> (s, x) ∈ cf_schedules c ->
    exists j id, dm_jobs d' !! n = Some j /\ j_sched j = Some id /\ dm_heap d' !! id = Some x.
Proof.
  intros Hi Hs Hn1 Hn2 Hv H.
  destruct (reload_ok _ _ _ _ _ Hi Hn1 Hn2 H)
    as (Hi' & evs & d1 & e1 & e2 & _ & _ & _ & _ & _ & HS & HH & S1 & J1 & Hres & Hgone & _).
  destruct (read_config_spec c d Hi Hn2) as (_ & _ & _ & _ & _ & HR & _).
  assert (Hkey : forall n cf s, (n, cf) ∈ cf_jobs c -> c_schedule cf = Some s ->
    exists j, dm_jobs d' !! n = Some j /\ j_last j = Some cf /\ dm_scheds d' !! s = j_sched j).
  { intros n cf s Hin Hcs. specialize (Hres n cf Hin). unfold job_result in Hres. rewrite J1, S1 in Hres.
    destruct (dm_jobs d !! n) as [j|] eqn:Ej.
    - destruct (decide (j_last j = Some cf)) as [Hl|Hl].
      + destruct (proj1 Hres Hl) as [Hj _]. exists j. split_and!; [done|done|].
        rewrite HS. destruct (Hv n cf Hin) as (s' & Hs' & Hin'). rewrite Hcs in Hs'. injection Hs' as <-.
        apply elem_of_list_fmap in Hin' as ([s' x] & -> & Hx). destruct (HR _ _ Hx) as (id & Hid & _ & Hsame).
        cbn in *. rewrite Hid. specialize (Hs n j cf s' Ej Hl Hcs).
        destruct Hi as (I1 & _). destruct (I1 n j Ej) as (?&?&i&->&?). cbn in *. f_equal. by apply Hsame.
      + destruct (proj2 Hres Hl) as (t & t' & id & _ & Hj & (s' & Hs' & Hid) & _).
        eexists. split; [exact Hj|]. split; [done|]. cbn. rewrite HS. congruence.
    - destruct Hres as (t' & id & Hj & (s' & Hs' & Hid) & _).
      eexists. split; [exact Hj|]. split; [done|]. cbn. rewrite HS. congruence. }
  split.
  - intros n j cf s Hj Hl Hcs.
    destruct (decide (n ∈ map fst (cf_jobs c))) as [Hn|Hn].
    + apply elem_of_list_fmap in Hn as ([n' cf'] & -> & Hin). cbn in *.
      assert (cf' = cf) as ->.
      { destruct (Hv n' cf' Hin) as (s' & Hs' & _). destruct (Hkey _ _ _ Hin Hs') as (j2 & Hj2 & Hl2 & _). congruence. }
      destruct (Hkey _ _ _ Hin Hcs) as (j2 & Hj2 & Hl2 & Hsj). congruence.
    + destruct (Hgone n Hn) as [Hx _]. congruence.
  - intros n cf s x Hin Hcs Hx. destruct (Hkey _ _ _ Hin Hcs) as (j & Hj & _ & Hsj).
    destruct (HR _ _ Hx) as (id & Hid & Hheap & _). exists j, id.
    split; [done|]. rewrite <- Hsj, HS, HH. done.
Qed.
(** As long as every configuration defines the schedules its jobs name, after a reload
    every job works with the schedule of the configuration file. *)
Theorem C65_schedule_partial d conn c dirs d' :
  reached names_schedules d -> NoDup (map fst (cf_jobs c)) -> NoDup (map fst (cf_schedules c)) ->
  names_schedules c -> reload conn c dirs d = (d', Ok tt) ->
  forall n cf s x, (n, cf) ∈ cf_jobs c -> c_schedule cf = Some s -> (s, x) ∈ cf_schedules c ->
    exists j id, dm_jobs d' !! n = Some j /\ j_sched j = Some id /\ dm_heap d' !! id = Some x.
Proof.
  intros Hr Hn1 Hn2 Hv H.
  assert (sinv d) as Hs.
  { clear -Hr. induction Hr as [|conn c dirs d d' Hr IH H1 H2 Hv H|t d Hr IH].
    - intros n j cf s Hj. by unfold daemon_init in Hj; cbn [dm_jobs] in Hj; rewrite lookup_empty in Hj.
    - eapply reload_sinv; eauto using reached_inv.
    - exact IH. }
  eapply reload_sinv; eauto using reached_inv.
Qed.
Print Assumptions C65_schedule_partial.

(** A job, its schedule, and what the configuration says, after reloading [cs]. *)
Fixpoint reloads (cs : list config) (d : daemon) : option daemon :=
  match cs with
  | [] => Some d
  | c :: cs => match reload (fun _ => Ok tt) c [] d with (d, Ok _) => reloads cs d | _ => None end
  end.
Definition schedule_of (n : string) (d : daemon) : option string :=
  j ← dm_jobs d !! n; id ← j_sched j; dm_heap d !! id.
Definition ex_job : jcfg := MkJcfg (Some "default") (Some "rbd") "".
Definition ex_conf (s x : string) : config := MkConfig [("vm", ex_job)] [(s, x)].
(** A schedule that is left out of one configuration and comes back in the next is
    not used by the jobs that name it: all three reloads succeed, and the job still
    follows the first version. *)
Theorem C65_refuted :
  exists d, reloads [ex_conf "default" "daily"; ex_conf "other" "daily"; ex_conf "default" "weekly"] daemon_init = Some d /\
    is_Some (dm_jobs d !! "vm") /\ schedule_of "vm" d = Some "daily".
Proof.
  destruct (reloads [ex_conf "default" "daily"; ex_conf "other" "daily"; ex_conf "default" "weekly"] daemon_init)
    as [d|] eqn:E; [|vm_compute in E; done].
  assert (match reloads [ex_conf "default" "daily"; ex_conf "other" "daily"; ex_conf "default" "weekly"] daemon_init with
    | Some d => bool_decide (is_Some (dm_jobs d !! "vm")) && bool_decide (schedule_of "vm" d = Some "daily")
    | None => false end = true) as Hc by (vm_compute; reflexivity).
  rewrite E in Hc. exists d. apply andb_true_iff in Hc as [H1 H2].
  apply bool_decide_eq_true in H1. apply bool_decide_eq_true in H2. done.
Qed.
Print Assumptions C65_refuted.

Example ex_C46 :
  match reloads [ex_conf "default" "daily"; ex_conf "default" "weekly";
                 MkConfig [("vm", MkJcfg (Some "default") (Some "rbd") "x"); ("vm2", ex_job)] [("default", "weekly")];
                 MkConfig [("vm2", ex_job)] [("default", "hourly")]] daemon_init with
  | Some d => dm_events d = [EvStart "vm" 1; EvStop "vm" 1; EvStart "vm" 2; EvStart "vm2" 3; EvStop "vm" 2] /\
              schedule_of "vm2" d = Some "hourly" /\ schedule_of "vm" d = None
  | None => False
  end.
Proof. vm_compute. repeat split; reflexivity. Qed.
