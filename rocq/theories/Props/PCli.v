(** C60, C61: exit status of [check]; problem reports. *)
From Verif Require Export Props.PSchedule.
From Verif Require Import Proofs.RevSpecTok Model.Cli.

(** * C60 *)
(** The service level is violated: there is a complete backup, and even the newest
    is older than 1.5 times the shortest interval. *)
Definition violated (now : Z) (r : crepo) : Prop :=
  (exists x, x ∈ c_history r /\ is_complete x) /\
  forall m, shortest (c_sched r) m ->
  forall x, x ∈ c_history r -> is_complete x -> (2 * (now - r_ts x) > 3 * m)%Z.
(** Usable: histories are sorted (they always are after a scan, C25), and the
    schedule has a positive shortest interval. *)
Definition usable (r : crepo) : Prop :=
  StronglySorted by_time (c_history r) /\
  exists m, shortest (c_sched r) m /\ (0 < m)%Z.

Lemma shortest_unique S0 m m' : shortest S0 m -> shortest S0 m' -> m = m'.
Proof.
  intros [(t & i & Hi & Hm) H] [(t' & i' & Hi' & Hm') H'].
  specialize (H _ _ Hi'). specialize (H' _ _ Hi). lia.
Qed.

Lemma check_spec now r : usable r ->
  exists c, check now r = Ok c /\
    (violated now r /\ c = 2%Z \/
     ~ violated now r /\ c_reports r <> [] /\ c = 1%Z \/
     ~ violated now r /\ c_reports r = [] /\ c = 0%Z).
Proof.
  intros [Hs (m & Hm & H0)]. unfold check.
  destruct (C42_sla (c_sched r) (c_history r) now m Hs Hm H0) as (ok & -> & Hok).
  cbn [res_bind].
  assert (Hv : violated now r <-> ok = false).
  { rewrite Hok. unfold violated. split.
    - intros [H1 H2]. split; [done|]. by apply H2.
    - intros [H1 H2]. split; [done|]. intros m' Hm'.
      by rewrite (shortest_unique _ _ _ Hm' Hm). }
  destruct ok; cbn [negb].
  - assert (~ violated now r) by (intros ?%Hv; done).
    destruct (c_reports r) eqn:E; eexists; (split; [reflexivity|]); right.
    + right. done.
    + left. done.
  - assert (violated now r) by by apply Hv.
    destruct (c_reports r) eqn:E; eexists; (split; [reflexivity|]); left; done.
Qed.

Lemma call_each_spec now : forall l ret,
  (forall r, r ∈ l -> usable r) -> (0 <= ret <= 2)%Z ->
  exists c, call_each (fun r => res_bind (check now r) (fun c => Ok (Some c))) ret l = Ok c /\
    (c = 2%Z <-> ret = 2%Z \/ exists r, r ∈ l /\ violated now r) /\
    (c = 0%Z <-> ret = 0%Z /\ forall r, r ∈ l -> ~ violated now r /\ c_reports r = []) /\
    (0 <= c <= 2)%Z.
Proof.
  induction l as [|r l IH]; intros ret Hu Hret; cbn [call_each].
  - exists ret. split; [done|]. split; [|split; [|done]].
    + split; [auto|]. intros [?|(r & Hr & _)]; [done|]. by apply elem_of_nil in Hr.
    + split; [|tauto]. intros ->. split; [done|]. intros r Hr. by apply elem_of_nil in Hr.
  - destruct (check_spec now r) as (c & -> & Hc). { apply Hu. left. }
    cbn [res_bind]. change (default 0%Z (Some c)) with c.
    destruct (IH (Z.max ret c)) as (c' & -> & H2 & H0 & Hr).
    { intros x Hx. apply Hu. by right. }
    { destruct Hc as [[? ->]|[(? & ? & ->)|(? & ? & ->)]]; lia. }
    exists c'. split; [done|]. split; [|split; [|done]].
    + rewrite H2. split.
      * intros [Hm|(x & Hx & Hv)].
        -- destruct (decide (ret = 2%Z)); [by left|]. right. exists r. split; [left|].
           destruct Hc as [[? ->]|[(? & ? & ->)|(? & ? & ->)]]; [done|lia|lia].
        -- right. exists x. split; [by right|done].
      * intros [->|(x & Hx & Hv)].
        -- left. destruct Hc as [[? ->]|[(? & ? & ->)|(? & ? & ->)]]; lia.
        -- apply elem_of_cons in Hx as [->|Hx]; [|by right; exists x].
           left. destruct Hc as [[? ->]|[(? & ? & ->)|(? & ? & ->)]]; [lia|done|done].
    + rewrite H0. split.
      * intros [Hm Hall]. split; [lia|]. intros x Hx.
        apply elem_of_cons in Hx as [->|Hx]; [|by apply Hall].
        destruct Hc as [[? ->]|[(? & ? & ->)|(? & ? & ->)]]; [lia|lia|done].
      * intros [-> Hall]. split; [|intros x Hx; apply Hall; by right].
        destruct (Hall r) as [Hn He]; [left|].
        destruct Hc as [[? ->]|[(? & ? & ->)|(? & ? & ->)]]; [done|done|lia].
Qed.

(** Exit status of [backy check] over the selected repositories, when each of them
    has a usable schedule. *)
Theorem C60_check_partial : forall jobs own all now l,
  get_repos jobs own all = Ok l ->
  (forall r, r ∈ l -> usable r) ->
  let code := backy_check jobs own all now in
  (code = 2%Z <-> exists r, r ∈ l /\ violated now r) /\
  (code = 1%Z <-> (forall r, r ∈ l -> ~ violated now r) /\
                  exists r, r ∈ l /\ c_reports r <> []) /\
  (code = 0%Z <-> (forall r, r ∈ l -> ~ violated now r) /\
                  forall r, r ∈ l -> c_reports r = []).
Proof.
  intros jobs own all now l Hl Hu code. unfold code, backy_check, command_call.
  rewrite Hl. cbn [res_bind].
  destruct (call_each_spec now l 0 Hu) as (c & -> & H2 & H0 & Hr); [lia|].
  assert (H2' : c = 2%Z <-> exists r, r ∈ l /\ violated now r).
  { rewrite H2. split; [intros [?|?]; [lia|done]|auto]. }
  assert (H0' : c = 0%Z <-> forall r, r ∈ l -> ~ violated now r /\ c_reports r = []).
  { rewrite H0. tauto. }
  split; [done|]. split; [|rewrite H0'; split; [intros H; split; intros r Hr'; by apply H|
    intros [Ha Hb] r Hr'; split; auto]].
  split.
  - intros ->. assert (Hnv : forall r, r ∈ l -> ~ violated now r).
    { intros r Hr' Hv. assert (1 = 2)%Z; [|lia]. apply H2'. eauto. }
    split; [done|].
    destruct (decide (Forall (fun r => c_reports r = []) l)) as [Hall|Hno].
    + rewrite Forall_forall in Hall. assert (1 = 0)%Z; [|lia]. apply H0'.
      intros r Hr'. split; [by apply Hnv|by apply Hall].
    + apply not_Forall_Exists in Hno; [|apply _]. apply Exists_exists in Hno as (r & ? & ?).
      eauto.
  - intros [Ha (r & Hr' & Hne)].
    assert (c <> 2%Z) by (intros (x & Hx & Hv)%H2'; by eapply Ha).
    assert (c <> 0%Z) by (intros Hz; apply Hne; by apply (proj1 H0' Hz r Hr')).
    lia.
Qed.
Print Assumptions C60_check_partial.

(** Which repositories are selected. *)
Theorem C60_selection : forall jobs own all l,
  get_repos jobs own all = Ok l ->
  match jobs with
  | None => exists r, own = Ok r /\ l = [r]
  | Some matches => l <> [] /\ forall r, r ∈ l <-> r ∈ all /\ matches (c_name r) = true
  end.
Proof.
  intros [matches|] own all l; cbn.
  - destruct all as [|a all]; [done|].
    destruct (filter _ _) as [|x l'] eqn:E; [done|]. intros H. injection H as <-.
    split; [done|]. intros r. rewrite <- E. rewrite elem_of_list_filter. tauto.
  - destruct own as [r|]; [|done]. cbn. intros H. injection H as <-. eauto.
Qed.
Print Assumptions C60_selection.

(** Without that, the claim is false: a repository whose schedule is empty makes
    the whole command stop with 1, although another one violates its service level
    (daemon jobs may have an empty schedule). *)
Definition c60_rev (ts : Z) : rev := MkRev "a" ts (MkStats 0 (Some 1%Z) None) ∅ ∅ TRUSTED "".
Theorem C60_refuted :
  let bad := MkCrepo "a" [] [c60_rev 0] [] in
  let late := MkCrepo "b" [("daily"%string, MkItem 100 1)] [c60_rev 0] [] in
  usable late /\ violated 1000 late /\
  backy_check (Some (fun _ => true)) (Err KeyError) [bad; late] 1000 = 1%Z /\
  backy_check (Some (fun _ => true)) (Err KeyError) [late] 1000 = 2%Z.
Proof.
  cbv zeta.
  assert (Hsh : shortest [("daily"%string, MkItem 100 1)] 100).
  { split.
    - exists "daily"%string, (MkItem 100 1). split; [left|done].
    - intros t i Hi. apply elem_of_list_singleton in Hi. inversion Hi; subst. cbn. lia. }
  assert (Hu : usable (MkCrepo "b" [("daily"%string, MkItem 100 1)] [c60_rev 0] [])).
  { split; [repeat constructor|]. exists 100%Z. split; [done|lia]. }
  split; [done|]. split; [|split; reflexivity].
  split.
  - exists (c60_rev 0). split; [left|done].
  - intros m Hm x Hx _. cbn in Hm. rewrite (shortest_unique _ _ _ Hm Hsh).
    apply elem_of_list_singleton in Hx as ->. cbn. lia.
Qed.
Print Assumptions C60_refuted.

(** * C61 *)
Lemma store_chunk_files q hc : q_files (store_chunk q hc) = q_files q.
Proof. unfold store_chunk. by destruct (q_chunks q !! hc.1). Qed.
Lemma store_chunks_files l : forall q, q_files (fold_left store_chunk l q) = q_files q.
Proof.
  induction l as [|hc l IH]; intros q; [done|]. cbn. rewrite IH. apply store_chunk_files.
Qed.
Lemma store_chunk_sub q hc : q_chunks q ⊆ q_chunks (store_chunk q hc).
Proof.
  unfold store_chunk. destruct (q_chunks q !! hc.1) eqn:E; [done|]. cbn.
  by apply insert_subseteq.
Qed.
Lemma store_chunks_sub l : forall q, q_chunks q ⊆ q_chunks (fold_left store_chunk l q).
Proof.
  induction l as [|hc l IH]; intros q; [done|]. cbn.
  transitivity (q_chunks (store_chunk q hc)); [apply store_chunk_sub|apply IH].
Qed.
Lemma store_chunks_have l : forall q hc, hc ∈ l ->
  is_Some (q_chunks (fold_left store_chunk l q) !! hc.1).
Proof.
  induction l as [|hc' l IH]; intros q hc Hin; [by apply elem_of_nil in Hin|].
  apply elem_of_cons in Hin as [->|Hin]; cbn; [|by apply IH].
  assert (is_Some (q_chunks (store_chunk q hc') !! hc'.1)) as [c Hc].
  { unfold store_chunk. destruct (q_chunks q !! hc'.1) eqn:E; [by rewrite E|].
    cbn. by rewrite lookup_insert. }
  exists c. eapply lookup_weaken; [done|]. apply store_chunks_sub.
Qed.
Lemma store_chunks_again l : forall q,
  (forall hc, hc ∈ l -> is_Some (q_chunks q !! hc.1)) -> fold_left store_chunk l q = q.
Proof.
  induction l as [|hc l IH]; intros q H; [done|]. cbn.
  assert (store_chunk q hc = q) as ->.
  { unfold store_chunk. destruct (H hc) as [c Hc]; [left|]. by rewrite Hc. }
  apply IH. intros x Hx. apply H. by right.
Qed.

(** Storing a report: its file appears with its text unless a report of that id is
    already stored; no other report, and no stored chunk, changes. *)
Theorem C61_store : forall r q,
  q_files (store_report r q) =
    match q_files q !! (rp_uuid r ++ ".report")%string with
    | Some _ => q_files q
    | None => <[(rp_uuid r ++ ".report")%string := rp_text r]> (q_files q)
    end /\
  q_chunks q ⊆ q_chunks (store_report r q) /\
  (forall hc, hc ∈ rp_chunks r -> is_Some (q_chunks (store_report r q) !! hc.1)).
Proof.
  intros r q. unfold store_report, store_file. rewrite store_chunks_files.
  destruct (q_files q !! _); cbn.
  - split; [apply store_chunks_files|]. split; [apply store_chunks_sub|].
    intros hc Hin. by apply store_chunks_have.
  - split; [done|]. split; [apply store_chunks_sub|].
    intros hc Hin. by apply store_chunks_have.
Qed.
Print Assumptions C61_store.

(** Storing it a second time changes nothing on disk. *)
Theorem C61_store_once : forall r q, store_report r (store_report r q) = store_report r q.
Proof.
  intros r q. destruct (C61_store r q) as (Hf & _ & Hc).
  set (q' := store_report r q) in *.
  unfold store_report. rewrite (store_chunks_again (rp_chunks r) q' Hc).
  unfold store_file.
  assert (is_Some (q_files q' !! (rp_uuid r ++ ".report")%string)) as [t Ht].
  { rewrite Hf. destruct (q_files q !! _) eqn:E; [by rewrite E|]. by rewrite lookup_insert. }
  by rewrite Ht.
Qed.
Print Assumptions C61_store_once.

Lemma unchars_app' a b : unchars (a ++ b) = (unchars a ++ unchars b)%string.
Proof.
  rewrite <- (unchars_chars (unchars a ++ unchars b)%string).
  by rewrite chars_app, !chars_unchars.
Qed.
Lemma ends_app suf x : ends suf (x ++ suf)%string = true.
Proof.
  unfold ends. apply starts_spec. exists (unchars (reverse (chars x))).
  by rewrite chars_app, reverse_app, unchars_app'.
Qed.
Lemma ends_spec suf w : ends suf w = true <-> exists x, w = (x ++ suf)%string.
Proof.
  split; [|intros [x ->]; apply ends_app].
  unfold ends. rewrite starts_spec. intros [y Hy].
  exists (unchars (reverse (chars y))).
  apply (f_equal chars) in Hy. rewrite chars_app, !chars_unchars in Hy.
  apply (f_equal reverse) in Hy. rewrite reverse_involutive, reverse_app, reverse_involutive in Hy.
  rewrite <- (unchars_chars w), Hy. rewrite unchars_app'. by rewrite unchars_chars.
Qed.
Lemma strip_suffix_spec suf w x : strip_suffix suf w = Some x <-> w = (x ++ suf)%string.
Proof.
  unfold strip_suffix. split.
  - destruct (ends suf w) eqn:E; [|done]. apply ends_spec in E as [y ->].
    rewrite chars_app, app_length.
    replace (length (chars y) + length (chars suf) - length (chars suf))%nat
      with (length (chars y)) by lia.
    rewrite take_app, unchars_chars. intros H. by injection H as ->.
  - intros ->. rewrite ends_app. rewrite chars_app, app_length.
    replace (length (chars x) + length (chars suf) - length (chars suf))%nat
      with (length (chars x)) by lia.
    by rewrite take_app, unchars_chars.
Qed.

(** The list of reports is exactly the stored ones, each once. *)
Theorem C61_list : forall q,
  (forall id, id ∈ scan_reports q <-> is_Some (q_files q !! (id ++ ".report")%string)) /\
  NoDup (scan_reports q).
Proof.
  intros q. split.
  - intros id. unfold scan_reports. rewrite elem_of_list_omap. split.
    + intros ([k t] & Hin & Hs). apply strip_suffix_spec in Hs. cbn in Hs. subst k.
      apply elem_of_map_to_list in Hin. eauto.
    + intros [t Ht]. exists ((id ++ ".report")%string, t). split.
      * by apply elem_of_map_to_list.
      * by apply strip_suffix_spec.
  - unfold scan_reports. pose proof (NoDup_fst_map_to_list (q_files q)) as Hnd.
    induction (map_to_list (q_files q)) as [|[k t] l IH]; [constructor|].
    cbn in Hnd. apply NoDup_cons in Hnd as [Hk Hnd]. cbn [omap list_omap].
    destruct (strip_suffix ".report" (k, t).1) as [x|] eqn:E; [|by apply IH].
    constructor; [|by apply IH].
    apply strip_suffix_spec in E. cbn in E. subst k. intros Hin.
    apply elem_of_list_omap in Hin as ([k' t'] & Hin & Hs).
    apply strip_suffix_spec in Hs. cbn in Hs. subst k'.
    apply Hk. apply elem_of_list_fmap. by exists ((x ++ ".report")%string, t').
Qed.
Print Assumptions C61_list.

(** After [add_report] the report is listed, all others as before, on disk and in
    the running process. *)
Theorem C61_add_listed : forall r q mem id,
  (id ∈ scan_reports (add_report r (q, mem)).1 <-> id = rp_uuid r \/ id ∈ scan_reports q) /\
  (id ∈ (add_report r (q, mem)).2 <-> id = rp_uuid r \/ id ∈ mem).
Proof.
  intros r q mem id. split.
  2:{ cbn [add_report snd]. rewrite elem_of_app, elem_of_list_singleton. tauto. }
  rewrite !(proj1 (C61_list _)). cbn [add_report fst].
  destruct (C61_store r q) as (-> & _).
  assert (Hinj : forall a b, (a ++ ".report" = b ++ ".report")%string -> a = b).
  { intros a b H. apply strip_suffix_spec in H.
    assert (strip_suffix ".report" (a ++ ".report") = Some a) by by apply strip_suffix_spec.
    congruence. }
  destruct (q_files q !! (rp_uuid r ++ ".report")%string) eqn:E.
  - split; [auto|]. intros [->|?]; [by rewrite E|done].
  - split.
    + intros [t Ht]. apply lookup_insert_Some in Ht as [[Heq _]|[_ Ht]]; [|eauto].
      left. symmetry. by apply Hinj.
    + intros [->|[t Ht]]; [by rewrite lookup_insert|].
      destruct (decide ((rp_uuid r ++ ".report")%string = (id ++ ".report")%string)) as [Heq|Hne].
      * rewrite Heq, lookup_insert. eauto.
      * rewrite lookup_insert_ne by done. eauto.
Qed.
Print Assumptions C61_add_listed.

Lemma with_suffix_plain id suf :
  "."%char ∉ chars id -> chars suf !! 0%nat = Some "."%char -> (1 < length (chars suf))%nat ->
  with_suffix id suf = Ok (id ++ suf)%string.
Proof.
  intros Hd Hs Hl. unfold with_suffix. rewrite Hs.
  rewrite (bool_decide_true (Some "."%char = Some "."%char)) by done.
  apply Nat.ltb_lt in Hl. rewrite Hl. rewrite orb_true_r.
  assert (last_dot (chars id) = None) as ->; [|done].
  unfold last_dot. destruct (List.find _ _) as [i|] eqn:E; [|done]. exfalso.
  apply find_some in E as [_ E]. apply bool_decide_eq_true in E.
  apply Hd. by eapply elem_of_list_lookup_2.
Qed.

(** Reports whose ids have no dot (they are letters and digits): each is shown with its
    id and its text, in the order asked for; if one is not there, the command fails. *)
Theorem C61_show : forall q ids,
  (forall id, id ∈ ids -> "."%char ∉ chars id) ->
  (forall text, (forall id, id ∈ ids -> q_files q !! (id ++ ".report")%string = Some (text id)) ->
     reports_show q ids = Ok (concat (map (fun id => [id; text id]) ids))) /\
  ((exists id, id ∈ ids /\ q_files q !! (id ++ ".report")%string = None) ->
     reports_show q ids = Err FileNotFound).
Proof.
  intros q. induction ids as [|id ids IH]; intros H; cbn [reports_show].
  - split; [done|]. intros (id & Hin & _). by apply elem_of_nil in Hin.
  - rewrite with_suffix_plain; [|apply H; by left|done|cbn; lia]. cbn [res_bind].
    destruct IH as [I1 I2]. { intros x Hx. apply H. by right. } split.
    + intros text Ht. rewrite (Ht id) by (by left).
      rewrite (I1 text) by (intros x Hx; apply Ht; by right). done.
    + intros (x & Hx & Hn). destruct (q_files q !! (id ++ ".report")%string) as [t|] eqn:E; [|done].
      rewrite I2; [done|]. apply elem_of_cons in Hx as [->|Hx]; [by rewrite E in Hn|]. by exists x.
Qed.
Print Assumptions C61_show.

(** Deleting never works: the suffix passed to [with_suffix] lacks its dot.  Every
    non-empty request fails with ValueError and deletes nothing; the command's exit
    status is 1. *)
Theorem C61_delete_refuted : forall q id rest,
  reports_delete (id :: rest) q = (q, Err ValueError) /\
  command_call (Ok [q]) (fun q => res_bind (reports_delete (id :: rest) q).2
                                    (fun _ => Ok None)) = 1%Z.
Proof. intros. split; reflexivity. Qed.
Print Assumptions C61_delete_refuted.

Example C61_example :
  let q := store_report (MkReport "r1" "text" [("h1"%string, [x01]); ("h2"%string, [x02])])
             (MkQuar ∅ ∅) in
  scan_reports q = ["r1"%string] /\ reports_show q ["r1"%string] = Ok ["r1"%string; "text"%string] /\
  reports_show q ["r1"%string; "r2"%string] = Err FileNotFound /\
  with_suffix "a.b" ".report" = Ok "a.report"%string.
Proof. repeat split; reflexivity. Qed.

Example C60_example :
  let ok := MkCrepo "a" [("daily"%string, MkItem 100 1)] [c60_rev 0] [] in
  let rep := MkCrepo "b" [("daily"%string, MkItem 100 1)] [c60_rev 0] ["r1"%string] in
  backy_check (Some (fun _ => true)) (Err KeyError) [ok; rep] 150 = 1%Z /\
  backy_check (Some (fun _ => true)) (Err KeyError) [ok; rep] 151 = 2%Z /\
  backy_check None (Ok ok) [] 150 = 0%Z /\
  backy_check (Some (fun _ => false)) (Ok ok) [ok] 150 = 1%Z.
Proof. repeat split; reflexivity. Qed.
