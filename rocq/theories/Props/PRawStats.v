(** C114: what a peer sends cannot keep a job from making backups. *)
From Verif Require Import Proofs.BaseLemmas Props.PRepo Props.PSchedule Props.PWire.
From Verif Require Import Model.RawStats Spec.Schedule.
From Verif Require Import Model.Revs.

(** The statistics of a revision as backy writes them: a dict, and a duration is a number. *)
Definition usual (j : json) : Prop :=
  exists l, j = JObj l /\ forall x, alookup "duration" l = Some x -> exists z, x = JNum z.
Definition usual_dir (d : rawdir) : Prop := forall u r, d !! u = Some r -> usual (rr_stats r).
Definition listing_ok (list_dir : rawdir -> list (string * rrev)) : Prop :=
  forall d, list_dir d ≡ₚ map_to_list d.
Definition named (d : rawdir) : Prop := forall u r, d !! u = Some r -> rr_uuid r = u.

(** ** The history *)
Lemma raw_first_sub l : forall seen r, r ∈ raw_first l seen -> r ∈ l.
Proof.
  induction l as [|x l IH]; intros seen r; cbn [raw_first]; [done|].
  destruct (decide _); [intros H; right; by eapply IH|].
  intros H. apply elem_of_cons in H as [->|H]; [by left|right; by eapply IH].
Qed.
Lemma raw_first_all l : forall seen r, NoDup (map rr_uuid l) -> r ∈ l -> rr_uuid r ∉ seen -> r ∈ raw_first l seen.
Proof.
  induction l as [|x l IH]; intros seen r Hn Hr Hs; cbn [raw_first]; [by apply elem_of_nil in Hr|].
  cbn [map] in Hn. apply NoDup_cons in Hn as [Hx Hn].
  apply elem_of_cons in Hr as [->|Hr]; [rewrite decide_False by done; by left|].
  assert (rr_uuid r <> rr_uuid x). { intros E. apply Hx. rewrite <- E. apply elem_of_list_fmap. by exists r. }
  destruct (decide _); [by apply IH|]. right. apply IH; [done..|]. apply not_elem_of_cons. done.
Qed.
Section Dir.
Context (list_dir : rawdir -> list (string * rrev)) (HL : listing_ok list_dir).
Lemma raw_scan_dir d r : r ∈ raw_scan list_dir d -> exists u, d !! u = Some r.
Proof.
  unfold raw_scan. rewrite isort_elem. intros H. apply raw_first_sub, elem_of_list_fmap in H as ([u x] & -> & H).
  exists u. rewrite (HL d) in H. by apply elem_of_map_to_list in H.
Qed.
Lemma raw_scan_all d u r : named d -> d !! u = Some r -> r ∈ raw_scan list_dir d.
Proof.
  intros Hd Hr. unfold raw_scan. rewrite isort_elem. apply raw_first_all; [|..|by intros ?%elem_of_nil].
  - assert (map rr_uuid (map snd (list_dir d)) ≡ₚ map fst (map_to_list d)) as ->; [|apply NoDup_fst_map_to_list].
    rewrite (HL d), map_map. erewrite map_ext_in; [done|]. intros [v x] Hx.
    apply elem_of_list_In, elem_of_map_to_list in Hx. by apply Hd.
  - apply elem_of_list_fmap. exists (u, r). split; [done|]. rewrite (HL d). by apply elem_of_map_to_list.
Qed.
End Dir.

(** ** Usual statistics *)
Lemma usual_in j : usual j -> exists b, py_in "duration" j = Ok b.
Proof. intros (l & -> & _). by eexists. Qed.
Lemma lower_usual h : (forall r, r ∈ h -> usual (rr_stats r)) -> exists l, lower_all h = Ok l.
Proof.
  induction h as [|r h IH]; intros H; cbn [lower_all]; [by eexists|].
  destruct (usual_in (rr_stats r)) as [b ->]; [apply H; by left|]. cbn [res_bind].
  destruct IH as [l ->]; [intros x Hx; apply H; by right|]. by eexists.
Qed.
Lemma clean_usual h : (forall r, r ∈ h -> usual (rr_stats r)) ->
  exists l, raw_clean h = Ok l /\ forall r, r ∈ l -> r ∈ h /\ py_in "duration" (rr_stats r) = Ok true.
Proof.
  induction h as [|r h IH]; intros H; cbn [raw_clean].
  { exists []. split; [done|]. intros r Hr. by apply elem_of_nil in Hr. }
  destruct (usual_in (rr_stats r)) as [b Eb]; [apply H; by left|]. rewrite Eb. cbn [res_bind].
  destruct IH as (l & -> & Hl); [intros x Hx; apply H; by right|]. cbn [res_bind].
  eexists. split; [done|]. intros x Hx. destruct b.
  - apply elem_of_cons in Hx as [->|Hx]; [split; [by left|done]|]. destruct (Hl x Hx). split; [by right|done].
  - destruct (Hl x Hx). split; [by right|done].
Qed.
Lemma fast_usual h : (forall r, r ∈ h -> usual (rr_stats r)) -> exists b, raw_fast h = Ok b.
Proof.
  intros H. unfold raw_fast. destruct (clean_usual h H) as (l & -> & Hl). cbn [res_bind].
  destruct (last l) as [r|] eqn:E; [|by eexists]. apply last_Some_elem_of in E. destruct (Hl r E) as [Hr Hd].
  destruct (H r Hr) as (o & Ho & Hn). rewrite Ho in Hd |- *. cbn [py_in] in Hd. cbn [below_600].
  destruct (alookup "duration" o) as [x|]; [|done]. destruct (Hn x eq_refl) as [z ->]. by eexists.
Qed.
Lemma plan_some fl S h c0 spread c1 c2 c3 : can_plan S -> exists p, next fl S h c0 spread c1 c2 c3 = Ok p.
Proof.
  intros HS. unfold next. destruct (C39_next_ideal fl S c0 spread HS) as (t & T & -> & _). cbn [res_bind].
  destruct (_ && _); by eexists.
Qed.
Lemma turn_usual list_dir fl S spread clock d : listing_ok list_dir -> can_plan S -> usual_dir d ->
  exists time tags fast, raw_turn list_dir fl S spread clock d = RBackup time tags fast.
Proof.
  intros HL HS Hd.
  assert (Hu : forall r, r ∈ raw_scan list_dir d -> usual (rr_stats r)).
  { intros r Hr. apply (raw_scan_dir list_dir HL) in Hr as [u Hu]. by eapply Hd. }
  unfold raw_turn. destruct clock as [[[c0 c1] c2] c3].
  unfold raw_next. destruct (C39_next_ideal fl S c0 spread HS) as (t & T & -> & _). cbn [res_bind].
  destruct (lower_usual _ Hu) as [l ->]. cbn [res_bind].
  destruct (plan_some fl S l c0 spread c1 c2 c3 HS) as [[time tags] ->].
  destruct (fast_usual _ Hu) as [b ->]. by eexists _, _, _.
Qed.
Lemma pull_sub p h remote d u r : raw_pull p h remote d !! u = Some r -> r ∈ remote \/ d !! u = Some r.
Proof.
  unfold raw_pull. set (gone := filter _ _). clearbody gone.
  assert (H : forall g (d : rawdir), fold_left (fun d u => delete u d) g d ⊆ d).
  { intros g. induction g as [|x g IH]; intros d0; cbn [fold_left]; [done|].
    etrans; [apply IH|apply delete_subseteq]. }
  specialize (H gone d). revert H. generalize (fold_left (fun (d : rawdir) u => delete u d) gone d).
  induction remote as [|x remote IH] using rev_ind; intros d0 Hd; [cbn; intros H; right; by eapply lookup_weaken|].
  rewrite fold_left_app. cbn [fold_left]. intros H. apply lookup_insert_Some in H as [[_ <-]|[_ H]].
  - left. apply elem_of_app. right. by left.
  - destruct (IH d0 Hd H); [left; apply elem_of_app; by left|by right].
Qed.

(** Whatever pulls there were: [h] is the history in memory, then. *)
Fixpoint raw_pulls (iso : string -> option (Z * Z)) (l : list (string * list rrev * hreply)) (d : rawdir) : rawdir :=
  match l with
  | [] => d
  | (p, h, a) :: l => raw_pulls iso l (match raw_revs iso p a with Ok remote => raw_pull p h remote d | Err _ => d end)
  end.
(** Statistics as backy writes them, and whatever else the peers send, however often: the
    job plans its runs and begins its backups.  What is missing: other statistics. *)
Theorem C114_goes_on_partial iso l d : usual_dir d ->
  (forall p h a remote r, (p, h, a) ∈ l -> raw_revs iso p a = Ok remote -> r ∈ remote -> usual (rr_stats r)) ->
  forall list_dir fl S spread clock, listing_ok list_dir -> can_plan S ->
  (exists time tags fast, raw_turn list_dir fl S spread clock (raw_pulls iso l d) = RBackup time tags fast) /\
  (forall name, exists n, raw_status list_dir [(name, raw_pulls iso l d)] = Ok [(name, n)]).
Proof.
  intros Hd Hl list_dir fl S spread clock HL HS.
  assert (Hu : usual_dir (raw_pulls iso l d)).
  { revert d Hd Hl. induction l as [|[[p h] a] l IH]; intros d Hd Hl; cbn [raw_pulls]; [done|].
    apply IH; [|intros p' h' a' remote r Hin; eapply (Hl p' h' a'); by right].
    destruct (raw_revs iso p a) as [remote|] eqn:E; [|done].
    intros u r Hr. apply pull_sub in Hr as [Hr|Hr]; [|by eapply Hd].
    eapply (Hl p h a remote r); [by left|done|done]. }
  split; [by apply turn_usual|]. intros name.
  destruct (clean_usual (raw_scan list_dir (raw_pulls iso l d))) as (c & Hc & _).
  { intros r Hr. apply (raw_scan_dir list_dir HL) in Hr as [u H]. by eapply Hu. }
  exists (length c). cbn [raw_status]. by rewrite Hc.
Qed.
Print Assumptions C114_goes_on_partial.

(** ** Others *)
Lemma lower_poisoned h r e : r ∈ h -> py_in "duration" (rr_stats r) = Err e ->
  lower_all h = Err TypeError /\ raw_clean h = Err TypeError.
Proof.
  intros Hr He.
  assert (Hp : forall j e, py_in "duration" j = Err e -> e = TypeError).
  { intros [] e'; cbn; intros [= <-]; done. }
  induction h as [|x h IH]; [by apply elem_of_nil in Hr|]. cbn [lower_all raw_clean].
  destruct (py_in "duration" (rr_stats x)) as [b|e'] eqn:E; [|by rewrite (Hp _ _ E)].
  apply elem_of_cons in Hr as [->|Hr]; [congruence|]. destruct (IH Hr) as [-> ->]. done.
Qed.
(** One revision with statistics [j], and perhaps tags. *)
Definition one_rev (u ts : string) (tags : list string) (j : json) : json :=
  JObj [("uuid", JText u); ("timestamp", JText ts); ("tags", enc_texts tags); ("stats", j)].
Lemma dec_texts_enc l : dec_texts (enc_texts l) = Ok l.
Proof.
  unfold dec_texts, enc_texts. induction l as [|x l IH]; [done|]. cbn [map dec_all dec_text res_bind].
  cbn in IH. by rewrite IH.
Qed.
Lemma raw_one iso p u ts t j tags : iso ts = Some (t, 0%Z) ->
  raw_revs iso p (HReply 200 true (Some (JList [one_rev u ts tags j]))) =
    Ok [MkRrev (MkRev u t (MkStats 0 None None) (list_to_set tags) (list_to_set tags) TRUSTED p) j].
Proof.
  intros Hiso. unfold raw_revs. cbn [answered Z.leb Z.compare Pos.compare Pos.compare_cont read_json res_bind negb].
  unfold one_rev. cbn [dec_all raw_rev].
  assert (filter (fun p : string * json => p.1 <> "stats")
    [("uuid", JText u); ("timestamp", JText ts); ("tags", enc_texts tags); ("stats", j)] =
    [("uuid", JText u); ("timestamp", JText ts); ("tags", enc_texts tags)]) as -> by reflexivity.
  cbn [dec_rev]. unfold field.
  assert (alookup "timestamp" [("uuid", JText u); ("timestamp", JText ts); ("tags", enc_texts tags)] = Some (JText ts)) as -> by reflexivity.
  assert (alookup "uuid" [("uuid", JText u); ("timestamp", JText ts); ("tags", enc_texts tags)] = Some (JText u)) as -> by reflexivity.
  assert (alookup "tags" [("uuid", JText u); ("timestamp", JText ts); ("tags", enc_texts tags)] = Some (enc_texts tags)) as -> by reflexivity.
  assert (alookup "stats" [("uuid", JText u); ("timestamp", JText ts); ("tags", enc_texts tags)] = None) as -> by reflexivity.
  assert (alookup "orig_tags" [("uuid", JText u); ("timestamp", JText ts); ("tags", enc_texts tags)] = None) as -> by reflexivity.
  assert (alookup "server" [("uuid", JText u); ("timestamp", JText ts); ("tags", enc_texts tags)] = None) as -> by reflexivity.
  assert (alookup "trust" [("uuid", JText u); ("timestamp", JText ts); ("tags", enc_texts tags)] = None) as -> by reflexivity.
  cbn [dec_ts dec_text res_bind]. rewrite dec_texts_enc. cbn [res_bind].
  unfold from_dict. cbn [m_ts m_uuid m_trust m_stats m_tags m_orig m_server]. rewrite Hiso. done.
Qed.
Definition null_stats (u ts : string) : json :=
  JList [one_rev u ts [] JNull].
(** A peer sends one revision whose statistics are null: the pull stores it.  As long as
    that file is there, whatever else happens to the directory, the loop of the job ends
    when it plans its next run, also after each restart (so that no pull ever replaces
    the file), and the server has no status for any job. *)
Theorem C114_refuted iso u ts t p h d : iso ts = Some (t, 0%Z) ->
  exists l, raw_revs iso p (HReply 200 true (Some (null_stats u ts))) = Ok l /\
  is_Some (raw_pull p h l d !! u) /\
  forall later : rawdir, named later -> later !! u = raw_pull p h l d !! u ->
  forall list_dir, listing_ok list_dir ->
  (forall fl S spread clock, can_plan S -> raw_turn list_dir fl S spread clock later = RDead TypeError) /\
  (forall jobs name, (name, later) ∈ jobs -> exists e, raw_status list_dir jobs = Err e).
Proof.
  intros Hiso. set (r := MkRrev (MkRev u t (MkStats 0 None None) ∅ ∅ TRUSTED p) JNull).
  exists [r]. split.
  { exact (raw_one iso p u ts t JNull [] Hiso). }
  assert (Hr : raw_pull p h [r] d !! u = Some r). { unfold raw_pull. cbn [fold_left]. by rewrite lookup_insert. }
  rewrite Hr. split; [by eexists|]. intros later Hn Hu list_dir HL.
  assert (Hin : r ∈ raw_scan list_dir later) by (by eapply raw_scan_all).
  destruct (lower_poisoned _ r TypeError Hin eq_refl) as [H1 H2]. split.
  - intros fl S spread [[[c0 c1] c2] c3] HS. unfold raw_turn, raw_next.
    destruct (C39_next_ideal fl S c0 spread HS) as (time & T & -> & _). cbn [res_bind]. by rewrite H1.
  - induction jobs as [|[n' d'] jobs IH]; intros name Hj; [by apply elem_of_nil in Hj|]. cbn [raw_status].
    destruct (raw_clean (raw_scan list_dir d')) as [c|e] eqn:Ec; [|by exists e]. cbn [res_bind].
    apply elem_of_cons in Hj as [[= -> <-]|Hj]; [congruence|].
    destruct (IH name Hj) as [e ->]. by exists e.
Qed.
Print Assumptions C114_refuted.

Lemma sorted_last {A} (le : A -> A -> bool) (l : list A) x y : (forall a, le a a = true) ->
  StronglySorted (fun a b => le a b = true) (l ++ [x]) -> y ∈ l ++ [x] -> le y x = true.
Proof.
  intros Hr. induction l as [|a l IH]; cbn [app]; intros Hs Hy.
  - apply elem_of_list_singleton in Hy as ->. apply Hr.
  - apply StronglySorted_inv in Hs as [Hs Ha]. apply elem_of_cons in Hy as [->|Hy]; [|by apply IH].
    rewrite Forall_forall in Ha. apply Ha. apply elem_of_app. right. by left.
Qed.
Lemma clean_last h r : (forall x, x ∈ h -> usual (rr_stats x)) -> py_in "duration" (rr_stats r) = Ok true ->
  exists l, raw_clean (h ++ [r]) = Ok (l ++ [r]).
Proof.
  intros H Hr. induction h as [|x h IH]; cbn [app raw_clean]; [exists []; by rewrite Hr|].
  destruct (usual_in (rr_stats x)) as [b ->]; [apply H; by left|]. cbn [res_bind].
  destruct IH as [l ->]; [intros y Hy; apply H; by right|]. cbn [res_bind]. destruct b; [exists (x :: l)|exists l]; done.
Qed.
Lemma raw_first_nodup l : forall seen, NoDup (map rr_uuid (raw_first l seen)) /\
  forall r, r ∈ raw_first l seen -> rr_uuid r ∉ seen.
Proof.
  induction l as [|x l IH]; intros seen; cbn [raw_first].
  { split; [constructor|]. intros r Hr. by apply elem_of_nil in Hr. }
  destruct (decide _) as [Hs|Hs]; [apply IH|]. destruct (IH (rr_uuid x :: seen)) as [I1 I2]. split.
  - cbn [map]. constructor; [|done]. intros Hx. apply elem_of_list_fmap in Hx as (y & Hy & Hin).
    specialize (I2 y Hin). apply not_elem_of_cons in I2 as [I2 _]. congruence.
  - intros r Hr. apply elem_of_cons in Hr as [->|Hr]; [done|]. specialize (I2 r Hr). by apply not_elem_of_cons in I2 as [_ I2].
Qed.
(** A peer sends one revision whose duration is null, newer than all others: the pull
    stores it.  Until there is a newer complete revision, every run of the job fails before
    its backup - and before the next pull. *)
Theorem C114_duration_refuted iso u ts t p h d : iso ts = Some (t, 0%Z) ->
  exists l, raw_revs iso p (HReply 200 true (Some (JList [one_rev u ts [] (JObj [("duration", JNull)])]))) = Ok l /\
  forall later : rawdir, named later -> later !! u = raw_pull p h l d !! u ->
  (forall v r, v <> u -> later !! v = Some r -> (r_ts (rr_rev r) < t)%Z /\ usual (rr_stats r)) ->
  forall list_dir fl S spread clock, listing_ok list_dir -> can_plan S ->
  raw_turn list_dir fl S spread clock later = RFails TypeError.
Proof.
  intros Hiso. set (r := MkRrev (MkRev u t (MkStats 0 None None) (list_to_set []) (list_to_set []) TRUSTED p) (JObj [("duration", JNull)])).
  exists [r]. split; [exact (raw_one iso p u ts t (JObj [("duration", JNull)]) [] Hiso)|].
  assert (Hr : raw_pull p h [r] d !! u = Some r). { unfold raw_pull. cbn [fold_left]. by rewrite lookup_insert. }
  rewrite Hr. intros later Hn Hu Ho list_dir fl S spread [[[c0 c1] c2] c3] HL HS.
  set (le := fun a b : rrev => (r_ts (rr_rev a) <=? r_ts (rr_rev b))%Z).
  assert (Hin : r ∈ raw_scan list_dir later) by (by eapply raw_scan_all).
  assert (Hs : StronglySorted (fun a b => le a b = true) (raw_scan list_dir later)).
  { apply isort_sorted; unfold le; intros *; rewrite ?Z.leb_le, ?Z.leb_gt; lia. }
  assert (Hnd : NoDup (map rr_uuid (raw_scan list_dir later))).
  { unfold raw_scan. rewrite isort_perm. apply raw_first_nodup. }
  assert (Hd : forall x, x ∈ raw_scan list_dir later -> later !! rr_uuid x = Some x).
  { intros x Hx. apply (raw_scan_dir list_dir HL) in Hx as [v Hv]. by rewrite (Hn v x Hv). }
  destruct (exists_last (l := raw_scan list_dir later)) as (h' & x & Eh).
  { intros E. rewrite E in Hin. by apply elem_of_nil in Hin. }
  assert (x = r) as ->.
  { rewrite Eh in Hs, Hin. assert (Hle : le r x = true).
    { eapply sorted_last; [|done|done]. intros a. unfold le. apply Z.leb_refl. }
    assert (Hx : x ∈ raw_scan list_dir later) by (rewrite Eh; apply elem_of_app; right; by left).
    apply Hd in Hx. destruct (decide (rr_uuid x = u)) as [E|E]; [rewrite E in Hx; congruence|].
    destruct (Ho _ _ E Hx) as [Hlt _]. unfold le in Hle. apply Z.leb_le in Hle.
    change (r_ts (rr_rev r)) with t in Hle. lia. }
  assert (Hu' : forall y, y ∈ h' -> usual (rr_stats y)).
  { intros y Hy. assert (Hyin : y ∈ raw_scan list_dir later) by (rewrite Eh; apply elem_of_app; by left).
    destruct (decide (rr_uuid y = u)) as [E|E].
    - exfalso. rewrite Eh, map_app in Hnd. apply NoDup_app in Hnd as (_ & Hnd & _).
      apply (Hnd (rr_uuid y)); [apply elem_of_list_fmap; by exists y|]. rewrite E. by left.
    - apply (Ho _ _ E (Hd y Hyin)). }
  unfold raw_turn, raw_next. destruct (C39_next_ideal fl S c0 spread HS) as (time & T & -> & _). cbn [res_bind].
  assert (exists l, lower_all (raw_scan list_dir later) = Ok l) as [l ->].
  { rewrite Eh. clear -Hu'. induction h' as [|y h' IH]; cbn [app lower_all]; [by eexists|].
    destruct (usual_in (rr_stats y)) as [b ->]; [apply Hu'; by left|]. cbn [res_bind].
    destruct IH as [l ->]; [intros z Hz; apply Hu'; by right|]. by eexists. }
  cbn [res_bind]. destruct (plan_some fl S l c0 spread c1 c2 c3 HS) as [[time' tags'] ->].
  unfold raw_fast. rewrite Eh. destruct (clean_last h' r Hu' eq_refl) as [c ->]. cbn [res_bind].
  rewrite last_snoc. done.
Qed.
Print Assumptions C114_duration_refuted.

(** ** Examples *)
Definition ex_list : rawdir -> list (string * rrev) := map_to_list.
Definition ex_raw (u : string) (t : Z) : rrev := MkRrev (PRepo.ex_r u t ["hourly"] "") (JObj [("duration", JNum 5)]).
Definition ex_rawdir : rawdir := {[ "a" := ex_raw "a" 100 ]}.
Definition ex_iso0 (s : string) : option (Z * Z) := if bool_decide (s = "T") then Some (200%Z, 0%Z) else None.
Example ex_C114 :
  listing_ok ex_list /\ can_plan PSchedule.ex_sched /\ usual_dir ex_rawdir /\ named ex_rawdir /\
  let good := JList [one_rev "b" "T" ["daily"] (JObj [("duration", JNum 7); ("extra", JNull)])] in
  let pull j := raw_pulls ex_iso0 [("p", [ex_raw "a" 100], HReply 200 true (Some j))] ex_rawdir in
  let turn d := raw_turn ex_list fl36 PSchedule.ex_sched 0 (300, 300, 300, 300)%Z d in
  match turn (pull good) with RBackup _ _ b => b = true | _ => False end /\
  raw_status ex_list [("j", pull good)] = Ok [("j", 2%nat)] /\
  turn (pull (null_stats "b" "T")) = RDead TypeError /\
  turn (pull (JList [one_rev "b" "T" [] (JObj [("duration", JNull)])])) = RFails TypeError.
Proof.
  split; [intros d; done|]. split; [exact ex_can_plan|].
  split. { intros u r H. unfold ex_rawdir in H. apply lookup_singleton_Some in H as [_ <-]. eexists. split; [done|]. cbn. intros x [= <-]. by eexists. }
  split. { intros u r H. unfold ex_rawdir in H. by apply lookup_singleton_Some in H as [<- <-]. }
  vm_compute. done.
Qed.
