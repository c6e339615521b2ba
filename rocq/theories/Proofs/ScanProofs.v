(** Reading the directory: what [scan] returns. *)
From Verif Require Export Proofs.RepoProofs.

Definition by_time (a b : rev) : Prop := (r_ts a <= r_ts b)%Z.
Lemma sorted_unique l1 l2 : StronglySorted by_time l1 -> StronglySorted by_time l2 -> l1 ≡ₚ l2 ->
  NoDup (map r_ts l1) -> l1 = l2.
Proof.
  intros H1. revert l2. induction H1 as [|x l1 H1 IH Hx]; intros l2 H2 Hp Hn.
  - apply Permutation_nil_l in Hp. done.
  - destruct H2 as [|y l2 H2 Hy]; [apply Permutation_nil_r in Hp; done|].
    assert (x = y) as ->.
    { assert (A : x ∈ y :: l2) by (rewrite <- Hp; left). assert (B : y ∈ x :: l1) by (rewrite Hp; left).
      apply elem_of_cons in A as [->|A]; [done|]. apply elem_of_cons in B as [->|B]; [done|].
      rewrite Forall_forall in Hx, Hy. pose proof (Hx _ B). pose proof (Hy _ A). unfold by_time in *.
      cbn in Hn. apply NoDup_cons in Hn as [Hn _]. exfalso. apply Hn. apply elem_of_list_fmap. exists y. split; [lia|done]. }
    f_equal. apply IH; [done|eapply Permutation_cons_inv; done|]. cbn in Hn. apply NoDup_cons in Hn. tauto.
Qed.
Lemma scan_list_sorted l : StronglySorted by_time (scan_list l).
Proof.
  assert (Hs : StronglySorted (fun a b => (r_ts a <=? r_ts b)%Z = true) (scan_list l))
    by (apply isort_sorted; intros; lia).
  induction Hs as [|x k Hs IH Hx]; constructor; [done|]. eapply Forall_impl; [exact Hx|].
  intros y Hy. unfold by_time. cbn in Hy. lia.
Qed.
Lemma first_by_uuid_cover l seen x : x ∈ l -> r_uuid x ∉ seen ->
  exists y, y ∈ first_by_uuid l seen /\ r_uuid y = r_uuid x.
Proof.
  revert seen. induction l as [|z l IH]; intros seen Hx Hs; [apply elem_of_nil in Hx; done|]. cbn.
  apply elem_of_cons in Hx as [->|Hx].
  - rewrite decide_False by done. exists z. split; [left|done].
  - case_decide as Hz; [apply IH; done|]. destruct (decide (r_uuid z = r_uuid x)) as [He|Hne].
    + exists z. split; [left|done].
    + destruct (IH (r_uuid z :: seen) Hx) as (y & Hy & Hyu).
      * intros Hin. apply elem_of_cons in Hin as [|]; [congruence|done].
      * exists y. split; [right; done|done].
Qed.
Lemma first_by_uuid_id l seen : NoDup (map r_uuid l) -> (forall x, x ∈ l -> r_uuid x ∉ seen) ->
  first_by_uuid l seen = l.
Proof.
  revert seen. induction l as [|z l IH]; intros seen Hn Hs; [done|]. cbn in Hn |- *. apply NoDup_cons in Hn as [Hz Hn].
  rewrite decide_False by (apply Hs; left). f_equal. apply IH; [done|]. intros x Hx Hin.
  apply elem_of_cons in Hin as [He|Hin]; [|apply (Hs x); [right; done|done]].
  apply Hz. apply elem_of_list_fmap. eauto.
Qed.
Lemma first_by_uuid_incl l seen x : x ∈ first_by_uuid l seen -> x ∈ l.
Proof. intros Hx. apply first_by_uuid_sub in Hx. tauto. Qed.

(** The files that count. *)
Definition counts (e : dirent) : bool := ends ".rev" (de_name e) && negb (de_link e).
Lemma load_all_spec l rs : load_all l = Ok rs <->
  map de_rev (filter (fun e => counts e = true) l) = map Some rs.
Proof.
  revert rs. induction l as [|e l IH]; intros rs.
  - cbn. split; [intros [= <-]; done|]. destruct rs; done.
  - cbn [load_all]. destruct (counts e) eqn:Hc.
    + rewrite filter_cons_True by done. unfold counts in Hc. apply andb_true_iff in Hc as [H1 H2].
      rewrite H1. apply negb_true_iff in H2. rewrite H2. cbn [negb orb map].
      destruct (de_rev e) as [r|].
      * destruct (load_all l) as [x|]; cbn [res_bind].
        -- pose proof (proj1 (IH x) eq_refl) as Hx. rewrite Hx. split; [intros [= <-]; done|].
           destruct rs as [|r' rs]; [done|]. cbn. intros He. injection He as -> He. f_equal. f_equal.
           clear -He. revert rs He. induction x as [|a x IHx]; intros [|b rs] He; try done. cbn in He.
           injection He as -> He. f_equal. auto.
        -- split; [done|]. destruct rs as [|r' rs]; [done|]. cbn. intros He. injection He as -> He.
           apply (IH rs) in He. done.
      * split; [done|]. destruct rs; done.
    + rewrite filter_cons_False by (rewrite Hc; done). unfold counts in Hc.
      assert (He : negb (ends ".rev" (de_name e)) || de_link e = true).
      { destruct (ends ".rev" (de_name e)), (de_link e); done. }
      rewrite He. apply IH.
Qed.
Lemma load_all_elem l rs r : load_all l = Ok rs ->
  r ∈ rs <-> exists e, e ∈ l /\ counts e = true /\ de_rev e = Some r.
Proof.
  rewrite load_all_spec. intros Hl. split.
  - intros Hr. assert (Hs : Some r ∈ map Some rs) by (apply elem_of_list_fmap; eauto). rewrite <- Hl in Hs.
    apply elem_of_list_fmap in Hs as (e & He & Hin). apply elem_of_list_filter in Hin as [Hc Hin]. eauto.
  - intros (e & Hin & Hc & He). assert (Hs : Some r ∈ map de_rev (filter (fun e => counts e = true) l)).
    { apply elem_of_list_fmap. exists e. split; [done|]. apply elem_of_list_filter. done. }
    rewrite Hl in Hs. apply elem_of_list_fmap in Hs as (x & [= ->] & Hx). done.
Qed.
Lemma load_all_perm l l' rs : l ≡ₚ l' -> load_all l = Ok rs -> exists rs', load_all l' = Ok rs' /\ rs ≡ₚ rs'.
Proof.
  intros Hp Hl. apply load_all_spec in Hl.
  assert (Hp' : map de_rev (filter (fun e => counts e = true) l') ≡ₚ map Some rs).
  { rewrite <- Hl. apply fmap_Permutation. rewrite Hp. done. }
  apply Permutation_map_inv in Hp' as (rs' & He & Hr). exists rs'. split; [|done].
  apply load_all_spec. done.
Qed.
