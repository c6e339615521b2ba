(** C39-C43. *)
From Verif Require Export Proofs.ScanProofs Proofs.ScheduleProofs Model.RbdBackup.

(** ** Slots *)
Definition look (k : Z) (l : list (Z * gset string)) : gset string :=
  match list_find (fun p => p.1 = k) l with Some (_, p) => p.2 | None => ∅ end.
Lemma look_cons k k' X l : look k ((k', X) :: l) = if decide (k' = k) then X else look k l.
Proof.
  unfold look. cbn. destruct (decide (k' = k)); [done|]. destruct (list_find _ l) as [[j p]|]; done.
Qed.
Lemma look_add k k' t l : look k (add_slot k' t l) = if decide (k' = k) then {[t]} ∪ look k l else look k l.
Proof.
  induction l as [|[k2 X] l IH]; cbn [add_slot].
  - rewrite look_cons. unfold look. cbn. destruct (decide (k' = k)); [rewrite union_empty_r_L|]; done.
  - destruct (decide (k2 = k')) as [->|Hne].
    + rewrite !look_cons. destruct (decide (k' = k)); done.
    + rewrite !look_cons, IH. destruct (decide (k2 = k)), (decide (k' = k)); congruence.
Qed.
Lemma keys_add k k' t l : k ∈ map fst (add_slot k' t l) <-> k = k' \/ k ∈ map fst l.
Proof.
  induction l as [|[k2 X] l IH]; cbn [add_slot].
  - cbn. rewrite elem_of_list_singleton. split; [auto|]. intros [->|Hx]; [done|]. apply elem_of_nil in Hx. done.
  - destruct (decide (k2 = k')) as [->|Hne]; cbn; rewrite !elem_of_cons; [tauto|]. rewrite IH. tauto.
Qed.
Lemma min_slot_spec l : match min_slot l with
  | None => l = []
  | Some (k, X) => (k, X) ∈ l /\ (forall k', k' ∈ map fst l -> (k <= k')%Z) /\ X = look k l
  end.
Proof.
  induction l as [|[k X] l IH]; [done|]. cbn [min_slot]. destruct (min_slot l) as [[k' X']|].
  - destruct IH as (I1 & I2 & I3). destruct (k <=? k')%Z eqn:Hle.
    + split; [left|]. split.
      * intros k2 Hk2. cbn in Hk2. apply elem_of_cons in Hk2 as [->|Hk2]; [lia|]. specialize (I2 _ Hk2). lia.
      * rewrite look_cons, decide_True by done. done.
    + split; [right; done|]. split.
      * intros k2 Hk2. cbn in Hk2. apply elem_of_cons in Hk2 as [->|Hk2]; [lia|]. auto.
      * rewrite look_cons, decide_False by lia. done.
  - subst l. split; [left|]. split.
    + intros k2 Hk2. cbn in Hk2. apply elem_of_list_singleton in Hk2. lia.
    + rewrite look_cons, decide_True by done. done.
Qed.
Lemma fold_slots (f : string * item -> Z) (S : sched) (acc : list (Z * gset string)) :
  let l := fold_left (fun l p => add_slot (f p) p.1 l) S acc in
  (forall k, k ∈ map fst l <-> k ∈ map fst acc \/ exists p, p ∈ S /\ f p = k) /\
  (forall k t, t ∈ look k l <-> t ∈ look k acc \/ exists i, (t, i) ∈ S /\ f (t, i) = k).
Proof.
  revert acc. induction S as [|[t0 i0] S IH]; intros acc; cbn [fold_left].
  - split; intros; split; auto; intros [?|(x & Hx & _)]; try done; apply elem_of_nil in Hx; done.
  - destruct (IH (add_slot (f (t0, i0)) t0 acc)) as [I1 I2]. split.
    + intros k. rewrite I1, keys_add. split.
      * intros [[->|Hk]|(p & Hp & Hk)]; [right; exists (t0, i0); split; [left|done]|auto|right; exists p; split; [right; done|done]].
      * intros [Hk|(p & Hp & Hk)]; [auto|]. apply elem_of_cons in Hp as [->|Hp]; [auto|]. right. eauto.
    + intros k t. rewrite I2, look_add. destruct (decide (f (t0, i0) = k)) as [Hk|Hk].
      * rewrite elem_of_union, elem_of_singleton. split.
        -- intros [[->|Ht]|(i & Hi & Hf)]; [right; exists i0; split; [left|done]|auto|right; exists i; split; [right; done|done]].
        -- intros [Ht|(i & Hi & Hf)]; [auto|]. apply elem_of_cons in Hi as [[= -> ->]|Hi]; [auto|]. right. eauto.
      * split.
        -- intros [Ht|(i & Hi & Hf)]; [auto|]. right. exists i. split; [right; done|done].
        -- intros [Ht|(i & Hi & Hf)]; [auto|]. apply elem_of_cons in Hi as [[= -> ->]|Hi]; [done|]. right. eauto.
Qed.

(** ** Last times *)
Lemma last_fold t l o :
  let f := fun (o : option Z) (r : rev) => if bool_decide (t ∈ r_tags r) then Some (Z.max (default 0%Z o) (r_ts r)) else o in
  (forall x, (0 <= x)%Z ->
    (exists m, fold_left f l o = Some m /\ (x < m)%Z) <->
    (exists m, o = Some m /\ (x < m)%Z) \/ exists r, r ∈ l /\ t ∈ r_tags r /\ (x < r_ts r)%Z).
Proof.
  intros f. revert o. induction l as [|r l IH]; intros o x Hx; cbn [fold_left].
  - split; [auto|]. intros [?|(r & Hr & _)]; [done|]. apply elem_of_nil in Hr. done.
  - rewrite (IH (f o r) x Hx). unfold f at 1. destruct (bool_decide (t ∈ r_tags r)) eqn:Ht.
    + apply bool_decide_eq_true in Ht. split.
      * intros [(m & [= <-] & Hm)|(y & Hy & ?)]; [|right; exists y; split; [right; done|done]].
        destruct (decide (x < r_ts r)%Z) as [Hr|Hr]; [right; exists r; split; [left|done]|].
        left. destruct o as [z|]; cbn in Hm; [exists z; split; [done|lia]|lia].
      * intros [(m & -> & Hm)|(y & Hy & Hty & Hyx)]; [left; eexists; split; [done|]; cbn; lia|].
        apply elem_of_cons in Hy as [->|Hy]; [left; eexists; split; [done|]; lia|]. right. eauto.
    + apply bool_decide_eq_false in Ht. split.
      * intros [?|(y & Hy & ?)]; [auto|]. right. exists y. split; [right; done|done].
      * intros [?|(y & Hy & Hty & ?)]; [auto|]. apply elem_of_cons in Hy as [->|Hy]; [done|]. right. eauto.
Qed.
Lemma missed_spec S h now t : (forall t i, (t, i) ∈ S -> (i_interval i <= now)%Z) ->
  t ∈ missed S h now <-> is_missed S h now t.
Proof.
  intros Hnow. unfold missed, is_missed. rewrite elem_of_list_to_set, elem_of_list_fmap.
  assert (Hc : forall r, r ∈ get_history true false h <-> r ∈ h /\ is_complete r).
  { intros r. unfold get_history, is_complete, is_clean. rewrite elem_of_list_filter. cbn.
    destruct (s_duration (r_stats r)); cbn; naive_solver. }
  assert (Hl : forall i, (t, i) ∈ S ->
    (match last_by_tag h t with Some l => (l >? now - i_interval i)%Z | None => false end = true <->
     exists r, r ∈ h /\ is_complete r /\ t ∈ r_tags r /\ (now - i_interval i < r_ts r)%Z)).
  { intros i Hi. unfold last_by_tag.
    pose proof (last_fold t (get_history true false h) None (now - i_interval i)%Z ltac:(specialize (Hnow t i Hi); lia)) as Hf.
    cbv zeta in Hf. destruct (fold_left _ _ None) as [m|].
    - rewrite Z.gtb_lt. split.
      + intros Hm. destruct (proj1 Hf ltac:(eauto)) as [(x & Hx & _)|(r & Hr & ?)]; [done|].
        apply Hc in Hr as [? ?]. exists r. tauto.
      + intros (r & Hr & H1 & H2 & H3). destruct (proj2 Hf) as (x & [= <-] & Hx); [|lia].
        right. exists r. split; [apply Hc; done|done].
    - split; [done|]. intros (r & Hr & H1 & H2 & H3). destruct (proj2 Hf) as (x & Hx & _); [|done].
      right. exists r. split; [apply Hc; done|done]. }
  split.
  - intros ([t' i] & Ht & Hp). cbn in Ht. subst t'. apply elem_of_list_filter in Hp as [Hf Hp]. exists i. split; [done|].
    intros Hx. apply (Hl i Hp) in Hx. cbn [fst snd] in Hf. rewrite Hx in Hf. done.
  - intros (i & Hi & Hno). exists (t, i). split; [done|]. apply elem_of_list_filter. split; [|done]. cbn.
    destruct (match last_by_tag h t with Some l => _ | None => _ end) eqn:E; [|done]. exfalso. apply Hno.
    apply (Hl i Hi). done.
Qed.

(** ** Durations *)
Lemma digit_value c : is_digit c -> digit c = Some (Z.of_N (N_of_ascii c) - 48)%Z.
Proof.
  unfold is_digit, digit, code. intros Hc. replace (_ && _) with true; [f_equal; lia|].
  symmetry. apply andb_true_iff. rewrite !N.leb_le. done.
Qed.
Lemma int_digits_dec ds acc b : ds <> [] -> (forall c, c ∈ ds -> is_digit c) ->
  int_digits acc b ds = Some (fold_left (fun a c => 10 * a + (Z.of_N (N_of_ascii c) - 48))%Z ds acc).
Proof.
  revert acc b. induction ds as [|c ds IH]; [done|]. intros acc b _ Hd. cbn [int_digits fold_left].
  rewrite digit_value by (apply Hd; left). destruct ds as [|c' ds]; [done|].
  apply IH; [done|]. intros x Hx. apply Hd. right. done.
Qed.
Lemma digit_ws c : is_digit c -> is_ws c = false.
Proof.
  unfold is_digit, is_ws, code. intros Hc. apply orb_false_iff. split; apply andb_false_iff; rewrite !N.leb_gt; lia.
Qed.
Lemma strip_solid l : (forall c, c ∈ l -> is_ws c = false) -> strip_chars l = l.
Proof.
  intros Hl. assert (Hs : forall k, (forall c, c ∈ k -> is_ws c = false) -> lstrip k = k).
  { intros [|c k] Hk; [done|]. cbn. rewrite Hk by left. done. }
  unfold strip_chars. rewrite (Hs l Hl), Hs, reverse_involutive; [done|]. intros c Hc. apply Hl. rewrite elem_of_reverse in Hc. done.
Qed.
Lemma py_int_dec sg ds : ds <> [] -> (forall c, c ∈ ds -> is_digit c) ->
  py_int (sign_text sg ++ unchars ds) = Some (sign_value sg * decimal ds)%Z.
Proof.
  intros Hne Hd. unfold py_int. rewrite chars_app, chars_unchars.
  rewrite strip_solid.
  2: { intros c Hc. apply elem_of_app in Hc as [Hc|Hc]; [|apply digit_ws; auto].
       destruct sg; cbn in Hc; [apply elem_of_nil in Hc; done|apply elem_of_list_singleton in Hc; subst c; done..]. }
  destruct sg; cbn [sign_text chars app].
  - destruct ds as [|c ds]; [done|].
    assert (Hm : Ascii.eqb c "-" = false /\ Ascii.eqb c "+" = false).
    { specialize (Hd c ltac:(left)). unfold is_digit in Hd. split; apply Ascii.eqb_neq; intros ->; vm_compute in Hd; destruct Hd; done. }
    destruct Hm as [-> ->]. rewrite int_digits_dec by done. unfold decimal, sign_value. rewrite Z.mul_1_l. done.
  - cbn. rewrite int_digits_dec by done. unfold decimal, sign_value. destruct (fold_left _ ds 0%Z); done.
  - cbn. rewrite int_digits_dec by done. unfold decimal, sign_value. cbn. f_equal.
Qed.
Definition unit_char (c : ascii) : Prop := c ∈ ["w"; "d"; "h"; "m"; "s"]%char.
Lemma unit_not_digit c d : unit_char c -> is_digit d -> Ascii.eqb c d = false.
Proof.
  unfold unit_char, is_digit. intros Hc Hd. apply Ascii.eqb_neq. intros ->.
  repeat (apply elem_of_cons in Hc as [->|Hc]; [vm_compute in Hd; destruct Hd; done|]). apply elem_of_nil in Hc. done.
Qed.
Lemma body_no_unit sg ds c : (forall c, c ∈ ds -> is_digit c) -> unit_char c ->
  forall d, d ∈ chars (sign_text sg ++ unchars ds)%string -> Ascii.eqb c d = false.
Proof.
  intros Hd Hc d Hx. rewrite chars_app, chars_unchars in Hx. apply elem_of_app in Hx as [Hx|Hx].
  - assert (Hs : d = "+"%char \/ d = "-"%char).
    { destruct sg; cbn in Hx; [apply elem_of_nil in Hx; done|apply elem_of_list_singleton in Hx; auto..]. }
    unfold unit_char in Hc. repeat (apply elem_of_cons in Hc as [->|Hc]; [destruct Hs as [->| ->]; reflexivity|]).
    apply elem_of_nil in Hc. done.
  - apply unit_not_digit; auto.
Qed.
Lemma drop_unit sg ds c : (forall c, c ∈ ds -> is_digit c) -> unit_char c ->
  drop_char c ((sign_text sg ++ unchars ds) ++ String c "") = (sign_text sg ++ unchars ds)%string.
Proof.
  intros Hd Hc. unfold drop_char. rewrite chars_app, filter_app. cbn [chars].
  rewrite (filter_cons_False _ c []); [|rewrite Ascii.eqb_refl; done].
  assert (Hf : filter (fun d => Ascii.eqb c d = false) (chars (sign_text sg ++ unchars ds)%string) = chars (sign_text sg ++ unchars ds)%string).
  { pose proof (body_no_unit sg ds c Hd Hc) as Hb. revert Hb. generalize (chars (sign_text sg ++ unchars ds)%string).
    intros l. induction l as [|x l IH]; intros Hb; [done|]. rewrite filter_cons_True by (apply Hb; left).
    f_equal. apply IH. intros y Hy. apply Hb. right. done. }
  rewrite Hf. change (filter _ []) with (@nil ascii). rewrite app_nil_r. apply unchars_chars.
Qed.
Lemma ends_last s c d : ends_char d (s ++ String c "") = Ascii.eqb d c.
Proof. unfold ends_char. rewrite chars_app. cbn. rewrite last_snoc. done. Qed.
Lemma ends_body sg ds c : ds <> [] -> (forall c, c ∈ ds -> is_digit c) -> unit_char c ->
  ends_char c (sign_text sg ++ unchars ds) = false.
Proof.
  intros Hne Hd Hc. unfold ends_char. destruct (last _) as [d|] eqn:Hl; [|done].
  apply (body_no_unit sg ds c Hd Hc). apply last_Some_elem_of in Hl. done.
Qed.

(** ** Service level *)
Lemma min_list_spec l : match min_list l with
  | None => l = []
  | Some m => m ∈ l /\ forall x, x ∈ l -> (m <= x)%Z
  end.
Proof.
  induction l as [|x l IH]; [done|]. cbn. destruct (min_list l) as [m|].
  - destruct IH as [I1 I2]. split.
    + destruct (Z.min_spec x m) as [[_ ->]|[_ ->]]; [left|right; done].
    + intros y Hy. apply elem_of_cons in Hy as [->|Hy]; [lia|]. specialize (I2 y Hy). lia.
  - subst l. split; [left|]. intros y Hy. apply elem_of_list_singleton in Hy. lia.
Qed.
Lemma sorted_last (h : list rev) r x : StronglySorted by_time h -> last h = Some r -> x ∈ h -> (r_ts x <= r_ts r)%Z.
Proof.
  intros Hs. induction Hs as [|y h Hs IH Hy]; intros Hl Hx; [done|]. destruct h as [|z h].
  - cbn in Hl. injection Hl as ->. apply elem_of_list_singleton in Hx. subst. lia.
  - rewrite last_cons_cons in Hl. apply elem_of_cons in Hx as [->|Hx]; [|auto].
    rewrite Forall_forall in Hy. apply (Hy r). apply last_Some_elem_of. done.
Qed.
Lemma filter_sorted (P : rev -> Prop) (HP : forall x, Decision (P x)) (h : list rev) :
  StronglySorted by_time h -> StronglySorted by_time (filter P h).
Proof.
  intros Hs. induction Hs as [|y h Hs IH Hy]; [constructor|]. rewrite filter_cons. destruct (decide (P y)); [|done].
  constructor; [done|]. rewrite Forall_forall in *. intros x Hx. apply elem_of_list_filter in Hx as [_ Hx]. auto.
Qed.

(** ** Display *)
Lemma dedup_spec seen l : NoDup (dedup seen l) /\ forall t, t ∈ dedup seen l <-> t ∈ l /\ t ∉ seen.
Proof.
  revert seen. induction l as [|x l IH]; intros seen; cbn.
  - split; [constructor|]. intros t. split; [intros Ht; apply elem_of_nil in Ht; done|intros [Ht _]; apply elem_of_nil in Ht; done].
  - destruct (decide (x ∈ seen)) as [Hx|Hx].
    + destruct (IH seen) as [I1 I2]. split; [done|]. intros t. rewrite I2, elem_of_cons. split; [tauto|].
      intros [[->|Ht] Hn]; tauto.
    + destruct (IH (x :: seen)) as [I1 I2]. split.
      * apply NoDup_cons. split; [|done]. rewrite I2. intros [_ Hn]. apply Hn. left.
      * intros t. rewrite !elem_of_cons, I2. rewrite not_elem_of_cons. split.
        -- intros [->|(A & B & C)]; auto.
        -- intros [[->|A] B]; [auto|]. destruct (decide (t = x)); auto.
Qed.
