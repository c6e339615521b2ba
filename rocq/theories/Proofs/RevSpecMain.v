(** Revision specifications: evaluating the written form gives the meaning. *)
From Verif Require Export Proofs.RevSpecProofs.

Scheme expr_mut := Induction for expr Sort Prop
with endp_mut := Induction for endp Sort Prop.
Combined Scheme expr_endp_ind from expr_mut, endp_mut.
Scheme den_mut := Induction for den Sort Prop
with den_end_mut := Induction for den_end Sort Prop.
Combined Scheme den_den_end_ind from den_mut, den_end_mut.

Definition func_for (f : fname) : func :=
  match f with First => FFirst | Last => FLast | Not => FNot | Reverse => FReverse end.
Notation T := (map TStr).
#[local] Arguments String.append !_ _ / : simpl nomatch.

(** ** unique and duplicates *)
Lemma unique_from_spec seen l : NoDup l ->
  unique_from seen l = filter (fun r => r ∉ seen) l.
Proof.
  revert seen. induction l as [|r l IH]; intros seen Hn; [done|].
  apply NoDup_cons in Hn as [Hr Hn]. cbn [unique_from]. case_bool_decide as Hs.
  - rewrite filter_cons_False by tauto. apply IH. done.
  - rewrite filter_cons_True by done. f_equal. rewrite IH by done.
    apply filter_ext_in. intros x Hx. split; [intros Hy Hz; apply Hy; right; done|].
    intros Hy Hz. apply elem_of_cons in Hz as [->|]; done.
Qed.
Lemma unique_from_ext seen seen' l : (forall r, r ∈ seen <-> r ∈ seen') ->
  unique_from seen l = unique_from seen' l.
Proof.
  revert seen seen'. induction l as [|r l IH]; intros seen seen' He; [done|]. cbn [unique_from].
  rewrite (bool_decide_ext (r ∈ seen) (r ∈ seen')) by apply He. destruct (bool_decide (r ∈ seen')).
  - apply IH. done.
  - f_equal. apply IH. intros x. rewrite !elem_of_cons, He. done.
Qed.
Lemma unique_from_app seen a b : NoDup a -> (forall r, r ∈ a -> r ∉ seen) ->
  unique_from seen (a ++ b) = a ++ unique_from (a ++ seen) b.
Proof.
  revert seen. induction a as [|r a IH]; intros seen Hn Hs; [done|].
  apply NoDup_cons in Hn as [Hr Hn]. cbn [app unique_from].
  rewrite bool_decide_eq_false_2 by (apply Hs; left). f_equal. rewrite IH; [|done|].
  - f_equal. apply unique_from_ext. intros x. set_solver.
  - intros x Hx Hy. apply elem_of_cons in Hy as [->|Hy]; [done|]. apply (Hs x); [right; done|done].
Qed.
Lemma unique_app a b : NoDup a -> NoDup b -> unique (a ++ b) = a ++ filter (fun r => r ∉ a) b.
Proof.
  intros Ha Hb. unfold unique. rewrite unique_from_app; [|done|set_solver].
  rewrite app_nil_r, unique_from_spec by done. done.
Qed.
Lemma duplicates_spec a b : NoDup a -> duplicates a b = filter (fun r => r ∈ b) a.
Proof.
  intros Ha. unfold duplicates, unique. rewrite unique_from_spec by (apply NoDup_filter; done).
  rewrite list_filter_filter. apply filter_ext_in. intros; set_solver.
Qed.

Section Den.
Context (H : list rev) (HH : NoDup H).

Lemma between_det a b l l' : between H a b l -> between H a b l' -> l = l'.
Proof.
  intros (i & j & Hi & Hj & ->) (i' & j' & Hi' & Hj' & ->).
  rewrite (NoDup_lookup H i i' a), (NoDup_lookup H j j' b) by done. done.
Qed.
Lemma selects_det w l l' : selects H w l -> selects H w l' -> l = l'.
Proof.
  intros A B. destruct (decide (w = "" \/ strip w <> w)) as [Hw|Hw].
  2: { apply (eval_word_spec H w l) in A; [|tauto|].
       2: { destruct (decide (strip w = w)); tauto. }
       apply (eval_word_spec H w l') in B; [|tauto|destruct (decide (strip w = w)); tauto]. congruence. }
  unfold selects in A, B.
  destruct A as [(x & -> & ->)|[(x & -> & ->)|[(x & t & -> & Ht & ->)|[[-> ->]|[[-> ->]|[[-> ->]|[[-> ->]|(N & A1 & A2 & A3 & A4 & (r & Hr & ->))]]]]]]];
  destruct B as [(y & B & ->)|[(y & B & ->)|[(y & u & B & Hu & ->)|[[B ->]|[[B ->]|[[B ->]|[[B ->]|(NB & B1 & B2 & B3 & B4 & (r' & Hr' & ->))]]]]]]];
    try done; try (cbn in B; congruence);
    try (destruct (NB x) as (? & ? & ?); done);
    try (destruct (N y) as (? & ? & ?); done).
  - assert (x = y) as -> by (clear -B; cbn in B; congruence). done.
  - assert (x = y) as -> by (clear -B; cbn in B; congruence). done.
  - assert (x = y) as -> by (clear -B; cbn in B; congruence). assert (t = u) as ->; [|done].
    rewrite Ht in Hu. destruct t, u; done.
  - congruence.
Qed.
Lemma den_det_both :
  (forall e l, den H e l -> forall l', den H e l' -> l = l') /\
  (forall p d r, den_end H p d r -> forall r', den_end H p d r' -> r = r').
Proof.
  apply (den_den_end_ind H (fun e l _ => forall l', den H e l' -> l = l')
    (fun p d r _ => forall r', den_end H p d r' -> r = r')).
  - intros w l Hs l' Hd. inversion Hd; subst. eapply selects_det; done.
  - intros a b x y l _ IHa _ IHb Hb l' Hd. inversion Hd; subst.
    assert (x = x0) as -> by auto. assert (y = y0) as -> by auto. eapply between_det; done.
  - intros e l _ IH l' Hd. inversion Hd; subst. auto.
  - intros e l r _ IH Hr l' Hd. inversion Hd; subst. assert (l = l0) as -> by auto. congruence.
  - intros e l r _ IH Hr l' Hd. inversion Hd; subst. assert (l = l0) as -> by auto. congruence.
  - intros e l _ IH l' Hd. inversion Hd; subst. assert (l = l0) as -> by auto. done.
  - intros e l _ IH l' Hd. inversion Hd; subst. assert (l = l0) as -> by auto. done.
  - intros e1 e2 l1 l2 _ IH1 _ IH2 l' Hd. inversion Hd; subst.
    assert (l1 = l0) as -> by auto. assert (l2 = l3) as -> by auto. done.
  - intros e1 e2 l1 l2 _ IH1 _ IH2 l' Hd. inversion Hd; subst.
    assert (l1 = l0) as -> by auto. assert (l2 = l3) as -> by auto. done.
  - intros d r -> r' Hd. inversion Hd; subst. congruence.
  - intros w d r Hr r' Hd. inversion Hd; subst. congruence.
  - intros n e d l r _ IH Hr r' Hd. inversion Hd; subst. assert (l = l0) as -> by auto. congruence.
Qed.
Lemma den_det e l l' : den H e l -> den H e l' -> l = l'.
Proof. intros A B. apply (proj1 den_det_both e l A l' B). Qed.
Lemma den_end_det p d r r' : den_end H p d r -> den_end H p d r' -> r = r'.
Proof. intros A B. apply (proj2 den_det_both p d r A r' B). Qed.

Lemma single_in w r : single H w = Some r -> r ∈ H.
Proof.
  assert (Hid : forall r, with_id H w = Some r -> r ∈ H).
  { intros x Hx. unfold with_id in Hx. apply head_Some_elem_of in Hx. apply elem_of_list_filter in Hx. tauto. }
  assert (Hk : forall r, keyword H w = Some r -> r ∈ H).
  { intros x Hx. unfold keyword in Hx. repeat case_decide; try done.
    - apply last_Some_elem_of. done.
    - apply head_Some_elem_of. done. }
  unfold single, nth_newest. destruct (py_int w) as [n|].
  - destruct (decide (n < 0)%Z); [done|]. destruct (decide (0 <= n < zlen H)%Z); [|auto].
    destruct (reverse H !! Z.to_nat n) as [x|] eqn:Hx; [|auto]. intros [= <-].
    apply elem_of_list_lookup_2 in Hx. rewrite elem_of_reverse in Hx. done.
  - destruct (with_id H w) as [x|] eqn:Hx; [|auto]. intros [= <-]. auto.
Qed.
Lemma den_good e l : den H e l -> l ⊆ H /\ NoDup l.
Proof.
  intros Hd. induction Hd as [w l Hs|a b x y l Ha Hb (i & j & Hi & Hj & ->)|e l Hd IH|e l r Hd [IH1 IH2] Hr|e l r Hd [IH1 IH2] Hr|e l Hd IH|e l Hd [IH1 IH2]
    |e1 e2 l1 l2 H1 [I1 N1] H2 [I2 N2]|e1 e2 l1 l2 H1 [I1 N1] H2 [I2 N2]].
  - assert (Hf : forall (P : rev -> Prop) `{!forall r, Decision (P r)}, filter P H ⊆ H /\ NoDup (filter P H)).
    { intros P ?. split; [|apply NoDup_filter; done]. intros r Hr. apply elem_of_list_filter in Hr. tauto. }
    destruct Hs as [(x & -> & ->)|[(x & -> & ->)|[(x & t & -> & Ht & ->)|[[-> ->]|[[-> ->]|[[-> ->]|[[-> ->]|(N & A1 & A2 & A3 & A4 & (r & Hr & ->))]]]]]]];
      try apply Hf.
    + split; done.
    + apply single_in in Hr. split; [|apply NoDup_singleton]. intros x Hx. apply elem_of_list_singleton in Hx as ->. done.
  - split.
    + intros r Hr. apply elem_of_take in Hr as (k & Hk & _). rewrite lookup_drop in Hk.
      apply elem_of_list_lookup_2 in Hk. done.
    + pose proof HH as Hn. rewrite <- (take_drop (Nat.min i j) H) in Hn. apply NoDup_app in Hn as (_ & _ & Hn).
      rewrite <- (take_drop (Nat.max i j - Nat.min i j + 1) (drop (Nat.min i j) H)) in Hn. apply NoDup_app in Hn. tauto.
  - done.
  - split; [|apply NoDup_singleton]. intros x Hx. apply elem_of_list_singleton in Hx as ->. apply IH1, head_Some_elem_of. done.
  - split; [|apply NoDup_singleton]. intros x Hx. apply elem_of_list_singleton in Hx as ->. apply IH1, last_Some_elem_of. done.
  - split; [|apply NoDup_filter; done]. intros r Hr. apply elem_of_list_filter in Hr. tauto.
  - split; [|rewrite reverse_Permutation; done]. intros r Hr. rewrite elem_of_reverse in Hr. auto.
  - split; [|apply NoDup_filter; done]. intros r Hr. apply elem_of_list_filter in Hr as [_ Hr]. auto.
  - split.
    + intros r Hr. apply elem_of_app in Hr as [Hr|Hr]; [auto|]. apply elem_of_list_filter in Hr as [_ Hr]. auto.
    + apply NoDup_app. split; [done|]. split; [|apply NoDup_filter; done].
      intros r Hr Hx. apply elem_of_list_filter in Hx as [Hx _]. done.
Qed.
End Den.

(** ** Token lists without parentheses *)
Section Main.
Context (H : list rev) (iso : string -> option Z) (HH : NoDup H).
Context (Hfirst : iso "first" = None) (Hlast : iso "last" = None).
Context (Hids : forall r, r ∈ H -> r_uuid r <> "first" /\ r_uuid r <> "last").
Notation F := (FF H iso).
Notation Wf := (wf (fun w => iso w <> None)).
Notation Wfe := (wf_end (fun w => iso w <> None)).

(** The token list in which every group has been replaced by its value. *)
Inductive flat_end : endp -> list token -> Prop :=
| flat_omit : flat_end POmit []
| flat_pword w : flat_end (PWord w) [TStr w]
| flat_pfn (n : bool) e l r :
    den H e l -> (if n then last l else head l) = Some r -> flat_end (PFn n e) [TRev r].
Inductive flat : expr -> list token -> Prop :=
| flat_word w : flat (EWord w) [TStr w]
| flat_range a b ta tb : flat_end a ta -> flat_end b tb -> flat (ERange a b) (ta ++ TStr ".." :: tb)
| flat_group e l : den H e l -> flat (EGroup e) [TList l]
| flat_fn f e l v : den H e l -> apply_func H (func_for f) l = Ok v -> flat (EFn f e) [v]
| flat_and e1 e2 t1 t2 : flat e1 t1 -> flat e2 t2 -> flat (EAnd e1 e2) (t1 ++ TStr "&" :: t2)
| flat_or e1 e2 t1 t2 : flat e1 t1 -> flat e2 t2 -> flat (EOr e1 e2) (t1 ++ TStr "," :: t2).

Lemma word_not (w x : string) : w <> x -> is_str x (TStr w) = false.
Proof. intros. cbn. apply bool_decide_eq_false. done. Qed.
Lemma value_not f l v w : apply_func H f l = Ok v -> is_str w v = false.
Proof. destruct f; cbn; repeat case_match; intros; simplify_eq; done. Qed.
Lemma flat_end_clean p t : flat_end p t -> Wfe p ->
  noparen t /\ has "," t = false /\ has "&" t = false /\ has ".." t = false /\ length t <= 1.
Proof.
  intros Hf Hw. unfold noparen. destruct Hf; cbn [wf_end] in Hw.
  - cbn. repeat split; try done; lia.
  - destruct Hw as [(_ & _ & W1 & W2 & W3 & W4 & W5) _].
    rewrite !has_cons, !word_not by done. cbn. repeat split; try done; lia.
  - cbn. repeat split; try done; lia.
Qed.
Lemma flat_clean e t : flat e t -> Wf e ->
  noparen t /\ (level e <= 1 -> has "," t = false) /\ (level e = 0 -> has "&" t = false).
Proof.
  unfold noparen. induction 1 as [w|a b ta tb Ha Hb|e l|f e l v Hd Hv|e1 e2 t1 t2 H1 IH1 H2 IH2|e1 e2 t1 t2 H1 IH1 H2 IH2];
    cbn [wf level]; intros Hw.
  - destruct Hw as (_ & _ & W1 & W2 & W3 & W4 & W5).
    rewrite !has_cons, !word_not by done. done.
  - destruct Hw as [Wa Wb]. destruct (flat_end_clean _ _ Ha Wa) as ([A1 A2] & A3 & A4 & _).
    destruct (flat_end_clean _ _ Hb Wb) as ([B1 B2] & B3 & B4 & _).
    rewrite !has_app, !has_cons, A1, A2, A3, A4, B1, B2, B3, B4. done.
  - done.
  - rewrite !has_cons, !(value_not _ _ _ _ Hv). done.
  - destruct Hw as (L1 & L2 & W1 & W2). destruct (IH1 W1) as ([A1 A2] & A3 & A4).
    destruct (IH2 W2) as ([B1 B2] & B3 & B4).
    rewrite !has_app, !has_cons, A1, A2, A3, B1, B2, B3 by lia. repeat split; try done; lia.
  - destruct Hw as (L1 & W1 & W2). destruct (IH1 W1) as ([A1 A2] & A3 & A4).
    destruct (IH2 W2) as ([B1 B2] & B3 & B4).
    rewrite !has_app, !has_cons, A1, A2, B1, B2 by lia. repeat split; try done; lia.
Qed.

(** ** Positions *)
Lemma index_of_spec r i : index_of H r = Ok i <-> exists k, H !! k = Some r /\ i = Z.of_nat k.
Proof.
  unfold index_of. pose proof (list_find_Some (fun x => x = r) H) as Hs.
  destruct (list_find (fun x => x = r) H) as [[k x]|] eqn:Hf.
  - destruct (Hs k x) as [Hs' _]. destruct (Hs' eq_refl) as (Hk & -> & _). split.
    + intros [= <-]. eauto.
    + intros (k' & Hk' & ->). rewrite (NoDup_lookup H k k' r) by done. done.
  - split; [done|]. intros (k & Hk & ->). apply list_find_None in Hf.
    rewrite Forall_forall in Hf. apply elem_of_list_lookup_2 in Hk. destruct (Hf r); done.
Qed.
Lemma single_first r : single H "first" = Some r <-> head H = Some r.
Proof.
  unfold single. change (py_int "first") with (@None Z). cbv iota.
  assert (with_id H "first" = None) as ->; [|done].
  unfold with_id. destruct (filter _ H) as [|x l] eqn:Hl; [done|].
  assert (Hx : x ∈ filter (fun r => r_uuid r = "first") H) by (rewrite Hl; left).
  apply elem_of_list_filter in Hx as [Hx Hi]. destruct (Hids x Hi). done.
Qed.
Lemma single_last r : single H "last" = Some r <-> last H = Some r.
Proof.
  unfold single. change (py_int "last") with (@None Z). cbv iota.
  assert (with_id H "last" = None) as ->; [|done].
  unfold with_id. destruct (filter _ H) as [|x l] eqn:Hl; [done|].
  assert (Hx : x ∈ filter (fun r => r_uuid r = "last") H) by (rewrite Hl; left).
  apply elem_of_list_filter in Hx as [Hx Hi]. destruct (Hids x Hi). done.
Qed.
Lemma index2_word w a : iso w = None -> w <> "" -> strip w = w ->
  index2_by_token H iso (TStr w) = Ok a <->
  exists r k, single H w = Some r /\ H !! k = Some r /\ a = (2 * Z.of_nat k)%Z.
Proof.
  intros Hi Hw Hs. unfold index2_by_token, index2_by_date. rewrite Hi. cbn [res_bind]. split.
  - destruct (find_token H w) as [r|] eqn:Hr; [|done]. cbn [res_bind].
    destruct (index_of H r) as [i|] eqn:Hx; [|done]. cbn [res_bind]. intros [= <-].
    apply find_token_spec in Hr; [|done|done]. apply index_of_spec in Hx as (k & Hk & ->). eauto.
  - intros (r & k & Hr & Hk & ->). apply find_token_spec in Hr; [|done|done]. rewrite Hr. cbn [res_bind].
    assert (Hx : index_of H r = Ok (Z.of_nat k)) by (apply index_of_spec; eauto). rewrite Hx. done.
Qed.
Lemma index2_end p t (d : string) dr a : flat_end p t -> Wfe p ->
  iso d = None -> d <> "" -> strip d = d -> (forall r, single H d = Some r <-> dr = Some r) ->
  index2_by_token H iso (default (TStr d) (head t)) = Ok a <->
  exists r k, den_end H p dr r /\ H !! k = Some r /\ a = (2 * Z.of_nat k)%Z.
Proof.
  intros Hf Hw D1 D2 D3 D4. destruct Hf as [|w|n e l r Hd Hr]; cbn [head default wf_end from_option id] in *; try change (id ?x) with x.
  - rewrite index2_word by done. split.
    + intros (r & k & Hr & Hk & ->). apply D4 in Hr. exists r, k. split; [constructor; done|done].
    + intros (r & k & Hr & Hk & ->). inversion Hr; subst. exists r, k. split; [apply D4; done|done].
  - destruct Hw as [(W0 & W1 & _) Wd].
    assert (Hi : iso w = None) by (destruct (iso w); [exfalso; apply Wd; discriminate|reflexivity]).
    rewrite index2_word by done. split.
    + intros (r & k & Hr & Hk & ->). exists r, k. split; [constructor; done|done].
    + intros (r & k & Hr & Hk & ->). inversion Hr; subst. eauto.
  - cbn [index2_by_token]. split.
    + destruct (index_of H r) as [i|] eqn:Hx; [|done]. cbn [res_bind]. intros [= <-].
      apply index_of_spec in Hx as (k & Hk & ->). exists r, k. split; [econstructor; done|done].
    + intros (r' & k & Hr' & Hk & ->). inversion Hr'; subst.
      assert (l = l0) as <- by (eapply den_det; done).
      assert (r = r') as <- by congruence.
      assert (Hx : index_of H r = Ok (Z.of_nat k)) by (apply index_of_spec; eauto). rewrite Hx. done.
Qed.
Lemma FF_one v : has "(" [v] = false -> has "," [v] = false -> has "&" [v] = false -> has ".." [v] = false ->
  F [v] = match v with TRev r => Ok [r] | TList l => Ok l | TStr w => eval_word H w end.
Proof. intros A B C D. unfold FF. cbn [find_tokens length]. rewrite A, B, C, D. cbn [andb]. destruct v; done. Qed.

Lemma slice_eq i j :
  ztake (Z.max (2 * Z.of_nat i) (2 * Z.of_nat j) / 2 + 1 - (Z.min (2 * Z.of_nat i) (2 * Z.of_nat j) + 1) / 2)
    (zdrop ((Z.min (2 * Z.of_nat i) (2 * Z.of_nat j) + 1) / 2) H) =
  take (Nat.max i j - Nat.min i j + 1) (drop (Nat.min i j) H).
Proof.
  assert (E1 : ((Z.min (2 * Z.of_nat i) (2 * Z.of_nat j) + 1) / 2 = Z.of_nat (Nat.min i j))%Z).
  { symmetry. apply Z.div_unique_pos with (r := 1%Z); lia. }
  assert (E2 : (Z.max (2 * Z.of_nat i) (2 * Z.of_nat j) / 2 = Z.of_nat (Nat.max i j))%Z).
  { symmetry. apply Z.div_unique_pos with (r := 0%Z); lia. }
  rewrite E1, E2. unfold ztake, zdrop. f_equal; [lia|]. f_equal. lia.
Qed.
Lemma eval_flat e t : flat e t -> Wf e -> forall l, F t = Ok l <-> den H e l.
Proof.
  induction 1 as [w|a b ta tb Ha Hb|e l0 Hd|f e l0 v Hd Hv|e1 e2 t1 t2 H1 IH1 H2 IH2|e1 e2 t1 t2 H1 IH1 H2 IH2];
    cbn [wf]; intros Hw l.
  - destruct Hw as (W0 & W00 & W1 & W2 & W3 & W4 & W5).
    rewrite FF_one by (rewrite has_cons, word_not by done; done).
    rewrite eval_word_spec by done. split; [constructor; done|]. intros Hd. inversion Hd; done.
  - destruct Hw as [Wa Wb]. destruct (flat_end_clean _ _ Ha Wa) as (A1 & A2 & A3 & A4 & A5).
    destruct (flat_end_clean _ _ Hb Wb) as (B1 & B2 & B3 & B4 & B5).
    rewrite FF_range by done. unfold eval_range. rewrite list_split_app by done.
    replace (1 <? length ta)%nat with false by (symmetry; apply Nat.ltb_ge; lia).
    replace (1 <? length tb)%nat with false by (symmetry; apply Nat.ltb_ge; lia). cbn [orb].
    pose proof (fun x => index2_end a ta "first" (head H) x Ha Wa Hfirst ltac:(done) ltac:(done) single_first) as Ia.
    pose proof (fun x => index2_end b tb "last" (last H) x Hb Wb Hlast ltac:(done) ltac:(done) single_last) as Ib.
    split.
    + destruct (index2_by_token H iso (default _ (head ta))) as [x|] eqn:Ex; [|done].
      destruct (index2_by_token H iso (default _ (head tb))) as [y|] eqn:Ey; [|done]. cbn [res_bind].
      intros [= <-]. destruct (Ia x) as [Ia' _]. destruct (Ia' eq_refl) as (r & i & Hr & Hi & ->).
      destruct (Ib y) as [Ib' _]. destruct (Ib' eq_refl) as (r' & j & Hr' & Hj & ->).
      econstructor; [done|done|]. exists i, j. split; [done|]. split; [done|].
      apply slice_eq.
    + intros Hd. inversion Hd as [|? ? r r' ? Hr Hr' (i & j & Hi & Hj & Hl)| | | | | | |]; subst.
      destruct (Ia (2 * Z.of_nat i)%Z) as [_ Ia']. rewrite Ia' by eauto.
      destruct (Ib (2 * Z.of_nat j)%Z) as [_ Ib']. rewrite Ib' by eauto. cbn [res_bind].
      f_equal. apply slice_eq.
  - rewrite FF_one by done. split.
    + intros [= <-]. constructor. done.
    + intros Hx. inversion Hx; subst. f_equal. eapply den_det; done.
  - rewrite FF_one by (rewrite has_cons, (value_not _ _ _ _ Hv); done).
    destruct f; cbn in Hv.
    + destruct l0 as [|r l0]; [done|]. injection Hv as <-. split.
      * intros [= <-]. econstructor; done.
      * intros Hx. inversion Hx as [| | |? l1 ? D R| | | | |]; subst.
        assert (r :: l0 = l1) as <- by (eapply den_det; done). cbn in R. congruence.
    + destruct (last l0) as [r|] eqn:Hl; [|done]. injection Hv as <-. split.
      * intros [= <-]. econstructor; done.
      * intros Hx. inversion Hx as [| | | |? l1 ? D R| | | |]; subst.
        assert (l0 = l1) as <- by (eapply den_det; done). congruence.
    + injection Hv as <-. split.
      * intros [= <-]. constructor. done.
      * intros Hx. inversion Hx; subst. f_equal. assert (l0 = l1) as <- by (eapply den_det; done). done.
    + injection Hv as <-. split.
      * intros [= <-]. constructor. done.
      * intros Hx. inversion Hx; subst. f_equal. assert (l0 = l1) as <- by (eapply den_det; done). done.
  - destruct Hw as (L1 & L2 & W1 & W2). destruct (flat_clean _ _ H1 W1) as (A1 & A2 & A3).
    destruct (flat_clean _ _ H2 W2) as (B1 & B2 & B3).
    rewrite FF_and by (try done; auto; apply A2; lia). split.
    + destruct (F t1) as [x|] eqn:Ex; [|done]. destruct (F t2) as [y|] eqn:Ey; [|done]. cbn [res_bind].
      intros [= <-]. pose proof (proj1 (IH1 W1 x) eq_refl) as D1. pose proof (proj1 (IH2 W2 y) eq_refl) as D2.
      rewrite duplicates_spec by (apply (den_good H HH _ _ D1)). constructor; done.
    + intros Hx. inversion Hx; subst. rewrite (proj2 (IH1 W1 l1)), (proj2 (IH2 W2 l2)) by done. cbn [res_bind].
      rewrite duplicates_spec; [done|]. eapply den_good; done.
  - destruct Hw as (L1 & W1 & W2). destruct (flat_clean _ _ H1 W1) as (A1 & A2 & A3).
    destruct (flat_clean _ _ H2 W2) as (B1 & B2 & B3).
    rewrite FF_comma by (try done; auto; apply A2; lia). split.
    + destruct (F t1) as [x|] eqn:Ex; [|done]. destruct (F t2) as [y|] eqn:Ey; [|done]. cbn [res_bind].
      intros [= <-]. pose proof (proj1 (IH1 W1 x) eq_refl) as D1. pose proof (proj1 (IH2 W2 y) eq_refl) as D2.
      rewrite unique_app; [|eapply den_good; done|eapply den_good; done]. constructor; done.
    + intros Hx. inversion Hx; subst. rewrite (proj2 (IH1 W1 l1)), (proj2 (IH2 W2 l2)) by done. cbn [res_bind].
      rewrite unique_app; [done|eapply den_good; done|eapply den_good; done].
Qed.

(** ** From the written form to the flat one *)
Lemma den_flat e l : den H e l -> exists t, flat e t.
Proof.
  assert (Hp : forall p d r, den_end H p d r -> exists t, flat_end p t).
  { intros p d r Hd. destruct Hd; eexists; econstructor; done. }
  induction 1.
  - eexists. constructor.
  - destruct (Hp _ _ _ H0), (Hp _ _ _ H1). eexists. constructor; done.
  - eexists. constructor. done.
  - destruct l as [|? l]; [done|]. eexists. econstructor; [done|]. reflexivity.
  - eexists. econstructor; [done|]. cbn. rewrite H1. reflexivity.
  - eexists. econstructor; [done|]. reflexivity.
  - eexists. econstructor; [done|]. reflexivity.
  - destruct IHden1, IHden2. eexists. constructor; done.
  - destruct IHden1, IHden2. eexists. constructor; done.
Qed.
(** A prefix after which an expression may start. *)
Definition opens (P : list token) : Prop :=
  P = [] \/ exists P' s, P = P' ++ [TStr s] /\ (s = "(" \/ s = "," \/ s = "&" \/ s = "..").
Lemma opens_snoc P s : s = "(" \/ s = "," \/ s = "&" \/ s = ".." -> opens (P ++ [TStr s]).
Proof. intros Hs. right. eauto. Qed.
Lemma opens_close P x N : opens P -> close H iso P x N = F (P ++ TList x :: N).
Proof.
  intros HP. unfold close. assert (ends_with_func P = None) as ->; [|done].
  unfold ends_with_func. destruct HP as [->|(P' & s & -> & Hs)]; [done|].
  rewrite reverse_snoc. destruct Hs as [->|[->|[->| ->]]]; done.
Qed.
Lemma func_close P f x N :
  close H iso (P ++ [TStr (fn_name f)]) x N =
  res_bind (apply_func H (func_for f) x) (fun v => F (P ++ v :: N)).
Proof.
  unfold close. assert (ends_with_func (P ++ [TStr (fn_name f)]) = Some (P, func_for f)) as ->; [|done].
  unfold ends_with_func. rewrite reverse_snoc.
  assert (func_of (fn_name f) = Some (func_for f)) as -> by (destruct f; reflexivity).
  rewrite reverse_involutive. done.
Qed.

Definition reads {A} (ren : list string) (fl : A -> list token -> Prop) (e : A) : Prop :=
  forall P N, opens P -> has "(" N = false ->
    (forall t, fl e t -> F (P ++ T ren ++ N) = F (P ++ t ++ N)) /\
    (forall x, F (P ++ T ren ++ N) = Ok x -> exists t, fl e t).

(** A parenthesized expression whose value is put back by [k]. *)
Lemma reads_paren e P N : Wf e -> reads (render e) flat e -> has "(" N = false ->
  (forall l, den H e l -> F (P ++ TStr "(" :: T (render e) ++ TStr ")" :: N) = close H iso P l N) /\
  (forall x, F (P ++ TStr "(" :: T (render e) ++ TStr ")" :: N) = Ok x -> exists l, den H e l).
Proof.
  intros We IH HN.
  destruct (IH (P ++ [TStr "("]) (TStr ")" :: N)) as [I1 I2]; [apply opens_snoc; auto|rewrite has_cons, HN; done|].
  assert (E1 : forall t, P ++ TStr "(" :: t ++ TStr ")" :: N = (P ++ [TStr "("]) ++ t ++ TStr ")" :: N)
    by (intros t; rewrite <- app_assoc; done).
  assert (Hstep : forall t, flat e t ->
    F (P ++ TStr "(" :: T (render e) ++ TStr ")" :: N) = res_bind (F t) (fun x => close H iso P x N)).
  { intros t Ht. rewrite E1, (I1 t Ht), <- E1. destruct (flat_clean _ _ Ht We) as ([A1 A2] & _).
    apply FF_paren; done. }
  split.
  - intros l Hd. destruct (den_flat _ _ Hd) as [t Ht]. rewrite (Hstep t Ht).
    rewrite (proj2 (eval_flat e t Ht We l) Hd). done.
  - intros x Hx. rewrite E1 in Hx. destruct (I2 x Hx) as [t Ht]. rewrite <- E1, (Hstep t Ht) in Hx.
    destruct (F t) as [l|] eqn:Hl; [|done]. exists l. apply (eval_flat e t Ht We l). done.
Qed.
Lemma render_paren e (P N : list token) w :
  P ++ T (w :: "(" :: render e ++ [")"]) ++ N = (P ++ [TStr w]) ++ TStr "(" :: T (render e) ++ TStr ")" :: N.
Proof. rewrite <- app_assoc. cbn. rewrite map_app, <- app_assoc. done. Qed.

Lemma reads_both :
  (forall e, Wf e -> reads (render e) flat e) /\ (forall p, Wfe p -> reads (render_end p) flat_end p).
Proof.
  apply expr_endp_ind.
  - intros w _ P N _ _. split; [|eauto using flat_word]. intros t Ht. inversion Ht; done.
  - intros a IHa b IHb [Wa Wb] P N HP HN. cbn [render]. rewrite !map_app, <- !app_assoc. cbn [map app].
    destruct (IHb Wb (P ++ T (render_end a) ++ [TStr ".."]) N) as [B1 B2];
      [rewrite app_assoc; apply opens_snoc; auto|done|].
    assert (E1 : forall t, P ++ T (render_end a) ++ TStr ".." :: t ++ N =
      (P ++ T (render_end a) ++ [TStr ".."]) ++ t ++ N) by (intros; rewrite <- !app_assoc; done).
    assert (A : forall tb, flat_end b tb ->
      (forall ta, flat_end a ta -> F (P ++ T (render_end a) ++ TStr ".." :: T (render_end b) ++ N) =
        F (P ++ (ta ++ TStr ".." :: tb) ++ N)) /\
      (forall x, F (P ++ T (render_end a) ++ TStr ".." :: T (render_end b) ++ N) = Ok x -> exists ta, flat_end a ta)).
    { intros tb Hb. rewrite E1, (B1 tb Hb), <- E1.
      destruct (flat_end_clean _ _ Hb Wb) as ([C1 _] & _).
      destruct (IHa Wa P (TStr ".." :: tb ++ N)) as [A1 A2]; [done|rewrite has_cons, has_app, C1, HN; done|].
      split; [|done]. intros ta Ha. rewrite (A1 ta Ha), <- app_assoc. done. }
    split.
    + intros t Ht. inversion Ht as [|? ? ta tb Ha Hb| | | |]; subst. apply (A tb Hb). done.
    + intros x Hx. pose proof Hx as Hy. rewrite E1 in Hy. destruct (B2 x Hy) as [tb Hb].
      destruct (proj2 (A tb Hb) x Hx) as [ta Ha]. eexists. constructor; done.
  - intros e IH We P N HP HN. cbn [wf] in We. cbn [render].
    assert (E : P ++ T ("(" :: render e ++ [")"]) ++ N = P ++ TStr "(" :: T (render e) ++ TStr ")" :: N)
      by (cbn; rewrite map_app, <- app_assoc; done).
    rewrite E. destruct (reads_paren e P N We (IH We) HN) as [R1 R2]. split.
    + intros t Ht. inversion Ht as [| |? l Hd| | |]; subst. rewrite (R1 l Hd). apply opens_close. done.
    + intros x Hx. destruct (R2 x Hx) as [l Hd]. eexists. constructor. done.
  - intros f e IH We P N HP HN. cbn [wf] in We. cbn [render]. rewrite render_paren.
    destruct (reads_paren e (P ++ [TStr (fn_name f)]) N We (IH We) HN) as [R1 R2]. split.
    + intros t Ht. inversion Ht as [| | |? ? l v Hd Hv| |]; subst. rewrite (R1 l Hd), func_close, Hv. done.
    + intros x Hx. destruct (R2 x Hx) as [l Hd]. rewrite (R1 l Hd), func_close in Hx.
      destruct (apply_func H (func_for f) l) as [v|] eqn:Hv; [|done]. eexists. econstructor; done.
  - intros e1 IH1 e2 IH2 (L1 & L2 & W1 & W2) P N HP HN. cbn [render]. rewrite !map_app, <- !app_assoc. cbn [map app].
    destruct (IH2 W2 (P ++ T (render e1) ++ [TStr "&"]) N) as [B1 B2];
      [rewrite app_assoc; apply opens_snoc; auto|done|].
    assert (E1 : forall t, P ++ T (render e1) ++ TStr "&" :: t ++ N =
      (P ++ T (render e1) ++ [TStr "&"]) ++ t ++ N) by (intros; rewrite <- !app_assoc; done).
    assert (A : forall tb, flat e2 tb ->
      (forall ta, flat e1 ta -> F (P ++ T (render e1) ++ TStr "&" :: T (render e2) ++ N) =
        F (P ++ (ta ++ TStr "&" :: tb) ++ N)) /\
      (forall x, F (P ++ T (render e1) ++ TStr "&" :: T (render e2) ++ N) = Ok x -> exists ta, flat e1 ta)).
    { intros tb Hb. rewrite E1, (B1 tb Hb), <- E1.
      destruct (flat_clean _ _ Hb W2) as ([C1 _] & _).
      destruct (IH1 W1 P (TStr "&" :: tb ++ N)) as [A1 A2]; [done|rewrite has_cons, has_app, C1, HN; done|].
      split; [|done]. intros ta Ha. rewrite (A1 ta Ha), <- app_assoc. done. }
    split.
    + intros t Ht. inversion Ht as [| | | |? ? ta tb Ha Hb|]; subst. apply (A tb Hb). done.
    + intros x Hx. pose proof Hx as Hy. rewrite E1 in Hy. destruct (B2 x Hy) as [tb Hb].
      destruct (proj2 (A tb Hb) x Hx) as [ta Ha]. eexists. constructor; done.
  - intros e1 IH1 e2 IH2 (L1 & W1 & W2) P N HP HN. cbn [render]. rewrite !map_app, <- !app_assoc. cbn [map app].
    destruct (IH2 W2 (P ++ T (render e1) ++ [TStr ","]) N) as [B1 B2];
      [rewrite app_assoc; apply opens_snoc; auto|done|].
    assert (E1 : forall t, P ++ T (render e1) ++ TStr "," :: t ++ N =
      (P ++ T (render e1) ++ [TStr ","]) ++ t ++ N) by (intros; rewrite <- !app_assoc; done).
    assert (A : forall tb, flat e2 tb ->
      (forall ta, flat e1 ta -> F (P ++ T (render e1) ++ TStr "," :: T (render e2) ++ N) =
        F (P ++ (ta ++ TStr "," :: tb) ++ N)) /\
      (forall x, F (P ++ T (render e1) ++ TStr "," :: T (render e2) ++ N) = Ok x -> exists ta, flat e1 ta)).
    { intros tb Hb. rewrite E1, (B1 tb Hb), <- E1.
      destruct (flat_clean _ _ Hb W2) as ([C1 _] & _).
      destruct (IH1 W1 P (TStr "," :: tb ++ N)) as [A1 A2]; [done|rewrite has_cons, has_app, C1, HN; done|].
      split; [|done]. intros ta Ha. rewrite (A1 ta Ha), <- app_assoc. done. }
    split.
    + intros t Ht. inversion Ht as [| | | | |? ? ta tb Ha Hb]; subst. apply (A tb Hb). done.
    + intros x Hx. pose proof Hx as Hy. rewrite E1 in Hy. destruct (B2 x Hy) as [tb Hb].
      destruct (proj2 (A tb Hb) x Hx) as [ta Ha]. eexists. constructor; done.
  - intros _ P N _ _. split; [|eauto using flat_omit]. intros t Ht. inversion Ht; done.
  - intros w _ P N _ _. split; [|eauto using flat_pword]. intros t Ht. inversion Ht; done.
  - intros n e IH We P N HP HN. cbn [wf_end] in We. cbn [render_end].
    assert (En : (if n then "last" else "first") = fn_name (if n then Last else First)) by (destruct n; done).
    rewrite En, render_paren.
    destruct (reads_paren e (P ++ [TStr (fn_name (if n then Last else First))]) N We (IH We) HN) as [R1 R2]. split.
    + intros t Ht. inversion Ht as [| |? ? l r Hd Hr]; subst. rewrite (R1 l Hd), func_close.
      destruct n; cbn; [rewrite Hr; done|]. destruct l; [done|]. cbn in Hr. injection Hr as <-. done.
    + intros x Hx. destruct (R2 x Hx) as [l Hd]. rewrite (R1 l Hd), func_close in Hx.
      destruct n; cbn in Hx.
      * destruct (last l) as [r|] eqn:Hl; [|done]. eexists. econstructor; done.
      * destruct l as [|r l]; [done|]. eexists. econstructor; [done|]. reflexivity.
Qed.
Theorem eval_render e l : Wf e -> F (T (render e)) = Ok l <-> den H e l.
Proof.
  intros We. destruct (proj1 reads_both e We [] []) as [R1 R2]; [left; done|done|].
  cbn [app] in R1, R2. rewrite app_nil_r in R1, R2. split.
  - intros Hl. destruct (R2 l Hl) as [t Ht]. apply (eval_flat e t Ht We l). rewrite <- (app_nil_r t), <- R1 by done. done.
  - intros Hd. destruct (den_flat _ _ Hd) as [t Ht]. rewrite (R1 t Ht), app_nil_r. apply (eval_flat e t Ht We l). done.
Qed.
End Main.
