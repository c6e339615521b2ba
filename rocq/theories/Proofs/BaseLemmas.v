(** Lemmas about the helpers in Model/Base.v. *)
From Verif Require Export Model.Base.
From Coq Require Export ZifyBool ZifyNat.

Lemma zlen_nil {A} : zlen (@nil A) = 0%Z.
Proof. reflexivity. Qed.
Lemma zlen_cons {A} (x : A) l : zlen (x :: l) = (1 + zlen l)%Z.
Proof. unfold zlen. cbn [length]. lia. Qed.
Lemma zlen_app {A} (l k : list A) : zlen (l ++ k) = (zlen l + zlen k)%Z.
Proof. unfold zlen. rewrite app_length. lia. Qed.
Lemma zlen_nonneg {A} (l : list A) : (0 <= zlen l)%Z.
Proof. unfold zlen. lia. Qed.
Lemma zlen_zeros n : zlen (zeros n) = Z.max 0 n.
Proof. unfold zlen, zeros. rewrite replicate_length. lia. Qed.
Lemma zlen_ztake {A} n (l : list A) :
  zlen (ztake n l) = Z.min (Z.max 0 n) (zlen l).
Proof. unfold zlen, ztake. rewrite take_length. lia. Qed.
Lemma zlen_zdrop {A} n (l : list A) :
  zlen (zdrop n l) = Z.max 0 (zlen l - Z.max 0 n).
Proof. unfold zlen, zdrop. rewrite drop_length. lia. Qed.
Lemma ztake_zdrop {A} n (l : list A) : ztake n l ++ zdrop n l = l.
Proof. apply take_drop. Qed.
Lemma ztake_all {A} n (l : list A) : (zlen l <= n)%Z -> ztake n l = l.
Proof. unfold zlen, ztake. intros H. apply take_ge. lia. Qed.
Lemma zdrop_all {A} n (l : list A) : (zlen l <= n)%Z -> zdrop n l = [].
Proof. unfold zlen, zdrop. intros H. apply drop_ge. lia. Qed.
Lemma ztake_neg {A} n (l : list A) : (n <= 0)%Z -> ztake n l = [].
Proof. unfold ztake. intros H. replace (Z.to_nat n) with 0%nat by lia. reflexivity. Qed.
Lemma zdrop_neg {A} n (l : list A) : (n <= 0)%Z -> zdrop n l = l.
Proof. unfold zdrop. intros H. replace (Z.to_nat n) with 0%nat by lia. reflexivity. Qed.

Lemma lookup_ztake {A} n (l : list A) i :
  ztake n l !! i = if decide (Z.of_nat i < n)%Z then l !! i else None.
Proof.
  unfold ztake. case_decide as H.
  - apply lookup_take. lia.
  - apply lookup_take_ge. lia.
Qed.
Lemma lookup_zdrop {A} n (l : list A) i :
  zdrop n l !! i = l !! (Z.to_nat n + i)%nat.
Proof. unfold zdrop. apply lookup_drop. Qed.
Lemma lookup_zeros n i :
  zeros n !! i = if decide (Z.of_nat i < n)%Z then Some zero_byte else None.
Proof.
  unfold zeros. case_decide as H.
  - apply lookup_replicate_2. lia.
  - apply lookup_replicate_None. lia.
Qed.
Lemma lookup_zlen {A} (l : list A) i :
  is_Some (l !! i) <-> (Z.of_nat i < zlen l)%Z.
Proof. rewrite lookup_lt_is_Some. unfold zlen. lia. Qed.
Lemma lookup_Some_zlen {A} (l : list A) i x :
  l !! i = Some x -> (Z.of_nat i < zlen l)%Z.
Proof. intros H. apply lookup_zlen. eauto. Qed.

(** Stable insertion sort. *)
Lemma insert_by_perm {A} (le : A -> A -> bool) x l :
  insert_by le x l ≡ₚ x :: l.
Proof.
  induction l as [|y l IH]; cbn [insert_by]; [done|].
  destruct (le x y); [done|]. rewrite IH. apply perm_swap.
Qed.
Lemma isort_perm {A} (le : A -> A -> bool) l : isort le l ≡ₚ l.
Proof.
  induction l as [|x l IH]; cbn [isort]; [done|].
  rewrite insert_by_perm, IH. done.
Qed.
Lemma isort_elem {A} (le : A -> A -> bool) l x : x ∈ isort le l <-> x ∈ l.
Proof. rewrite isort_perm. done. Qed.
Lemma isort_length {A} (le : A -> A -> bool) l :
  length (isort le l) = length l.
Proof. apply Permutation_length, isort_perm. Qed.

Section sorted.
  Context {A} (le : A -> A -> bool).
  Context (le_total : forall a b, le a b = false -> le b a = true).
  Context (le_trans : forall a b c, le a b = true -> le b c = true -> le a c = true).
  Lemma insert_by_sorted x l :
    StronglySorted (fun a b => le a b = true) l ->
    StronglySorted (fun a b => le a b = true) (insert_by le x l).
  Proof.
    induction 1 as [|y l Hs IH Hall]; cbn [insert_by].
    - constructor; constructor.
    - destruct (le x y) eqn:Hxy.
      + constructor; [constructor; done|].
        constructor; [done|]. eapply Forall_impl; [exact Hall|].
        intros z Hz. eapply le_trans; done.
      + constructor; [done|]. rewrite insert_by_perm.
        constructor; [apply le_total; done|done].
  Qed.
  Lemma isort_sorted l : StronglySorted (fun a b => le a b = true) (isort le l).
  Proof.
    induction l as [|x l IH]; cbn [isort]; [constructor|].
    apply insert_by_sorted, IH.
  Qed.
End sorted.

(** Association lists. *)
Section alist.
  Context {K V : Type} `{EqDecision K}.
  Implicit Types (l : list (K * V)).

  Lemma alookup_elem_1 k v l : alookup k l = Some v -> (k, v) ∈ l.
  Proof.
    induction l as [|[k' v'] l IH]; cbn [alookup]; [done|].
    case_decide as H; intros Heq.
    - simplify_eq. left.
    - right. auto.
  Qed.
  Lemma alookup_None k l : alookup k l = None <-> k ∉ map fst l.
  Proof.
    induction l as [|[k' v'] l IH]; cbn [alookup map fst].
    - split; [intros _ H; inversion H|done].
    - case_decide as H; subst.
      + split; [done|]. intros Hn. destruct Hn. left.
      + rewrite IH. rewrite elem_of_cons. naive_solver.
  Qed.
  Lemma alookup_elem_2 k v l :
    NoDup (map fst l) -> (k, v) ∈ l -> alookup k l = Some v.
  Proof.
    induction l as [|[k' v'] l IH]; cbn [alookup map fst]; intros Hnd Hin.
    - inversion Hin.
    - apply NoDup_cons in Hnd as [Hn Hnd].
      apply elem_of_cons in Hin as [Heq|Hin].
      + simplify_eq. rewrite decide_True; done.
      + rewrite decide_False; [auto|]. intros ->. apply Hn.
        change k' with (fst (k', v)). apply elem_of_list_fmap_1. done.
  Qed.
  Lemma alookup_aset k k' v l :
    alookup k (aset k' v l) = if decide (k = k') then Some v else alookup k l.
  Proof.
    induction l as [|[k1 v1] l IH]; cbn [aset alookup]; [done|].
    destruct (decide (k' = k1)) as [H1|H1]; cbn [alookup]; subst.
    - repeat case_decide; congruence.
    - rewrite IH. repeat case_decide; congruence.
  Qed.
  Lemma aset_keys k v l :
    is_Some (alookup k l) -> map fst (aset k v l) = map fst l.
  Proof.
    induction l as [|[k1 v1] l IH]; cbn [aset alookup map]; intros Hs.
    - destruct Hs; done.
    - case_decide; subst; cbn [map fst]; [done|]. rewrite IH; done.
  Qed.
  Lemma alookup_app k l1 l2 :
    alookup k (l1 ++ l2) =
      match alookup k l1 with Some v => Some v | None => alookup k l2 end.
  Proof.
    induction l1 as [|[k1 v1] l1 IH]; cbn [app alookup]; [done|].
    case_decide; done.
  Qed.
End alist.

(** Monad. *)
Lemma bind_ok {S A B} (m : M S A) (k : A -> M S B) s s' a :
  m s = (s', Ok a) -> bind m k s = k a s'.
Proof. intros H. unfold bind. rewrite H. done. Qed.
Lemma bind_err {S A B} (m : M S A) (k : A -> M S B) s s' e :
  m s = (s', Err e) -> bind m k s = (s', Err e).
Proof. intros H. unfold bind. rewrite H. done. Qed.
