(** Proofs about copying and comparing plain files (Model/Copy.v). *)
From Verif Require Export Model.Copy.
From Verif Require Import Proofs.BaseLemmas.

(** Byte [i] of a file that is thought to continue with zeroes. *)
Definition at0 (c : bytes) (i : nat) : byte := default zero_byte (c !! i).

Lemma zeros_lookup n i : (i < Z.to_nat n)%nat -> zeros n !! i = Some zero_byte.
Proof. intros. by apply lookup_replicate_2. Qed.
Lemma zeros_at0 n i : at0 (zeros n) i = zero_byte.
Proof.
  unfold at0. destruct (decide (i < Z.to_nat n)%nat).
  - by rewrite zeros_lookup.
  - rewrite lookup_ge_None_2; [done|]. unfold zeros. rewrite replicate_length. lia.
Qed.
Lemma zeros_length n : length (zeros n) = Z.to_nat n.
Proof. apply replicate_length. Qed.

Lemma read_at_lookup c p n i :
  (0 <= p)%Z -> (i < Z.to_nat n)%nat ->
  read_at c p n !! i = c !! (Z.to_nat p + i)%nat.
Proof.
  intros. unfold read_at, ztake, zdrop. rewrite lookup_take by done.
  by rewrite lookup_drop.
Qed.
Lemma read_at_length c p n :
  length (read_at c p n) = (Z.to_nat n `min` (length c - Z.to_nat p))%nat.
Proof. unfold read_at, ztake, zdrop. by rewrite take_length, drop_length. Qed.

Lemma read_at_ext c c' p n :
  (0 <= p)%Z ->
  (forall i, (Z.to_nat p <= i)%nat -> c !! i = c' !! i) -> read_at c p n = read_at c' p n.
Proof.
  intros Hp H. unfold read_at, ztake, zdrop. f_equal.
  apply list_eq. intros i. rewrite !lookup_drop. apply H. lia.
Qed.

Lemma at0_app_zeros c n i : at0 (c ++ zeros n) i = at0 c i.
Proof.
  unfold at0. destruct (decide (i < length c)%nat).
  - by rewrite lookup_app_l.
  - rewrite lookup_app_r by lia. rewrite (lookup_ge_None_2 c) by lia.
    pose proof (zeros_at0 n (i - length c)) as H. unfold at0 in H. done.
Qed.

(** Everything about [write_at] that is needed. *)
Lemma write_at_spec c p d :
  (0 <= p)%Z -> d <> [] ->
  length (write_at c p d) = (length c `max` (Z.to_nat p + length d))%nat /\
  (forall i, (i < Z.to_nat p)%nat -> at0 (write_at c p d) i = at0 c i) /\
  (forall i, (i < length d)%nat ->
     write_at c p d !! (Z.to_nat p + i)%nat = d !! i) /\
  (forall i, (Z.to_nat p + length d <= i)%nat -> write_at c p d !! i = c !! i).
Proof.
  intros Hp Hd. unfold write_at. destruct (decide (d = [])) as [|_]; [done|].
  assert (Hl : length (ztake p c ++ zeros (p - zlen c)) = Z.to_nat p).
  { unfold ztake, zlen. rewrite app_length, zeros_length, take_length. lia. }
  rewrite (assoc_L (++)).
  assert (Hdl : (0 < length d)%nat) by (destruct d; [done|cbn; lia]).
  repeat split.
  - rewrite app_length, Hl, app_length. unfold zdrop, zlen.
    rewrite drop_length. lia.
  - intros i Hi. unfold at0 at 1. rewrite lookup_app_l by lia.
    change (at0 (ztake p c ++ zeros (p - zlen c)) i = at0 c i).
    rewrite at0_app_zeros. unfold at0, ztake. by rewrite lookup_take by lia.
  - intros i Hi. rewrite lookup_app_r by lia. rewrite Hl.
    rewrite lookup_app_l by lia. f_equal. lia.
  - intros i Hi. rewrite lookup_app_r by lia. rewrite Hl.
    rewrite lookup_app_r by lia. unfold zdrop, zlen. rewrite lookup_drop.
    f_equal. lia.
Qed.

Lemma punch_hole_spec k c off len :
  (0 <= off)%Z -> (0 < len)%Z ->
  exists c', punch_hole k c off len = Ok c' /\
  (length c <= length c' <= length c `max` (Z.to_nat off + Z.to_nat len))%nat /\
  (k_punch k = true -> length c' = length c) /\
  (forall i, (i < Z.to_nat off)%nat -> at0 c' i = at0 c i) /\
  (forall i, (Z.to_nat off <= i < Z.to_nat off + Z.to_nat len)%nat ->
     at0 c' i = zero_byte) /\
  (forall i, (Z.to_nat off + Z.to_nat len <= i)%nat -> c' !! i = c !! i).
Proof.
  intros Ho Hl. unfold punch_hole.
  destruct (Z.leb_spec len 0) as [|_]; [lia|].
  destruct (k_punch k) eqn:Hk.
  - eexists; split; [reflexivity|].
    destruct (decide (zlen c <= off)%Z) as [Hc|Hc].
    + (* behind the end: nothing changes *)
      unfold zlen in Hc.
      assert (E : ztake off c ++ zeros (Z.min len (zlen c - off)) ++ zdrop (off + len) c = c).
      { unfold ztake, zdrop. rewrite take_ge by lia. rewrite (drop_ge c) by lia.
        replace (zeros (Z.min len (zlen c - off))) with (@nil byte)
          by (unfold zeros, zlen; replace (Z.to_nat _) with O by lia; done).
        by rewrite !app_nil_r. }
      rewrite E. repeat split; try lia; try done.
      intros i Hi. unfold at0. by rewrite lookup_ge_None_2 by lia.
    + unfold zlen in Hc.
      assert (H1 : length (ztake off c) = Z.to_nat off)
        by (unfold ztake; rewrite take_length; lia).
      assert (H2 : length (zeros (Z.min len (zlen c - off)))
                   = (Z.to_nat len `min` (length c - Z.to_nat off))%nat)
        by (rewrite zeros_length; unfold zlen; lia).
      assert (Hlen : length (ztake off c ++ zeros (Z.min len (zlen c - off)) ++ zdrop (off + len) c) = length c).
      { rewrite !app_length, H1, H2. unfold zdrop. rewrite drop_length. lia. }
      split; [rewrite Hlen; lia|]. split; [done|].
      repeat split.
      * intros i Hi. unfold at0. rewrite lookup_app_l by lia.
        unfold ztake. by rewrite lookup_take by lia.
      * intros i [Hi1 Hi2]. unfold at0. rewrite lookup_app_r by lia. rewrite H1.
        destruct (decide (i < length c)%nat).
        -- rewrite lookup_app_l by lia. by rewrite zeros_lookup by (unfold zlen; lia).
        -- rewrite lookup_app_r by lia.
           rewrite lookup_ge_None_2; [done|]. unfold zdrop. rewrite drop_length. lia.
      * intros i Hi. rewrite lookup_app_r by lia. rewrite H1.
        destruct (decide (i < length c)%nat).
        -- rewrite lookup_app_r by lia. unfold zdrop. rewrite lookup_drop.
           f_equal. lia.
        -- rewrite !lookup_ge_None_2; try done; try lia.
           rewrite app_length, H2. unfold zdrop. rewrite drop_length. lia.
  - eexists; split; [reflexivity|].
    assert (Hne : zeros len <> []).
    { intros E. apply (f_equal length) in E. rewrite zeros_length in E. cbn in E. lia. }
    destruct (write_at_spec c off (zeros len) Ho Hne) as (L & W1 & W2 & W3).
    rewrite zeros_length in L, W2, W3.
    split; [lia|]. split; [congruence|]. repeat split; [done| |done].
    intros i Hi. unfold at0.
    replace i with (Z.to_nat off + (i - Z.to_nat off))%nat by lia.
    rewrite W2 by lia. by rewrite zeros_lookup by lia.
Qed.

Lemma read_at_whole c p n :
  read_at c p (zlen (read_at c p n)) = read_at c p n.
Proof.
  unfold zlen. rewrite read_at_length. unfold read_at, ztake, zdrop.
  rewrite Nat2Z.id.
  destruct (decide (Z.to_nat n <= length c - Z.to_nat p)%nat).
  - by rewrite Nat.min_l by lia.
  - rewrite Nat.min_r by lia. rewrite !take_ge; [done|..]; rewrite drop_length; lia.
Qed.

(** The loop invariant of [copy_overwrite]. *)
Record co_inv (src tgt : bytes) (psize start : Z) (t : target) : Prop := {
  ci_done : forall i, (i < Z.to_nat start)%nat -> at0 (t_data t) i = at0 src i;
  ci_rest : forall i, (Z.to_nat start <= i)%nat -> t_data t !! i = tgt !! i;
  ci_len : (length tgt <= length (t_data t) <= length tgt `max` Z.to_nat start)%nat;
  ci_touch : forall o n, (o, n) ∈ t_touched t ->
    (0 <= o /\ o mod psize = 0 /\ o < start)%Z /\
    n = zlen (read_at src o psize) /\
    read_at src o n <> read_at tgt o n;
  ci_nd : NoDup (t_touched t) }.

Lemma co_step_spec k psize src tgt start t :
  (0 < psize)%Z -> (0 <= start)%Z -> (start mod psize = 0)%Z ->
  read_at src start psize <> [] ->
  co_inv src tgt psize start t ->
  exists t', co_step k psize start (read_at src start psize) t = Ok t' /\
    co_inv src tgt psize (start + zlen (read_at src start psize)) t'.
Proof.
  intros Hps Hs Hmod Hne [I1 I2 I3 I4 I5].
  set (chunk := read_at src start psize) in *.
  assert (Hcl : length chunk = (Z.to_nat psize `min` (length src - Z.to_nat start))%nat)
    by apply read_at_length.
  assert (Hcp : (0 < length chunk)%nat) by (destruct chunk; [done|cbn; lia]).
  assert (Hcn : forall i, (i < length chunk)%nat ->
     at0 src (Z.to_nat start + i) = at0 chunk i).
  { intros i Hi. unfold at0, chunk. by rewrite read_at_lookup by lia. }
  assert (Hcmp : read_at (t_data t) start (zlen chunk) = read_at tgt start (zlen chunk)).
  { apply read_at_ext; [done|]. exact I2. }
  assert (Hz : Z.to_nat (start + zlen chunk) = (Z.to_nat start + length chunk)%nat)
    by (unfold zlen; lia).
  assert (Htouch : chunk <> read_at tgt start (zlen chunk) ->
    forall o n, (o, n) ∈ t_touched t ++ [(start, zlen chunk)] ->
    (0 <= o /\ o mod psize = 0 /\ o < start + zlen chunk)%Z /\
    n = zlen (read_at src o psize) /\
    read_at src o n <> read_at tgt o n).
  { intros Hd o n [Hin|Hin]%elem_of_app.
    - destruct (I4 o n Hin) as [? ?]. split; [unfold zlen; lia|done].
    - apply elem_of_list_singleton in Hin. inversion Hin; subst o n.
      split; [unfold zlen; lia|]. split; [done|].
      unfold chunk at 1. rewrite read_at_whole. exact Hd. }
  assert (Hnd : NoDup (t_touched t ++ [(start, zlen chunk)])).
  { apply NoDup_app. split; [done|]. split; [|apply NoDup_singleton].
    intros [o n] Hin Hin2. apply elem_of_list_singleton in Hin2.
    inversion Hin2; subst o n. destruct (I4 _ _ Hin) as [? _]. lia. }
  unfold co_step. rewrite Hcmp.
  destruct (bool_decide_reflect (chunk = read_at tgt start (zlen chunk))) as [Heq|Hdiff].
  - (* equal: nothing happens *)
    rewrite bool_decide_false by congruence. cbn [orb negb].
    exists t. split; [done|]. constructor.
    + intros i Hi. destruct (decide (i < Z.to_nat start)%nat); [by apply I1|].
      replace i with (Z.to_nat start + (i - Z.to_nat start))%nat by lia.
      rewrite Hcn by lia. rewrite Heq. unfold at0.
      rewrite I2 by lia. rewrite read_at_lookup by (unfold zlen; lia). done.
    + intros i Hi. apply I2. lia.
    + lia.
    + intros o n Hin. destruct (I4 o n Hin) as [? ?]. split; [unfold zlen; lia|done].
    + done.
  - rewrite orb_true_r.
    destruct (bool_decide_reflect (chunk = zeros psize)) as [Hzero|Hnz].
    + destruct (punch_hole_spec k (t_data t) start (zlen chunk)) as
        (c' & -> & Lc & _ & P1 & P2 & P3); [done|unfold zlen; lia|].
      cbn [res_bind]. eexists; split; [reflexivity|].
      unfold zlen in Lc, P2, P3. rewrite Nat2Z.id in Lc, P2, P3.
      constructor; cbn [t_data t_touched]; auto.
      * intros i Hi. destruct (decide (i < Z.to_nat start)%nat).
        { rewrite P1 by done. by apply I1. }
        rewrite P2 by lia.
        replace i with (Z.to_nat start + (i - Z.to_nat start))%nat by lia.
        rewrite Hcn by lia. rewrite Hzero. by rewrite zeros_at0.
      * intros i Hi. rewrite P3 by lia. apply I2. lia.
      * lia.
    + eexists; split; [reflexivity|].
      destruct (write_at_spec (t_data t) start chunk Hs Hne) as (L & W1 & W2 & W3).
      constructor; cbn [t_data t_touched]; auto.
      * intros i Hi. destruct (decide (i < Z.to_nat start)%nat).
        { rewrite W1 by done. by apply I1. }
        replace i with (Z.to_nat start + (i - Z.to_nat start))%nat by lia.
        rewrite Hcn by lia. unfold at0. by rewrite W2 by lia.
      * intros i Hi. rewrite W3 by lia. apply I2. lia.
      * lia.
Qed.

Lemma co_loop_spec k psize src tgt : (0 < psize)%Z ->
  forall fuel start t,
  (0 <= start <= zlen src)%Z ->
  (start mod psize = 0 \/ start = zlen src)%Z ->
  (length src - Z.to_nat start < fuel)%nat ->
  co_inv src tgt psize start t ->
  exists t', co_loop fuel k psize src start t = Ok (zlen src, t') /\
    co_inv src tgt psize (zlen src) t'.
Proof.
  intros Hps. induction fuel as [|fuel IH]; intros start t Hs Hmod Hf Hinv; [lia|].
  cbn [co_loop].
  pose proof (read_at_length src start psize) as Hl.
  destruct (decide (read_at src start psize = [])) as [He|He].
  - assert (start = zlen src) as ->.
    { rewrite He in Hl. cbn in Hl. unfold zlen in *. lia. }
    eauto.
  - assert (Hlt : (start < zlen src)%Z).
    { destruct (read_at src start psize); [done|]. cbn in Hl. unfold zlen. lia. }
    assert (Hpos : (0 < length (read_at src start psize))%nat)
      by (destruct (read_at src start psize); [done|cbn; lia]).
    destruct Hmod as [Hmod|]; [|lia].
    destruct (co_step_spec k psize src tgt start t Hps ltac:(lia) Hmod He Hinv)
      as (t1 & -> & Hinv1). cbn [res_bind].
    apply IH; [| | |done]; unfold zlen in *.
    + lia.
    + destruct (decide (Z.to_nat psize <= length src - Z.to_nat start)%nat).
      * left. rewrite Hl, Nat.min_l by lia. rewrite Z2Nat.id by lia.
        rewrite Z.add_mod, Hmod, Z_mod_same_full by lia.
        rewrite Z.add_0_r. by rewrite Zmod_0_l.
      * right. lia.
    + lia.
Qed.

Lemma at0_eq (a b : bytes) :
  length a = length b ->
  (forall i, (i < length b)%nat -> at0 a i = at0 b i) -> a = b.
Proof.
  intros Hl H. apply list_eq. intros i.
  destruct (decide (i < length b)%nat) as [Hi|Hi].
  - specialize (H i Hi). unfold at0 in H.
    destruct (lookup_lt_is_Some_2 a i) as [x Hx]; [lia|].
    destruct (lookup_lt_is_Some_2 b i) as [y Hy]; [lia|].
    rewrite Hx, Hy in *. cbn in H. by subst.
  - by rewrite !lookup_ge_None_2 by lia.
Qed.

Lemma truncate_eq c src :
  (forall i, (i < length src)%nat -> at0 c i = at0 src i) ->
  truncate_at c (zlen src) = src.
Proof.
  intros H. apply at0_eq.
  - unfold truncate_at, ztake. rewrite app_length, zeros_length, take_length.
    unfold zlen. lia.
  - intros i Hi. unfold truncate_at. rewrite at0_app_zeros.
    rewrite <- H by done. unfold at0, ztake.
    rewrite lookup_take; [done|unfold zlen; lia].
Qed.

Lemma copy_overwrite_spec k base src tgt :
  (0 < base)%Z ->
  exists t, copy_overwrite k base src tgt = Ok (zlen src, t) /\
    (k_trunc k = true -> t_data t = src) /\
    (k_trunc k = false -> (zlen src <= zlen tgt)%Z ->
       t_data t = src ++ zdrop (zlen src) tgt) /\
    NoDup (t_touched t) /\
    (forall o n, (o, n) ∈ t_touched t ->
      (0 <= o < zlen src /\ o mod (punch_size_for base (zlen src)) = 0)%Z /\
      n = zlen (read_at src o (punch_size_for base (zlen src))) /\
      read_at src o n <> read_at tgt o n).
Proof.
  intros Hb. unfold copy_overwrite.
  set (ps := punch_size_for base (zlen src)).
  assert (Hps : (0 < ps)%Z) by (unfold ps, punch_size_for; case_match; lia).
  destruct (co_loop_spec k ps src tgt Hps (Datatypes.S (length src)) 0 (MkTarget tgt []))
    as (t & -> & [I1 I2 I3 I4 I5]).
  - unfold zlen. lia.
  - left. by apply Zmod_0_l.
  - lia.
  - constructor; cbn [t_data t_touched]; try lia; try done.
    + intros o n Hin. by apply elem_of_nil in Hin.
    + constructor.
  - cbn [res_bind].
    replace (Z.to_nat (zlen src)) with (length src) in I1, I2, I3 by (unfold zlen; lia).
    eexists; split; [reflexivity|].
    split; [|split; [|split]].
    + intros ->. cbn [t_data]. apply truncate_eq, I1.
    + intros -> Hle. apply at0_eq.
      * unfold zdrop. rewrite app_length, drop_length. unfold zlen in *. lia.
      * unfold zdrop, zlen. rewrite app_length, drop_length, Nat2Z.id.
        intros i Hi. destruct (decide (i < length src)%nat) as [Hlt|Hge].
        -- rewrite I1 by done. unfold at0. by rewrite lookup_app_l.
        -- unfold at0. rewrite I2 by lia. rewrite lookup_app_r by lia.
           rewrite lookup_drop. do 2 f_equal. lia.
    + destruct (k_trunc k); done.
    + intros o n Hin.
      assert (Hin' : (o, n) ∈ t_touched t) by (destruct (k_trunc k); done).
      destruct (I4 o n Hin') as [? ?]. split; [lia|done].
Qed.

(** [copy], with the target positioned at its start. *)
Lemma copy_loop_spec csize src : (0 < csize)%Z ->
  forall fuel start c,
  (0 <= start <= zlen src)%Z ->
  (length src - Z.to_nat start < fuel)%nat ->
  (forall i, (i < Z.to_nat start)%nat -> at0 c i = at0 src i) ->
  exists c', copy_loop fuel csize src start start c = Ok (zlen src, c') /\
    forall i, (i < length src)%nat -> at0 c' i = at0 src i.
Proof.
  intros Hc. induction fuel as [|fuel IH]; intros start c Hs Hf Hinv; [lia|].
  cbn [copy_loop].
  pose proof (read_at_length src start csize) as Hl.
  destruct (decide (read_at src start csize = [])) as [He|He].
  - assert (start = zlen src) as ->.
    { rewrite He in Hl. cbn in Hl. unfold zlen in *. lia. }
    eexists; split; [done|]. intros i Hi. apply Hinv. unfold zlen. lia.
  - set (chunk := read_at src start csize) in *.
    assert (Hpos : (0 < length chunk)%nat) by (destruct chunk; [done|cbn; lia]).
    apply IH; [unfold zlen in *; lia..|].
    intros i Hi.
    destruct (write_at_spec c start chunk ltac:(lia) He) as (L & W1 & W2 & W3).
    destruct (decide (i < Z.to_nat start)%nat).
    { rewrite W1 by done. by apply Hinv. }
    unfold zlen in Hi.
    replace i with (Z.to_nat start + (i - Z.to_nat start))%nat by lia.
    unfold at0. rewrite W2 by lia. unfold chunk.
    by rewrite read_at_lookup by lia.
Qed.

Lemma copy_spec k csize src tgt : (0 < csize)%Z ->
  exists c, copy k csize src tgt 0 = Ok (zlen src, c) /\
    (k_trunc k = true -> c = src) /\
    (forall i, (i < length src)%nat -> at0 c i = at0 src i).
Proof.
  intros Hc. unfold copy.
  destruct (copy_loop_spec csize src Hc (Datatypes.S (length src)) 0 tgt)
    as (c & -> & H); [unfold zlen; lia..|].
  cbn [res_bind]. eexists; split; [reflexivity|].
  destruct (k_trunc k).
  - rewrite truncate_eq by done. done.
  - done.
Qed.

(** Comparison. *)
Lemma read_at_nil a p n : (0 < n)%Z -> (0 <= p)%Z ->
  read_at a p n = [] <-> (length a <= Z.to_nat p)%nat.
Proof.
  intros Hn Hp. pose proof (read_at_length a p n) as H. split.
  - intros E. rewrite E in H. cbn in H. lia.
  - intros Hle. destruct (read_at a p n); [done|]. cbn in H. lia.
Qed.

Lemma drop_split n (a : bytes) p :
  drop p a = take n (drop p a) ++ drop (p + n) a.
Proof. rewrite <- drop_drop. by rewrite take_drop. Qed.

Lemma fae_spec csize a b : (0 < csize)%Z ->
  forall fuel pos,
  (0 <= pos)%Z -> (length a - Z.to_nat pos < fuel)%nat ->
  exists l, fae_loop fuel csize a b pos = Ok l /\
    (l = [] -> drop (Z.to_nat pos) a = drop (Z.to_nat pos) b) /\
    (forall ca cb p, (ca, cb, p) ∈ l <->
       (exists j : nat, p = (pos + Z.of_nat j * csize)%Z) /\
       (p = pos \/ p - csize < zlen a)%Z /\
       ca = read_at a p csize /\ cb = read_at b p csize /\ ca <> cb).
Proof.
  intros Hc. induction fuel as [|fuel IH]; intros pos Hp Hf; [lia|].
  cbn [fae_loop].
  set (ca := read_at a pos csize). set (cb := read_at b pos csize).
  set (rep := if bool_decide (ca = cb) then [] else [(ca, cb, pos)]).
  assert (Hrep : forall x y p, (x, y, p) ∈ rep <->
    p = pos /\ x = ca /\ y = cb /\ ca <> cb).
  { intros x y p. unfold rep. destruct (bool_decide_reflect (ca = cb)).
    - rewrite elem_of_nil. naive_solver.
    - rewrite elem_of_list_singleton. naive_solver. }
  destruct (decide (ca = [])) as [He|He].
  - eexists; split; [reflexivity|].
    apply (read_at_nil a pos csize Hc Hp) in He as Hle. split.
    + intros Hr. unfold rep in Hr. destruct (bool_decide_reflect (ca = cb)) as [E|]; [|done].
      rewrite He in E. symmetry in E.
      apply (read_at_nil b pos csize Hc Hp) in E.
      by rewrite !drop_ge by lia.
    + intros x y p. rewrite Hrep. split.
      * intros (-> & -> & -> & Hne). split; [exists O; lia|]. split; [by left|].
        split; [done|]. split; [done|done].
      * intros ([j ->] & Hor & -> & -> & Hne).
        assert (j = O) as ->. { unfold zlen in Hor. nia. }
        rewrite Z.add_0_r in *. done.
  - assert (Hlt : (Z.to_nat pos < length a)%nat).
    { destruct (decide (length a <= Z.to_nat pos)%nat) as [H|]; [|lia].
      exfalso. apply He. by apply read_at_nil. }
    destruct (IH (pos + csize)%Z) as (l & -> & Hnil & Hin); [lia..|].
    cbn [res_bind]. eexists; split; [reflexivity|]. split.
    + intros [Hr1 Hr2]%app_eq_nil. specialize (Hnil Hr2).
      unfold rep in Hr1. destruct (bool_decide_reflect (ca = cb)) as [E|]; [|done].
      rewrite (drop_split (Z.to_nat csize) a), (drop_split (Z.to_nat csize) b).
      unfold ca, cb, read_at, ztake, zdrop in E. rewrite E. f_equal.
      rewrite Z2Nat.inj_add in Hnil by lia. exact Hnil.
    + intros x y p. rewrite elem_of_app, Hrep, Hin. split.
      * intros [(-> & -> & -> & Hne)|([j ->] & Hor & -> & -> & Hne)].
        -- split; [exists O; lia|]. split; [by left|]. done.
        -- split; [exists (Datatypes.S j); lia|]. split; [|done].
           right. unfold zlen in *. destruct Hor; lia.
      * intros ([j ->] & Hor & -> & -> & Hne). destruct j as [|j].
        -- left. rewrite Z.add_0_r in *. done.
        -- right. split; [exists j; lia|]. split; [|done].
           destruct Hor as [Hor|Hor]; [lia|]. right. done.
Qed.

Lemma files_are_equal_spec csize a b : (0 < csize)%Z ->
  exists l, files_are_equal csize a b = Ok (bool_decide (a = b), l) /\
    (forall ca cb p, (ca, cb, p) ∈ l <->
       (exists j : nat, p = (Z.of_nat j * csize)%Z) /\
       (p - csize < zlen a)%Z /\
       ca = read_at a p csize /\ cb = read_at b p csize /\ ca <> cb).
Proof.
  intros Hc. unfold files_are_equal.
  destruct (fae_spec csize a b Hc (Datatypes.S (length a)) 0) as (l & -> & Hnil & Hin);
    [lia..|].
  cbn [res_bind]. exists l. split.
  - do 2 f_equal. apply bool_decide_ext. split.
    + intros ->. specialize (Hnil eq_refl). done.
    + intros <-. destruct l as [|[[x y] p] l]; [done|].
      exfalso. destruct (proj1 (Hin x y p)) as (_ & _ & -> & -> & Hne); [left|]. done.
  - intros ca cb p. rewrite Hin. split.
    + intros ([j Hj] & Hor & ?). rewrite Z.add_0_l in Hj. subst p.
      split; [by exists j|]. split; [|done]. unfold zlen in *. destruct Hor; lia.
    + intros ([j ->] & Hor & ?).
      split; [by exists j|]. split; [by right|done].
Qed.

(** The sampling comparison: which blocks are looked at is determined by the
    first clock reading past the limit. *)
Lemma fre_spec bsize a b started limit clock : forall sample i,
  let r := fre_loop bsize a b started limit i clock sample in
  (forall n blk, sample !! n = Some blk ->
     (forall m, (m <= n)%nat -> (clock (i + m)%nat - started <= limit)%Z) ->
     read_at a (blk * bsize) bsize <> read_at b (blk * bsize) bsize ->
     r.1 = false) /\
  (r.1 = false -> exists n blk, sample !! n = Some blk /\
     (forall m, (m <= n)%nat -> (clock (i + m)%nat - started <= limit)%Z) /\
     (forall m blk', (m < n)%nat -> sample !! m = Some blk' ->
        read_at a (blk' * bsize) bsize = read_at b (blk' * bsize) bsize) /\
     read_at a (blk * bsize) bsize <> read_at b (blk * bsize) bsize /\
     r.2 = [(read_at a (blk * bsize) bsize, read_at b (blk * bsize) bsize, (blk * bsize)%Z)]) /\
  (r.1 = true -> r.2 = []).
Proof.
  induction sample as [|blk0 rest IH]; intros i; cbn [fre_loop].
  { cbn. split; [by intros ? ? ?|]. split; done. }
  destruct (Z.ltb_spec limit (clock i - started)) as [Hto|Hto].
  { cbn. split; [|split; done]. intros n blk _ Hm _. specialize (Hm O).
    rewrite Nat.add_0_r in Hm. lia. }
  destruct (bool_decide_reflect
    (read_at a (blk0 * bsize) bsize = read_at b (blk0 * bsize) bsize)) as [E|E].
  - destruct (IH (Datatypes.S i)) as (A & B & C). split; [|split].
    + intros [|n] blk Hn Hm Hd; cbn in Hn.
      { injection Hn as ->. done. }
      apply (A n blk Hn); [|done]. intros m Hmn.
      replace (Datatypes.S i + m)%nat with (i + Datatypes.S m)%nat by lia.
      apply Hm. lia.
    + intros Hf. destruct (B Hf) as (n & blk & Hn & Hm & Hb & Hd & Hr).
      exists (Datatypes.S n), blk. split; [done|]. split; [|split; [|done]].
      * intros [|m] Hmn; [rewrite Nat.add_0_r; lia|].
        replace (i + Datatypes.S m)%nat with (Datatypes.S i + m)%nat by lia.
        apply Hm. lia.
      * intros [|m] blk' Hmn Hl; cbn in Hl; [by injection Hl as ->|].
        apply (Hb m); [lia|done].
    + exact C.
  - split; [done|]. split; [|done]. intros _. exists O, blk0. split; [done|].
    split; [|split; [|done]].
    + intros m Hm. assert (m = O) as -> by lia. rewrite Nat.add_0_r. lia.
    + intros m ? ?. lia.
Qed.
