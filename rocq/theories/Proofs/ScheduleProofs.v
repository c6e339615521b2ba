(** Slots (C38). *)
From Verif Require Export Spec.Schedule.
From Coq Require Import Lqa.

Lemma fl_eq fl a b : rounding fl -> (a == b -> fl a == fl b)%Q.
Proof. intros [Hm _] He. apply Qle_antisym; apply Hm; rewrite He; apply Qle_refl. Qed.
Lemma seconds_whole fl i : rounding fl -> (Z.abs i <= 2 ^ 53)%Z -> (seconds fl (1000000 * i) == inject_Z i)%Q.
Proof.
  intros Hf Hi. unfold seconds. rewrite <- (proj2 Hf i Hi). apply fl_eq; [done|]. unfold Qeq, inject_Z. cbn. lia.
Qed.
Lemma floor_div a b : (0 < b)%Z -> Qfloor (inject_Z a / inject_Z b) = (a / b)%Z.
Proof.
  intros Hb. destruct b as [|b|b]; [lia| |lia]. unfold Qdiv, Qinv, inject_Z, Qmult, Qfloor. cbn. f_equal. lia.
Qed.
Lemma py_mod_whole fl a b : rounding fl -> (0 < b <= 2 ^ 53)%Z ->
  (py_mod fl (inject_Z a) (inject_Z b) == inject_Z (a mod b))%Q.
Proof.
  intros Hf Hb. unfold py_mod. rewrite floor_div by lia.
  assert (Hm : (0 <= a mod b < b)%Z) by (apply Z.mod_pos_bound; lia).
  rewrite <- (proj2 Hf (a mod b)%Z) by lia. apply fl_eq; [done|]. rewrite <- inject_Z_mult.
  unfold Qminus. rewrite <- inject_Z_opp, <- inject_Z_plus. rewrite Z.mod_eq by lia. apply inject_Z_injective. lia.
Qed.
Lemma py_mod_eq fl a b b' : rounding fl -> (b == b' -> py_mod fl a b == py_mod fl a b')%Q.
Proof.
  intros Hf He. unfold py_mod. apply fl_eq; [done|].
  assert (Hfl : Qfloor (a / b) = Qfloor (a / b')) by (apply Qfloor_comp; rewrite He; apply Qeq_refl).
  rewrite Hfl. rewrite He. apply Qeq_refl.
Qed.
Lemma trunc_floor q : (0 <= q)%Q -> trunc q = Qfloor q.
Proof.
  intros Hq. unfold trunc, Qfloor. destruct q as [n d]. cbn. unfold Qle in Hq. cbn in Hq.
  apply Z.quot_div_nonneg; lia.
Qed.
Lemma to_us_whole n q : (q == inject_Z n)%Q -> to_us q = (1000000 * n)%Z.
Proof.
  intros Hq. unfold to_us.
  assert (He : (q * 1000000 + (1 # 2) == inject_Z (1000000 * n) + (1 # 2))%Q).
  { rewrite Hq. rewrite inject_Z_mult. change (inject_Z 1000000) with 1000000%Q. ring. }
  rewrite (Qfloor_comp _ _ He). unfold Qfloor, inject_Z, Qplus. cbn [Qnum Qden].
  symmetry. apply Z.div_unique with 1%Z; lia.
Qed.

Section Slots.
Context (fl : Q -> Q) (i spread ref : Z).
Context (Hf : rounding fl) (Hr : in_range i spread ref).
Let s := (spread mod i)%Z.
(** Number of the last slot not after the reference. *)
Let k := ((ref - 1000000 * s) / (1000000 * i))%Z.
Let cur := trunc (fl (fl (seconds fl ref - py_mod fl (inject_Z spread) (seconds fl (1000000 * i))) / seconds fl (1000000 * i))).

#[local] Instance fl_proper : Proper (Qeq ==> Qeq) fl.
Proof. intros a b He. apply fl_eq; done. Qed.
#[local] Instance py_mod_proper a : Proper (Qeq ==> Qeq) (py_mod fl a).
Proof. intros x y He. apply py_mod_eq; done. Qed.
Lemma range_facts : (0 < i)%Z /\ (0 <= s < i)%Z /\ (0 <= k)%Z /\
  (1000000 * (k * i + s) <= ref < 1000000 * ((k + 1) * i + s))%Z /\
  ((k + 2) * i + s <= 2 ^ 53)%Z /\ (k + 2 <= 2 ^ 53)%Z.
Proof.
  destruct Hr as (H1 & H2 & H3 & H4). assert (Hs : (0 <= s < i)%Z) by (apply Z.mod_pos_bound; lia).
  assert (Hk : (0 <= k)%Z) by (apply Z.div_pos; lia).
  pose proof (Z.div_mod (ref - 1000000 * s) (1000000 * i) ltac:(lia)) as Hd. fold k in Hd.
  pose proof (Z.mod_pos_bound (ref - 1000000 * s) (1000000 * i) ltac:(lia)) as Hm.
  split; [done|]. split; [done|]. split; [done|]. split; [nia|]. split; nia.
Qed.
Lemma sec_i : (seconds fl (1000000 * i) == inject_Z i)%Q.
Proof. apply seconds_whole; [done|]. destruct Hr as (H1 & H2 & H3 & H4). lia. Qed.
Lemma sp_s : (py_mod fl (inject_Z spread) (seconds fl (1000000 * i)) == inject_Z s)%Q.
Proof.
  rewrite (py_mod_eq fl _ _ (inject_Z i) Hf sec_i). apply py_mod_whole; [done|]. destruct Hr as (H1 & H2 & H3 & H4). lia.
Qed.
Lemma fl_lower n x : (Z.abs n <= 2 ^ 53)%Z -> (inject_Z n <= x -> inject_Z n <= fl x)%Q.
Proof. intros Hn Hx. rewrite <- (proj2 Hf n Hn). apply Hf. done. Qed.
Lemma fl_upper n x : (Z.abs n <= 2 ^ 53)%Z -> (x <= inject_Z n -> fl x <= inject_Z n)%Q.
Proof. intros Hn Hx. rewrite <- (proj2 Hf n Hn). apply Hf. done. Qed.

Let q := fl (fl (seconds fl ref - inject_Z s) / inject_Z i).
Lemma cur_lower (n : Z) : (0 <= n)%Z -> (n <= k)%Z -> (inject_Z n <= q)%Q.
Proof.
  destruct range_facts as (F1 & F2 & F3 & F4 & F5 & F6). intros Hn0 Hn.
  apply fl_lower; [lia|]. apply Qle_shift_div_l; [unfold Qlt; cbn; lia|].
  rewrite <- inject_Z_mult. apply fl_lower; [nia|].
  assert (Hx : (inject_Z (n * i + s) <= seconds fl ref)%Q).
  { apply fl_lower; [nia|]. unfold Qle, inject_Z. cbn. nia. }
  rewrite inject_Z_plus in Hx. lra.
Qed.
Lemma cur_upper (n : Z) : (0 <= n)%Z -> (k < n <= k + 2)%Z -> (q <= inject_Z n)%Q.
Proof.
  destruct range_facts as (F1 & F2 & F3 & F4 & F5 & F6). intros Hn0 Hn.
  apply fl_upper; [lia|]. apply Qle_shift_div_r; [unfold Qlt; cbn; lia|].
  rewrite <- inject_Z_mult. apply fl_upper; [nia|].
  assert (Hx : (seconds fl ref <= inject_Z (n * i + s))%Q).
  { apply fl_upper; [nia|]. unfold Qle, inject_Z. cbn. nia. }
  rewrite inject_Z_plus in Hx. lra.
Qed.
Lemma cur_q : cur = Qfloor q.
Proof.
  destruct range_facts as (F1 & F2 & F3 & F4 & F5 & F6).
  unfold cur. set (x := fl (_ / _)). assert (He : (x == q)%Q).
  { unfold x, q. rewrite sp_s, sec_i. apply Qeq_refl. }
  rewrite trunc_floor; [apply Qfloor_comp; done|]. rewrite He. apply (cur_lower 0); lia.
Qed.
Lemma cur_bounds : (k <= cur <= k + 1)%Z.
Proof.
  destruct range_facts as (F1 & F2 & F3 & F4 & F5 & F6). rewrite cur_q. split.
  - rewrite <- (Qfloor_Z k). apply Qfloor_resp_le. apply cur_lower; lia.
  - rewrite <- (Qfloor_Z (k + 1)). apply Qfloor_resp_le. apply cur_upper; lia.
Qed.
Lemma next_is : next_in_interval fl ref (1000000 * i) spread = (1000000 * ((cur + 1) * i + s))%Z.
Proof.
  destruct range_facts as (F1 & F2 & F3 & F4 & F5 & F6). pose proof cur_bounds as Hc.
  unfold next_in_interval. fold cur. apply to_us_whole.
  rewrite <- (proj2 Hf ((cur + 1) * i + s)%Z) by nia. apply fl_eq; [done|].
  rewrite sp_s. rewrite (fl_eq fl _ (inject_Z ((cur + 1) * i)) Hf).
  - rewrite (proj2 Hf) by nia. rewrite inject_Z_plus. apply Qeq_refl.
  - rewrite sec_i, inject_Z_mult. apply Qeq_refl.
Qed.
Lemma slot_s n : slot i spread (1000000 * (n * i + s)).
Proof.
  exists (n - spread / i)%Z. unfold s. rewrite Z.mod_eq by (destruct range_facts; lia). lia.
Qed.
Lemma slot_inv t : slot i spread t -> exists n, t = (1000000 * (n * i + s))%Z.
Proof.
  intros [n ->]. exists (n + spread / i)%Z. unfold s. rewrite Z.mod_eq by (destruct range_facts; lia). lia.
Qed.
Lemma slots_after t : slot i spread t -> (ref < t)%Z -> (1000000 * ((k + 1) * i + s) <= t)%Z.
Proof.
  destruct range_facts as (F1 & F2 & F3 & F4 & F5 & F6). intros Hs Ht. apply slot_inv in Hs as [n ->].
  assert (k < n)%Z by nia. nia.
Qed.

Lemma exact_cur : (forall q, fl q == q)%Q -> cur = k.
Proof.
  intros Hid. pose proof cur_bounds as Hc. destruct (decide (cur = k)) as [|Hne]; [done|].
  assert (Hck : cur = (k + 1)%Z) by lia.
  destruct range_facts as (F1 & F2 & F3 & F4 & F5 & F6).
  rewrite cur_q in Hck. pose proof (Qfloor_le q) as Hle. rewrite Hck in Hle. unfold q in Hle. rewrite Hid in Hle.
  apply (Qmult_le_compat_r _ _ (inject_Z i)) in Hle; [|unfold Qle; cbn; lia].
  rewrite <- inject_Z_mult in Hle.
  assert (Hdiv : (fl (seconds fl ref - inject_Z s) / inject_Z i * inject_Z i == fl (seconds fl ref - inject_Z s))%Q).
  { field. unfold Qeq. cbn. lia. }
  rewrite Hdiv, Hid in Hle. unfold seconds in Hle. rewrite Hid in Hle.
  assert (Hx : (inject_Z ((k + 1) * i + s) <= ref # 1000000)%Q) by (rewrite inject_Z_plus; lra).
  unfold Qle, inject_Z in Hx. cbn in Hx. lia.
Qed.
(** A slot that is skipped is very near. *)
Lemma near : accurate fl -> cur = (k + 1)%Z ->
  (2 ^ 51 * (1000000 * ((k + 1) * i + s) - ref) <= ref)%Z.
Proof.
  intros [_ Hacc] Hck. destruct range_facts as (F1 & F2 & F3 & F4 & F5 & F6).
  set (u := (1 # 2 ^ 53)%Q) in *.
  set (R := (ref # 1000000)%Q). set (r1 := seconds fl ref).
  assert (HR : (0 <= R)%Q) by (unfold R, Qle; cbn; nia).
  set (r2 := fl (r1 - inject_Z s)).
  assert (Hr1 : (r1 <= R * (1 + u))%Q) by (apply Hacc; done).
  assert (Hs0 : (0 <= inject_Z s)%Q) by (unfold Qle; cbn; lia).
  assert (Hr1s : (inject_Z s <= r1)%Q).
  { apply fl_lower; [lia|]. unfold Qle, inject_Z. cbn. nia. }
  assert (Hr2 : (r2 <= (r1 - inject_Z s) * (1 + u))%Q) by (apply Hacc; lra).
  assert (Hr20 : (0 <= r2)%Q) by (apply (fl_lower 0); [lia|change (inject_Z 0) with 0%Q; lra]).
  assert (Hi0 : (0 < inject_Z i)%Q) by (unfold Qlt; cbn; lia).
  assert (Hdiv0 : (0 <= r2 / inject_Z i)%Q).
  { apply Qle_shift_div_l; [done|]. lra. }
  assert (Hq : (q <= r2 / inject_Z i * (1 + u))%Q) by (apply Hacc; done).
  assert (Hfloor : (inject_Z (k + 1) <= q)%Q).
  { pose proof (Qfloor_le q) as Hle. rewrite cur_q in Hck. rewrite Hck in Hle. done. }
  assert (Hm : (inject_Z ((k + 1) * i) <= r2 * (1 + u))%Q).
  { rewrite inject_Z_mult. apply Qle_trans with (q * inject_Z i)%Q.
    - apply Qmult_le_compat_r; [done|lra].
    - apply Qle_trans with (r2 / inject_Z i * (1 + u) * inject_Z i)%Q.
      + apply Qmult_le_compat_r; [done|lra].
      + assert (He : (r2 / inject_Z i * (1 + u) * inject_Z i == r2 * (1 + u))%Q) by (field; unfold Qeq; cbn; lia).
        rewrite He. apply Qle_refl. }
  assert (Hfin : (inject_Z ((k + 1) * i + s) <= R * (1 + (4 # 2 ^ 53)))%Q).
  { rewrite inject_Z_plus. unfold u in *. cbn [Z.pow_pos Pos.iter Z.mul] in *.
    set (X := inject_Z ((k + 1) * i)) in *. set (Y := inject_Z s) in *. clearbody X Y r1 r2 R.
    change (2 ^ 53)%positive with 9007199254740992%positive in *.
    lra. }
  unfold Qle, inject_Z, R in Hfin. cbn in Hfin. lia.
Qed.
End Slots.
