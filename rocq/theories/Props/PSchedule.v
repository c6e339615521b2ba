(** C38-C43: schedules, durations and the service level. *)
From Verif Require Export Proofs.SchedProofs2 Model.RbdBackup.
From Coq Require Import Lqa.

(** ** C38 *)
(** What [next_in_interval] promises when computing with floating point numbers:
    its result is a slot after the reference, and either the first one or the
    second.  What is missing: it is not always the first ([C38_refuted]). *)
Theorem C38_next_partial fl i spread reference :
  rounding fl -> in_range i spread reference ->
  let t := next_in_interval fl reference (1000000 * i) spread in
  slot i spread t /\ (reference < t)%Z /\ (t <= reference + 2000000 * i)%Z /\
  (forall t', slot i spread t' -> (reference < t' < t)%Z -> (t' = t - 1000000 * i)%Z).
Proof.
  intros Hf Hr. cbv zeta. rewrite (next_is fl i spread reference Hf Hr).
  pose proof (cur_bounds fl i spread reference Hf Hr) as Hc.
  destruct (range_facts fl i spread reference Hr) as (F1 & F2 & F3 & F4 & F5 & F6).
  set (cur := trunc _) in *. set (s := (spread mod i)%Z) in *. set (k := ((reference - _) / _)%Z) in *.
  split; [apply (slot_s fl i spread reference Hr)|]. split; [nia|]. split; [nia|].
  intros t' Hs Ht. destruct (slot_inv fl i spread reference Hr t' Hs) as [n ->]. fold s in Ht |- *.
  assert (n = cur) by nia. subst n. lia.
Qed.
(** The skipped slot can only be one so close that the clock's rounding hides
    it: within [reference / 2^51] (some 28 microseconds today). *)
Theorem C38_near fl i spread reference :
  accurate fl -> in_range i spread reference ->
  let t := next_in_interval fl reference (1000000 * i) spread in
  forall t', slot i spread t' -> (reference < t')%Z -> (reference < 2 ^ 51 * (t' - reference))%Z -> (t <= t')%Z.
Proof.
  intros Ha Hr. cbv zeta. pose proof (proj1 Ha) as Hf. rewrite (next_is fl i spread reference Hf Hr).
  pose proof (cur_bounds fl i spread reference Hf Hr) as Hc.
  pose proof (near fl i spread reference Hf Hr Ha) as Hn.
  destruct (range_facts fl i spread reference Hr) as (F1 & F2 & F3 & F4 & F5 & F6).
  set (cur := trunc _) in *. set (s := (spread mod i)%Z) in *. set (k := ((reference - _) / _)%Z) in *.
  intros t' Hs Ht Hfar. destruct (slot_inv fl i spread reference Hr t' Hs) as [n ->]. fold s in Ht, Hfar |- *.
  assert (Hnk : (k < n)%Z) by (clear Hfar Hn; nia).
  destruct (decide (cur = k)) as [->|Hne].
  { assert ((k + 1) * i <= n * i)%Z by (apply Z.mul_le_mono_nonneg_r; lia). lia. }
  assert (Hck : cur = (k + 1)%Z) by lia. specialize (Hn Hck). rewrite Hck.
  destruct (decide (n = (k + 1)%Z)) as [->|]; [lia|].
  assert ((k + 1 + 1) * i <= n * i)%Z by (apply Z.mul_le_mono_nonneg_r; lia). lia.
Qed.
(** In exact arithmetic it is the next slot, at most an interval away. *)
Theorem C38_exact fl i spread reference :
  (forall q, fl q == q)%Q -> in_range i spread reference ->
  let t := next_in_interval fl reference (1000000 * i) spread in
  next_slot i spread reference t /\ (t <= reference + 1000000 * i)%Z.
Proof.
  intros Hid Hr. assert (Hf : rounding fl).
  { split; [|intros; apply Hid]. intros x y Hxy. rewrite !Hid. done. }
  cbv zeta. rewrite (next_is fl i spread reference Hf Hr), (exact_cur fl i spread reference Hf Hr Hid).
  destruct (range_facts fl i spread reference Hr) as (F1 & F2 & F3 & F4 & F5 & F6).
  split; [|nia]. split; [apply (slot_s fl i spread reference Hr)|]. split; [lia|]. intros t' Hs Ht.
  apply (slots_after fl i spread reference Hr); done.
Qed.
(** Rounding to nearest as binary64 does it between 2^35 and 2^36 (the seconds
    since year 1 are there, until 2178): to multiples of 2^-17. *)
Definition fl36 (x : Q) : Q :=
  if Qle_bool (inject_Z (2 ^ 35)) x && Qle_bool x (inject_Z (2 ^ 36))
  then Qfloor (x * inject_Z (2 ^ 17) + (1 # 2)) # (2 ^ 17) else x.
Lemma fl36_in x : (inject_Z (2 ^ 35) <= x)%Q -> (x <= inject_Z (2 ^ 36))%Q ->
  fl36 x = Qfloor (x * inject_Z (2 ^ 17) + (1 # 2)) # (2 ^ 17).
Proof. intros H1 H2. unfold fl36. apply Qle_bool_iff in H1, H2. rewrite H1, H2. done. Qed.
Lemma fl36_range x : (inject_Z (2 ^ 35) <= x)%Q -> (x <= inject_Z (2 ^ 36))%Q ->
  (inject_Z (2 ^ 35) <= fl36 x)%Q /\ (fl36 x <= inject_Z (2 ^ 36))%Q /\ (fl36 x <= x + (1 # 2 ^ 18))%Q.
Proof.
  intros H1 H2. rewrite fl36_in by done. set (y := (x * inject_Z (2 ^ 17) + (1 # 2))%Q).
  assert (Hy1 : (inject_Z (2 ^ 52) <= y)%Q).
  { unfold y. change (inject_Z (2 ^ 52)) with (4503599627370496 # 1). change (inject_Z (2 ^ 17)) with (131072 # 1).
    change (inject_Z (2 ^ 35)) with (34359738368 # 1) in H1. lra. }
  assert (Hy2 : (y <= inject_Z (2 ^ 53) + (1 # 2))%Q).
  { unfold y. change (inject_Z (2 ^ 53)) with (9007199254740992 # 1). change (inject_Z (2 ^ 17)) with (131072 # 1).
    change (inject_Z (2 ^ 36)) with (68719476736 # 1) in H2. lra. }
  apply Qfloor_resp_le in Hy1, Hy2. rewrite Qfloor_Z in Hy1.
  replace (Qfloor (inject_Z (2 ^ 53) + (1 # 2))) with (2 ^ 53)%Z in Hy2 by reflexivity.
  pose proof (Qfloor_le y) as Hle. set (f := Qfloor y) in *.
  split; [unfold Qle, inject_Z; cbn [Qnum Qden]; change (Z.pos (2 ^ 17)) with (2 ^ 17)%Z; lia|].
  split; [unfold Qle, inject_Z; cbn [Qnum Qden]; change (Z.pos (2 ^ 17)) with (2 ^ 17)%Z; lia|].
  assert (He : ((f # 2 ^ 17) == inject_Z f / inject_Z (2 ^ 17))%Q).
  { change (inject_Z (2 ^ 17)) with (131072 # 1). change (f # 2 ^ 17) with (f # 131072).
    unfold Qeq, inject_Z, Qdiv, Qmult, Qinv. cbn [Qnum Qden]. lia. }
  rewrite He. apply Qle_shift_div_r; [reflexivity|]. unfold y in Hle.
  change (inject_Z (2 ^ 17)) with (131072 # 1) in *. change (1 # 2 ^ 18) with (1 # 262144). lra.
Qed.
Lemma fl36_out x : ~ ((inject_Z (2 ^ 35) <= x)%Q /\ (x <= inject_Z (2 ^ 36))%Q) -> fl36 x = x.
Proof.
  intros Hn. unfold fl36. destruct (Qle_bool _ x && Qle_bool x _) eqn:E; [|done]. exfalso. apply Hn.
  apply andb_true_iff in E as [E1 E2]. apply Qle_bool_iff in E1, E2. done.
Qed.
Lemma fl36_accurate : accurate fl36.
Proof.
  assert (Hdec : forall x, {(inject_Z (2 ^ 35) <= x)%Q /\ (x <= inject_Z (2 ^ 36))%Q} +
                           {~ ((inject_Z (2 ^ 35) <= x)%Q /\ (x <= inject_Z (2 ^ 36))%Q)}).
  { intros x. destruct (Qlt_le_dec x (inject_Z (2 ^ 35))) as [Hx|Hx].
    - right. intros [Ha _]. apply (Qlt_not_le _ _ Hx Ha).
    - destruct (Qlt_le_dec (inject_Z (2 ^ 36)) x) as [Hy|Hy].
      + right. intros [_ Ha]. apply (Qlt_not_le _ _ Hy Ha).
      + left. done. }
  split; [split|].
  - intros x y Hxy. destruct (Hdec x) as [[X1 X2]|Hx], (Hdec y) as [[Y1 Y2]|Hy].
    + rewrite !fl36_in by done.
      assert (Hfl : (Qfloor (x * inject_Z (2 ^ 17) + (1 # 2)) <= Qfloor (y * inject_Z (2 ^ 17) + (1 # 2)))%Z).
      { apply Qfloor_resp_le. change (inject_Z (2 ^ 17)) with (131072 # 1). lra. }
      unfold Qle. cbn [Qnum Qden]. apply Z.mul_le_mono_nonneg_r; [lia|done].
    + rewrite (fl36_out y Hy). destruct (fl36_range x X1 X2) as (_ & Hu & _).
      destruct (Qlt_le_dec (inject_Z (2 ^ 36)) y) as [Hl|Hl]; [lra|]. exfalso. apply Hy. split; lra.
    + rewrite (fl36_out x Hx). destruct (fl36_range y Y1 Y2) as (Hu & _ & _).
      destruct (Qlt_le_dec x (inject_Z (2 ^ 35))) as [Hl|Hl]; [lra|]. exfalso. apply Hx. split; lra.
    + rewrite !fl36_out by done. done.
  - intros n _. destruct (Hdec (inject_Z n)) as [[X1 X2]|Hx]; [|rewrite fl36_out by done; reflexivity].
    rewrite fl36_in by done.
    assert (He : Qfloor (inject_Z n * inject_Z (2 ^ 17) + (1 # 2)) = (n * 2 ^ 17)%Z).
    { rewrite <- inject_Z_mult. unfold Qfloor, inject_Z, Qplus. cbn [Qnum Qden]. symmetry.
      apply Z.div_unique with 1%Z; lia. }
    rewrite He. unfold Qeq, inject_Z. cbn [Qnum Qden]. change (Z.pos (2 ^ 17)) with (2 ^ 17)%Z. lia.
  - intros x Hx0. destruct (Hdec x) as [[X1 X2]|Hx].
    + destruct (fl36_range x X1 X2) as (_ & _ & Hu). eapply Qle_trans; [done|].
      change (inject_Z (2 ^ 35)) with (34359738368 # 1) in X1. change (1 # 2 ^ 18) with (1 # 262144).
      change (1 # 2 ^ 53) with (1 # 9007199254740992). lra.
    + rewrite fl36_out by done. change (1 # 2 ^ 53) with (1 # 9007199254740992). lra.
Qed.
(** A microsecond before a slot of the daily backup (15 November 2026), the next
    slot is said to be the one after it. *)
Theorem C38_refuted : exists fl i spread reference,
  accurate fl /\ in_range i spread reference /\
  ~ next_slot i spread reference (next_in_interval fl reference (1000000 * i) spread).
Proof.
  exists fl36, 86400%Z, 1234%Z, (1000000 * (739935 * 86400 + 1234) - 1)%Z.
  split; [apply fl36_accurate|]. split; [unfold in_range; lia|]. intros (_ & _ & Hmin).
  specialize (Hmin (1000000 * (739935 * 86400 + 1234))%Z ltac:(exists 739935%Z; lia) ltac:(lia)).
  vm_compute in Hmin. apply Hmin. reflexivity.
Qed.
Print Assumptions C38_next_partial.
Print Assumptions C38_near.
Print Assumptions C38_exact.
Print Assumptions C38_refuted.
(** An hour before, and at the very moment of a slot. *)
Example ex_C38 :
  in_range 86400 100000 (1000000 * (739935 * 86400)) /\
  next_in_interval fl36 (1000000 * (739935 * 86400)) (1000000 * 86400) 100000 = (1000000 * (739935 * 86400 + 13600))%Z /\
  next_in_interval fl36 (1000000 * (739935 * 86400 + 13600)) (1000000 * 86400) 100000 = (1000000 * (739936 * 86400 + 13600))%Z.
Proof. split; [unfold in_range; lia|]. vm_compute. split; reflexivity. Qed.

(** ** C39 *)
Theorem C39_next_ideal fl (S : sched) reference spread : can_plan S ->
  let slot_of (i : item) := next_in_interval fl reference (i_interval i) spread in
  exists time (T : gset string), next_ideal fl S reference spread = Ok (time, T) /\
    (exists t i, (t, i) ∈ S /\ slot_of i = time) /\
    (forall t i, (t, i) ∈ S -> (time <= slot_of i)%Z) /\
    (forall t, t ∈ T <-> exists i, (t, i) ∈ S /\ slot_of i = time).
Proof.
  intros [Hne Hz]. cbv zeta. unfold next_ideal.
  destruct (existsb _ S) eqn:Ez.
  { exfalso. apply existsb_exists in Ez as ([t i] & Hi & Ez). apply elem_of_list_In in Hi. apply Z.eqb_eq in Ez.
    exact (Hz t i Hi Ez). }
  clear Ez. destruct (fold_slots (fun p => next_in_interval fl reference (i_interval p.2) spread) S []) as [Hk Hl].
  set (l := fold_left _ S []) in *. pose proof (min_slot_spec l) as Hm.
  destruct (min_slot l) as [[k X]|].
  - destruct Hm as (M1 & M2 & M3). exists k, X. split; [done|].
    assert (Hin : k ∈ map fst l) by (apply elem_of_list_fmap; exists (k, X); done). split; [|split].
    + apply Hk in Hin as [Hin|([t i] & Hp & Hpk)]; [apply elem_of_nil in Hin; done|]. exists t, i. done.
    + intros t i Hi. apply M2, Hk. right. exists (t, i). done.
    + intros t. rewrite M3, Hl. split; [intros [Ht|Ht]; [|done]|auto]. unfold look in Ht. cbn in Ht. set_solver.
  - exfalso. destruct S as [|p S]; [done|].
    assert (Hin : next_in_interval fl reference (i_interval p.2) spread ∈ map fst l).
    { apply Hk. right. exists p. split; [left|done]. }
    rewrite Hm in Hin. apply elem_of_nil in Hin. done.
Qed.
Theorem C39_empty fl reference spread : next_ideal fl [] reference spread = Err ValueError.
Proof. reflexivity. Qed.
(** An interval of 0 is accepted when the configuration is read, but no run can be planned. *)
Theorem C39_zero fl (S : sched) reference spread t i : (t, i) ∈ S -> i_interval i = 0%Z ->
  next_ideal fl S reference spread = Err ZeroDivisionError.
Proof.
  intros Hi Hz. unfold next_ideal. destruct (existsb _ S) eqn:E; [done|]. exfalso.
  apply not_true_iff_false in E. apply E, existsb_exists. exists (t, i). split; [apply elem_of_list_In; done|].
  cbn. rewrite Hz. done.
Qed.
Print Assumptions C39_zero.
Print Assumptions C39_next_ideal.
Print Assumptions C39_empty.
(** At 13:30 of some day: the hourly and half-daily slots. *)
Definition ex_sched : sched :=
  [("daily", MkItem 86400000000 10); ("hourly", MkItem 3600000000 3); ("third", MkItem 7200000000 3)]%Z.
Lemma ex_can_plan : can_plan ex_sched.
Proof.
  split; [done|]. intros t i Hi. apply elem_of_list_In in Hi. cbn in Hi.
  destruct Hi as [[= <- <-]|[[= <- <-]|[[= <- <-]|[]]]]; done.
Qed.
Example ex_C39 :
  can_plan ex_sched /\
  match next_ideal fl36 ex_sched (1000000 * (739935 * 86400 + 48600)) 0,
        next_ideal fl36 ex_sched (1000000 * (739935 * 86400 + 84000)) 0 with
  | Ok (a, X), Ok (b, Y) =>
      a = (1000000 * (739935 * 86400 + 50400))%Z /\ elements X = ["hourly"; "third"] /\
      b = (1000000 * (739936 * 86400))%Z /\ elements Y = ["hourly"; "daily"; "third"]
  | _, _ => False
  end.
Proof. split; [exact ex_can_plan|]. vm_compute. repeat split; reflexivity. Qed.

(** ** C40 *)
(** [now1] is when missed tags are looked for, [now2] when the run is planned,
    [now3] the moment an immediate run gets. *)
Theorem C40_missed S h now t : (forall t i, (t, i) ∈ S -> (i_interval i <= now)%Z) ->
  t ∈ missed S h now <-> is_missed S h now t.
Proof. apply missed_spec. Qed.
Theorem C40_next fl (S : sched) h reference spread now1 now2 now3 ideal T :
  (forall t i, (t, i) ∈ S -> (i_interval i <= now1)%Z) ->
  next_ideal fl S reference spread = Ok (ideal, T) ->
  let immediately := (exists t, is_missed S h now1 t) /\ h <> [] /\ (now2 + 5 * 60 * 1000000 < ideal)%Z in
  exists time run, next fl S h reference spread now1 now2 now3 = Ok (time, run) /\
    (forall t, is_missed S h now1 t -> t ∈ run) /\
    (immediately -> time = now3 /\ forall t, t ∈ run <-> is_missed S h now1 t) /\
    (~ immediately -> time = ideal /\ forall t, t ∈ run <-> t ∈ T \/ is_missed S h now1 t).
Proof.
  intros Hn Hi. cbv zeta. unfold next. rewrite Hi. cbn [res_bind fst snd].
  assert (Hm : forall t, t ∈ missed S h now1 <-> is_missed S h now1 t) by (intros t; apply missed_spec; done).
  destruct (_ && _ && _) eqn:E.
  - apply andb_true_iff in E as [E E3]. apply andb_true_iff in E as [E1 E2].
    apply negb_true_iff, bool_decide_eq_false in E1, E2. apply Z.gtb_lt in E3.
    eexists _, _. split; [done|]. split; [intros t; apply Hm|]. split.
    + intros _. split; [done|]. apply Hm.
    + intros Hno. exfalso. apply Hno. split; [|split; [done|lia]].
      destruct (set_choose_L _ E1) as [t Ht]. exists t. apply Hm. done.
  - eexists _, _. split; [done|].
    assert (Hu : forall t, t ∈ T ∪ missed S h now1 <-> t ∈ T \/ is_missed S h now1 t).
    { intros t. rewrite elem_of_union, Hm. done. }
    split; [intros t Ht; apply Hu; auto|]. split; [|done].
    intros ([t Ht] & H2 & H3). exfalso. apply andb_false_iff in E as [E|E].
    + apply andb_false_iff in E as [E|E]; apply negb_false_iff, bool_decide_eq_true in E; [|done].
      apply Hm in Ht. set_solver.
    + rewrite Z.gtb_ltb in E. apply Z.ltb_ge in E. lia.
Qed.
Print Assumptions C40_missed.
Print Assumptions C40_next.
Definition ex_rev (u : string) (ts : Z) (duration : option Z) (T : list string) : rev :=
  MkRev u ts (MkStats 1 duration None) (list_to_set T) ∅ TRUSTED "".
(** At 13:30: a complete daily backup from 20 hours ago, an hourly one from 2
    hours ago, and an incomplete one.  The next slot is half an hour away, so
    the missed tags are caught up at once; five minutes before it, they wait. *)
Example ex_C40 :
  let day := (1000000 * (739935 * 86400))%Z in
  let h := [ex_rev "a" (day - 23400000000) (Some 1%Z) ["daily"; "hourly"]; ex_rev "b" (day + 41400000000) (Some 1%Z) ["hourly"];
            ex_rev "c" (day + 48000000000) None ["hourly"; "third"]] in
  let at_ now := match next fl36 ex_sched h now 0 now now (now + 1) with Ok (t, X) => Some ((t - day)%Z, elements X) | _ => None end in
  at_ (day + 48600000000)%Z = Some (48600000001%Z, ["hourly"; "third"]) /\
  at_ (day + 50100000000)%Z = Some (50400000000%Z, ["hourly"; "third"]) /\
  at_ (day + 84000000000)%Z = Some (84000000001%Z, ["hourly"; "daily"; "third"]).
Proof. vm_compute. repeat split; reflexivity. Qed.

(** ** C41 *)
Theorem C41_duration sg ds unit factor :
  ds <> [] -> (forall c, c ∈ ds -> is_digit c) -> (unit, factor) ∈ units ->
  parse_duration (sign_text sg ++ unchars ds ++ unit) = Ok (sign_value sg * decimal ds * factor)%Z.
Proof.
  intros Hne Hd Hu. replace (sign_text sg ++ unchars ds ++ unit)%string with ((sign_text sg ++ unchars ds) ++ unit)%string.
  2: { rewrite <- (unchars_chars ((_ ++ _) ++ unit)%string), <- (unchars_chars (sign_text sg ++ _ ++ unit)%string).
       rewrite !chars_app, <- app_assoc. done. }
  unfold units in Hu.
  repeat (apply elem_of_cons in Hu as [[= -> ->]|Hu];
    [unfold parse_duration; rewrite ?ends_last; cbn [Ascii.eqb Bool.eqb];
     try (rewrite drop_unit by (done || (unfold unit_char; set_solver)); rewrite py_int_dec by done; cbn [res_bind]; f_equal; lia)|]).
  - replace ((sign_text sg ++ unchars ds) ++ "")%string with (sign_text sg ++ unchars ds)%string.
    2: { rewrite <- (unchars_chars ((_ ++ _) ++ "")%string). rewrite chars_app, app_nil_r. symmetry. apply unchars_chars. }
    unfold parse_duration. rewrite !ends_body by (done || (unfold unit_char; set_solver)).
    rewrite py_int_dec by done. f_equal. lia.
  - apply elem_of_nil in Hu. done.
Qed.
Print Assumptions C41_duration.
(** A configured schedule has exactly the tags of the configuration, in their order, each with
    the configured number of copies and the interval in microseconds; it fails exactly if an
    interval cannot be read. *)
Theorem C41_configure c :
  (forall S0, configure c = Ok S0 <->
     Forall2 (fun x y => x.1 = y.1 /\ x.2.2 = i_keep y.2 /\
       exists sec, parse_duration x.2.1 = Ok sec /\ i_interval y.2 = (1000000 * sec)%Z) c S0) /\
  (forall e, configure c = Err e -> exists x, x ∈ c /\ parse_duration x.2.1 = Err e).
Proof.
  induction c as [|[tag [iv keep]] c [IH1 IH2]]; cbn [configure].
  - split; [|done]. intros S0. split; [intros [= <-]; constructor|]. intros H. inversion H. done.
  - destruct (parse_duration iv) as [sec|e] eqn:Hp; cbn [res_bind].
    + split.
      * intros S0. split.
        -- destruct (configure c) as [S1|e]; cbn [res_bind]; [|done]. intros [= <-].
           constructor; [|apply IH1; done]. cbn. split; [done|]. split; [done|]. exists sec. split; [done|lia].
        -- intros H. apply Forall2_cons_inv_l in H as ([t [iv' k']] & S1 & (H1 & H2 & sec' & H3 & H4) & HF & ->).
           cbn in *. apply IH1 in HF. rewrite HF. cbn [res_bind]. rewrite Hp in H3. injection H3 as <-. subst.
           do 3 f_equal. f_equal. lia.
      * intros e. destruct (configure c) as [S1|e1]; cbn [res_bind]; [done|]. intros [= <-].
        destruct (IH2 e1 eq_refl) as (x & Hx & He). exists x. split; [right; done|done].
    + split.
      * intros S0. split; [done|]. intros H. apply Forall2_cons_inv_l in H as (y & S1 & (_ & _ & sec & H3 & _) & _).
        cbn in H3. rewrite Hp in H3. done.
      * intros e1 [= <-]. exists (tag, (iv, keep)). split; [left|done].
Qed.
Print Assumptions C41_configure.
Example ex_C41_configure :
  configure [("daily", ("1d", 7%Z)); ("weekly", ("1w", 4%Z))] =
    Ok [("daily", MkItem 86400000000 7); ("weekly", MkItem 604800000000 4)] /\
  configure [("daily", ("1d", 7%Z)); ("odd", ("x", 4%Z))] = Err ValueError.
Proof. split; vm_compute; reflexivity. Qed.
Example ex_C41 :
  (forall c, c ∈ chars "36" -> is_digit c) /\ decimal (chars "36") = 36%Z /\
  parse_duration "36h" = Ok 129600%Z /\ parse_duration "-2w" = Ok (-1209600)%Z /\ parse_duration "90" = Ok 90%Z /\
  parse_duration "h" = Err ValueError /\ parse_duration "1.5h" = Err ValueError /\
  (** accepted, although not a number *) parse_duration "1w2w" = Ok 7257600%Z.
Proof.
  split; [|vm_compute; repeat split; reflexivity]. intros c Hc. cbn in Hc.
  repeat (apply elem_of_cons in Hc as [->|Hc]; [split; vm_compute; discriminate|]). apply elem_of_nil in Hc. done.
Qed.

(** ** C42 *)
Theorem C42_sla S h now m :
  StronglySorted by_time h -> shortest S m -> (0 < m)%Z ->
  exists ok, sla S h now = Ok ok /\
    (ok = false <-> (exists r, r ∈ h /\ is_complete r) /\
                    forall r, r ∈ h -> is_complete r -> (2 * (now - r_ts r) > 3 * m)%Z).
Proof.
  intros Hs Hm H0. unfold sla, sla_overdue.
  assert (Hc : forall r, r ∈ get_history true false h <-> r ∈ h /\ is_complete r).
  { intros r. unfold get_history, is_complete, is_clean. rewrite elem_of_list_filter. cbn.
    destruct (s_duration (r_stats r)); cbn; naive_solver. }
  assert (Hsc : StronglySorted by_time (get_history true false h)) by (apply filter_sorted; done).
  destruct (last (get_history true false h)) as [r|] eqn:Hl.
  - assert (Hr : r ∈ h /\ is_complete r) by (apply Hc; apply last_Some_elem_of; done).
    pose proof (min_list_spec (map (fun p => i_interval p.2) S)) as Hmin. destruct Hm as [(t & i & Hi & Him) Hle].
    assert (Hii : forall t i, (t, i) ∈ S -> i_interval i ∈ map (fun p : string * item => i_interval p.2) S).
    { intros t' i' Hp. apply elem_of_list_fmap. exists (t', i'). done. }
    destruct (min_list _) as [m'|].
    2: { apply Hii in Hi. rewrite Hmin in Hi. apply elem_of_nil in Hi. done. }
    assert (m' = m) as ->.
    { destruct Hmin as [A B]. apply elem_of_list_fmap in A as ([t' i'] & -> & A). apply Hle in A. cbn in *.
      specialize (B _ (Hii _ _ Hi)). lia. }
    destruct (2 * (now - r_ts r) >? 3 * m)%Z eqn:E; cbn [res_bind]; eexists; (split; [done|]).
    + apply Z.gtb_lt in E. rewrite Z.eqb_neq. split; [|intros _; lia]. intros _. split; [eauto|].
      intros x Hx Hcx. pose proof (sorted_last _ r x Hsc Hl (proj2 (Hc x) (conj Hx Hcx))). lia.
    + rewrite Z.gtb_ltb in E. apply Z.ltb_ge in E. split; [done|]. intros [_ Ha]. destruct Hr as [Hr1 Hr2].
      specialize (Ha r Hr1 Hr2). lia.
  - cbn. eexists. split; [done|]. split; [done|]. intros ([r Hr] & _). apply Hc in Hr.
    apply last_None in Hl. rewrite Hl in Hr. apply elem_of_nil in Hr. done.
Qed.
(** A repository without any complete backup never violates it; with one but
    without a schedule, asking fails. *)
Theorem C42_none S h now : (forall r, r ∈ h -> ~ is_complete r) -> sla S h now = Ok true.
Proof.
  intros Hn. unfold sla, sla_overdue. destruct (last _) as [r|] eqn:Hl; [|done]. exfalso.
  apply last_Some_elem_of in Hl. unfold get_history in Hl. apply elem_of_list_filter in Hl as [Hl1 Hl].
  apply (Hn r Hl). unfold is_complete. unfold is_clean in Hl1. destruct (s_duration _); [done|]. cbn in Hl1. naive_solver.
Qed.
Print Assumptions C42_sla.
Print Assumptions C42_none.
Example ex_C42 :
  let h := [ex_rev "a" 1000 (Some 1%Z) []; ex_rev "b" 1400 (Some 1%Z) []; ex_rev "c" 1500 None []] in
  let S := [("x", MkItem 200 1); ("y", MkItem 100 1)]%Z in
  StronglySorted by_time h /\ shortest S 100 /\
  sla S h 1550 = Ok true /\ sla S h 1551 = Ok false /\ sla [] h 1550 = Err ValueError.
Proof.
  cbv zeta. split; [|split; [|vm_compute; repeat split; reflexivity]].
  - repeat constructor; vm_compute; discriminate.
  - split; [exists "y", (MkItem 100 1); split; [right; left|done]|]. intros t i Hi.
    repeat (apply elem_of_cons in Hi as [[= -> ->]|Hi]; [cbn; lia|]). apply elem_of_nil in Hi. done.
Qed.

(** ** C43 *)
Theorem C43_sorted (S : sched) (tags : list string) :
  NoDup (map fst S) -> (forall t i, (t, i) ∈ S -> (0 < i_interval i)%Z) ->
  let l := sorted_tags S tags in
  NoDup l /\ (forall t, t ∈ l <-> t ∈ tags) /\
  (forall a b t u i j, l !! a = Some t -> l !! b = Some u -> (a < b)%nat ->
     (t, i) ∈ S -> (u, j) ∈ S -> (i_interval i <= i_interval j)%Z) /\
  (forall a b t u, l !! a = Some t -> l !! b = Some u -> (a < b)%nat ->
     (exists i, (t, i) ∈ S) -> exists j, (u, j) ∈ S).
Proof.
  intros Hnd Hpos. cbv zeta. unfold sorted_tags. destruct (dedup_spec [] tags) as [D1 D2].
  set (le := fun a b => (interval_of S a <=? interval_of S b)%Z).
  assert (Hint : forall t i, (t, i) ∈ S -> interval_of S t = i_interval i).
  { intros t i Hi. unfold interval_of. destruct (list_find _ S) as [[n p]|] eqn:Hf.
    - apply list_find_Some in Hf as (Hn & Hp & _). destruct p as [t' j]. cbn in Hp. subst t'. cbn.
      apply elem_of_list_lookup in Hi as [n2 Hi].
      assert (n = n2) as ->; [|congruence]. eapply (NoDup_lookup (map fst S)); [done|rewrite list_lookup_fmap, Hn; done|].
      rewrite list_lookup_fmap, Hi. done.
    - apply list_find_None in Hf. rewrite Forall_forall in Hf. exfalso. apply (Hf _ Hi). done. }
  assert (Hun : forall t, (forall i, (t, i) ∉ S) -> interval_of S t = 0%Z).
  { intros t Hn. unfold interval_of. destruct (list_find _ S) as [[n [t' j]]|] eqn:Hf; [|done].
    apply list_find_Some in Hf as (Hp & Ht & _). cbn in Ht. subst. exfalso. apply (Hn j). apply elem_of_list_lookup. eauto. }
  assert (Hs : StronglySorted (fun a b => le a b = true) (isort le (dedup [] tags))).
  { apply isort_sorted; unfold le; intros; lia. }
  assert (Hp : isort le (dedup [] tags) ≡ₚ dedup [] tags) by apply isort_perm.
  set (l := isort le (dedup [] tags)) in *.
  assert (Hord : forall a b t u, l !! a = Some t -> l !! b = Some u -> (a < b)%nat -> (interval_of S t <= interval_of S u)%Z).
  { clear Hp. revert Hs. generalize l. intros k Hk. induction Hk as [|x k Hk IH Hx]; intros a b t u Ha Hb Hab; [done|].
    destruct b as [|b]; [lia|]. destruct a as [|a].
    - cbn in Ha, Hb. injection Ha as ->. rewrite Forall_forall in Hx. specialize (Hx u ltac:(apply elem_of_list_lookup; eauto)).
      unfold le in Hx. lia.
    - apply (IH a b); [done..|lia]. }
  split; [rewrite Hp; done|]. split.
  { intros t. rewrite Hp, D2. split; [tauto|]. intros Ht. split; [done|]. apply not_elem_of_nil. }
  split.
  - intros a b t u i j Ha Hb Hab Hi Hj. rewrite <- (Hint _ _ Hi), <- (Hint _ _ Hj). eauto.
  - intros a b t u Ha Hb Hab [i Hi]. specialize (Hord a b t u Ha Hb Hab). rewrite (Hint _ _ Hi) in Hord.
    specialize (Hpos _ _ Hi).
    assert (Hdec : (exists p, p ∈ S /\ p.1 = u) \/ ~ exists p, p ∈ S /\ p.1 = u).
    { destruct (decide (Exists (fun p => p.1 = u) S)) as [He|He]; rewrite Exists_exists in He; auto. }
    destruct Hdec as [([u' j] & Hj & Hu)|Hno]; [cbn in Hu; subst; eauto|]. exfalso.
    rewrite (Hun u) in Hord; [lia|]. intros j Hj. apply Hno. exists (u, j). done.
Qed.
Print Assumptions C43_sorted.
Example ex_C43 : sorted_tags ex_sched ["daily"; "manual:x"; "third"; "hourly"; "daily"] = ["manual:x"; "hourly"; "third"; "daily"].
Proof. vm_compute. reflexivity. Qed.
