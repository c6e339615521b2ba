(** Accepted streams are complete diffs; wrong snapshots; what a diff means. *)
From Verif Require Export Proofs.RbdDiffCut.


Section Acc.
Context (piece : Z) (Hpiece : (0 < piece)%Z).
Local Notation any := (fun _ : exn => True).

Lemma punch_len o l : post any (fun _ => (0 < l)%Z) (punch_hole o l).
Proof.
  unfold punch_hole. destruct (Z.leb_spec l 0); [done|].
  eapply (post_bind _ (fun _ => True)).
  { intros []; done. }
  intros old _. cbn. done.
Qed.

Lemma read_record_data ph s ph' s' r : ph <> End -> ph <> Metadata ->
  read_record ph s = Ok (ph', s', r) ->
  (r = None /\ s = x65 :: s') \/
  (ph' = DataPhase /\ exists o l, (0 <= o < 2 ^ 64)%Z /\ (0 <= l < 2 ^ 64)%Z /\
     ((r = Some (Zero o l) /\ s = x7a :: le_bytes 8 o ++ le_bytes 8 l ++ s') \/
      (r = Some (Data o l) /\ s = x77 :: le_bytes 8 o ++ le_bytes 8 l ++ s'))).
Proof.
  intros H1 H2. destruct ph; [done| |done]. destruct s as [|t s]; [done|].
  cbn -[Byte.eqb unpack_uu le_bytes].
  destruct (Byte.eqb t x66); [done|]. destruct (Byte.eqb t x74); [done|].
  destruct (Byte.eqb t x73); [done|].
  destruct (Byte.eqb t x77) eqn:Hw.
  { apply Byte.byte_dec_bl in Hw as ->.
    destruct (unpack_uu s) as [[[o l] s1]|e] eqn:Hu; [|done].
    intros Heq. cbn in Heq. injection Heq as <- <- <-.
    apply unpack_uu_ok in Hu as (-> & ? & ?). right. split; [done|].
    exists o, l. split; [done|]. split; [done|]. right. done. }
  destruct (Byte.eqb t x7a) eqn:Hz.
  { apply Byte.byte_dec_bl in Hz as ->.
    destruct (unpack_uu s) as [[[o l] s1]|e] eqn:Hu; [|done].
    intros Heq. cbn in Heq. injection Heq as <- <- <-.
    apply unpack_uu_ok in Hu as (-> & ? & ?). right. split; [done|].
    exists o, l. split; [done|]. split; [done|]. left. done. }
  destruct (Byte.eqb t x65) eqn:He; [|done].
  apply Byte.byte_dec_bl in He as ->. intros Heq. injection Heq as <- <- <-.
  left. done.
Qed.

Lemma read_fbytes_ok s d s' : read_fbytes s = Ok (d, s') ->
  (exists k, s = le_bytes 4 k ++ d /\ s' = []) \/
  (ascii_name d /\ s = le_bytes 4 (zlen d) ++ d ++ s').
Proof.
  unfold read_fbytes, unpack_i32.
  destruct (unpack_u 4 s) as [[v s1]|e] eqn:Hu; [|done].
  apply unpack_u_ok in Hu as (-> & Hv); [|lia]. cbn [res_bind].
  set (n := if (v <? 2 ^ 31)%Z then v else (v - 2 ^ 32)%Z).
  unfold sread. destruct (Z.eqb_spec n (-1)) as [Hn|Hn].
  - cbn [res_bind]. destruct (is_ascii s1) eqn:Ha; [|done]. intros Heq. injection Heq as <- <-.
    left. exists v. done.
  - destruct (Z.ltb_spec n 0); [done|]. cbn [res_bind].
    destruct (is_ascii _) eqn:Ha; [|done]. intros Heq. injection Heq as <- <-.
    apply is_ascii_iff in Ha.
    unfold n in *. destruct (Z.ltb_spec v (2 ^ 31)); [|lia]. clear n.
    destruct (Z.le_gt_cases v (zlen s1)) as [Hle|Hgt].
    + right. assert (Hl : zlen (ztake v s1) = v) by (rewrite zlen_ztake; lia).
      rewrite Hl. split; [split; [done|lia]|]. rewrite ztake_zdrop. done.
    + left. exists v. rewrite ztake_all, zdrop_all by lia. done.
Qed.

Lemma read_record_meta s s' ph' r :
  read_record Metadata s = Ok (ph', s', r) ->
  (ph' = Metadata /\ (s' = [] \/ exists m, meta_ok m /\ s = enc_meta m ++ s' /\
     r = Some (match m with MFrom n => FromSnap n | MTo n => ToSnap n
                           | MSize n => SnapSize n end))) \/
  (ph' <> Metadata /\ read_record DataPhase s = Ok (ph', s', r)).
Proof.
  destruct s as [|t s]; [done|].
  cbn -[Byte.eqb unpack_uu unpack_u read_fbytes le_bytes].
  destruct (Byte.eqb t x66) eqn:Hf.
  { apply Byte.byte_dec_bl in Hf as ->.
    destruct (read_fbytes s) as [[d s1]|e] eqn:Hr; [|done].
    cbn. intros Heq. injection Heq as <- <- <-. left. split; [done|].
    apply read_fbytes_ok in Hr as [(k & -> & ->)|[Ha ->]]; [left; done|].
    right. exists (MFrom d). split_and!; [done| |done]. cbn -[le_bytes].
    rewrite <- app_assoc. done. }
  destruct (Byte.eqb t x74) eqn:Ht.
  { apply Byte.byte_dec_bl in Ht as ->.
    destruct (read_fbytes s) as [[d s1]|e] eqn:Hr; [|done].
    cbn. intros Heq. injection Heq as <- <- <-. left. split; [done|].
    apply read_fbytes_ok in Hr as [(k & -> & ->)|[Ha ->]]; [left; done|].
    right. exists (MTo d). split_and!; [done| |done]. cbn -[le_bytes].
    rewrite <- app_assoc. done. }
  destruct (Byte.eqb t x73) eqn:Hs.
  { apply Byte.byte_dec_bl in Hs as ->.
    destruct (unpack_u 8 s) as [[v s1]|e] eqn:Hu; [|done].
    cbn. intros Heq. injection Heq as <- <- <-. left. split; [done|].
    apply unpack_u_ok in Hu as (-> & Hv); [|lia].
    right. exists (MSize v). split_and!; [done| |done]. done. }
  right. destruct (Byte.eqb t x77); [|destruct (Byte.eqb t x7a); [|destruct (Byte.eqb t x65)]];
    try done.
  - destruct (unpack_uu s) as [[[o l] s1]|e]; cbn in *; [|done]. by simplify_eq.
  - destruct (unpack_uu s) as [[[o l] s1]|e]; cbn in *; [|done]. by simplify_eq.
  - by simplify_eq.
Qed.

Lemma accept_data : forall fuel s n,
  post any (fun m => exists ds tl, Forall data_ok ds /\
      s = concat (map enc_data ds) ++ x65 :: tl /\ m = (n + total ds)%Z)
    (data_from piece fuel DataPhase s n).
Proof.
  induction fuel as [|fuel IH]; intros s n; unfold data_from;
    (destruct (read_record DataPhase s) as [[[ph' s'] r]|e] eqn:Hr; [|done]);
    apply read_record_data in Hr as [[-> ->]|(-> & o & l & Ho & Hl & Hr)]; try done.
  - exists [], s'. cbn. split_and!; [constructor|done|lia].
  - destruct Hr as [[-> ->]|[-> ->]]; done.
  - exists [], s'. cbn. split_and!; [constructor|done|lia].
  - destruct Hr as [[-> ->]|[-> ->]].
    + cbn [data_loop].
      eapply (post_bind _ (fun sl => sl = (s', l) /\ (0 < l)%Z)).
      { eapply (post_bind _ (fun _ => True)); [done|]. intros _ _.
        eapply (post_bind _ (fun _ => True)); [intros []; done|]. intros p _.
        eapply post_bind; [apply punch_len|]. intros ? H. cbn. done. }
      intros [s1 l1] [Heq Hl1]. injection Heq as ? ?; subst s1 l1.
      specialize (IH s' (n + l)%Z). unfold data_from in IH.
      match goal with |- post _ _ ?p => 
        enough (Hg : post any (fun m => exists ds tl, Forall data_ok ds /\
          s' = concat (map enc_data ds) ++ x65 :: tl /\ m = (n + l + total ds)%Z) p) end.
      { revert Hg. match goal with |- post _ _ ?p -> _ => generalize p end.
        intros p. induction p as [a|e|o0 k IHp]; cbn [post]; [|done|auto].
        intros (ds & tl & Hds & Hs & Hm). exists (DZero o l :: ds), tl. split_and!.
        - constructor; [|done]. cbn. lia.
        - cbn [map concat enc_data]. rewrite Hs. cbn [app]. rewrite <- !app_assoc. done.
        - cbn [total fold_right rec_len]. change (fold_right _ 0%Z ds) with (total ds). lia. }
      exact IH.
    + cbn [data_loop].
      eapply (post_bind _ (fun sl => sl = (zdrop l s', l))).
      { eapply (post_bind _ (fun _ => True)); [done|]. intros _ _.
        eapply (post_bind _ (fun s1 => s1 = zdrop l s')).
        { pose proof (stream_post piece Hpiece (Z.to_nat l) l s' ltac:(lia)) as Hp.
          revert Hp. match goal with |- post _ _ ?p -> _ => generalize p end.
          intros p. induction p; cbn; auto. }
        intros s1 ->. done. }
      intros [s1 l1] Heq. injection Heq as ? ?; subst s1 l1.
      specialize (IH (zdrop l s') (n + l)%Z). unfold data_from in IH.
      destruct (Z.le_gt_cases l (zlen s')) as [Hle|Hgt].
      2:{ rewrite (zdrop_all l) by lia. done. }
      match goal with |- post _ _ ?p => 
        enough (Hg : post any (fun m => exists ds tl, Forall data_ok ds /\
          zdrop l s' = concat (map enc_data ds) ++ x65 :: tl /\ m = (n + l + total ds)%Z) p) end.
      { revert Hg. match goal with |- post _ _ ?p -> _ => generalize p end.
        intros p. induction p as [a|e|o0 k IHp]; cbn [post]; [|done|auto].
        intros (ds & tl & Hds & Hs & Hm).
        assert (Hz : zlen (ztake l s') = l) by (rewrite zlen_ztake; lia).
        exists (DData o (ztake l s') :: ds), tl. split_and!.
        - constructor; [|done]. cbn [data_ok]. rewrite Hz. lia.
        - cbn [map concat enc_data]. rewrite Hz. cbn [app]. rewrite <- !app_assoc, <- Hs, ztake_zdrop. done.
        - cbn [total fold_right rec_len]. rewrite Hz. change (fold_right _ 0%Z ds) with (total ds). lia. }
      exact IH.
Qed.

Lemma data_from_phase fuel s n : forall ph' s' r,
  read_record Metadata s = Ok (ph', s', r) -> ph' <> Metadata ->
  data_loop piece fuel ph' s' r n = data_from piece fuel DataPhase s n.
Proof.
  intros ph' s' r Hr Hne. apply read_record_meta in Hr as [[-> _]|[_ Hr]]; [done|].
  unfold data_from. rewrite Hr. done.
Qed.

Lemma post_weaken {A} P (Q Q' : A -> Prop) (p : prog A) :
  (forall a, Q a -> Q' a) -> post P Q p -> post P Q' p.
Proof. intros H. induction p; cbn; auto. Qed.

Lemma accept_loops sf st fuel2 : forall fuel1 s,
  post any (fun n => exists ms ds tl, Forall meta_ok ms /\ Forall (names_ok sf st) ms /\
     Forall data_ok ds /\
     s = concat (map enc_meta ms) ++ concat (map enc_data ds) ++ x65 :: tl /\ n = total ds)
   (pbind (meta_loop fuel1 sf st s) (fun '(ph, s', r) => data_loop piece fuel2 ph s' r 0)).
Proof.
  induction fuel1 as [|fuel1 IH]; intros s; [done|]. cbn [meta_loop].
  destruct (read_record Metadata s) as [[[ph s'] r]|e] eqn:Hr; [|done].
  assert (Hdec : ph = Metadata \/ ph <> Metadata) by (destruct ph; auto). destruct Hdec as [->|Hne].
  - apply read_record_meta in Hr as [[_ Hr]|[? _]]; [|done].
    assert (Hassoc : forall A B C (p : prog A) (q : A -> prog B) (t : B -> prog C) P Q,
      post P Q (pbind p (fun a => pbind (q a) t)) -> post P Q (pbind (pbind p q) t)).
    { clear. intros A B C p q t P Q. induction p as [a|e|o f IHp]; cbn; auto. }
    apply Hassoc. destruct Hr as [->|(m & Hm & -> & ->)].
    + eapply (post_bind _ (fun _ => True)).
      { destruct r as [[]|]; cbn; try done; unfold passert; case_match; done. }
      intros _ _. destruct fuel1; done.
    + eapply (post_bind _ (fun _ => names_ok sf st m)).
      { destruct m; cbn; try done; unfold passert; case_bool_decide; done. }
      intros ? Hn. eapply post_weaken; [|apply IH].
      intros n (ms & ds & tl & H1 & H2 & H3 & -> & ->).
      exists (m :: ms), ds, tl. split_and!; try (constructor; done); try done.
      cbn [map concat]. rewrite <- app_assoc. done.
  - pose proof (accept_data fuel2 s 0%Z) as Ha.
    rewrite <- (data_from_phase fuel2 s 0%Z ph s' r Hr Hne) in Ha.
    assert (Hm : pbind (match ph with Metadata => meta_loop fuel1 sf st s' | _ => PRet (ph, s', r) end)
             (fun '(ph, s', r) => data_loop piece fuel2 ph s' r 0) = data_loop piece fuel2 ph s' r 0).
    { destruct ph; done. }
    destruct ph; [done| |];
      (eapply post_weaken; [|exact Ha]; intros n (ds & tl & H1 & -> & ->);
       exists [], ds, tl; split_and!; try constructor; try done).
Qed.

(** Whatever the target does: a stream that is integrated without error begins
    with a complete, well-formed diff between the right snapshots. *)
Lemma integrate_accept sf st s :
  post any (fun n => exists ms ds tl, Forall meta_ok ms /\ Forall (names_ok sf st) ms /\
     Forall data_ok ds /\ s = enc_diff ms ds ++ tl /\ n = total ds)
   (integrate piece sf st s).
Proof.
  unfold integrate. case_bool_decide as Hh; [|done]. cbn zeta.
  eapply post_weaken; [|apply accept_loops].
  intros n (ms & ds & tl & H1 & H2 & H3 & Hs & ->). exists ms, ds, tl.
  split_and!; try done. rewrite <- (ztake_zdrop 12 s), Hh, Hs. unfold enc_diff.
  rewrite <- !app_assoc. done.
Qed.

(** C11 *)
Lemma wrong_names_loop sf st fuel2 r tl : forall ms fuel1 c p,
  Forall meta_ok ms -> ~ Forall (names_ok sf st) ms -> length ms <= fuel1 ->
  exists p' pre post_, ms = pre ++ post_ /\
  run_flat (pbind (meta_loop fuel1 sf st (concat (map enc_meta ms) ++ tl))
    (fun '(ph, s', r) => data_loop piece fuel2 ph s' r 0)) (fl c p r)
  = (fl (fold_left (fun c m => apply_meta m c) pre c) p' r, Err AssertionError).
Proof.
  induction ms as [|m ms IH]; intros fuel1 c p Hok Hn Hf.
  { exfalso. apply Hn. constructor. }
  apply Forall_cons in Hok as [Hm Hok]. cbn [map concat length] in *. rewrite <- app_assoc.
  destruct fuel1 as [|fuel1]; [lia|].
  assert (Hdec : names_ok sf st m \/ ~ names_ok sf st m).
  { destruct m as [x|x|x]; cbn; [destruct (decide (x = sf)); auto|destruct (decide (x = st)); auto|auto]. }
  destruct Hdec as [Hy|Hno].
  - destruct (meta_step_flat m c p r (concat (map enc_meta ms) ++ tl) fuel1 sf st Hm Hy) as (p' & Hp').
    destruct (IH fuel1 (apply_meta m c) p' Hok) as (p2 & pre & po & -> & Hrun).
    { intros H. apply Hn. constructor; done. }
    { lia. }
    exists p2, (m :: pre), po. split; [done|].
    rewrite run_flat_bind, Hp'. rewrite run_flat_bind in Hrun. exact Hrun.
  - exists p, [], (m :: ms). split; [done|].
    rewrite run_flat_bind. cbn [meta_loop]. rewrite read_meta_enc by done.
    rewrite run_flat_bind. destruct m as [x|x|x]; cbn in Hno; try done;
      unfold passert; rewrite bool_decide_false by done; done.
Qed.
Lemma integrate_wrong_names ms sf st tl c p r :
  Forall meta_ok ms -> ~ Forall (names_ok sf st) ms ->
  exists p' pre post_, ms = pre ++ post_ /\
  run_flat (integrate piece sf st (enc_magic ++ concat (map enc_meta ms) ++ tl)) (fl c p r)
  = (fl (fold_left (fun c m => apply_meta m c) pre c) p' r, Err AssertionError).
Proof.
  intros Hok Hn. unfold integrate.
  rewrite (ztake_app_l enc_magic), (zdrop_app_l enc_magic) by done.
  rewrite bool_decide_true by done. cbn zeta. apply wrong_names_loop; try done.
  pose proof (concat_len enc_meta ms ltac:(intros; pose proof (enc_meta_len a); lia)).
  rewrite app_length. lia.
Qed.
End Acc.

(** ** What a correct diff does *)
Lemma zlen_fit n c : (0 <= n)%Z -> zlen (fit n c) = n.
Proof.
  intros. unfold fit. rewrite zlen_ztake, zlen_app, zlen_zeros.
  pose proof (zlen_nonneg c). lia.
Qed.
Lemma fit_same (c : bytes) : fit (zlen c) c = c.
Proof. unfold fit. rewrite zeros_nil, app_nil_r, ztake_all; done || lia. Qed.

Lemma apply_describes ds a b :
  Forall data_ok ds -> describes ds a b ->
  fold_left (fun c r => apply_data r c) ds (fit (zlen b) a) = b.
Proof.
  intros Hok [Hag Hcov]. pose proof (zlen_nonneg b) as Hb0.
  (* invariant: same length; bytes agree with b unless still to be covered *)
  assert (Hgen : forall ds2 c, Forall data_ok ds2 -> Forall (fun r => agrees r b) ds2 ->
     zlen c = zlen b ->
     (forall i x, b !! i = Some x -> (forall r, r ∈ ds2 -> ~ covers r (Z.of_nat i)) -> c !! i = Some x) ->
     fold_left (fun c r => apply_data r c) ds2 c = b).
  { clear. induction ds2 as [|r ds2 IH]; intros c Hok Hag Hl Hc; cbn [fold_left].
    - symmetry. apply list_eq_zlen; [done|]. intros i x Hi. apply Hc; [done|].
      intros r Hr. inversion Hr.
    - apply Forall_cons in Hok as [Hr Hok]. apply Forall_cons in Hag as [Ha Hag].
      assert (Hap : apply_data r c = overwrite c (rec_bytes r).1 (rec_bytes r).2).
      { destruct r as [o l|o d]; cbn [apply_data rec_bytes fst snd]; unfold patch.
        - destruct Ha as [[? Hz] _]. rewrite zlen_zeros in Hz.
          rewrite (zeros_nil (o - zlen c)), app_nil_r by lia. done.
        - destruct Ha as [[? Hz] _]. pose proof (zlen_nonneg d).
          rewrite zeros_nil, app_nil_r by lia. done. }
      rewrite Hap. unfold agrees in Ha.
      destruct (rec_bytes r) as [o d] eqn:Hrb. cbn [fst snd]. destruct Ha as [[Ho Hod] Hd].
      pose proof (zlen_nonneg d).
      apply IH; try done.
      + rewrite zlen_overwrite; lia.
      + intros i x Hi Hn. rewrite lookup_overwrite by lia.
        case_decide as Hin.
        * rewrite <- Hd, lookup_ztake, lookup_zdrop.
          rewrite decide_True by lia. rewrite <- Hi. f_equal. lia.
        * apply Hc; [done|]. intros r' Hr'. apply elem_of_cons in Hr' as [->|Hr']; [|auto].
          intros Hcv. apply Hin. destruct r as [o' l|o' d']; cbn in Hrb; injection Hrb as <- <-;
            cbn in Hcv; [rewrite zlen_zeros; lia|lia]. }
  apply Hgen; try done.
  - apply zlen_fit. done.
  - intros i x Hi Hn. unfold fit. rewrite lookup_ztake.
    apply lookup_Some_zlen in Hi as Hlt.
    rewrite decide_True by lia. apply Hcov; done.
Qed.
