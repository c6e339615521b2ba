(** [with File(...) as f: p] on a chunked image is [p] on a plain file. *)
From Verif Require Export Proofs.ProgProofs Proofs.RbdDiffProofs Proofs.RbdDiffCut Proofs.RbdDiffAccept.

(** No program modelled here closes the file itself. *)
Fixpoint noclose {A} (p : prog A) : Prop :=
  match p with
  | PRet _ | PRaise _ => True
  | POp o k => o <> OClose /\ forall x, noclose (k x)
  end.
Lemma noclose_bind {A B} (p : prog A) (k : A -> prog B) :
  noclose p -> (forall a, noclose (k a)) -> noclose (pbind p k).
Proof.
  intros Hp Hk. induction p as [a|e|o f IH]; cbn; [apply Hk|done|].
  destruct Hp as [Ho Hf]. split; [done|]. intros x. apply IH, Hf.
Qed.
Lemma do_op_noclose o : o <> OClose -> noclose (do_op o).
Proof. intros H. split; [done|]. done. Qed.

Lemma flat_step_noclose s o :
  o <> OClose -> fl_closed (flat_step s o).1 = fl_closed s /\ fl_w (flat_step s o).1 = fl_w s
    /\ fl_r (flat_step s o).1 = fl_r s.
Proof. destruct s as [c p r w []], o; intros Ho; cbn; try done; repeat case_match; done. Qed.
Lemma run_flat_noclose {A} (p : prog A) s :
  noclose p -> fl_closed (run_flat p s).1 = fl_closed s /\ fl_w (run_flat p s).1 = fl_w s
    /\ fl_r (run_flat p s).1 = fl_r s.
Proof.
  revert s. induction p as [a|e|o k IH]; intros s Hn; [done|done|].
  destruct Hn as [Ho Hk]. unfold run_flat in *. cbn [interp]. unfold bind.
  pose proof (flat_step_noclose s o Ho) as (H1 & H2 & H3).
  destruct (flat_step s o) as [s1 [x|e]]; cbn [fst] in *; [|done].
  destruct (IH x s1 (Hk x)) as (H4 & H5 & H6). rewrite H4, H5, H6. done.
Qed.

(** Reading programs leave the bytes alone. *)
Fixpoint readonly {A} (p : prog A) : Prop :=
  match p with
  | PRet _ | PRaise _ => True
  | POp o k => match o with OSeek _ _ | ORead _ | OTell => True | _ => False end
               /\ forall x, readonly (k x)
  end.

Lemma session_wext {A} E n r wr (p : prog A) w :
  wext E n w (session E n r wr p w).1.
Proof.
  unfold session. destruct (file_open n r wr false w) as [f|e] eqn:Ho; [|apply wext_refl].
  pose proof (open_name _ _ _ _ _ _ Ho) as Hn.
  pose proof (run_file_mono E p f w) as [H1 H2].
  destruct (run_file E p (f, w)) as [[f1 w1] r1]. cbn in H1, H2.
  assert (Hm : mono E (file_close E)) by apply file_close_mono.
  pose proof (Hm f1 w1) as [H3 H4].
  destruct (file_close E (f1, w1)) as [[f2 w2] r2]. cbn in *.
  rewrite H2, Hn in *. eapply wext_trans; done.
Qed.

Section S.
Context (E : env) (D : bytes -> Prop).
Hypothesis HCS : (0 < CS E)%Z.
Hypothesis Hlzo : lzo_ok E.
Hypothesis Dinj : forall c1 c2, D c1 -> D c2 -> hash E c1 = hash E c2 -> c1 = c2.

Lemma session_spec {A} (p : prog A) n r wr w0 c0 :
  WI E D w0 -> initial_image E (w_disk w0) n c0 ->
  (wr = false -> is_Some (d_maps (w_disk w0) !! n)) ->
  prog_ok p -> noclose p ->
  LogD D (session E n r wr p w0).1 ->
  let w2 := (session E n r wr p w0).1 in
  let s := run_flat p (flat0 c0 r wr false) in
  (session E n r wr p w0).2 = s.2 /\ WI E D w2 /\ ext E n w0 w2 /\
  (wr = true -> image_is E (w_disk w2) n (fl_data s.1) /\ map_complete (w_disk w2) n).
Proof.
  intros HW Hi Hex Hok Hnc HL. cbn zeta. unfold session in *.
  destruct (file_open n r wr false w0) as [f0|e] eqn:Ho.
  2:{ exfalso. unfold file_open in Ho. destruct Hi as [[Hm _]|[(m & Hm & _) _]].
      - rewrite Hm in Ho. destruct wr; [done|]. destruct (Hex eq_refl) as [? Hx].
        rewrite Hm in Hx. done.
      - rewrite Hm in Ho. done. }
  destruct (open_R E D w0 n r wr false f0 c0 HCS HW Hi Ho) as [HR Hn].
  pose proof (prog_sim E D HCS Hlzo Dinj p f0 w0 _ Hok HR) as Hsim.
  pose proof (run_flat_noclose p (flat0 c0 r wr false) Hnc) as (Hcl & Hw & _).
  assert (HL1 : LogD D (run_file E p (f0, w0)).1.2).
  { destruct (run_file E p (f0, w0)) as [[f1 w1] r1]. cbn.
    pose proof (file_close_mono E f1 w1) as [H3 _].
    destruct (file_close E (f1, w1)) as [[f2 w2] r2]. cbn in *.
    eapply LogD_mono; done. }
  specialize (Hsim HL1).
  destruct (run_flat p (flat0 c0 r wr false)) as [s1 r1]. cbn [fst snd] in *.
  destruct Hsim as (f1 & w1 & Heq & HR1 & He1 & Hn1). rewrite Heq in *.
  pose proof (file_step_spec E D HCS Hlzo Dinj OClose f1 w1 s1 I HR1) as Hclose.
  assert (Hst : file_step E OClose (f1, w1) =
    ((file_close E (f1, w1)).1, match (file_close E (f1, w1)).2 with Ok _ => Ok UNone | Err e => Err e end)).
  { cbn [file_step]. unfold mmap, bind, ret. destruct (file_close E (f1, w1)) as [s [a|e]]; done. }
  rewrite Hst in Hclose. cbn [fst snd] in Hclose.
  destruct (file_close E (f1, w1)) as [[f2 w2] r2]. cbn [fst snd] in *.
  specialize (Hclose HL). destruct s1 as [c p1 rr ww cl]. cbn [fl_closed fl_w flat0] in *. subst cl ww.
  cbn [flat_step] in Hclose. destruct Hclose as (f3 & w3 & Heq3 & HR3 & He3 & Hn3).
  destruct r2 as [a|e]; simplify_eq. split; [done|].
  split; [apply (st_wi _ _ _ _ _ (R_st _ _ _ _ _ HR3))|]. split.
  { rewrite Hn1 in He3. eapply ext_trans; done. }
  intros ->. destruct (R_image _ _ _ _ _ HR3 eq_refl eq_refl) as [H1 H2].
  rewrite Hn3, Hn1 in *. done.
Qed.
End S.

(** The programs used. *)
Lemma punch_hole_ok o l : (prog_ok (punch_hole o l) /\ noclose (punch_hole o l)).
Proof.
  unfold punch_hole. destruct (l <=? 0)%Z; [done|].
  split; cbn; split; try done; intros []; cbn; try done; repeat (split; [done|]; intros ?); done.
Qed.
Lemma stream_ok piece fuel rem s :
  prog_ok (stream_loop piece fuel rem s) /\ noclose (stream_loop piece fuel rem s).
Proof.
  revert rem s. induction fuel as [|fuel IH]; intros rem s; cbn [stream_loop];
    (destruct (rem =? 0)%Z; [done|]); [done|].
  split; cbn; (split; [done|]); intros x; apply IH.
Qed.
Lemma data_loop_ok piece fuel ph s r n :
  prog_ok (data_loop piece fuel ph s r n) /\ noclose (data_loop piece fuel ph s r n).
Proof.
  revert ph s r n. induction fuel as [|fuel IH]; intros ph s r n; cbn [data_loop];
    (destruct r as [r|]; [|done]); [done|].
  assert (Hpt : prog_ok p_tell /\ noclose p_tell).
  { split; cbn; (split; [done|]); intros []; done. }
  split.
  - apply pbind_ok.
    + destruct r; try done; (apply pbind_ok; [done|]; intros ?).
      * apply pbind_ok; [apply Hpt|intros ?].
        apply pbind_ok; [apply punch_hole_ok|]. done.
      * apply pbind_ok; [apply stream_ok|]. done.
    + intros [s' len]. destruct (read_record ph s') as [[[ph' s''] r']|e]; [apply IH|done].
  - apply noclose_bind.
    + destruct r; try done; (apply noclose_bind; [done|]; intros ?).
      * apply noclose_bind; [apply Hpt|intros ?].
        apply noclose_bind; [apply punch_hole_ok|]. done.
      * apply noclose_bind; [apply stream_ok|]. done.
    + intros [s' len]. destruct (read_record ph s') as [[[ph' s''] r']|e]; [apply IH|done].
Qed.
Lemma meta_loop_ok fuel sf st s :
  prog_ok (meta_loop fuel sf st s) /\ noclose (meta_loop fuel sf st s).
Proof.
  revert s. induction fuel as [|fuel IH]; intros s; cbn [meta_loop]; [done|].
  destruct (read_record Metadata s) as [[[ph s'] r]|e]; [|done].
  destruct ph; try done. split.
  - apply pbind_ok; [|intros; apply IH].
    destruct r as [[]|]; try done; unfold passert; try case_match; try done.
  - apply noclose_bind; [|intros; apply IH].
    destruct r as [[]|]; try done; unfold passert; try case_match; try done.
Qed.
Lemma integrate_ok piece sf st s :
  prog_ok (integrate piece sf st s) /\ noclose (integrate piece sf st s).
Proof.
  unfold integrate. case_bool_decide; [|done]. split.
  - apply pbind_ok; [apply meta_loop_ok|]. intros [[ph s'] r]. apply data_loop_ok.
  - apply noclose_bind; [apply meta_loop_ok|]. intros [[ph s'] r]. apply data_loop_ok.
Qed.

Lemma WI_of E w0 n A r wr (p : prog A) :
  good_store E (w_disk w0) -> seen_ok w0 ->
  let w2 := (session E n r wr p w0).1 in
  WI E (fun c => stored E (w_disk w0) c \/ EFlush c ∈ w_log w2) w0.
Proof. intros. apply WI_init; done. Qed.

Lemma total_payload ds : Forall data_ok ds -> total ds = payload ds.
Proof.
  induction 1 as [|r ds Hr _ IH]; [done|]. unfold total, payload in *. cbn [fold_right].
  rewrite IH. f_equal. destruct r as [o l|o d]; cbn in *; [|done].
  rewrite zlen_zeros. lia.
Qed.

(** C09 *)
Lemma integrate_session E piece sf st ms ds tl n r w0 c0 :
  (0 < CS E)%Z -> lzo_ok E -> good_store E (w_disk w0) -> seen_ok w0 ->
  initial_image E (w_disk w0) n c0 ->
  Forall meta_ok ms -> Forall (names_ok sf st) ms -> Forall data_ok ds ->
  (0 < piece)%Z ->
  let x := session E n r true (integrate piece sf st (enc_diff ms ds ++ tl)) w0 in
  no_collision E (w_disk w0) (w_log x.1) ->
  x.2 = Ok (payload ds) /\
  image_is E (w_disk x.1) n (apply_diff ms ds c0) /\ map_complete (w_disk x.1) n.
Proof.
  intros HCS Hlzo Hg Hs Hi Hms Hn Hds Hp x Hnc.
  destruct (integrate_ok piece sf st (enc_diff ms ds ++ tl)) as [Hok Hno].
  pose proof (session_spec E (fun c => stored E (w_disk w0) c \/ EFlush c ∈ w_log x.1)
    HCS Hlzo Hnc (integrate piece sf st (enc_diff ms ds ++ tl)) n r true w0 c0
    (WI_init E w0 _ Hg Hs) Hi ltac:(done) Hok Hno) as H.
  fold x in H. destruct H as (H1 & H2 & H3 & H4); [intros d Hd; right; done|].
  unfold flat0 in *. rewrite <- total_payload by done.
  destruct (integrate_flat piece Hp tl ms ds sf st c0 0 r Hms Hn Hds) as (p' & Heq).
  unfold fl in Heq. rewrite Heq in *. cbn in *. split; [done|]. apply H4. done.
Qed.

Lemma fold_meta_fit ms (a b : bytes) :
  (forall k, MSize k ∈ ms -> k = zlen b) ->
  (MSize (zlen b) ∈ ms \/ zlen a = zlen b) ->
  fold_left (fun c m => apply_meta m c) ms a = fit (zlen b) a.
Proof.
  revert a. induction ms as [|m ms IH]; intros a Hall Hex; cbn [fold_left].
  - destruct Hex as [Hex|<-]; [inversion Hex|]. rewrite fit_same. done.
  - pose proof (zlen_nonneg b).
    destruct m as [x|x|k]; cbn [apply_meta].
    1,2: apply IH; [intros k Hk; apply Hall; right; done|];
      destruct Hex as [Hex|Hex]; [left; inversion Hex; done|auto].
    rewrite (Hall k ltac:(left)). rewrite IH.
    + rewrite <- (zlen_fit (zlen b) a) at 1 by done. apply fit_same.
    + intros j Hj. apply Hall. right. done.
    + right. apply zlen_fit. done.
Qed.
Lemma integrate_snapshot E piece sf st ms ds tl n r w0 a b :
  (0 < CS E)%Z -> lzo_ok E -> good_store E (w_disk w0) -> seen_ok w0 ->
  initial_image E (w_disk w0) n a ->
  Forall meta_ok ms -> Forall (names_ok sf st) ms -> Forall data_ok ds ->
  (0 < piece)%Z ->
  (forall k, MSize k ∈ ms -> k = zlen b) ->
  (MSize (zlen b) ∈ ms \/ zlen a = zlen b) ->
  describes ds a b ->
  let x := session E n r true (integrate piece sf st (enc_diff ms ds ++ tl)) w0 in
  no_collision E (w_disk w0) (w_log x.1) ->
  x.2 = Ok (payload ds) /\
  image_is E (w_disk x.1) n b /\ map_complete (w_disk x.1) n.
Proof.
  intros HCS Hlzo Hg Hs Hi Hms Hn Hds Hp H1 H2 Hd x Hnc.
  destruct (integrate_session E piece sf st ms ds tl n r w0 a HCS Hlzo Hg Hs Hi Hms Hn Hds Hp Hnc)
    as (Hr & Him & Hmc).
  unfold apply_diff in Him. rewrite (fold_meta_fit ms a b H1 H2), apply_describes in Him; done.
Qed.

Lemma session_ok_post {A} E n r wr (p : prog A) w0 a P Q :
  post P Q p -> (session E n r wr p w0).2 = Ok a -> Q a.
Proof.
  unfold session. intros Hp. destruct (file_open n r wr false w0) as [f|e]; [|done].
  assert (Hgen : forall s s' a, interp (file_step E) p s = (s', Ok a) -> Q a).
  { clear -Hp. induction p as [b|e|o k IH]; intros s s' a H; cbn in *.
    - unfold ret in H. simplify_eq. done.
    - done.
    - unfold bind in H. destruct (file_step E o s) as [s1 [x|e]]; [|done].
      eapply IH; [apply Hp|exact H]. }
  unfold run_file. destruct (interp (file_step E) p (f, w0)) as [[f1 w1] r1] eqn:Hr.
  destruct (file_close E (f1, w1)) as [[f2 w2] [u|e]]; cbn; [|done].
  intros ->. eapply Hgen, Hr.
Qed.

(** C10 *)
Lemma cut_session E piece sf st ms ds k n r w0 :
  (0 < piece)%Z -> Forall meta_ok ms -> Forall data_ok ds ->
  k < length (enc_diff ms ds) ->
  exists e, (session E n r true (integrate piece sf st (take k (enc_diff ms ds))) w0).2 = Err e.
Proof.
  intros Hp Hms Hds Hk.
  destruct (session E n r true _ w0).2 as [a|e] eqn:H; [|eauto].
  eapply (session_ok_post E n r true _ w0 a NF (fun _ => False)) in H; [done|].
  apply (integrate_cut piece Hp ms ds sf st k Hms Hds Hk).
Qed.
Lemma accept_session E piece sf st s n r w0 len :
  (0 < piece)%Z ->
  (session E n r true (integrate piece sf st s) w0).2 = Ok len ->
  exists ms ds tl, Forall meta_ok ms /\ Forall (names_ok sf st) ms /\
     Forall data_ok ds /\ s = enc_diff ms ds ++ tl /\ len = payload ds.
Proof.
  intros Hp H.
  apply (session_ok_post E n r true _ w0 len (fun _ => True)
    (fun len => exists ms ds tl, Forall meta_ok ms /\ Forall (names_ok sf st) ms /\
       Forall data_ok ds /\ s = enc_diff ms ds ++ tl /\ len = payload ds)) in H; [done|].
  eapply post_weaken; [|apply integrate_accept; done].
  intros a (ms & ds & tl & ? & ? & ? & ? & ->). exists ms, ds, tl.
  rewrite total_payload by done. done.
Qed.

(** C11 *)
Lemma wrong_names_session E piece sf st ms tl n r w0 c0 :
  (0 < CS E)%Z -> lzo_ok E -> good_store E (w_disk w0) -> seen_ok w0 ->
  initial_image E (w_disk w0) n c0 ->
  Forall meta_ok ms -> ~ Forall (names_ok sf st) ms ->
  (0 < piece)%Z ->
  let x := session E n r true
     (integrate piece sf st (enc_magic ++ concat (map enc_meta ms) ++ tl)) w0 in
  no_collision E (w_disk w0) (w_log x.1) ->
  x.2 = Err AssertionError /\
  exists pre post_, ms = pre ++ post_ /\
    image_is E (w_disk x.1) n (fold_left (fun c m => apply_meta m c) pre c0).
Proof.
  intros HCS Hlzo Hg Hs Hi Hms Hn Hp x Hnc.
  destruct (integrate_ok piece sf st (enc_magic ++ concat (map enc_meta ms) ++ tl)) as [Hok Hno].
  pose proof (session_spec E (fun c => stored E (w_disk w0) c \/ EFlush c ∈ w_log x.1)
    HCS Hlzo Hnc _ n r true w0 c0
    (WI_init E w0 _ Hg Hs) Hi ltac:(done) Hok Hno) as H.
  fold x in H. destruct H as (H1 & H2 & H3 & H4); [intros d Hd; right; done|].
  destruct (integrate_wrong_names piece ms sf st tl c0 0 r Hms Hn)
    as (p' & pre & post_ & Hpre & Heq).
  unfold fl, flat0 in *. rewrite Heq in *. cbn in *. split; [done|].
  exists pre, post_. split; [done|]. apply H4. done.
Qed.
