(** What a completed backup contains, and when it counts as complete. *)
From Verif Require Export Proofs.BackupSafe.

(** ** Reading leaves the disk alone *)
Lemma run_file_RO {A} E m (p : prog A) f w :
  RO E m f -> let '((f', w'), _) := run_file E p (f, w) in RO E m f' /\ w' = w.
Proof.
  revert f w. induction p as [a|e|o k IH]; intros f w HR; [done|done|].
  unfold run_file in *. cbn [interp]. unfold bind.
  pose proof (file_step_RO E m o f w HR) as Hs.
  destruct (file_step E o (f, w)) as [[f1 w1] [x|e]]; destruct Hs as (H1 & -> & _); [|done].
  apply IH. done.
Qed.
Lemma session_RO {A} E n r (p : prog A) w :
  (session E n r false p w).1 = w.
Proof.
  unfold session. destruct (file_open n r false false w) as [f|e] eqn:Ho; [|done].
  assert (HR : RO E (f_map f) f).
  { unfold file_open in Ho. destruct (d_maps (w_disk w) !! n) as [[mm z|]|]; try done.
    simplify_eq. constructor; [done|done|]. cbn. intros ? ? H. inversion H. }
  pose proof (run_file_RO E _ p f w HR) as H.
  destruct (run_file E p (f, w)) as [[f1 w1] r1]. destruct H as [HR1 ->].
  unfold file_close. destruct (f_closed f1); [done|].
  rewrite (ro_w _ _ _ HR1). done.
Qed.

Lemma roughly_ok a bsz sample late i : (-1 <= bsz)%Z ->
  prog_ok (roughly_loop a bsz sample late i) /\ noclose (roughly_loop a bsz sample late i).
Proof.
  intros Hb. revert i. induction sample as [|b sample IH]; intros i; cbn [roughly_loop]; [done|].
  destruct (late i); [done|].
  split; cbn; (split; [done|]); intros _; (split; [done|]); intros []; cbn; try done;
    case_bool_decide; try done; apply IH.
Qed.
Lemma full_ok E fuel s : prog_ok (full_loop E fuel s) /\ noclose (full_loop E fuel s).
Proof.
  revert s. induction fuel as [|fuel IH]; intros s; destruct s as [|b s]; cbn [full_loop]; try done.
  split; cbn; (split; [done|]); intros _; apply IH.
Qed.
Lemma diff_ok E B r p : prog_ok (diff_prog E B r p) /\ noclose (diff_prog E B r p).
Proof.
  unfold diff_prog. split; [apply pbind_ok|apply noclose_bind]; try apply integrate_ok; done.
Qed.
Definition body_prog (E : env) (B : bk) (r : rev) (parent : option rev) : prog unit :=
  match parent with Some p => diff_prog E B r p | None => full_prog E B end.
Lemma body_prog_ok E B r p : prog_ok (body_prog E B r p) /\ noclose (body_prog E B r p).
Proof. destruct p; [apply diff_ok|apply full_ok]. Qed.

(** ** The parent *)
Lemma get_parent_loop_in it u srv h prev p :
  get_parent_loop it u srv h prev = Some p ->
  prev = Some p \/
  (p ∈ h /\ r_server p = srv /\ r_uuid p <> u /\ (it = false -> r_trust p <> DISTRUSTED)).
Proof.
  revert prev. induction h as [|x h IH]; intros prev; cbn [get_parent_loop]; [auto|].
  assert (Hweak : forall y, (y ∈ h /\ r_server y = srv /\ r_uuid y <> u /\ (it = false -> r_trust y <> DISTRUSTED)) ->
     (y ∈ x :: h /\ r_server y = srv /\ r_uuid y <> u /\ (it = false -> r_trust y <> DISTRUSTED))).
  { intros y (? & ? & ? & ?). split; [right|]; done. }
  destruct (negb it && _) eqn:Ht; [intros H; destruct (IH _ H); auto|].
  destruct (bool_decide (r_server x <> srv)) eqn:Hs; [intros H; destruct (IH _ H); auto|].
  destruct (bool_decide (r_uuid x = u)) eqn:Hu; [auto|].
  apply bool_decide_eq_false in Hs, Hu.
  intros H. destruct (IH _ H) as [G|G]; [|auto]. simplify_eq. right.
  split; [left|]. split; [destruct (decide (r_server p = srv)); done|]. split; [done|].
  intros ->. cbn in Ht. apply bool_decide_eq_false in Ht. done.
Qed.
Lemma get_parent_in h r p :
  get_parent false h r = Some p ->
  p ∈ h /\ r_server p = r_server r /\ r_uuid p <> r_uuid r /\ r_trust p <> DISTRUSTED.
Proof.
  intros H. apply get_parent_loop_in in H as [|(? & ? & ? & Ht)]; [done|]. auto.
Qed.
Lemma ceph_parent_in fuel fail s r p :
  ceph_parent_loop fuel fail s r = Ok (Some p) ->
  p ∈ rs_hist s /\ r_server p = r_server r /\ r_trust p <> DISTRUSTED /\
  snap_exists (r_uuid p) s = true.
Proof.
  revert r. induction fuel as [|fuel IH]; intros r; cbn [ceph_parent_loop]; [done|].
  destruct (get_parent false (rs_hist s) r) as [q|] eqn:Hq; [|done].
  destruct fail as [e|]; [done|]. apply get_parent_in in Hq as (H1 & H2 & _ & H4).
  destruct (snap_exists (r_uuid q) s) eqn:Hs.
  - intros ?; simplify_eq. done.
  - intros H. destruct (IH q H) as (G1 & G2 & G3 & G4). rewrite G2. done.
Qed.

(** ** One backup body *)
Section Body.
Context (E : env) (D : bytes -> Prop).
Hypothesis HCS : (0 < CS E)%Z.
Hypothesis Hlzo : lzo_ok E.
Hypothesis Dinj : forall c1 c2, D c1 -> D c2 -> hash E c1 = hash E c2 -> c1 = c2.

Lemma WI_force b w : WI E D w -> WI E D (set_force b w).
Proof. intros [H1 H2]. constructor; done. Qed.

Lemma open_initial n r w c :
  initial_image E (w_disk w) n c ->
  exists f, file_open n r true false w = Ok f.
Proof.
  intros [[Hm _]|[(m & Hm & _) _]]; unfold file_open; rewrite Hm; eauto.
Qed.

Lemma with_file_write {A} (p : prog A) n s c0 :
  WI E D (rs_w s) -> initial_image E (w_disk (rs_w s)) n c0 ->
  prog_ok p -> noclose p ->
  LogD D (rs_w (with_file E n true p s).1) ->
  let s' := (with_file E n true p s).1 in
  let x := run_flat p (flat0 c0 false true false) in
  (with_file E n true p s).2 = x.2 /\ WI E D (rs_w s') /\
  image_is E (w_disk (rs_w s')) n (fl_data x.1) /\ map_complete (w_disk (rs_w s')) n /\
  (forall k, k <> n -> d_maps (w_disk (rs_w s')) !! k = d_maps (w_disk (rs_w s)) !! k).
Proof.
  intros HW Hi Hok Hno HL. unfold with_file in *. cbn [negb andb] in *.
  destruct (open_initial n false (rs_w s) c0 Hi) as [f Hf]. rewrite Hf in *.
  set (w := if contains_distrusted (rs_hist s) then set_force true (rs_w s) else rs_w s) in *.
  assert (HWw : WI E D w) by (unfold w; destruct (contains_distrusted _); [apply WI_force|]; done).
  assert (Hw : w_disk w = w_disk (rs_w s)) by (unfold w; destruct (contains_distrusted _); done).
  rewrite <- Hw in Hi.
  pose proof (session_spec E D HCS Hlzo Dinj p n false true w c0 HWw Hi ltac:(done) Hok Hno) as H.
  destruct (session E n false true p w) as [w2 r2]. cbn [fst snd rs_w set_w] in *.
  destruct (H HL) as (H1 & H2 & H3 & H4). destruct (H4 eq_refl) as [H5 H6].
  split_and!; try done. intros k Hk. rewrite <- Hw. apply (ext_maps _ _ _ _ H3 k Hk).
Qed.
Lemma with_file_read {A} (p : prog A) n s c0 :
  WI E D (rs_w s) -> image_is E (w_disk (rs_w s)) n c0 -> map_complete (w_disk (rs_w s)) n ->
  prog_ok p -> noclose p -> LogD D (rs_w s) ->
  with_file E n false p s = (s, (run_flat p (flat0 c0 true false false)).2).
Proof.
  intros HW Hi Hmc Hok Hno HL. unfold with_file. cbn [negb andb].
  destruct (file_open n true false false (rs_w s)) as [f|e] eqn:Ho.
  2:{ unfold file_open in Ho. destruct Hi as (m & Hm & _). rewrite Hm in Ho. done. }
  pose proof (session_RO E n true p (rs_w s)) as Hro.
  pose proof (session_spec E D HCS Hlzo Dinj p n true false (rs_w s) c0 HW
    ltac:(right; done) ltac:(intros _; destruct Hi as (m & Hm & _); eauto) Hok Hno) as H.
  destruct (session E n true false p (rs_w s)) as [w2 r2]. cbn [fst snd] in *. subst w2.
  destruct (H HL) as (-> & _). destruct s. done.
Qed.

Lemma LogD_delta s s' l : delta s s' l -> LogD D (rs_w s') -> LogD D (rs_w s).
Proof. intros [H _] HL x Hx. apply HL. rewrite H. apply elem_of_app. auto. Qed.
Lemma LogD_Grows {A} (m : M rst A) {Hg : Grows m} s :
  LogD D (rs_w (m s).1) -> LogD D (rs_w s).
Proof. destruct (Hg s) as [l Hl]. eapply LogD_delta; done. Qed.

Lemma body_image af B r s s1 b :
  WI E D (rs_w s) -> d_maps (w_disk (rs_w s)) !! r_uuid r = None ->
  (forall p, (ceph_parent af B r s).2 = Ok (Some p) ->
     exists A, image_is E (w_disk (rs_w s)) (r_uuid p) A /\
       map_complete (w_disk (rs_w s)) (r_uuid p)) ->
  backup_body E af B r s = (s1, Ok b) -> LogD D (rs_w s1) ->
  WI E D (rs_w s1) /\
  exists parent c0 st a,
    (ceph_parent af B r s).2 = Ok parent /\
    match parent with
    | None => c0 = []
    | Some p => image_is E (w_disk (rs_w s)) (r_uuid p) c0
    end /\
    run_flat (body_prog E B r parent) (flat0 c0 false true false) = (st, Ok tt) /\
    image_is E (w_disk (rs_w s1)) (r_uuid r) (fl_data st) /\
    map_complete (w_disk (rs_w s1)) (r_uuid r) /\
    bk_map B = Ok a /\
    (run_flat (roughly_equal a (CS E) (bk_sample B) (bk_late B))
       (flat0 (fl_data st) true false false)).2 = Ok b /\
    map r_uuid (rs_hist s1) = map r_uuid (rs_hist s).
Proof.
  intros HW Hnone Hpar Hrun HL. unfold backup_body in Hrun.
  unfold bind at 1 in Hrun.
  assert (Hcp : (ceph_parent af B r s).1 = s) by (unfold ceph_parent; destruct af; done).
  destruct (ceph_parent af B r s) as [s0 [parent|e]]; [|done]. cbn [fst snd] in *. subst s0.
  unfold bind at 1 in Hrun.
  (* the copied map *)
  assert (Hcopy : exists c0 s2, copy_parent (r_uuid r) parent s = (s2, Ok tt) /\
     match parent with
     | None => c0 = []
     | Some p => image_is E (w_disk (rs_w s)) (r_uuid p) c0
     end /\ WI E D (rs_w s2) /\ initial_image E (w_disk (rs_w s2)) (r_uuid r) c0 /\
     rs_hist s2 = rs_hist s).
  { destruct parent as [p|]; cbn [copy_parent].
    - destruct (Hpar p eq_refl) as (A & (m & Hm & Hb) & Hmc).
      assert (Hpr : r_uuid p <> r_uuid r) by congruence.
      rewrite bool_decide_true by done. exists A.
      eexists. split; [|split; [exists m; done|]].
      { unfold bind, get, eff_, modify. cbn. rewrite lookup_insert_ne by done. rewrite Hm.
        reflexivity. }
      cbn. split; [|split; [|done]].
      + destruct HW as [H1 H2]. constructor; done.
      + right. split.
        * exists m. split; [cbn; apply lookup_insert|].
          intros i x Hi. destruct (Hb i x Hi) as (h & y & ? & ? & ?). exists h, y. done.
        * unfold map_complete in *. rewrite Hm in Hmc. cbn. rewrite lookup_insert. done.
    - exists [], s. split; [done|]. split; [done|]. split; [done|].
      split; [left; done|done]. }
  destruct Hcopy as (c0 & s2 & Hc & Hc0 & HW2 & Hi2 & Hh2). rewrite Hc in Hrun.
  cbn beta iota in Hrun. fold (body_prog E B r parent) in Hrun.
  set (k := fun s : rst => match file_open (r_uuid r) true false false (rs_w s) with
       | Err e => raise e
       | Ok _ => _ end) in Hrun.
  assert (Gk : forall s, Grows (k s)) by (intros; unfold k; apply _).
  unfold bind at 1 in Hrun.
  destruct (body_prog_ok E B r parent) as [Hok Hno].
  destruct (with_file E (r_uuid r) true (body_prog E B r parent) s2) as [s3 r3] eqn:Hwf.
  destruct r3 as [[]|e]; [|done]. cbn beta iota in Hrun. unfold bind, get in Hrun.
  assert (HL3 : LogD D (rs_w s3)).
  { pose proof (LogD_Grows (k s3) s3) as G. rewrite Hrun in G. apply G. done. }
  pose proof (with_file_write (body_prog E B r parent) (r_uuid r) s2 c0 HW2 Hi2 Hok Hno) as H.
  rewrite Hwf in H. cbn [fst snd] in H. destruct (H HL3) as (H1 & H2 & H3 & H4 & _).
  destruct (run_flat (body_prog E B r parent) (flat0 c0 false true false)) as [st rr] eqn:Hflat.
  cbn [fst snd] in *. subst rr.
  unfold k in Hrun. destruct (file_open (r_uuid r) true false false (rs_w s3)); [|done].
  unfold bind, upd, modify, lift in Hrun.
  destruct (bk_map B) as [dev|e]; [|done].
  destruct (roughly_ok dev (CS E) (bk_sample B) (bk_late B) 0 ltac:(lia)) as [Hrok Hrno].
  set (s4 := set_hist _ s3) in Hrun.
  rewrite (with_file_read (roughly_equal dev (CS E) (bk_sample B) (bk_late B)) (r_uuid r) s4
             (fl_data st)) in Hrun; try done.
  injection Hrun as <- Hb. split; [done|].
  exists parent, c0, st, dev. split_and!; try done.
  unfold s4. cbn [rs_hist set_hist]. rewrite hist_set_uuids.
  assert (Hh3 : rs_hist s3 = rs_hist s2).
  { clear -Hwf. unfold with_file in Hwf. destruct (file_open _ _ _ _ _); [|by simplify_eq].
    destruct (session _ _ _ _ _ _). simplify_eq. done. }
  congruence.
Qed.
End Body.
