(** Truncated streams, accepted streams, wrong snapshots. *)
From Verif Require Export Proofs.RbdDiffProofs.

Definition NF (e : exn) : Prop := e <> OutOfFuel.

Lemma zdrop_zdrop {A} a b (l : list A) : (0 <= a)%Z -> (0 <= b)%Z ->
  zdrop a (zdrop b l) = zdrop (b + a) l.
Proof. intros. unfold zdrop. rewrite drop_drop. f_equal. lia. Qed.

Lemma take_app_cases {A} k (a b : list A) :
  (k < length a /\ take k (a ++ b) = take k a) \/
  (length a <= k /\ take k (a ++ b) = a ++ take (k - length a) b).
Proof.
  destruct (decide (k < length a)).
  - left. split; [done|]. apply take_app_le. lia.
  - right. split; [lia|]. apply take_app_ge. lia.
Qed.

Section Cut.
Context (piece : Z) (Hpiece : (0 < piece)%Z).

Lemma stream_post : forall fuel len s, (0 <= len <= Z.of_nat fuel)%Z ->
  post NF (fun s' => s' = zdrop len s) (stream_loop piece fuel len s).
Proof.
  induction fuel as [|fuel IH]; intros len s Hl; cbn [stream_loop].
  - rewrite (proj2 (Z.eqb_eq _ _)) by lia. cbn. replace len with 0%Z by lia. done.
  - destruct (Z.eqb_spec len 0) as [->|Hne]; [done|].
    cbn zeta. eapply (post_bind _ (fun _ => True)); [done|]. intros _ _.
    specialize (IH (len - Z.min piece len)%Z (zdrop (Z.min piece len) s) ltac:(lia)).
    rewrite zdrop_zdrop in IH by lia.
    replace (Z.min piece len + (len - Z.min piece len))%Z with len in IH by lia. done.
Qed.
Lemma tell_post : post NF (fun _ => True) p_tell.
Proof. intros []; cbn; done. Qed.
Lemma punch_post o l : (0 < l)%Z -> post NF (fun _ => True) (punch_hole o l).
Proof.
  intros Hl. unfold punch_hole. rewrite (proj2 (Z.leb_gt _ _)) by lia.
  eapply post_bind; [apply tell_post|]. intros old _. cbn. done.
Qed.

Lemma cut_read_data ph r k : data_ok r -> ph <> End -> k < length (enc_data r) ->
  (exists e, read_record ph (take k (enc_data r)) = Err e /\ NF e) \/
  (exists o d k', r = DData o d /\ k' < length d /\
     read_record ph (take k (enc_data r)) = Ok (DataPhase, take k' d, Some (Data o (zlen d)))).
Proof.
  intros Hr Hph Hk. destruct k as [|k].
  { left. exists ValueError. destruct ph; done. }
  destruct r as [o l|o d].
  - left. exists StructError. split; [|done].
    cbn -[le_bytes] in *. rewrite app_length, !length_le_bytes in Hk.
    assert (Hs : (zlen (take k (le_bytes 8 o ++ le_bytes 8 l)) < 16)%Z).
    { unfold zlen. rewrite take_length, app_length, !length_le_bytes. lia. }
    destruct ph; [| |done]; cbn -[le_bytes unpack_uu take]; rewrite unpack_uu_short by done; done.
  - destruct Hr as [Ho Hl]. cbn -[le_bytes] in Hk. rewrite !app_length, !length_le_bytes in Hk.
    destruct (decide (k < 16)).
    + left. exists StructError. split; [|done].
      assert (Hs : (zlen (take k (le_bytes 8 o ++ le_bytes 8 (zlen d) ++ d)) < 16)%Z).
      { unfold zlen. rewrite take_length, !app_length, !length_le_bytes. lia. }
      cbn [enc_data app take]. destruct ph; [| |done]; cbn -[le_bytes unpack_uu take];
        rewrite unpack_uu_short by done; done.
    + right. exists o, d, (k - 16). split_and!; [done|lia|].
      cbn [enc_data app take].
      rewrite (take_app_ge (le_bytes 8 o)) by (rewrite length_le_bytes; lia).
      rewrite (take_app_ge (le_bytes 8 (zlen d))) by (rewrite !length_le_bytes; lia).
      rewrite !length_le_bytes. replace (k - 8 - 8) with (k - 16) by lia.
      pose proof (zlen_nonneg d).
      destruct ph; [| |done]; cbn -[le_bytes unpack_uu take];
        rewrite unpack_uu_enc by lia; done.
Qed.

Lemma cut_data : forall ds k fuel ph n,
  Forall data_ok ds -> ph <> End ->
  k < length (concat (map enc_data ds) ++ [x65]) ->
  k <= fuel ->
  raises NF (data_from piece fuel ph (take k (concat (map enc_data ds) ++ [x65])) n).
Proof.
  unfold raises. induction ds as [|d ds IH]; intros k fuel ph n Hok Hph Hk Hf.
  - cbn [map concat app] in *. cbn [length] in Hk. replace k with 0 by lia.
    unfold data_from. destruct ph; done.
  - apply Forall_cons in Hok as [Hd Hok]. cbn [map concat] in *. rewrite <- app_assoc in *.
    set (rest := concat (map enc_data ds) ++ [x65]) in *. clearbody rest.
    pose proof (enc_data_len d) as Hlen. rewrite app_length in Hk.
    unfold data_from.
    destruct (take_app_cases k (enc_data d) rest) as [[Hlt ->]|[Hge ->]].
    + destruct (decide (k = 0)) as [->|Hk0]; [destruct ph; done|].
      destruct (cut_read_data ph d k Hd Hph Hlt) as [(e & -> & He)|(o & x & k' & -> & Hk' & ->)];
        [done|].
      destruct fuel as [|fuel]; [lia|].
      cbn [data_loop]. eapply (post_bind _ (fun sl => sl.1 = [])).
      * eapply (post_bind _ (fun _ => True)); [done|]. intros _ _.
        eapply post_bind; [apply stream_post; pose proof (zlen_nonneg x); lia|].
        intros s' ->. cbn. apply zdrop_all. unfold zlen. rewrite take_length. lia.
      * intros [s' l] Hs'. cbn in Hs'. subst s'. done.
    + rewrite read_data_enc by done.
      destruct fuel as [|fuel]; [lia|].
      cbn [data_loop]. eapply (post_bind _ (fun sl => sl.1 = take (k - length (enc_data d)) rest)).
      * destruct d as [o l|o x].
        -- eapply (post_bind _ (fun _ => True)); [done|]. intros _ _.
           eapply post_bind; [apply tell_post|]. intros p _.
           eapply post_bind; [apply punch_post; apply Hd|]. intros _ _. cbn. done.
        -- eapply (post_bind _ (fun _ => True)); [done|]. intros _ _.
           eapply post_bind; [apply stream_post; pose proof (zlen_nonneg x); lia|].
           intros s' ->. cbn [post fst]. apply zdrop_app_l. done.
      * intros [s' l] Hs'. cbn [fst] in Hs'. subst s'.
        apply IH; [done|done|lia|lia].
Qed.

Lemma cut_read_meta m k : meta_ok m -> k < length (enc_meta m) ->
  (exists e, read_record Metadata (take k (enc_meta m)) = Err e /\ NF e) \/
  (0 < k /\ exists r, read_record Metadata (take k (enc_meta m)) = Ok (Metadata, [], Some r)).
Proof.
  intros Hm Hk. destruct k as [|k]; [left; exists ValueError; done|].
  assert (Hname : forall n, ascii_name n -> k < 4 + length n ->
     read_fbytes (take k (le_bytes 4 (zlen n) ++ n)) = Err StructError \/
     read_fbytes (take k (le_bytes 4 (zlen n) ++ n)) = Err ValueError \/
     exists x, read_fbytes (take k (le_bytes 4 (zlen n) ++ n)) = Ok (x, [])).
  { intros n [Ha Hl] Hkn. destruct (decide (k < 4)).
    - left. unfold read_fbytes, unpack_i32.
      rewrite unpack_u_short; [done|].
      unfold zlen. rewrite take_length, app_length, length_le_bytes. lia.
    - right. rewrite take_app_ge by (rewrite length_le_bytes; lia). rewrite length_le_bytes.
      unfold read_fbytes, unpack_i32. pose proof (zlen_nonneg n).
      pose proof (unpack_u_enc 4 (zlen n) (take (k - 4) n) ltac:(lia)) as Hu.
      change (Z.of_nat 4) with 4%Z in Hu. rewrite Hu.
      rewrite (proj2 (Z.ltb_lt _ _)) by lia. cbn [res_bind].
      unfold sread. rewrite (proj2 (Z.eqb_neq _ _)), (proj2 (Z.ltb_ge _ _)) by lia.
      cbn [res_bind]. destruct (is_ascii _); [|auto].
      right. eexists. rewrite (zdrop_all (zlen n)); [done|].
      unfold zlen. rewrite take_length. lia. }
  destruct m as [n|n|n]; cbn -[le_bytes] in Hk; rewrite ?app_length, !length_le_bytes in Hk.
  - cbn [enc_meta app take]. cbn -[le_bytes read_fbytes take app].
    destruct (Hname n Hm ltac:(lia)) as [->|[->|[x ->]]];
      [left; eexists; split; [reflexivity|done]..|right].
    split; [lia|]. eexists. reflexivity.
  - cbn [enc_meta app take]. cbn -[le_bytes read_fbytes take app].
    destruct (Hname n Hm ltac:(lia)) as [->|[->|[x ->]]];
      [left; eexists; split; [reflexivity|done]..|right].
    split; [lia|]. eexists. reflexivity.
  - left. exists StructError. split; [|done].
    cbn [enc_meta app take]. cbn -[le_bytes unpack_u take app].
    rewrite unpack_u_short; [done|]. unfold zlen. rewrite take_length, length_le_bytes. lia.
Qed.

Lemma cut_loops sf st ds fuel2 : forall ms k fuel1,
  Forall meta_ok ms -> Forall data_ok ds ->
  k < length (concat (map enc_meta ms) ++ concat (map enc_data ds) ++ [x65]) ->
  k < fuel1 -> k <= fuel2 ->
  raises NF
    (pbind (meta_loop fuel1 sf st (take k (concat (map enc_meta ms) ++ concat (map enc_data ds) ++ [x65])))
       (fun '(ph, s', r) => data_loop piece fuel2 ph s' r 0)).
Proof.
  unfold raises. induction ms as [|m ms IH]; intros k fuel1 Hms Hds Hk Hf1 Hf2.
  - cbn [map concat] in *. rewrite app_nil_l in *. destruct fuel1 as [|fuel1]; [lia|].
    pose proof (cut_data ds k fuel2 Metadata 0 Hds ltac:(done) Hk Hf2) as Hc.
    unfold raises, data_from in Hc. cbn [meta_loop].
    destruct (read_record Metadata _) as [[[ph s'] r]|e] eqn:Hr; [|done].
    destruct ph; [|exact Hc..]. exfalso.
    destruct ds as [|d ds].
    { cbn [map concat app length] in *. replace k with 0 in Hr by lia. done. }
    apply Forall_cons in Hds as [Hd _]. cbn [map concat] in Hr. rewrite <- app_assoc in Hr.
    match type of Hr with read_record _ (take k (_ ++ ?X)) = _ =>
      destruct (take_app_cases k (enc_data d) X) as [[Hlt Ht]|[Hge Ht]]; rewrite Ht in Hr end.
    + destruct (cut_read_data Metadata d k Hd ltac:(done) Hlt)
        as [(e & He & _)|(o & x & k' & -> & _ & He)]; rewrite He in Hr; done.
    + rewrite read_data_enc in Hr by done. done.
  - apply Forall_cons in Hms as [Hm Hms]. cbn [map concat] in *. rewrite <- app_assoc in *.
    set (rest := concat (map enc_meta ms) ++ concat (map enc_data ds) ++ [x65]) in *.
    pose proof (enc_meta_len m) as Hlen. rewrite app_length in Hk.
    destruct fuel1 as [|fuel1]; [lia|]. cbn [meta_loop].
    destruct (take_app_cases k (enc_meta m) rest) as [[Hlt ->]|[Hge ->]].
    + destruct (cut_read_meta m k Hm Hlt) as [(e & -> & He)|(Hk0 & r & ->)]; [done|].
      eapply (post_bind _ (fun _ => False)); [|done].
      eapply (post_bind _ (fun _ => True)).
      { destruct r; cbn; try done; unfold passert; case_match; done. }
      intros _ _. destruct fuel1 as [|fuel1]; [lia|]. done.
    + rewrite read_meta_enc by done.
      assert (Hgo := IH (k - length (enc_meta m)) fuel1 Hms Hds ltac:(lia) ltac:(lia) ltac:(lia)).
      assert (Hassoc : forall A B C (p : prog A) (q : A -> prog B) (t : B -> prog C) P Q,
        post P Q (pbind p (fun a => pbind (q a) t)) -> post P Q (pbind (pbind p q) t)).
      { clear. intros A B C p q t P Q. induction p as [a|e|o f IHp]; cbn; auto. }
      apply Hassoc. eapply (post_bind _ (fun _ => True)).
      { destruct m; cbn; try done; unfold passert; case_match; done. }
      intros _ _. exact Hgo.
Qed.

(** C10: every strict prefix of a stream is rejected, whatever the target does. *)
Lemma integrate_cut ms ds sf st k :
  Forall meta_ok ms -> Forall data_ok ds -> k < length (enc_diff ms ds) ->
  raises NF (integrate piece sf st (take k (enc_diff ms ds))).
Proof.
  intros Hms Hds Hk. unfold integrate, enc_diff in *.
  set (rest := concat (map enc_meta ms) ++ concat (map enc_data ds) ++ [x65]) in *.
  rewrite app_length in Hk. change (length enc_magic) with 12 in Hk.
  destruct (take_app_cases k enc_magic rest) as [[Hlt Ht]|[Hge Ht]]; rewrite Ht;
    change (length enc_magic) with 12 in *.
  - rewrite bool_decide_false; [done|]. intros Heq.
    apply (f_equal length) in Heq. unfold ztake in Heq. rewrite !take_length in Heq.
    change (length diff_header) with 12 in Heq. change (length enc_magic) with 12 in Heq. lia.
  - rewrite (ztake_app_l enc_magic), (zdrop_app_l enc_magic) by done.
    rewrite bool_decide_true by done. cbn zeta.
    assert (Hl : length (take (k - 12) rest) = k - 12).
    { rewrite take_length. lia. }
    rewrite Hl. apply cut_loops; try done; try lia. fold rest. lia.
Qed.
End Cut.
