(** Restoring gives exactly the image, or fails (C20). *)
From Verif Require Export Model.Restore Proofs.BackupSelf.

(** ** What the programs do to a plain file *)
Lemma copy_loop_flat n c : (0 < n)%Z -> forall fuel p t,
  (0 <= p <= zlen c)%Z -> (Z.to_nat (zlen c - p) < fuel)%nat -> (p <= zlen t)%Z ->
  run_flat (copy_loop n fuel t p) (MkFlat c p true false false)
  = (MkFlat c (zlen c) true false false, Ok (ztake p t ++ zdrop p c ++ zdrop (zlen c) t)).
Proof.
  intros Hn. induction fuel as [|fuel IH]; intros p t Hp Hf Ht; [lia|].
  cbn [copy_loop]. unfold run_flat. cbn [p_read pbind interp]. unfold bind at 1.
  cbn [flat_step]. destruct (n =? -1)%Z eqn:Hn1; [lia|].
  destruct (ztake n (zdrop p c)) as [|b chunk'] eqn:Hch.
  - assert (Hpe : p = zlen c).
    { assert (zlen (ztake n (zdrop p c)) = 0)%Z by (rewrite Hch; done).
      unfold zlen, ztake, zdrop in *. rewrite take_length, drop_length in *. lia. }
    cbn. rewrite Z.add_0_r. subst p. f_equal. f_equal.
    assert (zdrop (zlen c) c = []) as ->. { unfold zdrop, zlen. rewrite Nat2Z.id. apply drop_ge. lia. }
    cbn. unfold ztake, zdrop. rewrite take_drop. done.
  - set (chunk := b :: chunk') in *.
    assert (Hlen : (zlen chunk = Z.min n (zlen c - p))%Z).
    { rewrite <- Hch. unfold zlen, ztake, zdrop in *. rewrite take_length, drop_length. lia. }
    assert (Hpos : (0 < zlen chunk)%Z) by (unfold chunk, zlen; cbn; lia).
    assert (Hov : ztake (p + zlen chunk) (overwrite t p chunk) = ztake p t ++ chunk).
    { unfold overwrite. rewrite app_assoc. unfold ztake at 1. rewrite take_app_le.
      - apply take_ge. unfold zlen, ztake in *. rewrite app_length, take_length. lia.
      - unfold zlen, ztake in *. rewrite app_length, take_length. lia. }
    etransitivity; [apply (IH (p + zlen chunk)%Z (overwrite t p chunk)); [lia|lia|]|].
    2:{ f_equal. f_equal. rewrite Hov, <- app_assoc. f_equal. rewrite app_assoc. f_equal.
      * rewrite <- Hch at 1. rewrite Hch. rewrite <- (take_drop (Z.to_nat n) (zdrop p c)).
        change (take (Z.to_nat n) (zdrop p c)) with (ztake n (zdrop p c)). rewrite Hch. f_equal.
        unfold zdrop. rewrite drop_drop.
        destruct (decide (n <= zlen c - p)%Z); [f_equal; lia|].
        rewrite !drop_ge; [done| |]; unfold zlen in *; lia.
      * unfold overwrite. unfold zdrop at 1.
        assert (Hl1 : length (ztake p t ++ chunk) = Z.to_nat (p + zlen chunk)).
        { unfold zlen, ztake in *. rewrite app_length, take_length. lia. }
        rewrite app_assoc, drop_app_ge by (rewrite Hl1; lia). rewrite Hl1.
        unfold zdrop. rewrite drop_drop. f_equal. lia. }
    unfold overwrite, zlen, ztake, zdrop in *. rewrite !app_length, take_length, drop_length. lia.
Qed.
Lemma copy_flat n tr t c r0 : (0 < n)%Z ->
  exists st, run_flat (copy n tr t) (MkFlat c r0 true false false)
  = (st, Ok (if tr then c else c ++ zdrop (zlen c) t, zlen c)).
Proof.
  intros Hn. unfold copy, run_flat. cbn [do_op p_tell pbind interp flat_step].
  unfold bind at 1. cbn [flat_step].
  assert (Hc : (0 <= zlen c)%Z) by apply zlen_nonneg.
  destruct (zlen c - 0 <? 0)%Z eqn:H1; [lia|]. destruct (zlen c - 0 <=? zlen c)%Z eqn:H2; [|lia].
  cbn [interp pbind]. unfold bind at 1. cbn [flat_step interp pbind]. unfold bind at 1. cbn [flat_step].
  destruct (0 <? 0)%Z eqn:H3; [lia|]. destruct (0 <=? zlen c)%Z eqn:H4; [|lia].
  cbn [interp pbind].
  rewrite interp_bind. unfold bind at 1.
  pose proof (copy_loop_flat n c Hn (S (Z.to_nat (zlen c - 0))) 0 t) as Hl. unfold run_flat in Hl.
  rewrite Hl by (try apply zlen_nonneg; lia). cbn [interp pbind p_tell]. unfold bind at 1. cbn [flat_step].
  cbn [interp]. exists (MkFlat c (zlen c) true false false). unfold ret.
  cbn [pbind interp]. unfold ret. destruct tr; [|done]. f_equal. f_equal. f_equal.
  change (ztake (zlen c) (c ++ zdrop (zlen c) t) ++ zeros (zlen c - zlen (c ++ zdrop (zlen c) t)) = c).
  assert (ztake (zlen c) (c ++ zdrop (zlen c) t) = c) as ->.
  { unfold ztake, zlen. rewrite Nat2Z.id, take_app. done. }
  unfold zeros. replace (Z.to_nat _) with 0; [cbn; apply app_nil_r|].
  unfold zlen. rewrite app_length. lia.
Qed.
Lemma stdout_flat n c : (0 < n)%Z -> forall fuel p out,
  (0 <= p <= zlen c)%Z -> (Z.to_nat (zlen c - p) < fuel)%nat ->
  run_flat (stdout_loop n fuel out) (MkFlat c p true false false)
  = (MkFlat c (zlen c) true false false, Ok (out ++ zdrop p c)).
Proof.
  intros Hn. induction fuel as [|fuel IH]; intros p out Hp Hf; [lia|].
  cbn [stdout_loop]. unfold run_flat. cbn [p_read pbind interp]. unfold bind at 1.
  cbn [flat_step]. destruct (n =? -1)%Z eqn:Hn1; [lia|].
  destruct (ztake n (zdrop p c)) as [|b chunk'] eqn:Hch.
  - assert (Hpe : p = zlen c).
    { assert (zlen (ztake n (zdrop p c)) = 0)%Z by (rewrite Hch; done).
      unfold zlen, ztake, zdrop in *. rewrite take_length, drop_length in *. lia. }
    cbn. rewrite Z.add_0_r. subst p. f_equal. f_equal.
    unfold zdrop, zlen. rewrite Nat2Z.id, drop_ge, app_nil_r by lia. done.
  - set (chunk := b :: chunk') in *.
    assert (Hlen : (zlen chunk = Z.min n (zlen c - p))%Z).
    { rewrite <- Hch. unfold zlen, ztake, zdrop in *. rewrite take_length, drop_length. lia. }
    assert (Hpos : (0 < zlen chunk)%Z) by (unfold chunk, zlen; cbn; lia).
    etransitivity; [apply (IH (p + zlen chunk)%Z (out ++ chunk)); lia|]. f_equal. f_equal. rewrite <- app_assoc. f_equal.
    rewrite <- (take_drop (Z.to_nat n) (zdrop p c)).
    change (take (Z.to_nat n) (zdrop p c)) with (ztake n (zdrop p c)). rewrite Hch. f_equal.
    unfold zdrop. rewrite drop_drop.
    destruct (decide (n <= zlen c - p)%Z); [f_equal; lia|].
    rewrite !drop_ge; [done| |]; unfold zlen in *; lia.
Qed.
Lemma copy_loop_ok n : (0 < n)%Z -> forall fuel t p, prog_ok (copy_loop n fuel t p) /\ noclose (copy_loop n fuel t p).
Proof.
  intros Hn. induction fuel as [|fuel IH]; intros t p; [done|]. cbn. split; (split; [try done; lia|]);
    intros []; cbn; try done; destruct b; try done; apply IH.
Qed.
Lemma stdout_ok n : (0 < n)%Z -> forall fuel t, prog_ok (stdout_loop n fuel t) /\ noclose (stdout_loop n fuel t).
Proof.
  intros Hn. induction fuel as [|fuel IH]; intros t; [done|]. cbn. split; (split; [try done; lia|]);
    intros []; cbn; try done; destruct b; try done; apply IH.
Qed.
Lemma p_tell_ok : prog_ok p_tell /\ noclose p_tell.
Proof. split; cbn; (split; [done|]); intros []; done. Qed.
Lemma copy_ok n tr t : (0 < n)%Z -> prog_ok (copy n tr t) /\ noclose (copy n tr t).
Proof.
  intros Hn. unfold copy. split.
  - apply pbind_ok; [split; done|]. intros _. apply pbind_ok; [apply p_tell_ok|]. intros z.
    apply pbind_ok; [split; done|]. intros _. apply pbind_ok; [apply copy_loop_ok; done|]. intros x.
    apply pbind_ok; [apply p_tell_ok|]. intros y. done.
  - apply noclose_bind; [apply do_op_noclose; done|]. intros _. apply noclose_bind; [apply p_tell_ok|]. intros z.
    apply noclose_bind; [apply do_op_noclose; done|]. intros _. apply noclose_bind; [apply copy_loop_ok; done|]. intros x.
    apply noclose_bind; [apply p_tell_ok|]. intros y. done.
Qed.

(** ** Two stores with the same map *)
Section Agree.
Context (E : env) (m : gmap Z Hash) (w w0 : world).
(** Whatever can be read under a name in [w] is what [w0] has. *)
Hypothesis Hsame : forall id h c, m !! id = Some h ->
  chunk_content E (w_disk w) h = Some c -> chunk_content E (w_disk w0) h = Some c.
Hypothesis Hshort : forall id h c, m !! id = Some h ->
  chunk_content E (w_disk w) h = Some c -> (zlen c <= CS E)%Z.
Hypothesis HCS : (0 < CS E)%Z.

(** All cached data is on disk. *)
Definition fromdisk (f : file) : Prop := forall id c d, (id, c) ∈ f_chunks f ->
  ck_data c = Some d -> match m !! id with
    | Some h => chunk_content E (w_disk w) h = Some d | None => d = [] end.
Definition ROD (f : file) : Prop := RO E m f /\ fromdisk f.

Lemma read_existing_two id c c' : cauth E (m !! id) c ->
  read_existing E c w = Ok c' -> read_existing E c w0 = Ok c' /\
  (ck_data c' = ck_data c \/ exists d, ck_data c' = Some d /\
     match m !! id with Some h => chunk_content E (w_disk w) h = Some d | None => d = [] end).
Proof.
  intros (Hcl & Hh & Hd) Hr. unfold read_existing in *.
  destruct (ck_data c) as [d|] eqn:Hdata. { injection Hr as <-. split; [done|left; done]. }
  rewrite Hh in *. destruct (m !! id) as [h|] eqn:Hm.
  - specialize (Hsame id h). unfold chunk_content in *.
    destruct (d_chunks (w_disk w) !! h) as [raw|]; [|done].
    destruct (decompress E raw) as [d|]; [|done]. destruct (decide (hash E d = h)) as [Hx|]; [|done].
    specialize (Hsame d Hm eq_refl).
    destruct (d_chunks (w_disk w0) !! h) as [raw0|]; [|done].
    destruct (decompress E raw0) as [d0|]; [|done]. destruct (decide (hash E d0 = h)); [|done].
    injection Hsame as ->. split; [done|]. right. injection Hr as <-. eauto.
  - injection Hr as <-. split; [done|]. right. eauto.
Qed.

(** Bytes [p, q) of the image are readable in [w]. *)
Definition covered (p q : Z) : Prop := forall i, (p <= i < q)%Z ->
  exists h, m !! (i / CS E)%Z = Some h /\ is_Some (chunk_content E (w_disk w) h).
Lemma covered_app p q r : covered p q -> covered q r -> covered p r.
Proof. intros H1 H2 i Hi. destruct (decide (i < q)%Z); [apply H1|apply H2]; lia. Qed.

Lemma flush_chunks_sub t f f' : (forall x, flush_chunks E t (f, x) = ((f', x), Ok tt)) -> RO E m f ->
  forall y, y ∈ f_chunks f' -> y ∈ f_chunks f.
Proof.
  intros Hf HR y Hy. specialize (Hf w). unfold flush_chunks in Hf. destruct (_ <? _)%nat.
  { injection Hf as <-. done. }
  unfold bind in Hf. rewrite flush_list_clean in Hf.
  - cbn in Hf. injection Hf as <-. cbn in Hy.
    eapply elem_of_take in Hy as (i & Hy & _). apply elem_of_list_lookup_2 in Hy.
    rewrite isort_elem in Hy. done.
  - intros id c Hid. destruct (ro_chunks E m f HR id c) as (? & _); [|done].
    apply elem_of_list_lookup in Hid as [i Hid]. rewrite lookup_drop in Hid.
    apply elem_of_list_lookup_2 in Hid. rewrite isort_elem in Hid. done.
Qed.
Lemma current_chunk_ROD f : ROD f ->
  exists f' c, (forall w, current_chunk E (f, w)
      = ((f', w), Ok (c, f_pos f / CS E, f_pos f mod CS E)%Z)) /\
    ROD f' /\ f_pos f' = f_pos f /\ f_size f' = f_size f /\ cauth E (m !! (f_pos f / CS E)%Z) c /\
    (forall d, ck_data c = Some d -> match m !! (f_pos f / CS E)%Z with
      | Some h => chunk_content E (w_disk w) h = Some d | None => d = [] end).
Proof.
  intros [HR HF]. unfold current_chunk. set (id := (f_pos f / CS E)%Z).
  destruct (alookup id (f_chunks f)) as [c|] eqn:Hc.
  - unfold bind, ret, modify, get. cbn [f_chunks set_acc]. rewrite Hc.
    eexists _, c. split; [intros x; reflexivity|]. split; [|split; [done|split; [done|split]]].
    + split; [destruct HR; constructor; done|]. intros i y. apply HF.
    + apply (ro_chunks E m f HR). apply alookup_elem_1. done.
    + intros d Hd. apply (HF id c d); [apply alookup_elem_1; done|done].
  - destruct (flush_chunks_RO E m (flush_target E) f HR) as (f1 & Heq & HR1 & Hp & Hsz).
    pose proof (flush_chunks_sub _ _ _ Heq HR) as Hsub.
    pose proof (ro_map E m f1 HR1) as Hm.
    set (new := (id, new_chunk (f_map f1 !! id))).
    assert (Hnew : forall id0 c0, (id0, c0) ∈ f_chunks f1 ++ [new] -> cauth E (m !! id0) c0).
    { intros id0 c0 Hin. apply elem_of_app in Hin as [Hin|Hin].
      - apply (ro_chunks E m f1 HR1). done.
      - apply elem_of_list_singleton in Hin. injection Hin as -> ->. rewrite Hm. done. }
    assert (Hnd : forall id0 c0 d, (id0, c0) ∈ f_chunks f1 ++ [new] -> ck_data c0 = Some d ->
      match m !! id0 with Some h => chunk_content E (w_disk w) h = Some d | None => d = [] end).
    { intros id0 c0 d Hin Hd. apply elem_of_app in Hin as [Hin|Hin].
      - apply (HF id0 c0 d); [apply Hsub; done|done].
      - apply elem_of_list_singleton in Hin. injection Hin as -> ->. done. }
    unfold bind, modify, get.
    destruct (alookup id (f_chunks f1 ++ [new])) as [c|] eqn:Hal.
    + eexists _, c. split.
      { intros x. rewrite Heq. cbn [f_chunks set_acc set_chunks]. unfold new in Hal. rewrite Hal. reflexivity. }
      split; [|split; [exact Hp|split; [exact Hsz|split]]].
      * split; [constructor; [apply HR1|apply HR1|]; exact Hnew|exact Hnd].
      * apply Hnew. apply alookup_elem_1. done.
      * intros d Hd. eapply Hnd; [apply alookup_elem_1; exact Hal|done].
    + rewrite alookup_app in Hal. destruct (alookup id (f_chunks f1)); [done|].
      cbn in Hal. rewrite decide_True in Hal; done.
Qed.

Lemma read_loop_two n : forall size acc f f' d,
  ROD f -> read_loop E n size acc (f, w) = ((f', w), Ok d) ->
  read_loop E n size acc (f, w0) = ((f', w0), Ok d) /\ ROD f' /\ f_size f' = f_size f /\
  f_pos f' = (f_pos f + (zlen d - zlen acc))%Z /\
  (f_pos f <= f_pos f')%Z /\ covered (f_pos f) (f_pos f').
Proof.
  induction n as [|n IH]; intros size acc f f' d HR; cbn [read_loop];
    destruct (size =? 0)%Z; try done.
  1, 2: intros H; injection H as <- <-; split; [done|]; split; [done|]; split; [done|];
    split; [lia|]; split; [lia|]; intros i Hi; lia.
  destruct (current_chunk_ROD f HR) as (f1 & c & Heq & HR1 & Hp1 & Hs1 & Hc & Hcd).
  unfold bind, get, lift, put. rewrite !Heq. unfold chunk_read.
  destruct (read_existing E c w) as [c'|e] eqn:Hre; cbn [res_bind]; [|done].
  destruct (read_existing_auth _ _ c w c' Hc Hre) as [Hc' [x Hx]].
  destruct (read_existing_two _ c c' Hc Hre) as [Hre0 Hsrc]. rewrite Hre0. cbn [res_bind]. rewrite Hx.
  assert (Hdisk : match m !! (f_pos f / CS E)%Z with
    | Some h => chunk_content E (w_disk w) h = Some x | None => x = [] end).
  { destruct Hsrc as [Hs|(d' & Hs & Hd')]; [apply Hcd; congruence|]. rewrite Hx in Hs. simplify_eq. done. }
  remember (bio_read x (f_pos f mod CS E) size) as data eqn:Hbio.
  set (f2 := set_chunks (aset (f_pos f / CS E)%Z c' (f_chunks f1)) f1).
  assert (HR2 : ROD f2).
  { destruct HR1 as [HR1 HF1]. split.
    - constructor; [apply HR1|apply HR1|]. cbn. intros id0 c0 Hin.
      apply aset_elem2 in Hin as [[-> ->]|Hin]; [done|]. apply (ro_chunks E m f1 HR1); done.
    - intros id0 c0 d0. cbn. intros Hin Hd0.
      apply aset_elem2 in Hin as [[-> ->]|Hin]; [|eapply HF1; done].
      rewrite Hx in Hd0. simplify_eq. done. }
  destruct data as [|b data']; [done|].
  set (data := b :: data') in *.
  assert (HR3 : ROD (set_pos (f_pos f2 + zlen data)%Z f2)).
  { destruct HR2 as [[] ?]. split; [constructor; done|done]. }
  set (size' := if (size =? -1)%Z then _ else _).
  intros Hrun. destruct (IH size' (acc ++ data) (set_pos (f_pos f2 + zlen data)%Z f2) f' d HR3 Hrun)
    as (G1 & G2 & G3 & G0 & G4 & G5).
  split; [done|]. split; [done|]. split; [rewrite G3; exact Hs1|].
  cbn in G0, G4, G5. rewrite Hp1 in G0, G4, G5.
  split. { rewrite G0. unfold zlen. rewrite app_length. lia. }
  assert (Hpos : (0 < zlen data)%Z) by (unfold data, zlen; cbn; lia).
  split; [lia|]. eapply covered_app; [|exact G5].
  assert (Hxl : (f_pos f mod CS E + zlen data <= zlen x)%Z).
  { assert (Hmm : (0 <= f_pos f mod CS E)%Z) by (apply Z.mod_pos_bound; lia).
    rewrite Hbio in Hpos |- *. unfold bio_read, zlen, ztake, zdrop in *.
    destruct (size <? 0)%Z; rewrite ?take_length, ?drop_length in *; lia. }
  destruct (m !! (f_pos f / CS E)%Z) as [h|] eqn:Hm.
  2:{ subst x. change (zlen []) with 0%Z in Hxl.
      assert (0 <= f_pos f mod CS E)%Z by (apply Z.mod_pos_bound; lia). lia. }
  pose proof (Hshort _ h x Hm Hdisk) as Hsh.
  intros i Hi. exists h. split; [|eauto].
  replace (i / CS E)%Z with (f_pos f / CS E)%Z; [done|].
  pose proof (Z.div_mod (f_pos f) (CS E) ltac:(lia)).
  assert (0 <= f_pos f mod CS E)%Z by (apply Z.mod_pos_bound; lia).
  apply (Z.div_unique i (CS E) _ (i - CS E * (f_pos f / CS E))); lia.
Qed.

Lemma step_two o f f' x : ROD f -> file_step E o (f, w) = ((f', w), Ok x) ->
  file_step E o (f, w0) = ((f', w0), Ok x) /\ ROD f' /\
  (match o with ORead _ => (exists d, x = UData d /\ f_pos f' = f_pos f + zlen d)%Z /\
     (f_pos f <= f_pos f')%Z /\ covered (f_pos f) (f_pos f') | _ => True end).
Proof.
  intros HR. pose proof (ro_w _ m f (proj1 HR)) as Hw.
  destruct o as [off wh|d|n| | | |]; cbn [file_step]; unfold mmap, bind.
  - unfold file_seek. destruct (f_closed f); [done|].
    destruct (match of_from wh with SEEK_SET => _ | _ => _ end) as [p|e]; [|done].
    destruct (p <? 0)%Z; [done|]. destruct (f_size f <? p)%Z eqn:Hlt.
    + unfold bind, modify. destruct (Z.to_nat (p - f_size f)) as [|k] eqn:Hk; [lia|].
      cbn [fill_loop]. destruct (0 <? p - f_size f)%Z eqn:Hx; [|lia].
      unfold bind, file_write. cbn [f_w set_pos]. rewrite Hw. cbn. done.
    + unfold bind, ret, modify. intros H. injection H as <- <-. split; [done|].
      destruct HR as [[] ?]. split; [split; [constructor; done|done]|done].
  - unfold file_write. rewrite Hw. done.
  - unfold file_read. destruct (negb _); [done|].
    set (size := if (n =? -1)%Z then _ else _).
    destruct (read_loop E _ size [] (f, w)) as [[f1 w1] [d|e]] eqn:Hrl; [|done].
    intros H. injection H as -> -> <-.
    destruct (read_loop_two _ _ _ _ _ _ HR Hrl) as (G1 & G2 & _ & G0 & G4 & G5). rewrite G1.
    split; [done|]. split; [done|]. split; [|done]. exists d. split; [done|].
    rewrite G0. change (zlen []) with 0%Z. lia.
  - unfold file_truncate. rewrite Hw. done.
  - unfold file_flush. rewrite Hw. done.
  - unfold file_tell. destruct (f_closed f); [done|]. intros H. injection H as <- <-. done.
  - unfold file_close. destruct (f_closed f); [done|]. rewrite Hw. cbn. intros H. injection H as <- <-.
    split; [done|]. destruct HR as [[] ?]. split; [split; [constructor; done|done]|done].
Qed.
Lemma run_two {A} (p : prog A) f f' a : ROD f -> run_file E p (f, w) = ((f', w), Ok a) ->
  run_file E p (f, w0) = ((f', w0), Ok a) /\ ROD f'.
Proof.
  unfold run_file. revert f. induction p as [b|e|o k IH]; intros f HR H; cbn in *.
  - unfold ret in *. simplify_eq. done.
  - done.
  - unfold bind in *. pose proof (file_step_RO E m o f w (proj1 HR)) as Hs.
    destruct (file_step E o (f, w)) as [[f1 w1] [x|e]] eqn:Hst; [|done].
    destruct Hs as (_ & -> & _).
    destruct (step_two o f f1 x HR Hst) as (G1 & G2 & _). rewrite G1. apply IH; done.
Qed.
Lemma ROD_open n f sz x : d_maps (w_disk x) !! n = Some (MapJson m sz) ->
  file_open n true false false x = Ok f -> ROD f.
Proof.
  intros Hm Ho. unfold file_open in Ho. rewrite Hm in Ho. simplify_eq. split.
  - constructor; try done. cbn. intros id c Hin. inversion Hin.
  - intros id c d Hin. inversion Hin.
Qed.
Lemma session_two {A} n sz (p : prog A) a :
  d_maps (w_disk w) !! n = Some (MapJson m sz) -> d_maps (w_disk w0) !! n = Some (MapJson m sz) ->
  (session E n true false p w).2 = Ok a -> (session E n true false p w0).2 = Ok a.
Proof.
  intros H1 H2. unfold session.
  assert (Ho : exists f, file_open n true false false w = Ok f /\ file_open n true false false w0 = Ok f).
  { unfold file_open. rewrite H1, H2. eauto. }
  destruct Ho as (f & -> & Ho0). pose proof (ROD_open n f sz w0 H2 Ho0) as HR. rewrite Ho0.
  pose proof (run_file_RO E m p f w (proj1 HR)) as Hro.
  destruct (run_file E p (f, w)) as [[f1 w1] [b|e]] eqn:Hr; destruct Hro as [HR1 ->].
  - destruct (run_two p f f1 b HR Hr) as [-> HR1'].
    pose proof (ro_w _ _ _ HR1) as Hw1. unfold file_close.
    destruct (f_closed f1); [done|]. rewrite Hw1. done.
  - destruct (file_close E (f1, w)) as [[f2 w2] [?|?]]; done.
Qed.
End Agree.

(** ** Reading an intact image *)
Definition wellnamed (E : env) (d : disk) : gmap Hash bytes :=
  filter (fun x => match chunk_content E d x.1 with
                   | Some c => (zlen c <=? CS E)%Z | None => false end = true) (d_chunks d).
Lemma wellnamed_content E d h c : chunk_content E d h = Some c -> (zlen c <= CS E)%Z ->
  wellnamed E d !! h = d_chunks d !! h.
Proof.
  intros Hc Hl. unfold wellnamed. destruct (d_chunks d !! h) as [raw|] eqn:Hr.
  - apply map_filter_lookup_Some. split; [done|]. cbn. rewrite Hc. apply Z.leb_le. done.
  - apply map_filter_lookup_None. left. done.
Qed.
Definition clean_world (E : env) (d : disk) : world :=
  MkWorld (MkDisk (wellnamed E d) (d_maps d) (d_revs d)) [] ∅ false.

Section Exact.
Context (E : env) (u : string) (c : bytes).
Hypothesis HCS : (0 < CS E)%Z.
Hypothesis Hlzo : lzo_ok E.

Lemma ro_exact {A} (p : prog A) w st a : prog_ok p -> noclose p ->
  intact E (w_disk w) u -> image_is E (w_disk w) u c ->
  run_flat p (flat0 c true false false) = (st, Ok a) ->
  (session E u true false p w).2 = Ok a.
Proof.
  intros Hok Hncl (m & sz & Hm & Hint) (m' & Hm' & Hbytes) Hflat.
  rewrite Hm in Hm'. injection Hm' as <- ->.
  set (w0 := clean_world E (w_disk w)).
  assert (Hsame : forall id h, m !! id = Some h ->
    chunk_content E (w_disk w0) h = chunk_content E (w_disk w) h).
  { intros id h Hid. destruct (Hint id h Hid) as (x & Hx & Hl). unfold chunk_content at 1. cbn.
    rewrite (wellnamed_content E _ h x Hx Hl). done. }
  assert (Hgood : good_store E (w_disk w0)).
  { intros h raw Hr. cbn in Hr. apply map_filter_lookup_Some in Hr as [Hr Hf]. cbn in Hf.
    unfold chunk_content in Hf. rewrite Hr in Hf. destruct (decompress E raw) as [x|]; [|done].
    destruct (decide (hash E x = h)); [|done]. exists x. apply Z.leb_le in Hf. done. }
  set (D := fun x => stored E (w_disk w0) x \/ EFlush x ∈ @nil eff).
  assert (Dinj : forall c1 c2, D c1 -> D c2 -> hash E c1 = hash E c2 -> c1 = c2).
  { intros c1 c2 [(h1 & r1 & H1 & H1')|H1] [(h2 & r2 & H2 & H2')|H2] Heq;
      try (exfalso; set_solver).
    destruct (Hgood _ _ H1) as (x1 & G1 & <- & _). destruct (Hgood _ _ H2) as (x2 & G2 & <- & _).
    rewrite H1' in G1. rewrite H2' in G2. injection G1 as <-. injection G2 as <-.
    rewrite Heq in H1. congruence. }
  assert (HW : WI E D w0). { apply WI_init; [done|]. intros h Hh. cbn in Hh. set_solver. }
  assert (Him : image_is E (w_disk w0) u c).
  { exists m. split; [exact Hm|]. intros i b Hb. destruct (Hbytes i b Hb) as (h & x & H1 & H2 & H3).
    exists h, x. split; [done|]. split; [|done]. rewrite (Hsame _ h H1). done. }
  assert (Hmc : map_complete (w_disk w0) u).
  { unfold map_complete. cbn. rewrite Hm. intros id h Hid. destruct (Hint id h Hid) as (x & Hx & Hl).
    rewrite (wellnamed_content E _ h x Hx Hl). unfold chunk_content in Hx.
    destruct (d_chunks _ !! h); [eauto|done]. }
  assert (Hs0 : (session E u true false p w0).2 = Ok a).
  { pose proof (session_spec E D HCS Hlzo Dinj p u true false w0 c HW (or_intror (conj Him Hmc))) as Hs.
    cbn zeta in Hs. rewrite Hflat in Hs. apply Hs; [|done|done|].
    - intros _. eexists. exact Hm.
    - pose proof (session_RO E u true p w0) as Hro. rewrite Hro. intros x Hx. cbn in Hx. set_solver. }
  eapply (session_two E m w0 w) with (sz := zlen c); [| |exact HCS|exact Hm|exact Hm|exact Hs0].
  - intros id h x Hid. rewrite (Hsame id h Hid). done.
  - intros id h x Hid. rewrite (Hsame id h Hid). intros Hx. destruct (Hint id h Hid) as (y & Hy & ?).
    congruence.
Qed.

Lemma restore_exact n tr t w : (0 < n)%Z ->
  intact E (w_disk w) u -> image_is E (w_disk w) u c ->
  restore_file E n tr u t w =
    (w, Ok (if tr then c else c ++ zdrop (zlen c) (match t with Some t => t | None => [] end), zlen c)).
Proof.
  intros Hn Hi Hc. unfold restore_file. set (t' := match t with Some t => t | None => [] end).
  destruct (copy_flat n tr t' c 0 Hn) as [st Hst]. destruct (copy_ok n tr t' Hn) as [H1 H2].
  pose proof (ro_exact (copy n tr t') w st _ H1 H2 Hi Hc Hst) as H.
  pose proof (session_RO E u true (copy n tr t') w) as Hw.
  destruct (session _ _ _ _ _ _) as [w' x]. cbn in *. subst. done.
Qed.
Lemma stdout_exact n k w : (0 < n)%Z -> length c <= k ->
  intact E (w_disk w) u -> image_is E (w_disk w) u c ->
  restore_stdout E n k u w = (w, Ok c).
Proof.
  intros Hn Hk Hi Hc. unfold restore_stdout.
  pose proof (stdout_flat n c Hn (S k) 0 []) as Hst. destruct (stdout_ok n Hn (S k) []) as [H1 H2].
  pose proof (zlen_nonneg c).
  assert (Hlt : (Z.to_nat (zlen c - 0) < S k)%nat) by (unfold zlen; lia).
  specialize (Hst ltac:(lia) Hlt).
  pose proof (ro_exact (stdout_loop n (S k) []) w _ _ H1 H2 Hi Hc Hst) as Hx.
  pose proof (session_RO E u true (stdout_loop n (S k) []) w) as Hw.
  destruct (session _ _ _ _ _ _) as [w' x]. cbn in *. subst. done.
Qed.

(** ** A store in which somebody changed chunk files *)
Lemma damaged_two {A} (p : prog A) w d0 a :
  d_maps (w_disk w) !! u = d_maps d0 !! u ->
  intact E d0 u -> not_forged E d0 (w_disk w) u ->
  (session E u true false p w).2 = Ok a ->
  (session E u true false p (MkWorld d0 [] ∅ false)).2 = Ok a.
Proof.
  intros Hmm (m & sz & Hm & Hint) Hnf Hs.
  assert (Hf : forall id h x, m !! id = Some h -> chunk_content E (w_disk w) h = Some x ->
     chunk_content E d0 h = Some x /\ (zlen x <= CS E)%Z).
  { intros id h x Hid Hx. destruct (Hint id h Hid) as (y & Hy & Hl).
    rewrite (Hnf m sz id h x y Hm Hid Hx Hy). done. }
  eapply (session_two E m w (MkWorld d0 [] ∅ false)) with (sz := sz); [| |exact HCS| |exact Hm|exact Hs].
  - intros id h x Hid Hx. apply (Hf id h x Hid Hx).
  - intros id h x Hid Hx. apply (Hf id h x Hid Hx).
  - rewrite Hmm. done.
Qed.
Lemma restore_damaged_ok n tr t w d0 x : (0 < n)%Z ->
  d_maps (w_disk w) !! u = d_maps d0 !! u ->
  intact E d0 u -> image_is E d0 u c -> not_forged E d0 (w_disk w) u ->
  (restore_file E n tr u t w).2 = Ok x ->
  x = (if tr then c else c ++ zdrop (zlen c) (match t with Some t => t | None => [] end), zlen c).
Proof.
  intros Hn Hmm Hi Hc Hnf Hr. unfold restore_file in Hr.
  pose proof (damaged_two _ w d0 x Hmm Hi Hnf Hr) as H2.
  pose proof (restore_exact n tr t (MkWorld d0 [] ∅ false) Hn Hi Hc) as H3.
  unfold restore_file in H3. rewrite H3 in H2. cbn in H2. congruence.
Qed.
Lemma stdout_damaged_ok n k w d0 x : (0 < n)%Z -> length c <= k ->
  d_maps (w_disk w) !! u = d_maps d0 !! u ->
  intact E d0 u -> image_is E d0 u c -> not_forged E d0 (w_disk w) u ->
  (restore_stdout E n k u w).2 = Ok x -> x = c.
Proof.
  intros Hn Hk Hmm Hi Hc Hnf Hr. unfold restore_stdout in Hr.
  pose proof (damaged_two _ w d0 x Hmm Hi Hnf Hr) as H2.
  pose proof (stdout_exact n k (MkWorld d0 [] ∅ false) Hn Hk Hi Hc) as H3.
  unfold restore_stdout in H3. rewrite H3 in H2. cbn in H2. congruence.
Qed.
End Exact.

(** Success means that everything was read. *)
Section Cover.
Context (E : env) (m : gmap Z Hash) (w : world).
Hypothesis HCS : (0 < CS E)%Z.
Hypothesis Hshort : forall id h c, m !! id = Some h ->
  chunk_content E (w_disk w) h = Some c -> (zlen c <= CS E)%Z.
Let Hsame : forall id h c, m !! id = Some h ->
  chunk_content E (w_disk w) h = Some c -> chunk_content E (w_disk w) h = Some c.
Proof. done. Qed.
Lemma read_cov n f f' x : ROD E m w f -> file_step E (ORead n) (f, w) = ((f', w), Ok x) ->
  ROD E m w f' /\ (exists d, x = UData d /\ f_pos f' = f_pos f + zlen d)%Z /\
  covered E m w (f_pos f) (f_pos f').
Proof.
  intros HR Hs. destruct (step_two E m w w Hsame Hshort HCS (ORead n) f f' x HR Hs) as (_ & H1 & H2 & _ & H3).
  done.
Qed.
Lemma copy_loop_cov n : forall fuel t p f s' x, ROD E m w f ->
  run_file E (copy_loop n fuel t p) (f, w) = (s', Ok x) ->
  exists f', s' = (f', w) /\ ROD E m w f' /\ covered E m w (f_pos f) (f_pos f').
Proof.
  induction fuel as [|fuel IH]; intros t p f s' x HR H; [done|].
  unfold run_file in H. cbn [copy_loop p_read pbind interp] in H. unfold bind at 1 in H.
  pose proof (file_step_RO E m (ORead n) f w (proj1 HR)) as Hro.
  destruct (file_step E (ORead n) (f, w)) as [[f1 w1] [y|e]] eqn:Hst; [|done].
  destruct Hro as (_ & -> & _).
  destruct (read_cov n f f1 y HR Hst) as (HR1 & _ & Hcov).
  destruct y as [|z|b]; try done. destruct b as [|b0 b].
  - cbn in H. unfold ret in H. injection H as <- <-. eauto.
  - cbn [pbind] in H. apply IH in H as (f' & -> & HR' & Hcov'); [|done].
    exists f'. split; [done|]. split; [done|]. eapply covered_app; done.
Qed.
Lemma stdout_loop_cov n : forall fuel t f s' x, ROD E m w f ->
  run_file E (stdout_loop n fuel t) (f, w) = (s', Ok x) ->
  exists f', s' = (f', w) /\ f_pos f' = (f_pos f + (zlen x - zlen t))%Z /\ covered E m w (f_pos f) (f_pos f').
Proof.
  induction fuel as [|fuel IH]; intros t f s' x HR H; [done|].
  unfold run_file in H. cbn [stdout_loop p_read pbind interp] in H. unfold bind at 1 in H.
  pose proof (file_step_RO E m (ORead n) f w (proj1 HR)) as Hro.
  destruct (file_step E (ORead n) (f, w)) as [[f1 w1] [y|e]] eqn:Hst; [|done].
  destruct Hro as (_ & -> & _).
  destruct (read_cov n f f1 y HR Hst) as (HR1 & (y' & -> & Hpos) & Hcov).
  destruct y' as [|b0 b].
  - cbn in H. unfold ret in H. injection H as <- <-. change (zlen []) with 0%Z in Hpos.
    exists f1. split; [done|]. split; [lia|done].
  - cbn [pbind] in H. apply IH in H as (f' & -> & Hpos' & Hcov'); [|done].
    exists f'. split; [done|]. split; [|eapply covered_app; done].
    rewrite Hpos', Hpos. unfold zlen. rewrite app_length. lia.
Qed.
End Cover.

Lemma damaged_short E u d0 w :
  d_maps (w_disk w) !! u = d_maps d0 !! u -> intact E d0 u -> not_forged E d0 (w_disk w) u ->
  exists m sz, d_maps (w_disk w) !! u = Some (MapJson m sz) /\
   d_maps d0 !! u = Some (MapJson m sz) /\
   forall id h c, m !! id = Some h -> chunk_content E (w_disk w) h = Some c -> (zlen c <= CS E)%Z.
Proof.
  intros Hmm (m & sz & Hm & Hint) Hnf. exists m, sz. split; [congruence|]. split; [done|].
  intros id h x Hid Hx. destruct (Hint id h Hid) as (y & Hy & Hl).
  rewrite (Hnf m sz id h x y Hm Hid Hx Hy). done.
Qed.
Lemma session_ro_inv {A} E m sz u (p : prog A) w a :
  d_maps (w_disk w) !! u = Some (MapJson m sz) ->
  (session E u true false p w).2 = Ok a ->
  exists f s', ROD E m w f /\ f_pos f = 0%Z /\ run_file E p (f, w) = (s', Ok a).
Proof.
  intros Hm. unfold session. destruct (file_open u true false false w) as [f|e] eqn:Ho; [|done].
  pose proof (ROD_open E m w u f sz w Hm Ho) as HR.
  assert (Hp : f_pos f = 0%Z). { unfold file_open in Ho. rewrite Hm in Ho. simplify_eq. done. }
  destruct (run_file E p (f, w)) as [[f1 w1] [b|e]] eqn:Hr;
    destruct (file_close E (f1, w1)) as [[f2 w2] [?|?]]; try done.
  cbn. intros H. injection H as <-. eauto.
Qed.
Lemma covered_damaged E m sz u w : d_maps (w_disk w) !! u = Some (MapJson m sz) ->
  covered E m w 0 sz -> ~ damaged E (w_disk w) u.
Proof.
  intros Hm Hc (m' & sz' & i & h & Hm' & Hi & Hh & Hbad). rewrite Hm in Hm'. injection Hm' as <- <-.
  destruct (Hc i Hi) as (h' & Hh' & [x Hx]). rewrite Hh in Hh'. injection Hh' as <-. congruence.
Qed.
Lemma image_size E d u c m sz : image_is E d u c -> d_maps d !! u = Some (MapJson m sz) -> sz = zlen c.
Proof. intros (m' & Hm' & _) Hm. congruence. Qed.

Lemma stdout_damaged E u c n k w d0 : (0 < CS E)%Z -> lzo_ok E -> (0 < n)%Z -> length c <= k ->
  d_maps (w_disk w) !! u = d_maps d0 !! u ->
  intact E d0 u -> image_is E d0 u c -> not_forged E d0 (w_disk w) u ->
  damaged E (w_disk w) u -> exists e, (restore_stdout E n k u w).2 = Err e.
Proof.
  intros HCS Hlzo Hn Hk Hmm Hi Hc Hnf Hdam.
  destruct (restore_stdout E n k u w).2 as [x|e] eqn:Hr; [exfalso|eauto].
  pose proof (stdout_damaged_ok E u c HCS Hlzo n k w d0 x Hn Hk Hmm Hi Hc Hnf Hr) as ->.
  destruct (damaged_short E u d0 w Hmm Hi Hnf) as (m & sz & Hm & Hm0 & Hs).
  pose proof (image_size _ _ _ _ _ _ Hc Hm0) as ->.
  unfold restore_stdout in Hr. destruct (session_ro_inv E m _ u _ w c Hm Hr) as (f & s' & HR & Hp & Hrun).
  destruct (stdout_loop_cov E m w HCS Hs n _ _ _ _ _ HR Hrun) as (f' & _ & Hpos & Hcov).
  rewrite Hp in *. rewrite Hpos in Hcov. change (zlen []) with 0%Z in Hcov.
  replace (0 + (zlen c - 0))%Z with (zlen c) in Hcov by lia.
  exact (covered_damaged E m _ u w Hm Hcov Hdam).
Qed.
Lemma restore_damaged E u c n tr t w d0 : (0 < CS E)%Z -> lzo_ok E -> (0 < n)%Z ->
  d_maps (w_disk w) !! u = d_maps d0 !! u ->
  intact E d0 u -> image_is E d0 u c -> not_forged E d0 (w_disk w) u ->
  damaged E (w_disk w) u -> exists e, (restore_file E n tr u t w).2 = Err e.
Proof.
  intros HCS Hlzo Hn Hmm Hi Hc Hnf Hdam.
  destruct (restore_file E n tr u t w).2 as [x|e] eqn:Hr; [exfalso|eauto].
  pose proof (restore_damaged_ok E u c HCS Hlzo n tr t w d0 x Hn Hmm Hi Hc Hnf Hr) as ->.
  destruct (damaged_short E u d0 w Hmm Hi Hnf) as (m & sz & Hm & Hm0 & Hs).
  pose proof (image_size _ _ _ _ _ _ Hc Hm0) as ->.
  unfold restore_file in Hr. destruct (session_ro_inv E m _ u _ w _ Hm Hr) as (f & s' & HR & Hp & Hrun).
  clear Hr.
  assert (Hsame : forall id h c, m !! id = Some h ->
    chunk_content E (w_disk w) h = Some c -> chunk_content E (w_disk w) h = Some c) by done.
  (* seek, tell, seek *)
  unfold run_file, copy in Hrun. cbn [do_op p_tell pbind interp] in Hrun. unfold bind at 1 in Hrun.
  pose proof (file_step_RO E m (OSeek 0 FromEnd) f w (proj1 HR)) as Hro.
  destruct (file_step E (OSeek 0 FromEnd) (f, w)) as [[f1 w1] [y1|e]] eqn:S1; [|done].
  destruct Hro as (_ & -> & _).
  destruct (step_two E m w w Hsame Hs HCS _ _ _ _ HR S1) as (_ & HR1 & _).
  cbn [pbind interp] in Hrun. unfold bind at 1 in Hrun.
  pose proof (file_step_RO E m OTell f1 w (proj1 HR1)) as Hro.
  destruct (file_step E OTell (f1, w)) as [[f2 w2] [y2|e]] eqn:S2; [|done].
  destruct Hro as (_ & -> & _).
  destruct (step_two E m w w Hsame Hs HCS _ _ _ _ HR1 S2) as (_ & HR2 & _).
  destruct y2 as [|z|]; try done.
  cbn [pbind interp] in Hrun. unfold bind at 1 in Hrun.
  pose proof (file_step_RO E m (OSeek 0 FromStart) f2 w (proj1 HR2)) as Hro.
  destruct (file_step E (OSeek 0 FromStart) (f2, w)) as [[f3 w3] [y3|e]] eqn:S3; [|done].
  destruct Hro as (_ & -> & _).
  destruct (step_two E m w w Hsame Hs HCS _ _ _ _ HR2 S3) as (_ & HR3 & _).
  assert (Hp3 : f_pos f3 = 0%Z).
  { pose proof (ro_w _ _ _ (proj1 HR2)) as Hw2. cbn [file_step] in S3. unfold mmap, bind, file_seek in S3.
    destruct (f_closed f2); [done|]. cbn in S3. destruct (f_size f2 <? 0)%Z eqn:Hneg.
    - unfold bind, modify in S3. destruct (Z.to_nat (0 - f_size f2)) as [|k] eqn:Hk; [lia|].
      cbn [fill_loop] in S3. destruct (0 <? 0 - f_size f2)%Z eqn:Hx; [|lia].
      unfold bind, file_write in S3. cbn [f_w set_pos] in S3. rewrite Hw2 in S3. done.
    - cbn in S3. injection S3 as <- _. done. }
  cbn [pbind interp] in Hrun. rewrite interp_bind in Hrun. unfold bind at 1 in Hrun.
  destruct (interp (file_step E) (copy_loop n (S (Z.to_nat z)) _ 0) (f3, w)) as [s4 [t4|e]] eqn:S4; [|done].
  destruct (copy_loop_cov E m w HCS Hs n _ _ _ _ _ _ HR3 S4) as (f4 & -> & HR4 & Hcov).
  cbn [pbind interp p_tell] in Hrun. unfold bind at 1 in Hrun. cbn [file_step] in Hrun.
  unfold mmap, bind, file_tell in Hrun. destruct (f_closed f4); [done|]. cbn in Hrun. unfold ret in Hrun.
  injection Hrun as _ _ Hpos. rewrite Hp3, Hpos in Hcov.
  exact (covered_damaged E m _ u w Hm Hcov Hdam).
Qed.
