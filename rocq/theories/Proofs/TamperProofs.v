(** Reads never return data that does not match the map (C04). *)
From Verif Require Import Proofs.BaseLemmas Proofs.ChunkedProofs.
From Verif Require Export Spec.Tamper.

Section Tamper.
Context (E : env).

Definition cauth (o : option Hash) (c : chunk) : Prop :=
  ck_clean c = true /\ ck_hash c = o /\
  match ck_data c, o with
  | None, _ => True
  | Some d, Some h => hash E d = h
  | Some d, None => d = []
  end.

Record RO (m : gmap Z Hash) (f : file) : Prop := {
  ro_w : f_w f = false;
  ro_map : f_map f = m;
  ro_chunks : forall id c, (id, c) ∈ f_chunks f -> cauth (m !! id) c }.

Lemma flush_list_clean l f w :
  (forall id c, (id, c) ∈ l -> ck_clean c = true) ->
  flush_list E l (f, w) = ((f, w), Ok tt).
Proof.
  induction l as [|[id c] l IH]; intros H; cbn [flush_list]; [done|].
  unfold chunk_flush. rewrite (H id c) by left. apply IH.
  intros id0 c0 Hin. apply (H id0). right. done.
Qed.

Lemma flush_chunks_RO m t f :
  RO m f -> exists f', (forall w, flush_chunks E t (f, w) = ((f', w), Ok tt)) /\ RO m f' /\
    f_pos f' = f_pos f /\ f_size f' = f_size f.
Proof.
  intros [Hw Hm Hc]. unfold flush_chunks. destruct (_ <? _)%nat.
  { exists f. done. }
  set (chunks := isort _ _).
  assert (Hin : forall x, x ∈ chunks -> x ∈ f_chunks f)
    by (intros x; unfold chunks; rewrite isort_elem; done).
  exists (set_chunks (take t chunks) f). split; [|split; [|done]].
  2:{ constructor; [done|done|]. cbn. intros id c Hid. apply Hc, Hin.
    rewrite <- (take_drop t chunks). apply elem_of_app. auto. }
  intros w. unfold bind. rewrite flush_list_clean.
  - done.
  - intros id c Hid. destruct (Hc id c) as (? & _); [|done]. apply Hin.
    rewrite <- (take_drop t chunks). apply elem_of_app. auto.
Qed.

Lemma current_chunk_RO m f :
  RO m f ->
  exists f' c, (forall w, current_chunk E (f, w)
      = ((f', w), Ok (c, f_pos f / CS E, f_pos f mod CS E)%Z)) /\
    RO m f' /\ f_pos f' = f_pos f /\ cauth (m !! (f_pos f / CS E)%Z) c.
Proof.
  intros HR. unfold current_chunk. set (id := (f_pos f / CS E)%Z).
  destruct (alookup id (f_chunks f)) as [c|] eqn:Hc.
  - unfold bind, ret, modify, get. cbn [f_chunks set_acc]. rewrite Hc.
    eexists _, c. split; [intros w; reflexivity|]. split_and!; try done.
    + destruct HR. constructor; done.
    + apply (ro_chunks m f HR). apply alookup_elem_1. done.
  - destruct (flush_chunks_RO m (flush_target E) f HR) as (f1 & Heq & HR1 & Hp & _).
    unfold bind, modify, get.
    pose proof (ro_map m f1 HR1) as Hm.
    assert (Hnew : forall id0 c0, (id0, c0) ∈ f_chunks f1 ++ [(id, new_chunk (f_map f1 !! id))] ->
       cauth (m !! id0) c0).
    { intros id0 c0 Hin. apply elem_of_app in Hin as [Hin|Hin].
      - apply (ro_chunks m f1 HR1). done.
      - apply elem_of_list_singleton in Hin. simplify_eq. done. }
    destruct (alookup id (f_chunks f1 ++ [(id, new_chunk (f_map f1 !! id))])) as [c|] eqn:Hal.
    + eexists _, c. split.
      { intros w. rewrite Heq. cbn [f_chunks set_acc set_chunks]. rewrite Hal. reflexivity. }
      split_and!.
      * constructor; [apply HR1|apply HR1|]. exact Hnew.
      * exact Hp.
      * apply Hnew. apply alookup_elem_1. done.
    + rewrite alookup_app in Hal. destruct (alookup id (f_chunks f1)); [done|].
      cbn in Hal. rewrite decide_True in Hal; done.
Qed.

Lemma read_existing_auth o c w c' :
  cauth o c -> read_existing E c w = Ok c' ->
  cauth o c' /\ is_Some (ck_data c').
Proof.
  intros (Hcl & Hh & Hd). unfold read_existing.
  destruct (ck_data c) as [d|] eqn:Hdata.
  { intros ?; simplify_eq. split; [|eauto]. split_and!; try done. rewrite Hdata. done. }
  destruct (ck_hash c) as [h|] eqn:Hhash; subst o.
  - destruct (_ !! h); [|done]. destruct (decompress E _); [|done].
    case_decide; [|done]. intros ?; simplify_eq. split; [|eauto]. done.
  - intros ?; simplify_eq. split; [|eauto]. done.
Qed.

Lemma aset_elem2 {V} (id : Z) (c' : V) l id0 c0 :
  (id0, c0) ∈ aset id c' l -> (id0 = id /\ c0 = c') \/ (id0, c0) ∈ l.
Proof.
  induction l as [|[k v] l IH]; cbn [aset].
  - rewrite elem_of_list_singleton. intros ?; simplify_eq. auto.
  - case_decide.
    + rewrite !elem_of_cons. intros [?|?]; simplify_eq; auto.
    + rewrite !elem_of_cons. intros [?|?]; simplify_eq; auto.
      destruct IH as [?|?]; auto.
Qed.

Lemma read_loop_RO m n : forall size acc f w,
  RO m f ->
  let '((f', w'), r) := read_loop E n size acc (f, w) in
  RO m f' /\ w' = w /\
  match r with
  | Ok d => exists d', d = acc ++ d' /\ authentic E m (f_pos f) d'
  | Err _ => True
  end.
Proof.
  induction n as [|n IH]; intros size acc f w HR; cbn [read_loop];
    destruct (size =? 0)%Z.
  1, 3: unfold ret; split_and!; [done|done|]; exists []; rewrite app_nil_r;
    split; [done|constructor].
  { done. }
  destruct (current_chunk_RO m f HR) as (f1 & c & Heq & HR1 & Hp1 & Hc).
  unfold bind, get, lift, put. rewrite Heq. unfold chunk_read.
  destruct (read_existing E c w) as [c'|e] eqn:Hre; cbn [res_bind]; [|done].
  destruct (read_existing_auth _ c w c' Hc Hre) as [Hc' [d Hd]]. rewrite Hd.
  remember (bio_read d (f_pos f mod CS E) size) as data eqn:Hbio.
  set (f2 := set_chunks (aset (f_pos f / CS E)%Z c' (f_chunks f1)) f1).
  assert (HR2 : RO m f2).
  { constructor; [apply HR1|apply HR1|]. cbn. intros id0 c0 Hin.
    apply aset_elem2 in Hin as [[-> ->]|Hin]; [done|]. apply (ro_chunks m f1 HR1); done. }
  destruct data as [|b data'].
  { split_and!; done. }
  set (data := b :: data') in *.
  assert (HR3 : RO m (set_pos (f_pos f2 + zlen data)%Z f2))
    by (destruct HR2; constructor; done).
  set (size' := if (size =? -1)%Z then _ else _).
  specialize (IH size' (acc ++ data) (set_pos (f_pos f2 + zlen data)%Z f2) w HR3).
  destruct (read_loop E n size' (acc ++ data) (set_pos (f_pos f2 + zlen data)%Z f2, w))
    as [[f' w'] [r|e]]; destruct IH as (? & -> & IH); split_and!; try done.
  destruct IH as (d' & -> & Ha). exists (data ++ d').
  rewrite app_assoc. split; [done|].
  cbn in Ha. rewrite Hp1 in Ha.
  destruct Hc' as (_ & Hh & Hx). rewrite Hd in Hx.
  destruct (m !! (f_pos f / CS E)%Z) as [h|] eqn:Hm.
  - eapply authentic_piece; [done|done| |done].
    rewrite Hbio. unfold bio_read. destruct (size <? 0)%Z; [done|].
    unfold ztake. exists (drop (Z.to_nat size) (zdrop (f_pos f mod CS E) d)).
    symmetry. apply take_drop.
  - subst d. exfalso. unfold bio_read, zdrop, ztake in Hbio.
    rewrite drop_nil, take_nil in Hbio. destruct (size <? 0)%Z; done.
Qed.

Lemma RO_set_pos m f p : RO m f -> RO m (set_pos p f).
Proof. intros []. constructor; done. Qed.

Lemma seek_ro off wh f w :
  f_w f = false -> exists p r, file_seek E off wh (f, w) = ((set_pos p f, w), r).
Proof.
  intros Hw.
  assert (Hid : exists p, set_pos p f = f) by (exists (f_pos f); destruct f; done).
  destruct Hid as [p0 Hp0].
  unfold file_seek. destruct (f_closed f).
  { exists p0. rewrite Hp0. eauto. }
  destruct (match wh with SEEK_SET => _ | _ => _ end) as [p|e];
    [|exists p0; rewrite Hp0; eauto].
  destruct (p <? 0)%Z; [exists p0; rewrite Hp0; eauto|].
  destruct (f_size f <? p)%Z eqn:Hlt; cbn [bind].
  - unfold bind, modify. destruct (Z.to_nat (p - f_size f)) as [|k] eqn:Hk; [lia|].
    cbn [fill_loop]. destruct (0 <? p - f_size f)%Z eqn:Hx; [|lia].
    unfold bind, file_write. cbn [f_w set_pos]. rewrite Hw. cbn.
    eexists (f_size f), _. reflexivity.
  - unfold bind, ret, modify. eauto.
Qed.

Lemma file_step_RO m o f w :
  RO m f ->
  let '((f', w'), r) := file_step E o (f, w) in
  RO m f' /\ w' = w /\
  (forall d, r = Ok (UData d) -> authentic E m (f_pos f) d).
Proof.
  intros HR. pose proof (ro_w m f HR) as Hw.
  destruct o as [off wh|d|n| | | |]; cbn [file_step]; unfold mmap, bind.
  - destruct (seek_ro off (of_from wh) f w Hw) as (p & r & ->).
    destruct r; (split_and!; [apply RO_set_pos; done|done|done]).
  - unfold file_write. rewrite Hw. cbn. done.
  - unfold file_read. destruct (negb _); [done|].
    set (size := if (n =? -1)%Z then _ else _).
    pose proof (read_loop_RO m (S (Z.to_nat (Z.max size (CS E)))) size [] f w HR) as H.
    destruct (read_loop E _ size [] (f, w)) as [[f' w'] [d|e]];
      destruct H as (? & ? & H); split_and!; try done.
    destruct H as (d' & -> & H). intros d0 Heq. unfold ret in Heq. simplify_eq. done.
  - unfold file_truncate. rewrite Hw. cbn. done.
  - unfold file_flush. rewrite Hw. cbn. done.
  - unfold file_tell. destruct (f_closed f); done.
  - unfold file_close. destruct (f_closed f); [done|]. rewrite Hw. cbn.
    split_and!; try done. destruct HR. constructor; done.
Qed.

(** C04 *)
Lemma tamper_safe n app w m size f l p d :
  d_maps (w_disk w) !! n = Some (MapJson m size) ->
  file_open n true false app w = Ok f ->
  (p, Ok (UData d)) ∈ tamper_run E (f, w) l ->
  authentic E m p d.
Proof.
  intros Hm Ho.
  assert (HR : RO m f).
  { unfold file_open in Ho. rewrite Hm in Ho. simplify_eq. constructor; try done.
    cbn. intros id c Hin. inversion Hin. }
  clear Hm Ho. revert f w HR.
  induction l as [|[ch o] l IH]; intros f w HR Hin; cbn [tamper_run] in Hin.
  - inversion Hin.
  - cbn [fst snd] in Hin.
    pose proof (file_step_RO m o f (with_chunks ch w) HR) as H.
    destruct (file_step E o (f, with_chunks ch w)) as [[f' w'] r].
    destruct H as (HR' & _ & Hd).
    apply elem_of_cons in Hin as [Heq|Hin].
    + simplify_eq. auto.
    + eauto.
Qed.
End Tamper.
