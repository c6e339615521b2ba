(** The effect log only grows, and the disk is always the replay of the log. *)
From Verif Require Export Proofs.BaseLemmas Model.Chunked Model.ChunkedRun.

Lemma replay_app l1 l2 d : replay (l1 ++ l2) d = replay l2 (replay l1 d).
Proof. unfold replay. apply fold_left_app. Qed.

Section Ext.
Context (E : env).

(** The only effects an open chunked file named [n] has on the disk. *)
Definition safe_log (n : string) (l : list eff) : Prop :=
  forall e, e ∈ l ->
    match e with
    | ETmp | EFlush _ => True
    | EChunkPut h raw =>
        exists d, h = hash E d /\ raw = compress E d /\ EFlush d ∈ l
    | EMapPut m _ => m = n
    | EChunkDel _ | ERevPut _ _ | ERevDel _ | ESync => False
    end.
Lemma safe_log_nil n : safe_log n [].
Proof. intros e He. inversion He. Qed.
Lemma safe_log_app n l1 l2 :
  safe_log n l1 -> safe_log n l2 -> safe_log n (l1 ++ l2).
Proof.
  intros H1 H2 e He. apply elem_of_app in He as [He|He].
  - specialize (H1 e He). destruct e; try done.
    destruct H1 as (d & ? & ? & ?). exists d. rewrite elem_of_app. auto.
  - specialize (H2 e He). destruct e; try done.
    destruct H2 as (d & ? & ? & ?). exists d. rewrite elem_of_app. auto.
Qed.

(** [w'] is reached from [w] by logged, safe effects. *)
Definition wext (n : string) (w w' : world) : Prop :=
  exists l, w_log w' = w_log w ++ l /\ w_disk w' = replay l (w_disk w) /\
    safe_log n l.

Lemma wext_refl n w : wext n w w.
Proof. exists []. rewrite app_nil_r. auto using safe_log_nil. Qed.
Lemma wext_trans n w1 w2 w3 : wext n w1 w2 -> wext n w2 w3 -> wext n w1 w3.
Proof.
  intros (l1 & H1 & D1 & S1) (l2 & H2 & D2 & S2). exists (l1 ++ l2). split_and!.
  - rewrite H2, H1, app_assoc. done.
  - rewrite replay_app, <- D1. done.
  - apply safe_log_app; done.
Qed.
Lemma wext_seen n h w : wext n w (add_seen h w).
Proof. exists []. cbn. rewrite app_nil_r. auto using safe_log_nil. Qed.
Lemma wext_log n w w' e : wext n w w' -> e ∈ w_log w -> e ∈ w_log w'.
Proof. intros (l & -> & _) H. apply elem_of_app. auto. Qed.

Definition mono {A} (m : M fst_ A) : Prop :=
  forall f w, wext (f_name f) w (m (f, w)).1.2 /\
              f_name (m (f, w)).1.1 = f_name f.

Lemma mono_ret {A} (a : A) : mono (ret a).
Proof. intros f w. split; [apply wext_refl|done]. Qed.
Lemma mono_raise {A} e : mono (@raise fst_ A e).
Proof. intros f w. split; [apply wext_refl|done]. Qed.
Lemma mono_get : mono (@get fst_).
Proof. intros f w. split; [apply wext_refl|done]. Qed.
Lemma mono_assert b e : mono (@massert fst_ b e).
Proof. intros f w. destruct b; split; try apply wext_refl; done. Qed.
Lemma mono_modify g :
  (forall f w, wext (f_name f) w (g (f, w)).2 /\ f_name (g (f, w)).1 = f_name f) ->
  mono (modify g).
Proof. intros H f w. apply H. Qed.
Lemma mono_modify_f (g : file -> file) :
  (forall f, f_name (g f) = f_name f) -> mono (modify (fun '(f, w) => (g f, w))).
Proof. intros H. apply mono_modify. intros f w. split; [apply wext_refl|apply H]. Qed.
Lemma mono_bind {A B} (m : M fst_ A) (k : A -> M fst_ B) :
  mono m -> (forall a, mono (k a)) -> mono (bind m k).
Proof.
  intros Hm Hk f w. unfold bind. specialize (Hm f w) as [H1 H2].
  destruct (m (f, w)) as [[f1 w1] [a|e]]; cbn in *; [|done].
  destruct (Hk a f1 w1) as [H3 H4]. rewrite H2 in *.
  split; [eapply wext_trans; done|done].
Qed.
Lemma mono_with {A} (k : fst_ -> M fst_ A) :
  (forall f w, wext (f_name f) w (k (f, w) (f, w)).1.2 /\
               f_name (k (f, w) (f, w)).1.1 = f_name f) -> mono (bind get k).
Proof. intros H f w. unfold bind, get. apply H. Qed.
Lemma mono_at {A} (m : M fst_ A) f f' w :
  mono m -> f_name f' = f_name f ->
  wext (f_name f) w (m (f', w)).1.2 /\ f_name (m (f', w)).1.1 = f_name f.
Proof. intros H <-. apply H. Qed.


Lemma chunk_flush_ext n c w : wext n w (chunk_flush E c w).1.
Proof.
  unfold chunk_flush. destruct (ck_clean c); [apply wext_refl|].
  destruct (ck_data c) as [d|]; [|apply wext_refl].
  cbn zeta. case_decide; cbn [fst].
  - exists [EFlush d]. split_and!; [done|done|].
    intros e He. apply elem_of_list_singleton in He as ->. done.
  - eapply wext_trans; [|apply wext_seen].
    destruct (_ || _).
    + exists [EFlush d; ETmp; ETmp; EChunkPut (hash E d) (compress E d)].
      split_and!; [cbn; rewrite <- !app_assoc; done|done|].
      intros e He. rewrite !elem_of_cons in He.
      destruct He as [->|[->|[->|[->|He]]]]; try done.
      * exists d. split_and!; [done|done|left].
      * inversion He.
    + exists [EFlush d]. split_and!; [done|done|].
      intros e He. apply elem_of_list_singleton in He as ->. done.
Qed.

Lemma flush_list_mono l : mono (flush_list E l).
Proof.
  induction l as [|[id c] l IH]; intros f w; cbn [flush_list].
  - split; [apply wext_refl|done].
  - pose proof (chunk_flush_ext (f_name f) c w) as Hext.
    destruct (chunk_flush E c w) as [w' [[c' [h|]]|e]]; cbn in *; [| |done].
    + destruct (IH (set_mapping (<[id:=h]> (f_map f)) f) w') as [H1 H2].
      split; [eapply wext_trans; [exact Hext|apply H1]|apply H2].
    + destruct (IH f w') as [H1 H2].
      split; [eapply wext_trans; [exact Hext|apply H1]|apply H2].
Qed.
Lemma flush_chunks_mono t : mono (flush_chunks E t).
Proof.
  intros f w. unfold flush_chunks. destruct (_ <? _)%nat;
    [split; [apply wext_refl|done]|].
  apply (mono_bind (flush_list E _)); [apply flush_list_mono|].
  intros _. apply mono_modify_f. done.
Qed.
Lemma file_flush_mono : mono (file_flush E).
Proof.
  intros f w. unfold file_flush. destruct (negb _);
    [split; [apply wext_refl|done]|].
  apply (mono_bind (flush_chunks E 0)); [apply flush_chunks_mono|].
  intros _. apply mono_modify. intros f' w'. cbn. split; [|done].
  exists [EMapPut (f_name f') MapGarbage;
          EMapPut (f_name f') (MapJson (f_map f') (f_size f'))].
  split_and!; [cbn; rewrite <- !app_assoc; done|done|].
  intros e He. rewrite !elem_of_cons in He.
  destruct He as [->|[->|He]]; [done|done|inversion He].
Qed.
Lemma file_close_mono : mono (file_close E).
Proof.
  intros f w. unfold file_close. destruct (f_closed f);
    [split; [apply wext_refl|done]|].
  apply mono_bind.
  - destruct (f_w f); [apply file_flush_mono|apply mono_ret].
  - intros _. apply mono_modify_f. done.
Qed.
Lemma current_chunk_mono : mono (current_chunk E).
Proof.
  intros f w. unfold current_chunk. apply mono_bind.
  - destruct (alookup _ _); [apply mono_ret|].
    apply mono_bind; [apply flush_chunks_mono|].
    intros _. apply mono_modify_f. done.
  - intros _. apply mono_bind.
    + apply mono_modify_f. done.
    + intros _. apply mono_bind; [apply mono_get|]. intros [f' w'].
      destruct (alookup _ _); [apply mono_ret|apply mono_raise].
Qed.
Lemma write_loop_mono n data : mono (write_loop E n data).
Proof.
  revert data. induction n as [|n IH]; intros [|b data]; cbn [write_loop];
    try apply mono_ret; try apply mono_raise.
  apply mono_bind; [apply current_chunk_mono|]. intros [[c id] off].
  apply mono_with. intros f w. unfold bind, lift, put.
  destruct (chunk_write E c off _ w) as [[[[c' wr] data'] full]|e]; cbn;
    [|split; [apply wext_refl|done]].
  apply mono_at; [apply IH|]. destruct (_ <? _)%Z; done.
Qed.
Lemma file_write_mono data : mono (file_write E data).
Proof.
  intros f w. unfold file_write. destruct (negb _);
    [split; [apply wext_refl|done]|].
  apply mono_at; [apply write_loop_mono|done].
Qed.
Lemma read_loop_mono n size acc : mono (read_loop E n size acc).
Proof.
  revert size acc. induction n as [|n IH]; intros size acc; cbn [read_loop];
    destruct (size =? 0)%Z; try apply mono_ret; try apply mono_raise.
  apply mono_bind; [apply current_chunk_mono|]. intros [[c id] off].
  apply mono_with. intros f w. unfold bind, lift, put.
  destruct (chunk_read E c off _ w) as [[[c' data] size']|e]; cbn;
    [|split; [apply wext_refl|done]].
  destruct data as [|b data]; cbn; [split; [apply wext_refl|done]|].
  apply mono_at; [apply IH|done].
Qed.
Lemma file_read_mono n : mono (file_read E n).
Proof.
  intros f w. unfold file_read. destruct (negb _);
    [split; [apply wext_refl|done]|].
  apply mono_at; [apply read_loop_mono|done].
Qed.
Lemma fill_loop_mono n filler : mono (fill_loop E n filler).
Proof.
  revert filler. induction n as [|n IH]; intros filler; cbn [fill_loop];
    destruct (0 <? filler)%Z; try apply mono_ret; try apply mono_raise.
  apply mono_bind; [apply file_write_mono|]. intros _. apply IH.
Qed.
Lemma file_seek_mono off wh : mono (file_seek E off wh).
Proof.
  intros f w. unfold file_seek. destruct (f_closed f);
    [split; [apply wext_refl|done]|].
  destruct (match wh with SEEK_SET => _ | _ => _ end) as [p|e];
    [|split; [apply wext_refl|done]].
  destruct (p <? 0)%Z; [split; [apply wext_refl|done]|].
  apply mono_bind.
  - destruct (_ <? _)%Z; [|apply mono_ret].
    apply mono_bind; [apply mono_modify_f; done|].
    intros _. apply mono_bind; [apply fill_loop_mono|].
    intros _. apply mono_bind; [apply mono_get|]. intros [? ?].
    apply mono_bind; [apply mono_assert|]. intros _. apply mono_assert.
  - intros _. apply mono_bind; [apply mono_modify_f; done|].
    intros _. apply mono_ret.
Qed.
Lemma file_truncate_mono n : mono (file_truncate E n).
Proof.
  intros f w. unfold file_truncate. destruct (negb _);
    [split; [apply wext_refl|done]|].
  apply mono_at; [apply file_flush_mono|done].
Qed.
Lemma file_step_mono o : mono (file_step E o).
Proof.
  destruct o; cbn [file_step]; unfold mmap;
    (apply mono_bind; [|intros; apply mono_ret]).
  - apply file_seek_mono.
  - apply file_write_mono.
  - apply file_read_mono.
  - apply file_truncate_mono.
  - apply file_flush_mono.
  - intros f w. unfold file_tell. destruct (f_closed f);
      (split; [apply wext_refl|done]).
  - apply file_close_mono.
Qed.
Lemma file_run_mono ops f w :
  wext (f_name f) w (file_run E (f, w) ops).1.2 /\
  f_name (file_run E (f, w) ops).1.1 = f_name f.
Proof.
  revert f w. induction ops as [|o ops IH]; intros f w; cbn [file_run].
  - split; [apply wext_refl|done].
  - destruct (file_step_mono o f w) as [H1 H2].
    destruct (file_step E o (f, w)) as [[f1 w1] r].
    destruct (IH f1 w1) as [H3 H4].
    destruct (file_run E (f1, w1) ops) as [s2 rs]. cbn in *.
    rewrite H2 in *. split; [eapply wext_trans; done|done].
Qed.
End Ext.
