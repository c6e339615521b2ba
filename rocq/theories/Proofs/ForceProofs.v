(** A relation between worlds that is preserved by writing chunks and maps is
    preserved by every use of a chunked file; and what "force_writes" does. *)
From Verif Require Export Proofs.ChunkedLog Model.Prog Proofs.ProgProofs.

Section Gen.
Context (E : env) (R : world -> world -> Prop).
Hypothesis R_refl : forall w, R w w.
Hypothesis R_trans : forall w1 w2 w3, R w1 w2 -> R w2 w3 -> R w1 w3.
Hypothesis R_flush : forall c w, R w (chunk_flush E c w).1.
Hypothesis R_map : forall n m w, R w (do_eff (EMapPut n m) w).

Definition mono {A} (m : M fst_ A) : Prop :=
  forall f w, R w (m (f, w)).1.2 /\
              f_name (m (f, w)).1.1 = f_name f.

Lemma mono_ret {A} (a : A) : mono (ret a).
Proof. intros f w. split; [apply R_refl|done]. Qed.
Lemma mono_raise {A} e : mono (@raise fst_ A e).
Proof. intros f w. split; [apply R_refl|done]. Qed.
Lemma mono_get : mono (@get fst_).
Proof. intros f w. split; [apply R_refl|done]. Qed.
Lemma mono_assert b e : mono (@massert fst_ b e).
Proof. intros f w. destruct b; split; try apply R_refl; done. Qed.
Lemma mono_modify g :
  (forall f w, R w (g (f, w)).2 /\ f_name (g (f, w)).1 = f_name f) ->
  mono (modify g).
Proof. intros H f w. apply H. Qed.
Lemma mono_modify_f (g : file -> file) :
  (forall f, f_name (g f) = f_name f) -> mono (modify (fun '(f, w) => (g f, w))).
Proof. intros H. apply mono_modify. intros f w. split; [apply R_refl|apply H]. Qed.
Lemma mono_bind {A B} (m : M fst_ A) (k : A -> M fst_ B) :
  mono m -> (forall a, mono (k a)) -> mono (bind m k).
Proof.
  intros Hm Hk f w. unfold bind. specialize (Hm f w) as [H1 H2].
  destruct (m (f, w)) as [[f1 w1] [a|e]]; cbn in *; [|done].
  destruct (Hk a f1 w1) as [H3 H4]. rewrite H2 in *.
  split; [eapply R_trans; done|done].
Qed.
Lemma mono_with {A} (k : fst_ -> M fst_ A) :
  (forall f w, R w (k (f, w) (f, w)).1.2 /\
               f_name (k (f, w) (f, w)).1.1 = f_name f) -> mono (bind get k).
Proof. intros H f w. unfold bind, get. apply H. Qed.
Lemma mono_at {A} (m : M fst_ A) f f' w :
  mono m -> f_name f' = f_name f ->
  R w (m (f', w)).1.2 /\ f_name (m (f', w)).1.1 = f_name f.
Proof. intros H <-. apply H. Qed.


Lemma flush_list_mono l : mono (flush_list E l).
Proof.
  induction l as [|[id c] l IH]; intros f w; cbn [flush_list].
  - split; [apply R_refl|done].
  - pose proof (R_flush c w) as Hext.
    destruct (chunk_flush E c w) as [w' [[c' [h|]]|e]]; cbn in *; [| |done].
    + destruct (IH (set_mapping (<[id:=h]> (f_map f)) f) w') as [H1 H2].
      split; [eapply R_trans; [exact Hext|apply H1]|apply H2].
    + destruct (IH f w') as [H1 H2].
      split; [eapply R_trans; [exact Hext|apply H1]|apply H2].
Qed.
Lemma flush_chunks_mono t : mono (flush_chunks E t).
Proof.
  intros f w. unfold flush_chunks. destruct (_ <? _)%nat;
    [split; [apply R_refl|done]|].
  apply (mono_bind (flush_list E _)); [apply flush_list_mono|].
  intros _. apply mono_modify_f. done.
Qed.
Lemma file_flush_mono : mono (file_flush E).
Proof.
  intros f w. unfold file_flush. destruct (negb _);
    [split; [apply R_refl|done]|].
  apply (mono_bind (flush_chunks E 0)); [apply flush_chunks_mono|].
  intros _. apply mono_modify. intros f' w'. cbn. split; [|done].
  eapply R_trans; apply R_map.
Qed.
Lemma file_close_mono : mono (file_close E).
Proof.
  intros f w. unfold file_close. destruct (f_closed f);
    [split; [apply R_refl|done]|].
  apply mono_bind.
  - destruct (f_w f); [apply file_flush_mono|apply mono_ret].
  - intros _. apply mono_modify_f. done.
Qed.
Lemma current_chunk_mono : mono (current_chunk E).
Proof.
  intros f w. unfold current_chunk. apply mono_bind.
  - destruct (alookup _ _); [apply mono_ret|].
    apply mono_bind; [apply flush_chunks_mono|].
    intros _. apply mono_modify_f. done.
  - intros _. apply mono_bind.
    + apply mono_modify_f. done.
    + intros _. apply mono_bind; [apply mono_get|]. intros [f' w'].
      destruct (alookup _ _); [apply mono_ret|apply mono_raise].
Qed.
Lemma write_loop_mono n data : mono (write_loop E n data).
Proof.
  revert data. induction n as [|n IH]; intros [|b data]; cbn [write_loop];
    try apply mono_ret; try apply mono_raise.
  apply mono_bind; [apply current_chunk_mono|]. intros [[c id] off].
  apply mono_with. intros f w. unfold bind, lift, put.
  destruct (chunk_write E c off _ w) as [[[[c' wr] data'] full]|e]; cbn;
    [|split; [apply R_refl|done]].
  apply mono_at; [apply IH|]. destruct (_ <? _)%Z; done.
Qed.
Lemma file_write_mono data : mono (file_write E data).
Proof.
  intros f w. unfold file_write. destruct (negb _);
    [split; [apply R_refl|done]|].
  apply mono_at; [apply write_loop_mono|done].
Qed.
Lemma read_loop_mono n size acc : mono (read_loop E n size acc).
Proof.
  revert size acc. induction n as [|n IH]; intros size acc; cbn [read_loop];
    destruct (size =? 0)%Z; try apply mono_ret; try apply mono_raise.
  apply mono_bind; [apply current_chunk_mono|]. intros [[c id] off].
  apply mono_with. intros f w. unfold bind, lift, put.
  destruct (chunk_read E c off _ w) as [[[c' data] size']|e]; cbn;
    [|split; [apply R_refl|done]].
  destruct data as [|b data]; cbn; [split; [apply R_refl|done]|].
  apply mono_at; [apply IH|done].
Qed.
Lemma file_read_mono n : mono (file_read E n).
Proof.
  intros f w. unfold file_read. destruct (negb _);
    [split; [apply R_refl|done]|].
  apply mono_at; [apply read_loop_mono|done].
Qed.
Lemma fill_loop_mono n filler : mono (fill_loop E n filler).
Proof.
  revert filler. induction n as [|n IH]; intros filler; cbn [fill_loop];
    destruct (0 <? filler)%Z; try apply mono_ret; try apply mono_raise.
  apply mono_bind; [apply file_write_mono|]. intros _. apply IH.
Qed.
Lemma file_seek_mono off wh : mono (file_seek E off wh).
Proof.
  intros f w. unfold file_seek. destruct (f_closed f);
    [split; [apply R_refl|done]|].
  destruct (match wh with SEEK_SET => _ | _ => _ end) as [p|e];
    [|split; [apply R_refl|done]].
  destruct (p <? 0)%Z; [split; [apply R_refl|done]|].
  apply mono_bind.
  - destruct (_ <? _)%Z; [|apply mono_ret].
    apply mono_bind; [apply mono_modify_f; done|].
    intros _. apply mono_bind; [apply fill_loop_mono|].
    intros _. apply mono_bind; [apply mono_get|]. intros [? ?].
    apply mono_bind; [apply mono_assert|]. intros _. apply mono_assert.
  - intros _. apply mono_bind; [apply mono_modify_f; done|].
    intros _. apply mono_ret.
Qed.
Lemma file_truncate_mono n : mono (file_truncate E n).
Proof.
  intros f w. unfold file_truncate. destruct (negb _);
    [split; [apply R_refl|done]|].
  apply mono_at; [apply file_flush_mono|done].
Qed.
Lemma file_step_mono o : mono (file_step E o).
Proof.
  destruct o; cbn [file_step]; unfold mmap;
    (apply mono_bind; [|intros; apply mono_ret]).
  - apply file_seek_mono.
  - apply file_write_mono.
  - apply file_read_mono.
  - apply file_truncate_mono.
  - apply file_flush_mono.
  - intros f w. unfold file_tell. destruct (f_closed f);
      (split; [apply R_refl|done]).
  - apply file_close_mono.
Qed.
Lemma run_file_R {A} (p : prog A) : mono (run_file E p).
Proof.
  unfold run_file. induction p as [a|e|o k IH]; cbn [interp].
  - apply mono_ret.
  - apply mono_raise.
  - apply mono_bind; [apply file_step_mono|done].
Qed.
Lemma session_R {A} n r wr (p : prog A) w : R w (session E n r wr p w).1.
Proof.
  unfold session. destruct (file_open n r wr false w) as [f|e]; [|apply R_refl].
  destruct (run_file_R p f w) as [H1 _]. destruct (run_file E p (f, w)) as [[f1 w1] r1].
  destruct (file_close_mono f1 w1) as [H2 _]. destruct (file_close E (f1, w1)) as [[f2 w2] r2].
  cbn in *. eapply R_trans; done.
Qed.
End Gen.

Section Force.
Context (E : env).
(** With force_writes, everything flushed has been written, unless this process
    has already written it. *)
Definition forced (w w' : world) : Prop :=
  w_force w = true ->
  w_force w' = true /\
    exists l, w_log w' = w_log w ++ l /\
    (forall h, h ∈ w_seen w' -> h ∈ w_seen w \/
       exists c, hash E c = h /\ EChunkPut h (compress E c) ∈ l) /\
    (forall c, EFlush c ∈ l -> hash E c ∈ w_seen w').
Lemma forced_refl w : forced w w.
Proof.
  intros H. split; [done|]. exists []. rewrite app_nil_r. split; [done|]. split; [auto|].
  intros c Hc. inversion Hc.
Qed.
Lemma forced_trans w1 w2 w3 : (forall h, h ∈ w_seen w2 -> h ∈ w_seen w3) ->
  forced w1 w2 -> forced w2 w3 -> forced w1 w3.
Proof.
  intros Hs H1 H2 Hf. destruct (H1 Hf) as (Hf2 & l1 & Hl1 & S1 & F1).
  destruct (H2 Hf2) as (Hf3 & l2 & Hl2 & S2 & F2). split; [done|]. exists (l1 ++ l2).
  split; [rewrite Hl2, Hl1, app_assoc; done|]. split.
  - intros h Hh. destruct (S2 h Hh) as [Hh2|(c & Hc & Hin)].
    + destruct (S1 h Hh2) as [?|(c & Hc & Hin)]; [auto|]. right. exists c. split; [done|].
      apply elem_of_app. auto.
    + right. exists c. split; [done|]. apply elem_of_app. auto.
  - intros c [Hc|Hc]%elem_of_app; eauto.
Qed.
Definition FR (w w' : world) : Prop :=
  (forall h, h ∈ w_seen w -> h ∈ w_seen w') /\ forced w w'.
Lemma FR_session {A} n r wr (p : prog A) w : FR w (session E n r wr p w).1.
Proof.
  apply session_R.
  - intros x. split; [done|apply forced_refl].
  - intros w1 w2 w3 [A1 A2] [B1 B2]. split; [auto|]. eapply forced_trans; eauto.
  - clear. intros c w. unfold chunk_flush. destruct (ck_clean c); [split; [done|apply forced_refl]|].
    destruct (ck_data c) as [d|]; [|split; [done|apply forced_refl]]. cbn zeta.
    case_decide as Hd; cbn [fst].
    + split; [done|]. intros Hf. split; [done|]. exists [EFlush d]. split; [done|]. split; [auto|].
      intros c' Hc'. apply elem_of_list_singleton in Hc'. injection Hc' as ->. done.
    + split. { intros h Hh. cbn [add_seen w_seen]. apply elem_of_union_r.
        destruct (_ || _); done. }
      intros Hf. cbn [do_eff w_force] in *. rewrite Hf. cbn [orb]. cbn. split; [done|].
      eexists. rewrite <- !app_assoc. split; [cbn; reflexivity|]. split.
      * intros h Hh. apply elem_of_union in Hh as [Hh|Hh]; [|auto]. right.
        apply elem_of_singleton in Hh. subst h. exists d. split; [done|]. right; right; right; left.
      * intros c' Hc'. rewrite !elem_of_cons in Hc'.
        destruct Hc' as [Hc'|[Hc'|[Hc'|[Hc'|Hc']]]]; try done; [|inversion Hc'].
        injection Hc' as ->. set_solver.
  - intros m x y. split; [done|]. intros Hf. split; [done|]. exists [EMapPut m x]. split; [done|].
    split; [auto|]. intros c Hc. apply elem_of_list_singleton in Hc. done.
Qed.
End Force.
