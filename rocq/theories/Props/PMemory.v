(** C91: the memory an image file needs does not grow with the image. *)
From Verif Require Import Model.ChunkedRun Proofs.BaseLemmas Proofs.ChunkedProofs Proofs.ExEnv.

Section Mem.
Context (E : env).

(** The bytes of image data that an open file holds in memory. *)
Definition chunk_bytes (c : chunk) : Z := match ck_data c with Some d => zlen d | None => 0%Z end.
Definition in_memory (f : file) : Z :=
  fold_right (fun p n => (chunk_bytes p.2 + n)%Z) 0%Z (f_chunks f).
(** At most this many chunks: twice the flush target (10 in the code, so 20). *)
Definition at_most : nat := Nat.max (2 * flush_target E) 1.
(** No chunk file, read back, is longer than a chunk. *)
Definition no_oversized (d : disk) : Prop :=
  forall h raw c, d_chunks d !! h = Some raw -> decompress E raw = Some c -> hash E c = h ->
    (zlen c <= CS E)%Z.

(** The moments in the life of an open file: between calls, and inside the long ones
    after any number of rounds. *)
Inductive moment (s0 : fst_) : fst_ -> Prop :=
| m_open : moment s0 s0
| m_call s o : moment s0 s -> moment s0 (file_step E o s).1
| m_truncate s n : moment s0 s -> moment s0 (file_truncate E (Some n) s).1
| m_writing s n data : moment s0 s -> moment s0 (write_loop E n data s).1
| m_reading s n size got : moment s0 s -> moment s0 (read_loop E n size got s).1
| m_filling s n filler : moment s0 s -> moment s0 (fill_loop E n filler s).1.

Definition fits (c : chunk) : Prop := forall d, ck_data c = Some d -> (zlen d <= CS E)%Z.
Definition B (s : fst_) : Prop :=
  (length (f_chunks s.1) <= at_most)%nat /\
  (forall i c, (i, c) ∈ f_chunks s.1 -> fits c) /\ no_oversized (w_disk s.2).
Definition keeps {A} (m : M fst_ A) : Prop := forall s, B s -> B (m s).1.
Lemma keeps_bind {A X} (m : M fst_ A) (k : A -> M fst_ X) :
  keeps m -> (forall a, keeps (k a)) -> keeps (bind m k).
Proof.
  intros Hm Hk s Hs. unfold bind. specialize (Hm s Hs). destruct (m s) as [s' [a|e]]; [|done].
  by apply Hk.
Qed.
Lemma keeps_ret {A} (a : A) : keeps (ret a). Proof. by intros s. Qed.
Lemma keeps_raise {A} e : keeps (raise (A := A) e). Proof. by intros s. Qed.
Lemma keeps_get : keeps get. Proof. by intros s. Qed.
Lemma keeps_modify (g : fst_ -> fst_) : (forall s, B s -> B (g s)) -> keeps (modify g).
Proof. intros H s. apply H. Qed.
Lemma keeps_massert b e : keeps (massert b e). Proof. destruct b; [apply keeps_ret|apply keeps_raise]. Qed.

Lemma B_same f w f' w' : B (f, w) -> f_chunks f' = f_chunks f -> w_disk w' = w_disk w -> B (f', w').
Proof. unfold B. cbn. intros (H1 & H2 & H3) -> ->. done. Qed.
Lemma alookup_in {V} (k : Z) (v : V) l : alookup k l = Some v -> (k, v) ∈ l.
Proof. apply alookup_elem_1. Qed.
Lemma aset_in {V} (k : Z) (v : V) l i c : (i, c) ∈ aset k v l -> c = v \/ (i, c) ∈ l.
Proof.
  induction l as [|[k' v'] l IH]; cbn [aset].
  - intros H. apply elem_of_list_singleton in H. left. congruence.
  - case_decide.
    + intros H1. apply elem_of_cons in H1 as [H1|H1]; [left; congruence|right; by right].
    + intros H1. apply elem_of_cons in H1 as [H1|H1]; [right; rewrite H1; left|].
      destruct (IH H1) as [|]; [by left|right; by right].
Qed.
Lemma aset_len {V} (k : Z) (v v0 : V) l : alookup k l = Some v0 -> length (aset k v l) = length l.
Proof.
  induction l as [|[k' v'] l IH]; cbn [aset alookup]; [done|]. case_decide; [done|].
  intros H1. cbn. by rewrite IH.
Qed.

Hypothesis HCS : (0 < CS E)%Z.
Hypothesis Hlzo : forall d, decompress E (compress E d) = Some d.

Lemma flush_fits c w w' r : fits c -> no_oversized (w_disk w) -> chunk_flush E c w = (w', r) ->
  no_oversized (w_disk w').
Proof.
  intros Hc Hn. unfold chunk_flush. destruct (ck_clean c); [by intros [= <- <-]|].
  destruct (ck_data c) as [d|] eqn:Ed; [|by intros [= <- <-]].
  intros H. assert (w_disk w' = w_disk w \/
    w_disk w' = apply_eff (EChunkPut (hash E d) (compress E d)) (w_disk w)) as Hd.
  { injection H as <- _. destruct (decide _); [by left|]. destruct (_ || _); [by right|by left]. }
  destruct Hd as [-> | ->]; [done|]. intros h raw x. cbn. rewrite lookup_insert_Some.
  intros [[<- <-]|[Hne Hl]] Hx Hh; [|by eapply Hn].
  rewrite Hlzo in Hx. injection Hx as <-. by apply Hc.
Qed.
Lemma flush_list_B l : forall f w, (forall i c, (i, c) ∈ l -> fits c) -> B (f, w) ->
  B (flush_list E l (f, w)).1 /\ f_chunks (flush_list E l (f, w)).1.1 = f_chunks f.
Proof.
  induction l as [|[id c] l IH]; intros f w Hl Hb; cbn [flush_list]; [done|].
  destruct Hb as (H1 & H2 & H3). cbn [fst snd] in *.
  destruct (chunk_flush E c w) as [w' [[c' [h|]]|e]] eqn:Ef;
    (assert (no_oversized (w_disk w')) as H3' by (eapply flush_fits; [|exact H3|exact Ef]; eapply Hl; left)).
  - apply (IH (set_mapping (<[id := h]> (f_map f)) f)); [|done]. intros i x Hx. eapply Hl. by right.
  - apply IH; [|done]. intros i x Hx. eapply Hl. by right.
  - done.
Qed.
Lemma flush_chunks_B t f w : B (f, w) ->
  let s := (flush_chunks E t (f, w)).1 in
  B s /\ (is_ok (flush_chunks E t (f, w)).2 = true -> (length (f_chunks s.1) <= Nat.max (2 * t - 1) t)%nat).
Proof.
  intros Hb. unfold flush_chunks. destruct (_ <? _)%nat eqn:El; cbn.
  - apply Nat.ltb_lt in El. split; [done|]. lia.
  - set (L := isort _ _). unfold bind.
    assert (forall i c, (i, c) ∈ L -> fits c) as HL.
    { intros i c. unfold L. rewrite isort_elem. destruct Hb as (_ & H2 & _). apply H2. }
    destruct (flush_list_B (drop t L) f w) as [Hb' Hc']; [|done|].
    { intros i c Hin. eapply HL. apply elem_of_list_lookup_1 in Hin as [k Hk].
      apply elem_of_list_lookup_2 with (i := (t + k)%nat). rewrite <- lookup_drop. exact Hk. }
    destruct (flush_list E (drop t L) (f, w)) as [[f' w'] [[]|e]]; cbn in *.
    + split.
      * destruct Hb as (H1 & H2 & H3), Hb' as (H1' & H2' & H3'). split; [|split]; cbn in *.
        -- rewrite take_length. unfold L. rewrite isort_length. lia.
        -- intros i c Hin. eapply HL. apply elem_of_take in Hin as (k & Hk & _).
           eapply elem_of_list_lookup_2. exact Hk.
        -- done.
      * intros _. rewrite take_length. lia.
    + split; [done|]. discriminate.
Qed.
Lemma fits_new h : fits (new_chunk h). Proof. intros d Hd. discriminate. Qed.
Lemma current_chunk_B s : B s ->
  B (current_chunk E s).1 /\
  match (current_chunk E s).2 with
  | Ok (c, id, off) => fits c /\ (0 <= off < CS E)%Z /\ alookup id (f_chunks (current_chunk E s).1.1) = Some c
  | Err _ => True
  end.
Proof.
  destruct s as [f w]. intros Hb. unfold current_chunk.
  set (id := (f_pos f / CS E)%Z). set (off := (f_pos f mod CS E)%Z).
  assert (0 <= off < CS E)%Z as Ho by (apply Z.mod_pos_bound; done).
  set (m := match alookup id (f_chunks f) with Some _ => _ | None => _ end).
  assert (B (m (f, w)).1) as Hm.
  { subst m. destruct (alookup id (f_chunks f)) as [c|]; [done|]. unfold bind.
    destruct (flush_chunks_B (flush_target E) f w Hb) as [Hb' Hl].
    destruct (flush_chunks E (flush_target E) (f, w)) as [[f' w'] [[]|e]]; cbn in *; [|done].
    specialize (Hl eq_refl). destruct Hb' as (H1 & H2 & H3). split; [|split]; cbn in *.
    - rewrite app_length. cbn. unfold at_most. lia.
    - intros i c Hin. apply elem_of_app in Hin as [Hin|Hin]; [by eapply H2|].
      apply elem_of_list_singleton in Hin. injection Hin as -> ->. apply fits_new.
    - done. }
  unfold bind, modify, get, ret, raise. destruct (m (f, w)) as [[f' w'] [[]|e]]; [|done]. cbn.
  destruct (alookup id (f_chunks f')) as [c|] eqn:El; cbn; (split; [exact Hm|]); [|done].
  split; [|done]. destruct Hm as (_ & H2 & _). cbn in H2. eapply H2. by apply alookup_in.
Qed.
Lemma read_existing_fits c w c' : fits c -> no_oversized (w_disk w) -> read_existing E c w = Ok c' -> fits c'.
Proof.
  intros Hc Hn. unfold read_existing. destruct (ck_data c) as [d|] eqn:Ed; [by intros [= <-]|].
  destruct (ck_hash c) as [h|].
  - destruct (d_chunks (w_disk w) !! h) as [raw|] eqn:El; [|done].
    destruct (decompress E raw) as [d|] eqn:Ec; [|done].
    destruct (decide (hash E d = h)) as [Hh|]; [|done].
    intros [= <-] d' [= <-]. by eapply Hn.
  - intros [= <-] d' [= <-]. rewrite zlen_nil. lia.
Qed.
Lemma chunk_write_fits c off data w c' n rest full : fits c -> no_oversized (w_disk w) ->
  (0 <= off < CS E)%Z -> chunk_write E c off data w = Ok (c', n, rest, full) -> fits c'.
Proof.
  intros Hc Hn Ho. unfold chunk_write.
  pose proof (zlen_ztake (CS E - off) data) as Hz. pose proof (zlen_nonneg data).
  destruct ((off =? 0)%Z && _) eqn:Ea.
  - intros [= <- <- <- <-] d [= <-]. lia.
  - unfold res_bind. destruct (read_existing E c w) as [c1|] eqn:Er; [|done].
    pose proof (read_existing_fits c w c1 Hc Hn Er) as Hc1.
    destruct (ck_data c1) as [d|] eqn:Ed; [|done].
    intros [= <- <- <- <-] d' [= <-]. rewrite zlen_bio_write by lia. specialize (Hc1 d Ed). lia.
Qed.
Lemma B_aset f w id c c' : B (f, w) -> alookup id (f_chunks f) = Some c -> fits c' ->
  B (set_chunks (aset id c' (f_chunks f)) f, w).
Proof.
  intros (H1 & H2 & H3) Hl Hf. split; [|split]; cbn in *.
  - by rewrite (aset_len _ _ c).
  - intros i x Hx. apply aset_in in Hx as [-> |Hx]; [done|]. by eapply H2.
  - done.
Qed.
Lemma write_loop_B n : forall data, keeps (write_loop E n data).
Proof.
  induction n as [|n IH]; intros [|b data]; cbn [write_loop];
    [apply keeps_ret|apply keeps_raise|apply keeps_ret|].
  intros s Hs. unfold bind at 1. destruct (current_chunk_B s Hs) as [Hb Hr].
  destruct (current_chunk E s) as [[f w] [[[c id] off]|e]]; cbn [fst snd] in *; [|done].
  destruct Hr as (Hc & Ho & Hl). unfold bind at 1, get at 1. cbn beta iota.
  unfold bind at 1, lift at 1.
  destruct (chunk_write E c off (b :: data) w) as [[[[c' k] rest] full]|e] eqn:Ew; [|done].
  unfold bind, put. apply IH.
  assert (B (set_chunks (aset id c' (f_chunks f)) f, w)) as Hb'.
  { eapply B_aset; [done|exact Hl|]. eapply chunk_write_fits; [exact Hc| |exact Ho|exact Ew].
    apply Hb. }
  destruct (_ <? _)%Z; exact Hb'.
Qed.
Lemma read_loop_B n : forall size got, keeps (read_loop E n size got).
Proof.
  induction n as [|n IH]; intros size got; cbn [read_loop]; (destruct (size =? 0)%Z; [apply keeps_ret|]);
    [apply keeps_raise|].
  intros s Hs. unfold bind at 1. destruct (current_chunk_B s Hs) as [Hb Hr].
  destruct (current_chunk E s) as [[f w] [[[c id] off]|e]]; cbn [fst snd] in *; [|done].
  destruct Hr as (Hc & Ho & Hl). unfold bind at 1, get at 1. cbn beta iota.
  unfold bind at 1, lift at 1.
  destruct (chunk_read E c off size w) as [[[c' got'] rest]|e] eqn:Ew; [|done].
  assert (B (set_chunks (aset id c' (f_chunks f)) f, w)) as Hb'.
  { eapply B_aset; [done|exact Hl|]. unfold chunk_read, res_bind in Ew.
    destruct (read_existing E c w) as [c1|] eqn:Er; [|done].
    assert (c1 = c') as -> by (destruct (ck_data c1); congruence).
    eapply read_existing_fits; [exact Hc| |exact Er]. apply Hb. }
  unfold bind at 1, put at 1. destruct got' as [|x got']; [exact Hb'|].
  unfold bind, put. apply IH. exact Hb'.
Qed.
Lemma file_write_B data : keeps (file_write E data).
Proof.
  intros [f w] Hb. unfold file_write. destruct (negb _); [done|]. apply write_loop_B. exact Hb.
Qed.
Lemma file_read_B n : keeps (file_read E n).
Proof.
  intros [f w] Hb. unfold file_read. destruct (negb _); [done|]. apply read_loop_B. exact Hb.
Qed.
Lemma fill_loop_B n : forall filler, keeps (fill_loop E n filler).
Proof.
  induction n as [|n IH]; intros filler; cbn [fill_loop]; (destruct (0 <? filler)%Z; [|apply keeps_ret]);
    [apply keeps_raise|].
  apply keeps_bind; [apply file_write_B|]. intros _. apply IH.
Qed.
Lemma file_flush_B : keeps (file_flush E).
Proof.
  intros [f w] Hb. unfold file_flush. destruct (negb _); [done|]. unfold bind.
  destruct (flush_chunks_B 0 f w Hb) as [Hb' _].
  destruct (flush_chunks E 0 (f, w)) as [[f' w'] [[]|e]]; [|done]. exact Hb'.
Qed.
Lemma file_truncate_B o : keeps (file_truncate E o).
Proof.
  intros [f w] Hb. unfold file_truncate. destruct (negb _); [done|]. apply file_flush_B. exact Hb.
Qed.
Lemma file_close_B : keeps (file_close E).
Proof.
  intros [f w] Hb. unfold file_close. destruct (f_closed f); [done|]. unfold bind.
  assert (B ((if f_w f then file_flush E else ret tt) (f, w)).1) as H.
  { destruct (f_w f); [by apply file_flush_B|done]. }
  destruct ((if f_w f then file_flush E else ret tt) (f, w)) as [[f' w'] [[]|e]]; exact H.
Qed.
Lemma file_seek_B off wh : keeps (file_seek E off wh).
Proof.
  intros [f w] Hb. unfold file_seek. destruct (f_closed f); [done|].
  destruct (match wh with SEEK_SET => _ | _ => _ end) as [p|e]; [|done].
  destruct (p <? 0)%Z; [done|].
  refine (_ (f, w) Hb). change (keeps (do_ (if (f_size f <? p)%Z then
      do_ modify (fun '(f, w) => (set_pos (f_size f) f, w));
      do_ fill_loop E (Z.to_nat (p - f_size f)) (p - f_size f)%Z;
      let* (f, w) := get in
      do_ massert (f_pos f =? p)%Z AssertionError;
      massert (f_size f =? p)%Z AssertionError
    else ret tt);
    do_ modify (fun '(f, w) => (set_pos p f, w)); ret p)%M).
  apply keeps_bind.
  - destruct (_ <? _)%Z; [|apply keeps_ret].
    apply keeps_bind; [apply keeps_modify; intros [f1 w1] H; exact H|]. intros _.
    apply keeps_bind; [apply fill_loop_B|]. intros _.
    apply keeps_bind; [apply keeps_get|]. intros [f1 w1].
    apply keeps_bind; [apply keeps_massert|]. intros _. apply keeps_massert.
  - intros _. apply keeps_bind; [apply keeps_modify; intros [f1 w1] H; exact H|]. intros _. apply keeps_ret.
Qed.
Lemma keeps_mmap {A X} (g : A -> X) m : keeps m -> keeps (mmap g m).
Proof. intros H. apply keeps_bind; [done|]. intros a. apply keeps_ret. Qed.
Lemma file_step_B o : keeps (file_step E o).
Proof.
  destruct o; cbn [file_step]; apply keeps_mmap;
    [apply file_seek_B|apply file_write_B|apply file_read_B|apply file_truncate_B|apply file_flush_B| |apply file_close_B].
  intros [f w] Hb. unfold file_tell. by destruct (f_closed f).
Qed.
Lemma moment_B s0 s : moment s0 s -> B s0 -> B s.
Proof.
  induction 1 as [|s o _ IH|s n _ IH|s n d _ IH|s n z g _ IH|s n z _ IH]; intros Hb; [done|..].
  - by apply file_step_B, IH.
  - by apply file_truncate_B, IH.
  - by apply write_loop_B, IH.
  - by apply read_loop_B, IH.
  - by apply fill_loop_B, IH.
Qed.
Lemma open_B name r wr app w f : file_open name r wr app w = Ok f -> no_oversized (w_disk w) -> B (f, w).
Proof.
  intros H Hn. assert (f_chunks f = []) as Hc.
  { unfold file_open in H. destruct (d_maps (w_disk w) !! name) as [[m size|]|]; [by injection H as <-|done|].
    destruct wr; [by injection H as <-|done]. }
  split; [|split]; cbn; [rewrite Hc; cbn; lia| |done]. rewrite Hc. intros i c Hin. by apply elem_of_nil in Hin.
Qed.
Lemma in_memory_le (l : list (Z * chunk)) : (forall i c, (i, c) ∈ l -> fits c) ->
  (fold_right (fun p n => (chunk_bytes p.2 + n)%Z) 0%Z l <= Z.of_nat (length l) * CS E)%Z.
Proof.
  induction l as [|[i c] l IH]; intros H; cbn [fold_right length]; [lia|].
  assert (chunk_bytes c <= CS E)%Z.
  { unfold chunk_bytes. destruct (ck_data c) as [d|] eqn:Ed; [|lia]. eapply (H i c); [left|done]. }
  specialize (IH ltac:(intros j x Hx; eapply H; right; exact Hx)). cbn [snd]. lia.
Qed.
End Mem.

(** C91: however long the image is, whatever calls are made on it and whichever of
    them fail, the data held in memory never exceeds twice the flush target in chunks. *)
Theorem C91_memory : forall E name r wr app w0 f0 f w,
  (0 < CS E)%Z -> (forall d, decompress E (compress E d) = Some d) ->
  no_oversized E (w_disk w0) -> file_open name r wr app w0 = Ok f0 ->
  moment E (f0, w0) (f, w) ->
  (length (f_chunks f) <= Nat.max (2 * flush_target E) 1)%nat /\
  (in_memory f <= Z.of_nat (Nat.max (2 * flush_target E) 1) * CS E)%Z.
Proof.
  intros E name r wr app w0 f0 f w HCS Hlzo Hn Ho Hm.
  pose proof (moment_B E HCS Hlzo _ _ Hm (open_B E _ _ _ _ _ _ Ho Hn)) as (H1 & H2 & _). cbn in *.
  split; [exact H1|]. pose proof (in_memory_le E HCS _ H2). unfold in_memory, at_most in *. nia.
Qed.
(** Every history of calls is made of such moments. *)
Theorem C91_run : forall E ops s s' rs, file_run E s ops = (s', rs) -> moment E s s'.
Proof.
  intros E ops s s' rs H.
  assert (forall s1 s2 rs, moment E s s1 -> file_run E s1 ops = (s2, rs) -> moment E s s2) as Hg.
  { clear. induction ops as [|o ops IH]; intros s1 s2 rs Hm; cbn [file_run]; [by intros [= <- <-]|].
    destruct (file_step E o s1) as [s3 r1] eqn:E1. destruct (file_run E s3 ops) as [s4 rs4] eqn:E2.
    intros [= <- <-]. eapply IH; [|exact E2].
    replace s3 with (file_step E o s1).1 by (by rewrite E1). by constructor. }
  eapply Hg; [constructor|exact H].
Qed.
(** After a successful flush, truncate or close of a file that may be written, nothing
    is held any more. *)
Theorem C91_released : forall E o f w f' w' x,
  o = OFlush \/ o = OTruncate \/ (o = OClose /\ f_w f = true) ->
  file_step E o (f, w) = ((f', w'), Ok x) -> f_chunks f' = [].
Proof.
  intros E o f w f' w' x Hop.
  assert (forall f w f' w' y, file_flush E (f, w) = ((f', w'), Ok y) -> f_chunks f' = []) as Hf.
  { clear. intros f w f' w' y. unfold file_flush. destruct (negb _); [done|]. unfold bind, flush_chunks. cbn.
    unfold bind. destruct (flush_list E _ (f, w)) as [[f1 w1] [[]|e]]; cbn; [|done]. by intros [= <- _ _]. }
  destruct Hop as [-> |[-> |[-> Hw]]]; cbn [file_step]; unfold mmap, bind at 1.
  - destruct (file_flush E (f, w)) as [[f1 w1] [[]|e]] eqn:Ef; [|done]. cbn. intros [= <- _ _]. by eapply Hf.
  - unfold file_truncate. destruct (negb _); [done|].
    destruct (file_flush E _) as [[f1 w1] [[]|e]] eqn:Ef; [|done]. cbn. intros [= <- _ _]. by eapply Hf.
  - unfold file_close. destruct (f_closed f); [done|]. rewrite Hw. unfold bind.
    destruct (file_flush E (f, w)) as [[f1 w1] [[]|e]] eqn:Ef; [|done]. cbn. intros [= <- _ _].
    cbn. by eapply Hf.
Qed.
Print Assumptions C91_memory.
Print Assumptions C91_run.
Print Assumptions C91_released.

(** Chunks of four bytes, a flush target of 1: forty bytes are written and read back,
    and never more than two chunks are there; two are there in the end. *)
Definition img0 : file := MkFile "img" true true false 0 0 ∅ [] ∅ (MkFStats 0 0 0) 0.
Definition forty : list fop := [OWrite (zeros 40); OSeek 0 FromStart; ORead (-1)].
Example ex_C91 :
  file_open "img" true true false empty_world = Ok img0 /\
  no_oversized ex_env (w_disk empty_world) /\
  forall s rs, file_run ex_env (img0, empty_world) forty = (s, rs) ->
    moment ex_env (img0, empty_world) s /\ length (f_chunks s.1) = 2%nat /\ in_memory s.1 = 8%Z.
Proof.
  split; [reflexivity|].
  split; [intros h raw c Hc; cbn in Hc; by rewrite lookup_empty in Hc|].
  intros s rs H. split; [by eapply C91_run|].
  assert (H2 : ((fun s : fst_ => (length (f_chunks s.1), in_memory s.1))
    (file_run ex_env (img0, empty_world) forty).1) = (2%nat, 8%Z)) by (vm_compute; reflexivity).
  rewrite H in H2. clear H. cbn [fst] in H2. split; [exact (f_equal fst H2)|exact (f_equal snd H2)].
Qed.
