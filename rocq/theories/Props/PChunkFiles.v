(** C86: the files of the chunk store. *)
From Coq.Strings Require Import Ascii.
From Verif Require Import Props.PCli Proofs.ExEnv.
From Verif Require Import Model.ChunkFiles.

(** ** Specification *)
(** A hash is a word of hexadecimal digits; all that matters is that it has no dot. *)
Definition hash_name (h : string) : Prop := "."%char ∉ chars h.
(** The names mkstemp chooses. *)
Definition temp_name (t : string) : Prop := exists x, t = ("tmp" ++ x)%string /\ "."%char ∉ chars x.
(** The file of a chunk. *)
Definition chunk_file (h : string) : string * string :=
  (unchars (take 2 (chars h)), (h ++ ".chunk.lzo")%string).

(** What may happen in a store: mkstemp yields a new name, [ls] every chunk file once, and a
    process that is killed is killed before its last operation. *)
Definition may_happen (s : cfiles) (a : sact) : Prop :=
  match a with
  | AFlush seen force h data tmp killed =>
      hash_name h /\ temp_name tmp /\ s !! (unchars (take 2 (chars h)), tmp) = None /\
      (forall k, killed = Some k -> k < length data + 3)%nat
  | APurge used order killed =>
      Forall hash_name order /\ NoDup order /\
      forall h, hash_name h -> h ∈ order <-> is_Some (s !! chunk_file h)
  end.
Inductive history : list sact -> cfiles -> Prop :=
| h_nil : history [] ∅
| h_snoc l s a : history l s -> may_happen s a -> history (l ++ [a]) (sact_run s a).

(** The chunks there should be: what was flushed to the end, and not purged since. *)
Definition should_step (m : gmap string bytes) (a : sact) : gmap string bytes :=
  match a with
  | AFlush seen force h data _ None =>
      if seen then m
      else match m !! h with
           | Some _ => if force then <[h := data]> m else m
           | None => <[h := data]> m
           end
  | AFlush _ _ _ _ _ (Some _) => m
  | APurge used order killed =>
      let victims := filter (fun h => h ∉ used) order in
      let gone := match killed with None => victims | Some k => take k victims end in
      filter (fun kv => kv.1 ∉ gone) m
  end.
Definition should (l : list sact) : gmap string bytes := fold_left should_step l ∅.

(** ** Proof *)
Lemma chars_dot_last h : hash_name h -> last_dot (chars h) = None.
Proof.
  intros H. unfold last_dot.
  destruct (List.find _ _) as [i|] eqn:E; [|done]. apply find_some in E as [_ E].
  apply bool_decide_eq_true_1 in E. destruct H. by eapply elem_of_list_lookup_2.
Qed.
Lemma chunk_path_eq h : hash_name h -> chunk_path h = chunk_file h.
Proof.
  intros H. unfold chunk_path, chunk_file, with_suffix, first2. rewrite (chars_dot_last h H).
  by cbn [orb andb].
Qed.
Lemma append_cancel a b suf : (a ++ suf)%string = (b ++ suf)%string -> a = b.
Proof.
  intros H. assert (Ha : strip_suffix suf (a ++ suf) = Some a) by by apply strip_suffix_spec.
  assert (Hb : strip_suffix suf (b ++ suf) = Some b) by by apply strip_suffix_spec.
  rewrite H, Hb in Ha. by injection Ha.
Qed.
Lemma chunk_file_inj h h' : chunk_file h = chunk_file h' -> h = h'.
Proof. intros [= _ H]. by apply (append_cancel _ _ ".chunk.lzo"). Qed.
Lemma temp_no_chunk t h : temp_name t -> t <> (h ++ ".chunk.lzo")%string.
Proof.
  intros (x & -> & Hx) H. apply (f_equal chars) in H. rewrite !chars_app in H.
  assert (Hin : "."%char ∈ chars "tmp" ++ chars x).
  { rewrite H. apply elem_of_app. right. vm_compute. left. }
  apply elem_of_app in Hin as [Hin|Hin]; [|done].
  vm_compute in Hin. repeat (apply elem_of_cons in Hin as [[=]|Hin]). by apply elem_of_nil in Hin.
Qed.

(** Every file is a chunk file or a temporary one. *)
Definition shape (s : cfiles) (m : gmap string bytes) : Prop :=
  (forall h b, m !! h = Some b -> hash_name h) /\
  (forall h, hash_name h -> s !! chunk_file h = m !! h) /\
  (forall d n b, s !! (d, n) = Some b -> temp_name n \/ exists h, hash_name h /\ (d, n) = chunk_file h).

Lemma cops_app s a b : cops_run s (a ++ b) = cops_run (cops_run s a) b.
Proof. apply fold_left_app. Qed.
Lemma puts_run d t data : forall ks s, ks <> [] ->
  cops_run s (map (fun k => FPut d t (take k data)) ks) =
  <[(d, t) := match last ks with Some k => take k data | None => [] end]> s.
Proof.
  induction ks as [|k ks IH]; intros s H; [done|]. cbn [map cops_run fold_left cop_run].
  change (fold_left cop_run (map (fun k => FPut d t (take k data)) ks) ?x)
    with (cops_run x (map (fun k => FPut d t (take k data)) ks)).
  destruct ks as [|k' ks]; [done|]. rewrite IH by done. rewrite insert_insert. done.
Qed.
Lemma shape_temp s m d t b : shape s m -> temp_name t -> shape (<[(d, t) := b]> s) m.
Proof.
  intros (S1 & S2 & S3) Ht. split; [done|]. split.
  - intros h Hh. rewrite lookup_insert_ne; [by apply S2|]. unfold chunk_file. intros [= _ Hn].
    by apply (temp_no_chunk t h Ht).
  - intros d' n' b' H. apply lookup_insert_Some in H as [[[= <- <-] _]|[_ H]]; [by left|by eapply S3].
Qed.
Lemma shape_puts s m d t data ks : shape s m -> temp_name t ->
  shape (cops_run s (map (fun k => FPut d t (take k data)) ks)) m.
Proof.
  intros H Ht. destruct ks as [|k ks]; [done|]. rewrite puts_run by done. by apply shape_temp.
Qed.
Lemma full_flush s d t data n : s !! (d, t) = None -> t <> n ->
  cops_run s (FNew d t :: map (fun k => FPut d t (take k data)) (seq 0 (Datatypes.S (length data)))
      ++ [FMove d t d n]) = <[(d, n) := data]> s.
Proof.
  intros Hn Ht. change (?a :: ?l ++ ?x) with (([a] ++ l) ++ x). rewrite !cops_app.
  rewrite puts_run by (cbn [seq]; done).
  assert (Hl : last (seq 0 (Datatypes.S (length data))) = Some (length data)).
  { replace (Datatypes.S (length data)) with (length data + 1)%nat by lia.
    rewrite seq_app, last_app. done. }
  rewrite Hl, firstn_all. cbn [cops_run fold_left cop_run].
  rewrite insert_insert, lookup_insert.
  rewrite delete_insert by done. done.
Qed.
Lemma cut_app_lt {A} k (l : list A) x : (k < length (l ++ [x]))%nat -> take k (l ++ [x]) = take k l.
Proof. intros H. rewrite app_length in H. cbn in H. rewrite take_app_le by lia. done. Qed.
Lemma partial_flush s m d t data k : shape s m -> temp_name t ->
  shape (cops_run s (take k (FNew d t :: map (fun k => FPut d t (take k data)) (seq 0 (Datatypes.S (length data)))))) m.
Proof.
  intros H Ht. destruct k as [|k]; [done|].
  change (take (Datatypes.S k) (?a :: ?l)) with ([a] ++ take k l). rewrite cops_app.
  change (cops_run s [FNew d t]) with (<[(d, t) := ([] : bytes)]> s).
  rewrite <- fmap_take. apply shape_puts; [|done]. by apply shape_temp.
Qed.
Lemma flush_shape s m seen force h data tmp killed :
  shape s m -> may_happen s (AFlush seen force h data tmp killed) ->
  shape (sact_run s (AFlush seen force h data tmp killed))
        (should_step m (AFlush seen force h data tmp killed)).
Proof.
  intros Hs (Hh & Ht & Hf & Hk). unfold sact_run. cbn [sact_ops should_step].
  unfold flush_ops. rewrite (chunk_path_eq h Hh). unfold chunk_file.
  set (d := unchars (take 2 (chars h))) in *.
  destruct seen; [destruct killed as [[|k]|]; done|].
  pose proof Hs as (S1 & S2 & S3). pose proof (S2 h Hh) as Hp. unfold chunk_file in Hp. fold d in Hp.
  assert (Hne : tmp <> (h ++ ".chunk.lzo")%string) by by apply temp_no_chunk.
  assert (Hins : shape (<[(d, (h ++ ".chunk.lzo")%string) := data]> s) (<[h := data]> m)).
  { split; [|split].
    - intros h' b Hb. apply lookup_insert_Some in Hb as [[<- _]|[_ Hb]]; [done|by eapply S1].
    - intros h' Hh'. destruct (decide (h' = h)) as [->|Hne'].
      + unfold chunk_file. fold d. by rewrite !lookup_insert.
      + rewrite (lookup_insert_ne m) by done. rewrite lookup_insert_ne; [by apply S2|].
        intros Heq. apply Hne'. apply chunk_file_inj. by rewrite <- Heq.
    - intros d' n' b Hb. apply lookup_insert_Some in Hb as [[[= <- <-] _]|[_ Hb]]; [|by eapply S3].
      right. exists h. by split. }
  set (puts := map (fun k => FPut d tmp (take k data)) (seq 0 (Datatypes.S (length data)))).
  assert (Hlen : length ((FNew d tmp :: puts) ++ [FMove d tmp d (h ++ ".chunk.lzo")%string]) = (length data + 3)%nat).
  { rewrite app_length. cbn [length]. unfold puts. rewrite map_length, seq_length. lia. }
  destruct (force || negb (bool_decide (is_Some (s !! (d, (h ++ ".chunk.lzo")%string))))) eqn:Eb.
  - destruct killed as [k|]; cbn [cut].
    + change (FNew d tmp :: puts ++ ?x) with ((FNew d tmp :: puts) ++ x).
      rewrite cut_app_lt by (rewrite Hlen; by apply Hk). by apply partial_flush.
    + unfold puts. rewrite full_flush by done.
      destruct (m !! h) as [b|] eqn:Em; [|done].
      destruct force; [done|]. rewrite Hp in Eb. rewrite bool_decide_true in Eb by eauto. done.
  - apply orb_false_iff in Eb as [-> Eb]. apply negb_false_iff, bool_decide_eq_true_1 in Eb as [b Eb].
    rewrite Hp in Eb. destruct killed as [k|]; cbn [cut].
    + destruct k; done.
    + rewrite Eb. done.
Qed.
Lemma dels_shape (s : cfiles) m : forall l, Forall hash_name l -> shape s m ->
  shape (cops_run s (map (fun h => FDel (chunk_path h).1 (chunk_path h).2) l))
        (filter (fun kv => kv.1 ∉ l) m).
Proof.
  intros l. revert s m. induction l as [|h l IH]; intros s m Hl Hs.
  - cbn. rewrite map_filter_id; [done|]. intros i x _. apply not_elem_of_nil.
  - apply Forall_cons in Hl as [Hh Hl]. cbn [map].
    change (cops_run s (?a :: ?r)) with (cops_run (cop_run s a) r).
    rewrite (chunk_path_eq h Hh). cbn [cop_run]. rewrite <- surjective_pairing.
    assert (Hs' : shape (delete (chunk_file h) s) (delete h m)).
    { pose proof Hs as (S1 & S2 & S3). split; [|split].
      - intros h' b Hb. apply lookup_delete_Some in Hb as [_ Hb]. by eapply S1.
      - intros h' Hh'. destruct (decide (h' = h)) as [->|Hne]; [by rewrite !lookup_delete|].
        rewrite (lookup_delete_ne m) by done. rewrite lookup_delete_ne; [by apply S2|].
        intros Heq. apply Hne. by apply chunk_file_inj.
      - intros d n b Hb. apply lookup_delete_Some in Hb as [_ Hb]. by eapply S3. }
    specialize (IH _ _ Hl Hs').
    replace (filter (fun kv : string * bytes => kv.1 ∉ h :: l) m)
      with (filter (fun kv : string * bytes => kv.1 ∉ l) (delete h m)); [done|].
    apply map_eq. intros i. apply option_eq. intros b.
    rewrite !map_filter_lookup_Some, lookup_delete_Some. cbn. rewrite not_elem_of_cons. naive_solver.
Qed.
Lemma step_shape s m a : shape s m -> may_happen s a -> shape (sact_run s a) (should_step m a).
Proof.
  intros Hs Ha. destruct a as [seen force h data tmp killed|used order killed]; [by apply flush_shape|].
  destruct Ha as (Ho & Hnd & Hls). unfold sact_run. cbn [sact_ops should_step]. unfold purge_ops.
  assert (Hv : Forall hash_name (filter (fun h => h ∉ used) order)).
  { apply Forall_forall. intros x Hx. apply elem_of_list_filter in Hx as [_ Hx].
    by eapply (proj1 (Forall_forall _ _)) in Ho. }
  destruct killed as [k|]; cbn [cut].
  - rewrite <- fmap_take. apply dels_shape; [|done]. by apply Forall_take.
  - by apply dels_shape.
Qed.
Lemma history_shape l s : history l s -> shape s (should l).
Proof.
  induction 1 as [|l s a H IH Ha].
  - split; [|split].
    + intros h b Hb. change (should []) with (∅ : gmap string bytes) in Hb. by rewrite lookup_empty in Hb.
    + intros h _. change (should []) with (∅ : gmap string bytes). by rewrite !lookup_empty.
    + intros d n b Hb. by rewrite lookup_empty in Hb.
  - unfold should. rewrite fold_left_app. cbn [fold_left]. by apply step_shape.
Qed.

(** * C86 *)
(** However often processes are killed, the file of a chunk is there, with its complete
    content, exactly if it was flushed to the end and not purged since; [ls] lists exactly
    these, once each. *)
Theorem C86_files_are_chunks : forall l s,
  history l s ->
  (forall h, hash_name h -> s !! chunk_file h = should l !! h) /\
  (forall h, h ∈ store_ls s <-> is_Some (should l !! h)) /\ NoDup (store_ls s).
Proof.
  intros l s H. pose proof (history_shape _ _ H) as (S1 & S2 & S3).
  assert (Hls : forall h, h ∈ store_ls s -> hash_name h /\ is_Some (s !! chunk_file h)).
  { intros h Hin. unfold store_ls in Hin. apply elem_of_list_omap in Hin as ([[d n] b] & Hin & Hx).
    apply elem_of_map_to_list in Hin. cbn [fst snd] in Hx. apply strip_suffix_spec in Hx. subst n.
    destruct (S3 _ _ _ Hin) as [Ht|(h' & Hh' & Heq)]; [by destruct (temp_no_chunk _ h Ht)|].
    assert (h = h') as ->. { unfold chunk_file in Heq. injection Heq as _ Hn. by apply (append_cancel _ _ ".chunk.lzo"). }
    rewrite Heq in Hin. eauto. }
  split; [done|]. split.
  - intros h. split.
    + intros Hin. destruct (Hls h Hin) as [Hh Hx]. by rewrite <- S2.
    + intros [b Hb]. pose proof (S1 _ _ Hb) as Hh. rewrite <- S2 in Hb by done.
      unfold store_ls. apply elem_of_list_omap. exists (chunk_file h, b).
      split; [by apply elem_of_map_to_list|]. by apply strip_suffix_spec.
  - assert (Hkeys : forall d n b d' n' b' h, s !! (d, n) = Some b -> s !! (d', n') = Some b' ->
      strip_suffix ".chunk.lzo" n = Some h -> strip_suffix ".chunk.lzo" n' = Some h -> (d, n) = (d', n')).
    { intros d n b d' n' b' h H1 H2 Hn Hn'. apply strip_suffix_spec in Hn, Hn'. subst n n'.
      destruct (S3 _ _ _ H1) as [Ht|(h1 & Hh1 & E1)]; [by destruct (temp_no_chunk _ h Ht)|].
      destruct (S3 _ _ _ H2) as [Ht|(h2 & Hh2 & E2)]; [by destruct (temp_no_chunk _ h Ht)|].
      assert (h = h1). { injection E1 as _ Hn. by apply (append_cancel _ _ ".chunk.lzo"). }
      assert (h = h2). { injection E2 as _ Hn. by apply (append_cancel _ _ ".chunk.lzo"). }
      subst. by rewrite E1, E2. }
    unfold store_ls.
    assert (Hsub : forall p, p ∈ map_to_list s -> s !! p.1 = Some p.2).
    { intros [k b] Hp. by apply elem_of_map_to_list in Hp. }
    pose proof (NoDup_fst_map_to_list s) as Hnd.
    induction (map_to_list s) as [|[[d n] b] r IH]; [constructor|].
    apply NoDup_cons in Hnd as [Hk Hnd]. cbn [omap list_omap].
    specialize (IH (fun p Hp => Hsub p (elem_of_list_further _ _ _ Hp)) Hnd).
    destruct (strip_suffix ".chunk.lzo" (d, n, b).1.2) as [x|] eqn:E; [|exact IH].
    constructor; [|exact IH]. intros Hin.
    apply elem_of_list_omap in Hin as ([[d' n'] b'] & Hin & Hx).
    apply Hk. apply elem_of_list_fmap. exists (d', n', b'). split; [|done].
    cbn [fst snd] in *. eapply (Hkeys d n b d' n' b' x).
    + apply (Hsub ((d, n), b)). left.
    + apply (Hsub ((d', n'), b')). by right.
    + exact E.
    + exact Hx.
Qed.
Print Assumptions C86_files_are_chunks.
(** A chunk file never holds anything but data that was flushed under this hash to the
    end. *)
Theorem C86_never_partial : forall l s h b,
  history l s -> hash_name h -> s !! chunk_file h = Some b ->
  exists seen force tmp, AFlush seen force h b tmp None ∈ l.
Proof.
  intros l s h b H Hh Hb. destruct (C86_files_are_chunks l s H) as [H1 _].
  rewrite H1 in Hb by done. clear H1 H Hh s.
  induction l as [|a l IH] using rev_ind; [change (should []) with (∅ : gmap string bytes) in Hb; by rewrite lookup_empty in Hb|].
  unfold should in Hb. rewrite fold_left_app in Hb. cbn [fold_left] in Hb.
  assert (Hold : should l !! h = Some b -> exists seen force tmp, AFlush seen force h b tmp None ∈ l ++ [a]).
  { intros Ho. destruct (IH Ho) as (x & y & z & ?). exists x, y, z. apply elem_of_app. by left. }
  change (fold_left should_step l ∅) with (should l) in Hb.
  destruct a as [seen force h' data tmp [k|]|used order killed]; cbn [should_step] in Hb.
  - by apply Hold.
  - assert (Hi : <[h' := data]> (should l) !! h = Some b ->
      exists seen0 force0 tmp0, AFlush seen0 force0 h b tmp0 None ∈ l ++ [AFlush seen force h' data tmp None]).
    { intros Hx. apply lookup_insert_Some in Hx as [[-> ->]|[_ Hx]]; [|by apply Hold].
      exists seen, force, tmp. apply elem_of_app. right. by apply elem_of_list_singleton. }
    destruct seen; [by apply Hold|]. destruct (should l !! h'); [destruct force|]; auto.
  - apply map_filter_lookup_Some in Hb as [Hb _]. by apply Hold.
Qed.
Print Assumptions C86_never_partial.
(** A purge that is not interrupted leaves the used chunks and no others. *)
Theorem C86_purge : forall l s used order h,
  history l s -> may_happen s (APurge used order None) -> hash_name h ->
  sact_run s (APurge used order None) !! chunk_file h =
  (if decide (h ∈ used) then s !! chunk_file h else None).
Proof.
  intros l s used order h H Hm Hh.
  pose proof (h_snoc _ _ _ H Hm) as H'. destruct (C86_files_are_chunks _ _ H') as [H1 _].
  destruct (C86_files_are_chunks _ _ H) as [H0 _]. rewrite H1, H0 by done.
  unfold should at 1. rewrite fold_left_app. cbn [fold_left should_step].
  change (fold_left should_step l ∅) with (should l).
  destruct Hm as (_ & _ & Hls). specialize (Hls h Hh). rewrite H0 in Hls by done.
  apply option_eq. intros b. rewrite map_filter_lookup_Some. cbn [fst].
  rewrite elem_of_list_filter. destruct (decide (h ∈ used)) as [Hu|Hu].
  - split; [by intros [? _]|]. intros Hb. split; [done|]. by intros [? _].
  - split; [|done]. intros [Hb Hn]. destruct Hn. split; [done|]. apply Hls. eauto.
Qed.
Print Assumptions C86_purge.
(** But the remains of an interrupted flush are never removed: no purge touches a file
    that is not a chunk. *)
Theorem C86_leftovers_refuted : forall s used order killed d t b,
  may_happen s (APurge used order killed) -> temp_name t -> s !! (d, t) = Some b ->
  sact_run s (APurge used order killed) !! (d, t) = Some b.
Proof.
  intros s used order killed d t b (Ho & _) Ht Hb. unfold sact_run. cbn [sact_ops]. unfold purge_ops.
  assert (Hl : forall l s, Forall hash_name l -> s !! (d, t) = Some b ->
    cops_run s (map (fun h => FDel (chunk_path h).1 (chunk_path h).2) l) !! (d, t) = Some b).
  { induction l as [|h l IH]; intros s0 Hl Hs0; [done|]. apply Forall_cons in Hl as [Hh Hl].
    cbn [map]. change (cops_run s0 (?a :: ?r)) with (cops_run (cop_run s0 a) r).
    apply IH; [done|]. rewrite (chunk_path_eq h Hh). cbn [cop_run]. rewrite <- surjective_pairing.
    rewrite lookup_delete_ne; [done|]. unfold chunk_file. intros [= _ Hn].
    by apply (temp_no_chunk t h Ht). }
  assert (Hv : Forall hash_name (filter (fun h => h ∉ used) order)).
  { apply Forall_forall. intros x Hx. apply elem_of_list_filter in Hx as [_ Hx].
    by eapply (proj1 (Forall_forall _ _)) in Ho. }
  destruct killed as [k|]; cbn [cut]; [|by apply Hl].
  rewrite <- fmap_take. apply Hl; [by apply Forall_take|done].
Qed.
Print Assumptions C86_leftovers_refuted.

(** A backup is killed while it writes a chunk; the next one writes it; both chunks are
    listed, the purge removes the unused one and leaves the temporary file. *)
Definition ex_l3 : list sact :=
  [AFlush false false "ab01" (bs "xyz") "tmpq1" (Some 3%nat);
   AFlush false false "ab01" (bs "xyz") "tmpq2" None;
   AFlush false false "ffff" (bs "u") "tmpq1" None]%string.
Lemma D {P} `{Decision P} : bool_decide P = true -> P.
Proof. intros Hd. by apply bool_decide_eq_true_1 in Hd. Qed.
Lemma T x : "."%char ∉ chars x -> temp_name ("tmp" ++ x).
Proof. intros Hx. by exists x. Qed.
Lemma ex_h3 : history ex_l3 (store_run ex_l3).
Proof.
  unfold ex_l3.
  refine (h_snoc [_; _] _ _ (h_snoc [_] _ _ (h_snoc [] _ _ h_nil _) _) _).
  - split; [apply D; vm_compute; reflexivity|].
    split; [apply (T "q1"%string); apply D; vm_compute; reflexivity|].
    split; [vm_compute; reflexivity|]. intros k Hk. injection Hk as <-. vm_compute. lia.
  - split; [apply D; vm_compute; reflexivity|].
    split; [apply (T "q2"%string); apply D; vm_compute; reflexivity|].
    split; [vm_compute; reflexivity|]. intros k Hk. discriminate Hk.
  - split; [apply D; vm_compute; reflexivity|].
    split; [apply (T "q1"%string); apply D; vm_compute; reflexivity|].
    split; [vm_compute; reflexivity|]. intros k Hk. discriminate Hk.
Qed.
Definition ex_purge : sact := APurge {["ab01"%string]} ["ab01"; "ffff"]%string None.
Example ex_C86 :
  history ex_l3 (store_run ex_l3) /\ may_happen (store_run ex_l3) ex_purge /\
  map_to_list (store_run ex_l3) =
    [("ff", "ffff.chunk.lzo", bs "u"); ("ab", "tmpq1", bs "x"); ("ab", "ab01.chunk.lzo", bs "xyz")]%string /\
  map_to_list (sact_run (store_run ex_l3) ex_purge) =
    [("ab", "tmpq1", bs "x"); ("ab", "ab01.chunk.lzo", bs "xyz")]%string /\
  store_ls (sact_run (store_run ex_l3) ex_purge) = ["ab01"]%string.
Proof.
  split; [exact ex_h3|]. split.
  { split; [apply D; vm_compute; reflexivity|]. split; [apply D; vm_compute; reflexivity|].
    intros h Hh. destruct (history_shape _ _ ex_h3) as (_ & S2 & _). rewrite (S2 h Hh).
    assert (Hm : forall h, is_Some (should ex_l3 !! h) <-> h ∈ map fst (map_to_list (should ex_l3))).
    { intros x. rewrite elem_of_list_fmap. split.
      - intros [b Hb]. exists (x, b). split; [done|]. by apply elem_of_map_to_list.
      - intros ([y b] & -> & Hb). apply elem_of_map_to_list in Hb. by eexists. }
    rewrite Hm. assert (Hl : map fst (map_to_list (should ex_l3)) ≡ₚ ["ab01"; "ffff"]%string)
      by (apply D; vm_compute; reflexivity).
    by rewrite Hl. }
  split; [vm_compute; reflexivity|]. split; vm_compute; reflexivity.
Qed.
