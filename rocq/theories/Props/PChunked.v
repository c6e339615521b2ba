(** C01-C06: chunked image files.  Statements only; proofs are in Proofs/. *)
From Verif Require Import Proofs.ChunkedThms Proofs.TamperProofs Proofs.ExEnv.

(** C01: whatever calls are made on an opened image, each returns exactly what
    the same call on a plain byte file returns. *)
Theorem C01_flat_file :
  forall E w0 n r wr app f0 c0 ops f' w' rs,
  (0 < CS E)%Z -> lzo_ok E -> good_store E (w_disk w0) -> seen_ok w0 ->
  initial_image E (w_disk w0) n c0 ->
  file_open n r wr app w0 = Ok f0 ->
  Forall op_ok ops ->
  file_run E (f0, w0) ops = ((f', w'), rs) ->
  no_collision E (w_disk w0) (w_log w') ->
  rs = (flat_run (flat0 c0 r wr app) ops).2.
Proof. exact flat_file. Qed.
Print Assumptions C01_flat_file.

(** A run over several chunks: write, overwrite, seek past the end, read back,
    truncate, read. *)
Definition ex_ops : list fop :=
  [OWrite (bs "abcdefghij"); OSeek 3 FromStart; OWrite (bs "XYZ");
   OSeek 13 FromStart; OWrite (bs "!"); OSeek 0 FromStart; ORead (-1);
   OSeek 5 FromStart; OTruncate; OSeek 0 FromStart; ORead 100; OClose].
Example C01_hypotheses :
  exists f0, file_open "img" true true false empty_world = Ok f0 /\
    Forall op_ok ex_ops /\
    (file_run ex_env (f0, empty_world) ex_ops).2 =
      [Ok UNone; Ok (UPos 3); Ok UNone; Ok (UPos 13); Ok UNone; Ok (UPos 0);
       Ok (UData (bs "abcXYZghij" ++ zeros 3 ++ bs "!")); Ok (UPos 5);
       Ok UNone; Ok (UPos 0); Ok (UData (bs "abcXY")); Ok UNone].
Proof.
  eexists. split; [reflexivity|]. split; [repeat constructor; cbn; lia|].
  vm_compute. reflexivity.
Qed.
Example C01_instance :
  forall f0 f' w' rs, file_open "img" true true false empty_world = Ok f0 ->
  file_run ex_env (f0, empty_world) ex_ops = ((f', w'), rs) ->
  rs = (flat_run (flat0 [] true true false) ex_ops).2.
Proof.
  intros f0 f' w' rs Ho Hr.
  exact (C01_flat_file ex_env empty_world "img" true true false f0 [] ex_ops f' w' rs
    ex_CS ex_lzo empty_good empty_seen (empty_initial _) Ho
    ltac:(repeat constructor; cbn; lia) Hr (ex_no_collision _ _)).
Qed.

(** C02: after close, and after a flush, the image on disk is exactly the
    content; a new process that opens it sees a plain file with that content. *)
Theorem C02_reopen :
  forall E w0 n r wr app f0 c0 ops f' w' rs r2 wr2 app2 ops2,
  (0 < CS E)%Z -> lzo_ok E -> good_store E (w_disk w0) -> seen_ok w0 ->
  initial_image E (w_disk w0) n c0 ->
  file_open n r wr app w0 = Ok f0 ->
  Forall op_ok ops ->
  file_run E (f0, w0) ops = ((f', w'), rs) ->
  fl_closed (flat_run (flat0 c0 r wr app) ops).1 = true ->
  wr = true ->
  no_collision E (w_disk w0) (w_log w') ->
  let c := fl_data (flat_run (flat0 c0 r wr app) ops).1 in
  image_is E (w_disk w') n c /\
  exists f2, file_open n r2 wr2 app2 (restart w') = Ok f2 /\
    (Forall op_ok ops2 ->
     forall f3 w3 rs3, file_run E (f2, restart w') ops2 = ((f3, w3), rs3) ->
     no_collision E (w_disk w') (w_log w3) ->
     rs3 = (flat_run (flat0 c r2 wr2 app2) ops2).2).
Proof. exact reopen. Qed.
Print Assumptions C02_reopen.

Theorem C02_flushed :
  forall E w0 n r app f0 c0 ops f' w' rs w2 f2,
  (0 < CS E)%Z -> lzo_ok E -> good_store E (w_disk w0) -> seen_ok w0 ->
  initial_image E (w_disk w0) n c0 ->
  file_open n r true app w0 = Ok f0 ->
  Forall op_ok ops ->
  file_run E (f0, w0) ops = ((f', w'), rs) ->
  file_step E OFlush (f', w') = ((f2, w2), Ok UNone) ->
  no_collision E (w_disk w0) (w_log w2) ->
  image_is E (w_disk w2) n (fl_data (flat_run (flat0 c0 r true app) ops).1) /\
  map_complete (w_disk w2) n.
Proof. exact flushed. Qed.
Print Assumptions C02_flushed.

Example C02_hypotheses :
  fl_closed (flat_run (flat0 [] true true false) ex_ops).1 = true /\
  fl_data (flat_run (flat0 [] true true false) ex_ops).1 = bs "abcXY".
Proof. vm_compute. done. Qed.

(** C03: working on one image never changes another one, nor any revision
    metadata, not even when the process is killed half-way. *)
Theorem C03_isolation :
  forall E w0 n r wr app f0 ops f' w' rs,
  lzo_ok E ->
  file_open n r wr app w0 = Ok f0 ->
  file_run E (f0, w0) ops = ((f', w'), rs) ->
  no_collision E (w_disk w0) (w_log w') ->
  forall d, crash_disk w0 w' d ->
    (forall m c, m <> n -> image_is E (w_disk w0) m c -> image_is E d m c) /\
    (forall m, m <> n -> d_maps d !! m = d_maps (w_disk w0) !! m) /\
    d_revs d = d_revs (w_disk w0).
Proof. exact isolation. Qed.
Print Assumptions C03_isolation.

(** A second image written next to "img", sharing a chunk with it. *)
Example C03_hypotheses :
  let w1 := (file_run ex_env
     (match file_open "img" true true false empty_world with
      | Ok f => (f, empty_world) | Err _ => (MkFile "" false false true 0 0 ∅ [] ∅ (MkFStats 0 0 0) 0, empty_world) end)
     [OWrite (bs "abcdefgh"); OClose]).1.2 in
  exists f, file_open "other" true true false (restart w1) = Ok f /\
    (file_run ex_env (f, restart w1) [OWrite (bs "abcdXXXX"); OClose]).2
      = [Ok UNone; Ok UNone] /\
    size (d_chunks (w_disk (file_run ex_env (f, restart w1)
        [OWrite (bs "abcdXXXX"); OClose]).1.2)) = 3.
Proof. eexists. split; [vm_compute; reflexivity|]. vm_compute. done. Qed.

(** C04: even if the chunk files are replaced by anything between any two
    calls, every byte that a reader gets belongs to content with the hash that
    the image's map records for that position. *)
Theorem C04_no_corruption_returned :
  forall E n app w m size f l p d,
  d_maps (w_disk w) !! n = Some (MapJson m size) ->
  file_open n true false app w = Ok f ->
  (p, Ok (UData d)) ∈ tamper_run E (f, w) l ->
  authentic E m p d.
Proof. exact tamper_safe. Qed.
Print Assumptions C04_no_corruption_returned.

(** The reader is told: one chunk of two is damaged, the read fails; the good
    part is still returned. *)
Definition ex_map : gmap Z Hash := {[ 0 := "habcd"; 1 := "hef" ]}%Z.
Definition ex_store : gmap Hash bytes := {[ "habcd" := bs "abcd"; "hef" := bs "ef" ]}.
Definition ex_bad : gmap Hash bytes := {[ "habcd" := bs "abcd"; "hef" := bs "eX" ]}.
Definition ex_world : world :=
  MkWorld (MkDisk ex_store {[ "img" := MapJson ex_map 6 ]} ∅) [] ∅ false.
Example C04_hypotheses :
  exists f, file_open "img" true false false ex_world = Ok f /\
    tamper_run ex_env (f, ex_world) [(ex_store, ORead 4); (ex_bad, ORead 2)]
      = [(0, Ok (UData (bs "abcd"))); (4, Err InconsistentHash)]%Z /\
    tamper_run ex_env (f, ex_world) [(ex_store, ORead 5); (ex_bad, ORead 1)]
      = [(0, Ok (UData (bs "abcde"))); (5, Ok (UData (bs "f")))]%Z.
Proof. eexists. split; [vm_compute; reflexivity|]. vm_compute. done. Qed.

(** C05: at every moment, every chunk file is named by the hash of its
    content. *)
Theorem C05_chunk_names :
  forall E w0 n r wr app f0 ops f' w' rs,
  lzo_ok E -> named_store E (w_disk w0) ->
  file_open n r wr app w0 = Ok f0 ->
  file_run E (f0, w0) ops = ((f', w'), rs) ->
  forall d, crash_disk w0 w' d -> named_store E d.
Proof. exact chunk_names. Qed.
Print Assumptions C05_chunk_names.
Example C05_hypotheses :
  named_store ex_env (w_disk ex_world) /\
  exists f, file_open "img" true true false ex_world = Ok f.
Proof.
  split.
  - intros h raw Hr. exists raw. split; [done|]. cbn in Hr. unfold ex_store in Hr.
    apply lookup_insert_Some in Hr as [[<- <-]|[_ Hr]]; [done|].
    apply lookup_singleton_Some in Hr as [<- <-]. done.
  - eexists. reflexivity.
Qed.

(** C06: truncate to an explicit length.  The full statement (any length
    n >= 0: shorter files are cut, longer ones filled with zeroes, and later
    calls behave accordingly) is false of the code. *)
Definition resized (c : bytes) (n : Z) : bytes :=
  ztake n (c ++ zeros (n - zlen c)).
Definition C06_statement : Prop :=
  forall w0 f0 ops ops2 k,
  (0 <= k)%Z ->
  good_store ex_env (w_disk w0) -> seen_ok w0 ->
  initial_image ex_env (w_disk w0) "img" [] ->
  file_open "img" true true false w0 = Ok f0 ->
  Forall op_ok ops -> Forall op_ok ops2 ->
  let s := (flat_run (flat0 [] true true false) ops).1 in
  fl_closed s = false ->
  (file_run ex_env
     (file_truncate ex_env (Some k) (file_run ex_env (f0, w0) ops).1).1 ops2).2
  = (flat_run (MkFlat (resized (fl_data s) k) (fl_pos s) true true false) ops2).2.

(** Growing: the new part is not readable.  Shrinking below the cursor: the
    cut-off bytes are still returned. *)
Theorem C06_truncate_refuted : ~ C06_statement.
Proof.
  intros H.
  specialize (H empty_world
    (MkFile "img" true true false 0 0 ∅ [] ∅ (MkFStats 0 0 0) 0)
    [OWrite (bs "abcdef"); OSeek 3 FromStart] [ORead (-1)] 1%Z
    ltac:(lia) empty_good empty_seen (empty_initial _) eq_refl
    ltac:(repeat constructor) ltac:(repeat constructor; cbn; lia) eq_refl).
  vm_compute in H. discriminate H.
Qed.
Print Assumptions C06_truncate_refuted.
Theorem C06_truncate_grow_refuted : ~ C06_statement.
Proof.
  intros H.
  specialize (H empty_world
    (MkFile "img" true true false 0 0 ∅ [] ∅ (MkFStats 0 0 0) 0)
    [OWrite (bs "ab"); OSeek 0 FromStart] [ORead (-1)] 8%Z
    ltac:(lia) empty_good empty_seen (empty_initial _) eq_refl
    ltac:(repeat constructor) ltac:(repeat constructor; cbn; lia) eq_refl).
  vm_compute in H. discriminate H.
Qed.
Print Assumptions C06_truncate_grow_refuted.

(** What holds: cutting at a length between the cursor and the end. *)
Theorem C06_truncate_partial :
  forall E w0 n r app f0 c0 ops f' w' rs k f2 w2 res2,
  (0 < CS E)%Z -> lzo_ok E -> good_store E (w_disk w0) -> seen_ok w0 ->
  initial_image E (w_disk w0) n c0 ->
  file_open n r true app w0 = Ok f0 ->
  Forall op_ok ops ->
  file_run E (f0, w0) ops = ((f', w'), rs) ->
  let s := (flat_run (flat0 c0 r true app) ops).1 in
  fl_closed s = false ->
  (fl_pos s <= k <= zlen (fl_data s))%Z ->
  file_truncate E (Some k) (f', w') = ((f2, w2), res2) ->
  no_collision E (w_disk w0) (w_log w2) ->
  res2 = Ok tt /\ image_is E (w_disk w2) n (ztake k (fl_data s)) /\
  (forall ops2 f3 w3 rs3,
     Forall op_ok ops2 -> file_run E (f2, w2) ops2 = ((f3, w3), rs3) ->
     no_collision E (w_disk w0) (w_log w3) ->
     rs3 = (flat_run (MkFlat (ztake k (fl_data s)) (fl_pos s) r true false) ops2).2).
Proof. exact truncate_to. Qed.
Print Assumptions C06_truncate_partial.
Example C06_hypotheses :
  let s := (flat_run (flat0 [] true true false)
              [OWrite (bs "abcdefgh"); OSeek 2 FromStart]).1 in
  fl_closed s = false /\ (fl_pos s <= 5 <= zlen (fl_data s))%Z.
Proof. vm_compute. repeat split; discriminate. Qed.
