(** C09-C11: integrating an rbd diff into an image.  Statements only. *)
From Verif Require Import Proofs.Session Proofs.ExEnv.

(** C09: integrating a well-formed diff stream into an image turns its content
    into exactly what the records say (in stream order: sizes cut or zero-fill,
    data and zero records overwrite), reports the number of bytes described,
    and closing the file leaves a complete image. *)
Theorem C09_integrate :
  forall E piece sf st ms ds tl n r w0 c0,
  (0 < CS E)%Z -> lzo_ok E -> good_store E (w_disk w0) -> seen_ok w0 ->
  initial_image E (w_disk w0) n c0 ->
  Forall meta_ok ms -> Forall (names_ok sf st) ms -> Forall data_ok ds ->
  (0 < piece)%Z ->
  let x := session E n r true (integrate piece sf st (enc_diff ms ds ++ tl)) w0 in
  no_collision E (w_disk w0) (w_log x.1) ->
  x.2 = Ok (payload ds) /\
  image_is E (w_disk x.1) n (apply_diff ms ds c0) /\ map_complete (w_disk x.1) n.
Proof. exact integrate_session. Qed.
Print Assumptions C09_integrate.

(** ... and if the stream describes how to get from snapshot [a] to snapshot [b]
    (what "rbd export-diff" promises), an image of [a] becomes one of [b]. *)
Theorem C09_snapshot :
  forall E piece sf st ms ds tl n r w0 a b,
  (0 < CS E)%Z -> lzo_ok E -> good_store E (w_disk w0) -> seen_ok w0 ->
  initial_image E (w_disk w0) n a ->
  Forall meta_ok ms -> Forall (names_ok sf st) ms -> Forall data_ok ds ->
  (0 < piece)%Z ->
  (forall k, MSize k ∈ ms -> k = zlen b) ->
  (MSize (zlen b) ∈ ms \/ zlen a = zlen b) ->
  describes ds a b ->
  let x := session E n r true (integrate piece sf st (enc_diff ms ds ++ tl)) w0 in
  no_collision E (w_disk w0) (w_log x.1) ->
  x.2 = Ok (payload ds) /\
  image_is E (w_disk x.1) n b /\ map_complete (w_disk x.1) n.
Proof. exact integrate_snapshot. Qed.
Print Assumptions C09_snapshot.

(** A parent image "abcdefgh" (two 4-byte chunks) grows to 10 bytes. *)
Definition d_ms : list meta_rec := [MFrom (bs "backy-A"); MTo (bs "backy-B"); MSize 10].
Definition d_ds : list data_rec := [DData 2 (bs "XYZ"); DZero 6 1; DData 9 (bs "!")].
Definition d_world : world :=
  MkWorld (MkDisk {[ "habcd" := bs "abcd"; "hefgh" := bs "efgh" ]}
    {[ "img" := MapJson {[ 0 := "habcd"; 1 := "hefgh" ]}%Z 8 ]} ∅) [] ∅ false.
Definition d_after : bytes := bs "abXYZf" ++ zeros 1 ++ bs "h" ++ zeros 1 ++ bs "!".
Example C09_hypotheses :
  initial_image ex_env (w_disk d_world) "img" (bs "abcdefgh") /\
  good_store ex_env (w_disk d_world) /\ seen_ok d_world /\
  Forall meta_ok d_ms /\ Forall (names_ok (bs "backy-A") (bs "backy-B")) d_ms /\
  Forall data_ok d_ds /\ apply_diff d_ms d_ds (bs "abcdefgh") = d_after /\
  MSize (zlen d_after) ∈ d_ms /\ describes d_ds (bs "abcdefgh") d_after.
Proof.
  split.
  { right. split.
    - eexists. split; [vm_compute; reflexivity|].
      intros i b Hi. do 8 (destruct i as [|i]; [vm_compute in Hi; injection Hi as <-;
        eexists _, _; split; [vm_compute; reflexivity|split; vm_compute; reflexivity]|]).
      done.
    - unfold map_complete. cbn [d_world w_disk d_maps]. rewrite lookup_singleton.
      intros id h Hh. apply lookup_insert_Some in Hh as [[_ <-]|[_ Hh]]; [by eexists|].
      apply lookup_singleton_Some in Hh as [_ <-]. by eexists. }
  split.
  { intros h raw Hh. cbn in Hh. apply lookup_insert_Some in Hh as [[<- <-]|[_ Hh]].
    - by exists (bs "abcd").
    - apply lookup_singleton_Some in Hh as [<- <-]. by exists (bs "efgh"). }
  split; [intros h Hh; cbn in Hh; set_solver|].
  split.
  { repeat constructor; vm_compute; done. }
  split; [repeat constructor|].
  split; [repeat constructor; vm_compute; done|].
  split; [vm_compute; reflexivity|].
  split; [right; right; left|].
  split.
  { repeat constructor; vm_compute; done. }
  intros i x Hx Hr. do 10 (destruct i as [|i];
    [first [ vm_compute in Hx; injection Hx as <-; vm_compute; reflexivity
           | exfalso; apply (Hr (DData 2 (bs "XYZ")) ltac:(left)); vm_compute; done
           | exfalso; apply (Hr (DZero 6 1) ltac:(right; left)); vm_compute; done
           | exfalso; apply (Hr (DData 9 (bs "!")) ltac:(right; right; left)); vm_compute; done ]|]).
  done.
Qed.
Example C09_run :
  (session ex_env "img" false true
     (integrate 4 (bs "backy-A") (bs "backy-B") (enc_diff d_ms d_ds)) d_world).2 = Ok 5%Z.
Proof. vm_compute. reflexivity. Qed.

(** C10: a diff stream cut off anywhere is rejected, whatever the target. *)
Theorem C10_truncated :
  forall E piece sf st ms ds k n r w0,
  (0 < piece)%Z -> Forall meta_ok ms -> Forall data_ok ds ->
  k < length (enc_diff ms ds) ->
  exists e, (session E n r true
     (integrate piece sf st (take k (enc_diff ms ds))) w0).2 = Err e.
Proof. exact cut_session. Qed.
Print Assumptions C10_truncated.
(** What is accepted begins with a complete well-formed diff whose metadata
    names the expected snapshots, whatever bytes were fed in. *)
Theorem C10_accepted :
  forall E piece sf st s n r w0 len,
  (0 < piece)%Z ->
  (session E n r true (integrate piece sf st s) w0).2 = Ok len ->
  exists ms ds tl, Forall meta_ok ms /\ Forall (names_ok sf st) ms /\
     Forall data_ok ds /\ s = enc_diff ms ds ++ tl /\ len = payload ds.
Proof. exact accept_session. Qed.
Print Assumptions C10_accepted.
(** In the middle of a data record, and just before the end mark. *)
Example C10_run :
  length (enc_diff d_ms d_ds) = 101 /\
  (session ex_env "img" false true (integrate 4 (bs "backy-A") (bs "backy-B")
     (take 65 (enc_diff d_ms d_ds))) d_world).2 = Err ValueError /\
  (session ex_env "img" false true (integrate 4 (bs "backy-A") (bs "backy-B")
     (take 100 (enc_diff d_ms d_ds))) d_world).2 = Err ValueError.
Proof. vm_compute. done. Qed.

(** C11: a diff whose metadata names another snapshot is rejected, and no data
    record has been applied: the image is the old one, at most resized as
    announced before the wrong name. *)
Theorem C11_wrong_snapshot :
  forall E piece sf st ms tl n r w0 c0,
  (0 < CS E)%Z -> lzo_ok E -> good_store E (w_disk w0) -> seen_ok w0 ->
  initial_image E (w_disk w0) n c0 ->
  Forall meta_ok ms -> ~ Forall (names_ok sf st) ms ->
  (0 < piece)%Z ->
  let x := session E n r true
     (integrate piece sf st (enc_magic ++ concat (map enc_meta ms) ++ tl)) w0 in
  no_collision E (w_disk w0) (w_log x.1) ->
  x.2 = Err AssertionError /\
  exists pre post_, ms = pre ++ post_ /\
    image_is E (w_disk x.1) n (fold_left (fun c m => apply_meta m c) pre c0).
Proof. exact wrong_names_session. Qed.
Print Assumptions C11_wrong_snapshot.
Example C11_hypotheses :
  ~ Forall (names_ok (bs "backy-OTHER") (bs "backy-B")) d_ms /\
  (session ex_env "img" false true
     (integrate 4 (bs "backy-OTHER") (bs "backy-B") (enc_diff d_ms d_ds)) d_world).2
  = Err AssertionError.
Proof.
  split; [|vm_compute; reflexivity].
  intros H. apply Forall_cons in H as [H _]. vm_compute in H. discriminate H.
Qed.
