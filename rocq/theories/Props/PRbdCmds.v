(** C104: what a backup asks the "rbd" tool to do. *)
From Verif Require Import Proofs.RevsProofs Proofs.SnapProofs.
From Verif Require Import Model.RbdCmds.
From Verif Require Proofs.ExEnv Props.PBackup.

(** The commands, as the rbd manual has them.  [img]: pool/image; [u]: the revision's
    identifier. *)
Section Spec.
Context (RBD img u : string).
Inductive asks : list string -> Prop :=
| a_info : asks [RBD; "info"; img; "--format=json"]
| a_info_snap x : asks [RBD; "info"; (img +:+ "@backy-" +:+ x)%string; "--format=json"]
| a_version : asks [RBD; "--version"]
| a_ls : asks [RBD; "snap"; "ls"; img; "--format=json"]
| a_showmapped : asks [RBD; "showmapped"; "--format=json"].
(** Commands that read data, all from the snapshot of this revision. *)
Inductive reads : list string -> Prop :=
| r_map : reads [RBD; "map"; (img +:+ "@backy-" +:+ u)%string; "--read-only"]
| r_export : reads [RBD; "export"; (img +:+ "@backy-" +:+ u)%string; "-"]
| r_diff x : reads [RBD; "export-diff"; (img +:+ "@backy-" +:+ u)%string; "--from-snap"; ("backy-" +:+ x)%string; "-"]
| r_diff_whole x : reads [RBD; "export-diff"; (img +:+ "@backy-" +:+ u)%string; "--from-snap"; ("backy-" +:+ x)%string;
                          "--whole-object"; "-"].
Definition creates (c : list string) : Prop := c = [RBD; "snap"; "create"; (img +:+ "@backy-" +:+ u)%string].
(** Deletes a snapshot whose name begins with "backy-". *)
Definition deletes (c : list string) : Prop := exists x, c = [RBD; "snap"; "rm"; (img +:+ "@backy-" +:+ x)%string].
Definition unmaps (dev : string) (c : list string) : Prop := c = [RBD; "unmap"; dev].
End Spec.

Lemma rbd_cmd_ne RBD args json : Forall (fun a => a <> ""%string) args ->
  rbd_cmd RBD args json = RBD :: args ++ (if json then ["--format=json"%string] else []).
Proof.
  intros H. unfold rbd_cmd. f_equal. f_equal. induction H as [|a l Ha Hl IH]; [done|].
  cbn [List.filter]. by rewrite bool_decide_eq_false_2, IH.
Qed.
Lemma append_ne (a b : string) c : (a +:+ String c b)%string <> ""%string.
Proof. destruct a; done. Qed.
Lemma append_ne' (a b c : string) x : ((a +:+ String x b) +:+ c)%string <> ""%string.
Proof. destruct a; done. Qed.
Lemma startswith_app p s : startswith p s = true -> exists x, s = (p +:+ x)%string.
Proof.
  unfold startswith. revert s. induction p as [|a p IH]; intros s H; [by exists s|].
  destruct s as [|b s]; [done|]. cbn in H. destruct (Ascii.ascii_dec a b) as [->|]; [|done].
  destruct (IH s H) as [x ->]. by exists x.
Qed.

Section Proofs.
Context (RBD : string) (E : env) (O : orders) (pool image : string) (K : talk).
Notation img := (pool +:+ "/" +:+ image)%string.
Let img_eq : image_name pool image = img.
Proof. done. Qed.
Lemma spec_eq u : snap_spec pool image u = (img +:+ "@backy-" +:+ u)%string.
Proof. done. Qed.

(** From [s], [m] does what [n] does, and the commands it adds satisfy [P]. *)
Definition does {A} (P : cmd -> Prop) (s : rst) (m : M (rst * list cmd) A) (n : M rst A) : Prop :=
  forall l, exists l', m (s, l) = (((n s).1, l ++ l'), (n s).2) /\ Forall P l'.

Lemma does_quiet {A} P s (m : M rst A) : does P s (quiet m) m.
Proof. intros l. exists []. unfold quiet. cbn. destruct (m s). rewrite app_nil_r. split; [done|constructor]. Qed.
Lemma does_bind {A B} P s (m : M (rst * list cmd) A) n (m2 : A -> M (rst * list cmd) B) n2 :
  does P s m n -> (forall s' a, n s = (s', Ok a) -> does P s' (m2 a) (n2 a)) -> does P s (bind m m2) (bind n n2).
Proof.
  intros H1 H2 l. destruct (H1 l) as (l1 & E1 & P1). unfold bind. rewrite E1.
  destruct (n s) as [s' [a|e]]; cbn [fst snd].
  - destruct (H2 s' a eq_refl (l ++ l1)) as (l2 & -> & P2). exists (l1 ++ l2). rewrite app_assoc.
    split; [done|]. by apply Forall_app.
  - exists l1. done.
Qed.
Lemma does_get {A} P s (k : rst * list cmd -> M (rst * list cmd) A) n :
  (forall l, does P s (k (s, l)) n) -> does P s (bind get k) n.
Proof. intros H l. exact (H l l). Qed.
Lemma does_say {A} P s new (m : M (rst * list cmd) A) n :
  Forall P new -> does P s m n -> does P s (bind (say new) (fun _ => m)) n.
Proof.
  intros Hn H l. unfold bind, say, modify. cbn [fst snd]. destruct (H (l ++ new)) as (l' & -> & Hl').
  exists (new ++ l'). rewrite app_assoc. split; [done|]. by apply Forall_app.
Qed.
Lemma does_raise {A} P s e : does P s (raise e : M (rst * list cmd) A) (raise e).
Proof. intros l. exists []. rewrite app_nil_r. split; [done|constructor]. Qed.
Lemma does_eq {A} P s (m : M (rst * list cmd) A) n n' : n s = n' s -> does P s m n -> does P s m n'.
Proof. intros H. unfold does. by rewrite H. Qed.

Ltac ne := repeat constructor; try done; try apply append_ne; try apply append_ne'.
Lemma parent_asks fuel fail s : forall r, Forall (asks RBD img) (parent_cmds RBD pool image fuel fail s r).
Proof.
  induction fuel as [|fuel IH]; intros r; cbn [parent_cmds]; [constructor|].
  destruct (get_parent _ _ _); [|constructor]. constructor.
  - unfold cmd_info. rewrite spec_eq, rbd_cmd_ne by ne. apply a_info_snap.
  - destruct fail; [constructor|]. destruct (snap_exists _ _); [constructor|apply IH].
Qed.
Lemma map_ok u : Forall (fun c => asks RBD img c \/ reads RBD img u c) (map_cmds RBD pool image u).
Proof.
  unfold map_cmds, cmd_version, cmd_map, cmd_showmapped. rewrite spec_eq, !rbd_cmd_ne by ne.
  constructor; [left; constructor|]. constructor; [right; constructor|]. constructor; [left; constructor|done].
Qed.

(** During the [with] block. *)
Definition inside (u : string) (c : cmd) : Prop :=
  asks RBD img c \/ reads RBD img u c \/ unmaps RBD (tk_dev K) c.
Lemma body_does af B r : tk_dev K <> ""%string ->
  forall s, does (inside (r_uuid r)) s (backup_body_t RBD E pool image K af B r) (backup_body E af B r).
Proof.
  intros Hdev s. unfold backup_body_t, backup_body. apply does_bind.
  { unfold ceph_parent_t. apply does_get. intros l. apply does_say; [|apply does_quiet]. cbn [fst].
    destruct af; [constructor|]. eapply Forall_impl; [apply parent_asks|]. intros c Hc. by left. }
  intros s1 parent _. apply does_bind; [apply does_quiet|]. intros s2 [] _. apply does_get. intros l. cbn [fst].
  apply does_bind.
  { destruct (file_open (r_uuid r) false true false (rs_w s2)) as [f|e] eqn:Ef.
    - apply does_say; [|apply does_quiet]. constructor; [|constructor].
      right. left. destruct parent as [p|].
      + unfold cmd_export_diff. rewrite spec_eq. destruct (tk_whole K); constructor.
      + unfold cmd_export. rewrite spec_eq. constructor.
    - eapply does_eq; [|apply does_raise]. unfold with_file. cbn [negb]. by rewrite Ef. }
  intros s3 [] _. apply does_get. intros l3. cbn [fst].
  eapply does_eq; [reflexivity|].
  match goal with |- does _ _ _ (bind get ?k) => apply (does_eq _ _ _ (k s3)); [reflexivity|] end. cbn beta.
  destruct (file_open (r_uuid r) true false false (rs_w s3)) as [f'|e]; [|apply does_raise].
  apply does_bind; [apply does_quiet|]. intros s4 [] _.
  assert (Hmap : Forall (inside (r_uuid r)) (map_cmds RBD pool image (r_uuid r))).
  { eapply Forall_impl; [apply map_ok|]. intros c [?|?]; [by left|by right; left]. }
  destruct (bk_map B) as [a|e].
  - match goal with |- does _ _ _ (bind (lift (Ok a)) ?k) => apply (does_eq _ _ _ (k a)); [reflexivity|] end. cbn beta.
    apply does_say; [done|]. intros l'. exists [cmd_unmap RBD (tk_dev K)]. unfold quiet. cbn [fst snd].
    destruct (with_file E (r_uuid r) false _ s4) as [s5 x]. split; [done|].
    constructor; [|constructor]. right. right. unfold cmd_unmap. rewrite rbd_cmd_ne by ne. done.
  - match goal with |- does _ _ _ (bind (lift (Err e)) ?k) => apply (does_eq _ _ _ (raise e)); [reflexivity|] end.
    apply does_say; [by apply Forall_take|apply does_raise].
Qed.

Lemma create_ok u : Forall (fun c => asks RBD img c \/ creates RBD img u c) (create_cmds RBD pool image K u).
Proof.
  unfold create_cmds, cmd_snap_create, cmd_snap_ls, creates. rewrite img_eq, spec_eq, !rbd_cmd_ne by ne.
  destruct (tk_polls K) as [[n timeout]|]; [|by constructor; [right|]].
  apply Forall_app. split.
  - apply Forall_forall. intros c Hc. apply elem_of_replicate in Hc as [-> _]. left. constructor.
  - destruct timeout; [by constructor; [right|]|constructor].
Qed.
Lemma delete_ok af B s : Forall (fun c => asks RBD img c \/ deletes RBD img c) (delete_cmds RBD pool image af B s).
Proof.
  unfold delete_cmds. constructor.
  - unfold cmd_snap_ls. rewrite img_eq, rbd_cmd_ne by ne. left. constructor.
  - destruct (bk_ls B); [constructor|]. apply Forall_forall. intros c Hc. apply elem_of_list_In, in_map_iff in Hc.
    destruct Hc as ([n x] & <- & Hn). apply List.filter_In in Hn as [_ Hn]. cbn [fst] in *.
    apply andb_true_iff in Hn as [Hn _]. apply startswith_app in Hn as [y ->]. right.
    unfold cmd_snap_rm. rewrite img_eq, rbd_cmd_ne by ne. exists y. done.
Qed.
End Proofs.

(** A backup (Model/RbdBackup.v), whatever happens in it, runs these commands in this
    order: it looks whether the image is there; it makes the snapshot; it asks, reads
    from that snapshot (mapped read-only) and unmaps the device; it deletes snapshots
    of this image whose name begins with "backy-".  If the image is not ready nothing
    else is run, and without the snapshot nothing is read and nothing deleted.  No
    command changes the content of an image, and no other image is named. *)
Theorem C104_source_is_only_read :
  forall RBD E O pool image K af B r s s' cmds x,
  tk_dev K <> ""%string ->
  backup_t RBD E O pool image K af B r (s, []) = ((s', cmds), x) ->
  let img := (pool +:+ "/" +:+ image)%string in
  let u := r_uuid r in
  backup E O af B r s = (s', x) /\
  exists before during after,
    cmds = [RBD; "info"; img; "--format=json"]%string :: before ++ during ++ after /\
    Forall (fun c => asks RBD img c \/ creates RBD img u c) before /\
    Forall (fun c => asks RBD img c \/ reads RBD img u c \/ unmaps RBD (tk_dev K) c) during /\
    Forall (fun c => asks RBD img c \/ deletes RBD img c) after /\
    (bk_ready B = false -> before ++ during ++ after = []) /\
    ((exists e, bk_snap B = Err e) -> during ++ after = []).
Proof.
  intros RBD E O pool image K af B r s s' cmds x Hdev Hrun img u. revert Hrun.
  set (s2 := (eff_ ETmp (eff_ ETmp s).1).1).
  assert (Ht : backup_t RBD E O pool image K af B r (s, []) =
    (if negb (bk_ready B) then raise RuntimeError
     else let* verified := backup_guarded_t RBD E pool image K af B r in
          do_ quiet (finish_backup B r verified); do_ quiet (after_backup E O); ret verified)%M
      (s2, [cmd_info RBD (image_name pool image)])) by reflexivity.
  assert (Hb : backup E O af B r s =
    (if negb (bk_ready B) then raise RuntimeError
     else let* verified := backup_guarded E af B r in
          do_ finish_backup B r verified; do_ after_backup E O; ret verified)%M s2) by reflexivity.
  rewrite Ht, Hb. clear Ht Hb.
  assert (Hi : cmd_info RBD (image_name pool image) = [RBD; "info"; img; "--format=json"]%string).
  { unfold cmd_info. rewrite rbd_cmd_ne; [done|]. repeat constructor; [done|]. apply append_ne. }
  destruct (bk_ready B); cbn [negb].
  2:{ unfold raise. intros [= <- <- <-]. split; [done|]. exists [], [], []. rewrite Hi. repeat split; auto. }
  assert (G : exists before during after,
    backup_guarded_t RBD E pool image K af B r (s2, [cmd_info RBD (image_name pool image)]) =
      (((backup_guarded E af B r s2).1, cmd_info RBD (image_name pool image) :: before ++ during ++ after),
       (backup_guarded E af B r s2).2) /\
    Forall (fun c => asks RBD img c \/ creates RBD img u c) before /\
    Forall (fun c => asks RBD img c \/ reads RBD img u c \/ unmaps RBD (tk_dev K) c) during /\
    Forall (fun c => asks RBD img c \/ deletes RBD img c) after /\
    ((exists e, bk_snap B = Err e) -> during ++ after = [])).
  { pose proof (create_ok RBD pool image K u) as Hcr.
    unfold backup_guarded_t, backup_guarded, backup_try_t, backup_try. cbn [fst snd].
    destruct (bk_snap B) as [c|e].
    2:{ exists (create_cmds RBD pool image K u), [], []. rewrite !app_nil_r. destruct (is_backend_exn e); cbn [fst snd].
        - unfold bind, quiet. cbn [fst snd]. destruct (distrust _ s2) as [s3 [[]|e3]]; done.
        - done. }
    set (s3 := set_snaps _ s2).
    destruct (body_does RBD E pool image K af B r Hdev s3 ([cmd_info RBD (image_name pool image)] ++ create_cmds RBD pool image K (r_uuid r)))
      as (during & Hb & Hd).
    rewrite Hb. destruct (backup_body E af B r s3) as [s4 r4]. cbn [fst snd].
    exists (create_cmds RBD pool image K (r_uuid r)), during, (delete_cmds RBD pool image af B s4).
    pose proof (delete_ok RBD pool image af B s4) as Hdel.
    unfold quiet at 1. cbn [fst snd]. destruct (delete_old_snapshots af B s4) as [s5 r5] eqn:E5.
    assert (HL : forall A, (((s5, ([cmd_info RBD (image_name pool image)] ++ create_cmds RBD pool image K (r_uuid r)) ++ during ++ delete_cmds RBD pool image af B s4), A) : (rst * list cmd) * res bool) =
      ((s5, cmd_info RBD (image_name pool image) :: create_cmds RBD pool image K (r_uuid r) ++ during ++ delete_cmds RBD pool image af B s4), A)).
    { intros A. rewrite <- app_assoc. done. }
    rewrite <- (app_assoc ([cmd_info RBD (image_name pool image)] ++ _)).
    destruct (match r5 with Ok _ => r4 | Err e => Err e end) as [b|e] eqn:Er; cbn [fst snd].
    - rewrite HL. repeat split; auto. by intros [e ?].
    - destruct (is_backend_exn e); cbn [fst snd].
      + unfold bind, quiet. cbn [fst snd]. destruct (distrust _ s5) as [s6 [[]|e6]]; cbn [fst snd];
          rewrite <- (app_assoc [_]); repeat split; auto; by intros [? ?].
      + rewrite HL. repeat split; auto. by intros [? ?]. }
  destruct G as (before & during & after & Hg & Hbe & Hdu & Haf & Hno).
  unfold bind. rewrite Hg. destruct (backup_guarded E af B r s2) as [s3 [v|e]]; cbn [fst snd].
  2:{ intros [= <- <- <-]. split; [done|]. exists before, during, after. rewrite Hi. repeat split; auto; done. }
  unfold quiet. cbn [fst snd]. destruct (finish_backup B r v s3) as [s4 [[]|e]]; cbn [fst snd].
  2:{ intros [= <- <- <-]. split; [done|]. exists before, during, after. rewrite Hi. repeat split; auto; done. }
  destruct (after_backup E O s4) as [s5 [[]|e]]; cbn [fst snd];
    (intros [= <- <- <-]; split; [done|]; exists before, during, after; rewrite Hi; repeat split; auto; done).
Qed.
Print Assumptions C104_source_is_only_read.

(** An incremental backup: what is run. *)
Example C104_case :
  let K := MkTalk None true "/dev/rbd0" 0 in
  let r := backup_t "rbd" Proofs.ExEnv.ex_env Props.PBackup.ex_O "pool" "vm" K false Props.PBackup.ex_B Props.PBackup.ex_new (Props.PBackup.ex_s, []) in
  r.2 = Ok true /\
  r.1.2 = [["rbd"; "info"; "pool/vm"; "--format=json"];
   ["rbd"; "snap"; "create"; "pool/vm@backy-new"];
   ["rbd"; "info"; "pool/vm@backy-old"; "--format=json"];
   ["rbd"; "export-diff"; "pool/vm@backy-new"; "--from-snap"; "backy-old"; "--whole-object"; "-"];
   ["rbd"; "--version"]; ["rbd"; "map"; "pool/vm@backy-new"; "--read-only"]; ["rbd"; "showmapped"; "--format=json"];
   ["rbd"; "unmap"; "/dev/rbd0"];
   ["rbd"; "snap"; "ls"; "pool/vm"; "--format=json"];
   ["rbd"; "snap"; "rm"; "pool/vm@backy-old"]]%string.
Proof. vm_compute. done. Qed.
