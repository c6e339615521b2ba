(** C73: exit codes of the command line client. *)
From Verif Require Import Proofs.LifeThms Proofs.RestoreProofs Proofs.ExEnv Props.PBackup Props.PLife Model.Exit.
From Verif Require Import Model.RbdBackup.

(** Codes of programs are bytes, signals are numbered from 1. *)
Definition ended_ok (p : ended) : Prop :=
  match p with Exited c => (0 <= c < 256)%Z | Signalled n => (0 < n < 128)%Z end.
(** The shell sees success. *)
Definition success (x : res (option Z)) : Prop := exit_status (command1 x) = 0%Z.

Lemma code_zero p : ended_ok p -> (exit_status (returncode p) = 0%Z <-> p = Exited 0).
Proof.
  unfold exit_status. destruct p as [c|n]; cbn [returncode ended_ok]; intros H.
  - rewrite Z.mod_small by lia. split; [intros ->; done|intros [= ->]; done].
  - split; [|done]. intros Hm. exfalso. apply Z.mod_divide in Hm as [k Hk]; [|lia]. lia.
Qed.

(** Full statement: a command exits with 0 exactly if it did what it was asked to do.
    It holds for backup, restore and tags, and not for verify and gc. *)
(** backup: both clean-ups and the check of the tags went well, and the child
    process exited with 0. *)
Theorem C73_backup : forall own clean1 valid child clean2,
  (forall p, child = Ok p -> ended_ok p) ->
  success (backup_fg own clean1 valid child clean2) <->
  own = true /\ clean1 = Ok tt /\ valid = Ok tt /\ child = Ok (Exited 0) /\ clean2 = Ok tt.
Proof.
  intros own c1 v child c2 Hp. unfold success, backup_fg.
  destruct own; cbn [negb]; [|split; [intros H; discriminate H|intros [H _]; discriminate H]].
  destruct c1 as [[]|e]; cbn [res_bind]; [|split; [intros H; discriminate H|intros (_ & H & _); discriminate H]].
  destruct v as [[]|e]; cbn [res_bind]; [|split; [intros H; discriminate H|intros (_ & _ & H & _); discriminate H]].
  destruct c2 as [[]|e]; [|split; [intros H; discriminate H|intros (_ & _ & _ & _ & H); discriminate H]].
  destruct child as [p|e]; cbn [res_bind command1]; [|split; [intros H; discriminate H|intros (_ & _ & _ & H & _); discriminate H]].
  cbn [default]. rewrite (code_zero p (Hp p eq_refl)). split; [intros ->; done|intros (_ & _ & _ & H & _); congruence].
Qed.
Print Assumptions C73_backup.
(** The child exits with 0 exactly if the backup succeeded, so that (C72) after
    "backy backup" exited with 0 the snapshot can be restored as long as nobody
    removes the revision. *)
Theorem C73_backup_restorable_partial :
  forall E st0 tr1 st O af B r x st1 l tr2 st2 own valid clean2,
  (0 < CS E)%Z -> lzo_ok E -> nothing_yet st0 ->
  life E st0 tr1 st ->
  let ev := (st, Ran O (LBackup None af B r) x, l) in
  happens E st (Ran O (LBackup None af B r) x) st1 l ->
  life E st1 tr2 st2 ->
  Forall behaves (tr1 ++ [ev]) -> NoDup (all_started (tr1 ++ [ev])) ->
  Forall sane tr2 -> Forall (fun y => ~ drops (r_uuid r) y) tr2 ->
  no_collision E (lf_disk st0) (all_effects (tr1 ++ [ev] ++ tr2)) ->
  success (backup_fg own (Ok tt) valid (Ok (Exited (main_backup x))) clean2) ->
  exists c, bk_snap B = Ok c /\
  forall O n k target, (0 < n)%Z -> length c <= k ->
    let w := rs_w (opened O st2) in
    restore_file E n true (r_uuid r) target w = (w, Ok (c, zlen c)) /\
    restore_stdout E n k (r_uuid r) w = (w, Ok c).
Proof.
  intros E st0 tr1 st O af B r x st1 l tr2 st2 own valid clean2 H1 H2 H3 H4 ev H5 H6 H7 H8 H9 H10 H11 Hs.
  apply C73_backup in Hs as (_ & _ & _ & Hc & _).
  2:{ intros p [= <-]. unfold main_backup. destruct x as [[]|]; cbn; lia. }
  assert (Hx : x = Ok true) by (unfold main_backup in Hc; destruct x as [[]|]; congruence).
  subst x. subst ev. eapply C72_successful_backup_is_restorable_partial; done.
Qed.
Print Assumptions C73_backup_restorable_partial.
(** backup --bg: the daemon accepted every job. *)
Theorem C73_backup_bg : forall answers,
  success (backup_bg answers) <-> Forall (fun a => a = Ok tt) answers.
Proof.
  intros l. unfold success. induction l as [|[[]|e] l IH]; cbn [backup_bg].
  - split; [constructor|done].
  - rewrite IH. rewrite Forall_cons. tauto.
  - rewrite Forall_cons. split; [|intros [H _]; discriminate H].
    destruct e; cbn; try done. case_bool_decide; done.
Qed.
Print Assumptions C73_backup_bg.
(** restore: the revision was found and the child exited with 0, which it does
    exactly if the restore did not fail (C20). *)
Theorem C73_restore : forall found child,
  (forall r p, child r = Ok p -> ended_ok p) ->
  success (restore_cli found child) <-> exists r, found = Ok r /\ child r = Ok (Exited 0).
Proof.
  intros found child Hp. unfold success, restore_cli.
  destruct found as [r|e]; cbn [res_bind].
  - destruct (child r) as [p|e] eqn:Hc; cbn [res_bind command1 default].
    + rewrite (code_zero p (Hp r p Hc)). split; [intros ->; eauto|intros (r' & [= <-] & H); congruence].
    + split; [intros H; discriminate H|intros (r' & [= <-] & H); congruence].
  - split; [intros H; discriminate H|intros (r' & H & _); discriminate H].
Qed.
Print Assumptions C73_restore.
(** [out r]: how the restore (the verification) went in the child process for [r]. *)
Theorem C73_restore_done {A} : forall found (out : rev -> res A),
  success (restore_cli found (fun r => Ok (Exited (main_other (out r))))) <->
  exists r y, found = Ok r /\ out r = Ok y.
Proof.
  intros found out. rewrite C73_restore.
  - split.
    + intros (r & -> & H). exists r. injection H as H.
      destruct (out r) as [y|e]; [eauto|discriminate H].
    + intros (r & y & -> & H). exists r. by rewrite H.
  - intros r p [= <-]. destruct (out r); cbn; lia.
Qed.
Print Assumptions C73_restore_done.
(** tags: the change was made. *)
Theorem C73_tags : forall x, success (tags_cli x) <-> x = Ok true.
Proof.
  intros [[]|e]; unfold success; cbn; split; intros H; try done.
Qed.
Print Assumptions C73_tags.
(** verify: what holds if no child is killed by a signal: 0 exactly if every
    child exited with 0.  Missing: a killed child, and what the code of a child
    means. *)
Lemma verify_each_spec child l ret : (0 <= ret)%Z ->
  (forall r, r ∈ l -> exists c, child r = Ok (Exited c) /\ (0 <= c < 256)%Z) ->
  exists c, verify_each ret child l = Ok c /\
    (c = 0%Z <-> ret = 0%Z /\ forall r, r ∈ l -> child r = Ok (Exited 0)) /\ (ret <= c)%Z /\
    (c < 256 \/ c = ret)%Z.
Proof.
  revert ret. induction l as [|r l IH]; intros ret H0 Hc; cbn [verify_each].
  - exists ret. split; [done|]. split; [|lia]. split; [intros ->; split; [done|]; intros r Hr; inversion Hr|tauto].
  - destruct (Hc r ltac:(left)) as (c0 & Hr & Hc0). rewrite Hr. cbn [res_bind returncode].
    destruct (IH (Z.max ret c0)) as (c & -> & H1 & H2 & H3); [lia|intros x Hx; apply Hc; right; done|].
    exists c. split; [done|]. split; [|lia]. rewrite H1. split.
    + intros [G1 G2]. split; [lia|]. intros x Hx. apply elem_of_cons in Hx as [->|Hx]; [|auto].
      rewrite Hr. assert (c0 = 0%Z) as -> by lia. done.
    + intros [-> G2]. split; [|intros x Hx; apply G2; right; done].
      specialize (G2 r ltac:(left)). rewrite Hr in G2. injection G2 as ->. done.
Qed.
Theorem C73_verify_partial : forall l child,
  (forall r, r ∈ l -> exists c, child r = Ok (Exited c) /\ (0 <= c < 256)%Z) ->
  success (verify_cli (Ok l) child) <-> forall r, r ∈ l -> child r = Ok (Exited 0).
Proof.
  intros l child Hc. unfold success, verify_cli. cbn [res_bind].
  destruct (verify_each_spec child l 0 ltac:(lia) Hc) as (c & -> & H1 & H2 & H3). cbn [res_bind command1].
  change (default 0%Z (Some c)) with c. unfold exit_status. rewrite Z.mod_small by lia. rewrite H1. split; [intros [_ H]; exact H|auto].
Qed.
Print Assumptions C73_verify_partial.
Theorem C73_verify_done_partial {A} : forall l (out : rev -> res A),
  success (verify_cli (Ok l) (fun r => Ok (Exited (main_other (out r))))) <->
  forall r, r ∈ l -> exists y, out r = Ok y.
Proof.
  intros l out. rewrite C73_verify_partial.
  - split; intros H r Hr; specialize (H r Hr).
    + injection H as H. destruct (out r) as [y|e]; [eauto|discriminate H].
    + destruct H as [y ->]. done.
  - intros r _. exists (main_other (out r)). split; [done|]. destruct (out r); cbn; lia.
Qed.
Print Assumptions C73_verify_done_partial.
(** A child that is killed before it has looked at anything counts as a
    success, whatever the revision ... *)
Theorem C73_verify_killed_refuted : forall r n, (0 < n)%Z ->
  success (verify_cli (Ok [r]) (fun _ => Ok (Signalled n))).
Proof.
  intros r n Hn. unfold success, verify_cli. cbn [res_bind verify_each returncode].
  rewrite Z.max_l by lia. done.
Qed.
Print Assumptions C73_verify_killed_refuted.
(** ... and a verification that finds a damaged revision, and removes it, exits
    with 0. *)
Theorem C73_verify_damaged_refuted :
  exists E O r s s' x,
  orders_ok O /\ scanned O s /\ r ∈ rs_hist s /\ r_server r = "" /\
  verify E O r s = (s', x) /\ damaged E (w_disk (rs_w s)) (r_uuid r) /\
  d_revs (w_disk (rs_w s')) !! r_uuid r = None /\
  success (verify_cli (Ok [r]) (fun _ => Ok (Exited (main_other x)))).
Proof.
  set (s := MkRst (MkWorld (MkDisk (d_chunks c17_disk) (d_maps c17_disk) {[ "two" := c17_two ]}) [] ∅ false) [c17_two] []).
  exists ex_env, ex_O, c17_two, s, (verify ex_env ex_O c17_two s).1, (Ok tt).
  split; [exact ex_orders|]. split; [vm_compute; reflexivity|]. split; [left|]. split; [reflexivity|].
  split; [apply run_is; vm_compute; reflexivity|].
  split. { eexists _, 4%Z, 0%Z, _. split; [vm_compute; reflexivity|]. split; [lia|].
    split; vm_compute; reflexivity. }
  split; vm_compute; reflexivity.
Qed.
Print Assumptions C73_verify_damaged_refuted.
(** gc exits with 0 whatever happens to the child. *)
Theorem C73_gc_refuted : forall p, success (gc_cli false false true (Ok tt) (Ok p)).
Proof. done. Qed.
Print Assumptions C73_gc_refuted.
(** ... for instance when another process holds the lock or a map is unreadable: *)
Example C73_gc_case : exists s, (gc s).2 = Err FileNotFound /\
  success (gc_cli false false true (Ok tt) (Ok (Exited (main_other (gc s).2)))).
Proof. exists (set_hist [ex_new] ex_s). split; vm_compute; reflexivity. Qed.
(** "gc --expire" without --local never does anything. *)
Theorem C73_gc_expire : forall own expired child, ~ success (gc_cli true false own expired child).
Proof. intros own x c H. discriminate H. Qed.
Print Assumptions C73_gc_expire.
Example C73_cases :
  success (backup_fg true (Ok tt) (Ok tt) (Ok (Exited 0)) (Ok tt)) /\
  ~ success (backup_fg true (Ok tt) (Ok tt) (Ok (Signalled 9)) (Ok tt)) /\
  ~ success (backup_fg true (Ok tt) (Ok tt) (Ok (Exited 0)) (Err BlockingIOError)) /\
  ~ success (restore_cli (Ok ex_old) (fun _ => Ok (Exited 1))) /\
  ~ success (verify_cli (Ok [ex_old; ex_new]) (fun r => Ok (Exited (if bool_decide (r = ex_old) then 1 else 0)))).
Proof. repeat split; vm_compute; try discriminate; reflexivity. Qed.
