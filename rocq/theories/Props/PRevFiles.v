(** C109: what a peer sends is stored in the job's own directory. *)
From Verif Require Import Props.PJobDirs Model.RevFiles.

(** An identifier that is one component of a path ("..", too, as ".rev" is appended;
    an empty one is replaced). *)
Definition tame (u : string) : Prop := u <> "." /\ has_slash u = false.

Lemma tame_place repo f u : plain f -> tame u ->
  exists v, info_place repo f u = Ok (repo ++ [v +:+ ".rev"]) /\ v = if bool_decide (u = "") then f else u.
Proof.
  intros Hf [Hd Hs]. unfold info_place.
  set (v := if bool_decide (u = "") then f else u).
  assert (v <> "" /\ v <> "." /\ has_slash v = false) as (H1 & H2 & H3).
  { subst v. case_bool_decide; [|done]. split; [apply Hf|]. split; apply Hf. }
  exists v. split; [|done].
  assert (is_abs v = false) as ->.
  { unfold is_abs, has_slash in *. destruct v as [|a v]; [done|]. cbn [existsb String.list_ascii_of_string] in H3.
    apply orb_false_iff in H3 as [Ha _]. apply Ascii.eqb_neq in Ha.
    cbn [String.prefix]. destruct (Ascii.ascii_dec "/" a) as [E|]; [by destruct Ha|reflexivity]. }
  assert (parts_of v = [v]) as ->.
  { unfold parts_of. rewrite split_plain by done. cbn. unfold real_part. by rewrite !bool_decide_eq_false_2 by done. }
  cbn. done.
Qed.

(** Nothing but files of the job's own directory is changed, and every revision of the
    reply is there afterwards unless it was skipped. *)
Theorem C109_inside_partial : forall server repo fresh skip l fs fs' x,
  (forall i, plain (fresh i)) -> (forall r, r ∈ l -> tame (r_uuid r)) ->
  pull_reply server repo fresh skip l fs = (fs', x) ->
  x = Ok tt /\ forall p, (forall v, p <> repo ++ [v +:+ ".rev"]) -> fs' !! p = fs !! p.
Proof.
  unfold pull_reply. intros server repo fresh skip l. generalize 0%nat as i.
  induction l as [|r l IH]; intros i fs fs' x Hf Hl; cbn.
  { intros [= <- <-]. done. }
  assert (forall r, r ∈ l -> tame (r_uuid r)) as Hl' by (intros r' Hr; apply Hl; by right).
  destruct (skip (mark server r)); [by apply IH|].
  destruct (tame_place repo (fresh i) (r_uuid r)) as (v & -> & _); [done|apply Hl; left|].
  intros H. apply IH in H as [-> H]; [|done..]. split; [done|]. intros p Hp. rewrite H by done.
  apply lookup_insert_ne. intros <-. by apply (Hp v).
Qed.
Example ex_C109 : tame "cBVy4pCKTjuVDqTpZqvX9j" /\ tame ".." /\
  info_place ["srv"; "vm1"] "new" "cBVy4pCKTjuVDqTpZqvX9j" = Ok ["srv"; "vm1"; "cBVy4pCKTjuVDqTpZqvX9j.rev"] /\
  info_place ["srv"; "vm1"] "new" ".." = Ok ["srv"; "vm1"; "...rev"].
Proof. repeat split; try done; vm_compute; reflexivity. Qed.
Print Assumptions C109_inside_partial.

(** What was in other directories, of this or another job, is as before. *)
Theorem C109_others_partial : forall server base n n' fresh skip l fs fs' x u,
  plain n -> plain n' -> n <> n' -> plain u ->
  (forall i, plain (fresh i)) -> (forall r, r ∈ l -> tame (r_uuid r)) ->
  pull_reply server (place base n) fresh skip l fs = (fs', x) ->
  info_place (place base n') "" u = Ok (base ++ [n'; u +:+ ".rev"]) /\
  fs' !! (base ++ [n'; u +:+ ".rev"]) = fs !! (base ++ [n'; u +:+ ".rev"]).
Proof.
  intros server base n n' fresh skip l fs fs' x u Hn Hn' Hne Hu Hf Hl H.
  rewrite !place_plain in * by done. split.
  - unfold info_place. rewrite bool_decide_eq_false_2 by apply Hu.
    rewrite plain_rel, plain_parts by done. cbn. by rewrite <- app_assoc.
  - apply C109_inside_partial in H as [_ H]; [|done..]. apply H. intros v.
    change [n'; u +:+ ".rev"] with ([n'] ++ [u +:+ ".rev"]). rewrite app_assoc. intros E.
    apply app_inj_tail in E as [E _]. apply app_inj_tail in E as [_ E]. congruence.
Qed.
Print Assumptions C109_others_partial.

(** Refuted: for every local revision [u] of any other job [n'] a peer can send an
    identifier that makes the pull for [n] replace its metadata. *)
Theorem C109_refuted : forall server base n n' u r t fresh fs x,
  Forall plain base -> plain n -> plain n' -> plain u ->
  info_place (place base n') "" u = Ok t -> fs !! t = Some r -> r_server r = "" -> server <> "" ->
  r_uuid x = "../" +:+ n' +:+ String "/" u ->
  exists fs', pull_reply server (place base n) fresh (fun _ => false) [x] fs = (fs', Ok tt) /\
    fs' !! t = Some (mark server x) /\ fs' !! t <> Some r.
Proof.
  intros server base n n' u r t fresh fs x Hb Hn Hn' Hu Ht Hr Hloc Hs Hx.
  unfold pull_reply. cbn. rewrite Hx.
  assert (info_place (place base n) (fresh 0%nat) ("../" +:+ n' +:+ String "/" u) = Ok t) as ->.
  { revert Ht. rewrite !place_plain by done. unfold info_place.
    rewrite bool_decide_eq_false_2 by apply Hu. rewrite plain_rel, plain_parts by done. cbn [List.rev app walk fold_left].
    intros [= <-]. rewrite bool_decide_eq_false_2 by done.
    assert (is_abs ("../" +:+ n' +:+ String "/" u) = false) as -> by reflexivity.
    change ("../" +:+ n' +:+ String "/" u) with (".." +:+ String "/" (n' +:+ String "/" u)).
    rewrite parts_app, parts_app, (plain_parts n'), (plain_parts u) by done.
    change (parts_of "..") with [".."]. cbn [List.rev app walk fold_left].
    unfold walk. cbn [fold_left]. rewrite (bool_decide_eq_true_2 (".." = "..")) by done.
    rewrite (bool_decide_eq_false_2 (n' = "..")) by apply Hn'.
    by rewrite removelast_last. }
  eexists. split; [reflexivity|]. rewrite lookup_insert. split; [done|].
  intros [= E]. apply Hs. rewrite <- E in Hloc. done.
Qed.
Example ex_C109_refuted :
  let r := MkRev "u1" 5%Z (MkStats 7 (Some 3%Z) None) {["daily"]} ∅ TRUSTED "" in
  let x := MkRev "../vm2/u1" 1%Z (MkStats 0 (Some 1%Z) None) ∅ ∅ TRUSTED "" in
  info_place (place ["srv"] "vm2") "" "u1" = Ok ["srv"; "vm2"; "u1.rev"] /\
  (pull_reply "peer" (place ["srv"] "vm1") (fun _ => "") (fun _ => false) [x] {[ ["srv"; "vm2"; "u1.rev"] := r ]}).1
    !! ["srv"; "vm2"; "u1.rev"] = Some (mark "peer" x).
Proof. split; vm_compute; reflexivity. Qed.
Print Assumptions C109_refuted.
