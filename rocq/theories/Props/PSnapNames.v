(** C19, stated with the names of the snapshots. *)
From Coq Require Import Strings.String Strings.Ascii.
From Verif Require Import Props.PBackup.
From Verif Require Import Model.Revs Model.RbdBackup Proofs.SnapProofs Proofs.ExEnv.

(** [p] does not occur in [s]. *)
Fixpoint occurs (p s : string) : Prop :=
  String.prefix p s = true \/ match s with EmptyString => False | String _ s => occurs p s end.
Lemma remove_none p s : ~ occurs p s -> forall fuel, remove_all fuel p s = s.
Proof.
  induction s as [|a s IH]; intros Hn fuel; destruct fuel as [|fuel]; [done| |done|]; cbn [remove_all].
  - destruct (String.prefix p "") eqn:E; [|done]. exfalso. apply Hn. by left.
  - destruct (String.prefix p (String a s)) eqn:E; [exfalso; apply Hn; by left|].
    f_equal. apply IH. intros H. apply Hn. by right.
Qed.
Lemma substring_rest s : forall n, (String.length s <= n)%nat -> String.substring 0 n s = s.
Proof. induction s as [|a s IH]; intros [|n] H; cbn in *; try done; [lia|]. f_equal. apply IH. lia. Qed.
Lemma own_uuid u : ~ occurs "backy-" u -> snap_uuid ("backy-" +:+ u) = u.
Proof.
  intros Hn. unfold snap_uuid.
  assert (Hl : String.length ("backy-" +:+ u) = 6 + String.length u) by done. rewrite Hl.
  cbn [remove_all].
  assert (String.prefix "backy-" ("backy-" +:+ u) = true) as -> by (cbn; by destruct u).
  rewrite Hl.
  assert (String.substring (String.length "backy-") (6 + String.length u) ("backy-" +:+ u) = u) as ->.
  { cbn [String.length]. change ("backy-" +:+ u) with (String "b" (String "a" (String "c" (String "k" (String "y" (String "-" u)))))).
    cbn [String.substring]. apply substring_rest. lia. }
  by apply remove_none.
Qed.
(** After a backup that was not asked to be full always, of the snapshots that are called
    "backy-" and the id of a revision only that of the newest local revision is left (and those
    Ceph refuses to remove) - and that one is left. *)
Theorem C19_own_names E O B r s s' rb c :
  orders_ok O -> repo_ok E O r s -> backup E O false B r s = (s', rb) ->
  bk_ready B = true -> bk_snap B = Ok c -> bk_ls B = None ->
  (forall u x, ("backy-" +:+ u, x) ∈ rs_snaps s' -> ~ occurs "backy-" u ->
     bk_rm_fail B ("backy-" +:+ u) = true \/
     exists h y, get_history false true (rs_hist s) = h ++ [y] /\ u = r_uuid y) /\
  (forall h y x, get_history false true (rs_hist s) = h ++ [y] -> ~ occurs "backy-" (r_uuid y) ->
     ("backy-" +:+ r_uuid y, x) ∈ rs_snaps s \/ r_uuid y = r_uuid r /\ x = c ->
     ("backy-" +:+ r_uuid y, x) ∈ rs_snaps s').
Proof.
  intros HO Hrepo Hrun Hready Hsn Hls.
  assert (Hpre : forall u, startswith "backy-" ("backy-" +:+ u) = true).
  { intros u. unfold startswith. cbn. by destruct u. }
  split.
  - intros u x Hx Hu.
    destruct (C19_cleanup_partial E O false B r s s' rb c HO Hrepo Hrun Hready Hsn) as (_ & _ & H).
    destruct (H Hls _ Hx (Hpre u)) as [?|(_ & h & y & Hh & Hy)]; [by left|right].
    exists h, y. split; [done|]. cbn [fst] in Hy. by rewrite own_uuid in Hy.
  - intros h y x Hh Hu Hx.
    pose proof (backup_snaps E O false B r s s' rb HO Hrepo Hrun Hready) as Hs. rewrite Hsn, Hls in Hs. cbn zeta in Hs.
    rewrite Hs. apply elem_of_list_filter. split.
    + unfold kept_snap. apply orb_true_iff. left. apply orb_true_iff. right. cbn [negb andb fst].
      apply bool_decide_eq_true. rewrite own_uuid by done. unfold newest_local.
      rewrite last_map, Hh, last_snoc. done.
    + apply elem_of_app. destruct Hx as [Hx|[Hy ->]]; [by left|right]. apply elem_of_list_singleton.
      unfold snap_name. by rewrite Hy.
Qed.
Print Assumptions C19_own_names.
Definition ex_run_snaps := rs_snaps (backup ex_env ex_O false ex_B ex_new ex_s).1.
Example ex_C19_own_names :
  ex_run_snaps = [("manual"%string, bs "whatever"); ("backy-new"%string, bs "abXYefgh")] /\
  ~ occurs "backy-" "new" /\ ~ occurs "backy-" "3VYVnYEWJgMnnWzYTDj7jo".
Proof. split; [vm_compute; reflexivity|]. cbn. split; intros H; repeat destruct H as [H|H]; done. Qed.
