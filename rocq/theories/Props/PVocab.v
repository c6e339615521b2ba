(** The words used in the statements.  Theorems in Props/ mention a few functions of
    the model that are not the subject of the claim but part of its wording
    ("complete", "local", "starts with", "trailing blanks", ...).  Here each of them
    is pinned down without reference to how the model computes it, so that a change
    of the model's helper cannot silently change what a theorem says. *)
From Coq.Strings Require Import Ascii.
From Verif Require Import Props.PCallback Props.PRbdMap Props.PSync Props.PLocks
  Model.Fstree Model.Copy Model.Exit Model.Locks Model.Status Model.Sync Model.RbdMap
  Model.RevSpec Model.Repo Model.RbdBackup Model.Revs.

(** ** Sizes and slices *)
Theorem V_zlen : forall (l : bytes), zlen (@nil byte) = 0%Z /\
  forall b, zlen (b :: l) = (zlen l + 1)%Z.
Proof. intros l. split; [done|]. intros b. unfold zlen. cbn [length]. lia. Qed.
Theorem V_slices : forall (l : bytes) n, (0 <= n)%Z ->
  l = ztake n l ++ zdrop n l /\ zlen (ztake n l) = Z.min n (zlen l).
Proof.
  intros l n Hn. unfold ztake, zdrop, zlen. split; [by rewrite take_drop|].
  rewrite take_length. lia.
Qed.
Theorem V_zeros : forall n, (0 <= n)%Z ->
  zlen (zeros n) = n /\ forall b, b ∈ zeros n -> b = x00.
Proof.
  intros n Hn. unfold zeros, zlen. rewrite replicate_length. split; [lia|].
  intros b Hb. by apply elem_of_replicate in Hb as [-> _].
Qed.
(** reading n bytes at p *)
Theorem V_read_at : forall pre x post, read_at (pre ++ x ++ post) (zlen pre) (zlen x) = x.
Proof.
  intros. unfold read_at, ztake, zdrop, zlen. rewrite !Nat2Z.id, drop_app, take_app. done.
Qed.
(** the hole size of copy_overwrite: 4 MiB, 40 MiB for sources over 500 GiB *)
Theorem V_punch : forall size,
  punch_size_for PUNCH_SIZE size = (if decide (size <= 500 * 2^30)%Z then 4 * 2^20 else 40 * 2^20)%Z.
Proof.
  intros size. unfold punch_size_for. change (500 * 2 ^ 30)%Z with 536870912000%Z.
  destruct (decide _), (Z.ltb_spec 536870912000 size); try lia; done.
Qed.

(** ** Strings *)
Lemma prefix_spec p : forall s, String.prefix p s = true <-> exists rest, s = p +:+ rest.
Proof.
  induction p as [|a p IH]; intros s; cbn.
  - destruct s; split; intros; eauto.
  - destruct s as [|b s]; cbn.
    + split; [done|]. by intros [? [=]].
    + destruct (ascii_dec a b) as [->|Hne].
      * rewrite IH. split; intros [r H]; exists r; [by rewrite H|by injection H].
      * split; [done|]. intros [r [=]]. congruence.
Qed.
Theorem V_startswith : forall p s, startswith p s = true <-> exists rest, s = p +:+ rest.
Proof. intros. apply prefix_spec. Qed.
Theorem V_manual : forall t, is_manual t = true <-> exists rest, t = "manual:" +:+ rest.
Proof. intros. apply prefix_spec. Qed.
Theorem V_schedule_tags : forall X t,
  t ∈ schedule_tags X <-> t ∈ X /\ ~ exists rest, t = "manual:" +:+ rest.
Proof.
  intros. unfold schedule_tags. rewrite elem_of_filter, <- V_manual.
  destruct (is_manual t); naive_solver.
Qed.
Theorem V_sched_keys : forall (S0 : sched) t, t ∈ sched_keys S0 <-> exists i, (t, i) ∈ S0.
Proof.
  intros. unfold sched_keys. rewrite elem_of_list_to_set, elem_of_list_fmap. split.
  - intros ([? i] & -> & H). eauto.
  - intros [i H]. by exists (t, i).
Qed.
Theorem V_contains : forall sub s,
  contains sub s = true <-> exists a b, s = a +:+ sub +:+ b.
Proof.
  intros sub. induction s as [|c s IH]; cbn [contains].
  - rewrite orb_false_r, prefix_spec. split.
    + intros [r H]. by exists "", r.
    + intros (a & b & H). destruct a; [|done]. eauto.
  - rewrite orb_true_iff, prefix_spec, IH. split.
    + intros [[r H]|(a & b & ->)]; [by exists "", r|]. by exists (String c a), b.
    + intros (a & b & H). destruct a as [|c' a].
      * left. eauto.
      * right. injection H as -> ->. eauto.
Qed.
(** blanks: tab, newline, vertical tab, form feed, carriage return, 28-31, space *)
Theorem V_is_ws : forall c,
  is_ws c = true <-> nat_of_ascii c ∈ [9; 10; 11; 12; 13; 28; 29; 30; 31; 32].
Proof.
  intros c. destruct c as [[] [] [] [] [] [] [] []];
    (split; intros H;
     [apply (bool_decide_eq_true_1 _); first [vm_compute; reflexivity|exfalso; discriminate H]
     |apply (bool_decide_eq_true_2 _) in H; vm_compute in H; first [reflexivity|discriminate H]]).
Qed.
Theorem V_sep1 : forall c, sep1 c = true <-> c ∈ ["("; ")"; ","; "&"]%char.
Proof.
  intros c. destruct c as [[] [] [] [] [] [] [] []];
    (split; intros H;
     [apply (bool_decide_eq_true_1 _); first [vm_compute; reflexivity|exfalso; discriminate H]
     |apply (bool_decide_eq_true_2 _) in H; vm_compute in H; first [reflexivity|discriminate H]]).
Qed.

Lemma lstrip_spec l : exists a, l = a ++ lstrip l /\ Forall (fun c => is_ws c = true) a /\
  (forall c r, lstrip l = c :: r -> is_ws c = false).
Proof.
  induction l as [|c l IH]; cbn.
  - exists []. split; [done|]. split; [constructor|done].
  - destruct (is_ws c) eqn:E.
    + destruct IH as (a & H1 & H2 & H3). exists (c :: a). split; [by rewrite <- app_comm_cons, <- H1|].
      split; [by constructor|done].
    + exists []. split; [done|]. split; [constructor|]. by intros ? ? [= <- <-].
Qed.
(** [strip]: what is left has no blank at either end, and only blanks went. *)
Theorem V_strip : forall s, exists a b,
  chars s = a ++ chars (strip s) ++ b /\
  Forall (fun c => is_ws c = true) a /\ Forall (fun c => is_ws c = true) b /\
  (forall c, head (chars (strip s)) = Some c -> is_ws c = false) /\
  (forall c, last (chars (strip s)) = Some c -> is_ws c = false).
Proof.
  intros s. unfold strip. rewrite String.list_ascii_of_string_of_list_ascii.
  unfold strip_chars. set (l := chars s).
  destruct (lstrip_spec l) as (a & H1 & H2 & H3).
  destruct (lstrip_spec (reverse (lstrip l))) as (b & H4 & H5 & H6).
  set (m := lstrip (reverse (lstrip l))) in *.
  assert (H4' : lstrip l = reverse m ++ reverse b).
  { rewrite <- (reverse_involutive (lstrip l)), H4. apply reverse_app. }
  exists a, (reverse b). split; [by rewrite <- H4'|]. split; [done|].
  split; [by apply Forall_reverse|]. split.
  - intros c Hc. destruct (reverse m) as [|x r] eqn:E; [done|].
    cbn in Hc. injection Hc as ->. apply (H3 c (r ++ reverse b)). by rewrite H4'.
  - intros c Hc. destruct m as [|x r] eqn:E; [done|].
    rewrite reverse_cons, last_snoc in Hc. injection Hc as ->. by eapply H6.
Qed.
(** [lower]: letter by letter, A-Z to a-z. *)
Theorem V_lower : forall s, chars (lower s) = map lower_char (chars s).
Proof. intros. unfold lower. by rewrite String.list_ascii_of_string_of_list_ascii. Qed.
Theorem V_lower_char : forall c,
  nat_of_ascii (lower_char c) =
  (if decide (65 <= nat_of_ascii c <= 90) then nat_of_ascii c + 32 else nat_of_ascii c)%nat.
Proof. intros c. destruct c as [[] [] [] [] [] [] [] []]; vm_compute; reflexivity. Qed.

(** [", ".join(l)] *)
Theorem V_joined : forall sep x l, joined sep [] = "" /\ joined sep [x] = x /\
  (l <> [] -> joined sep (x :: l) = x +:+ sep +:+ joined sep l).
Proof. intros sep x l. split; [done|]. split; [done|]. by destruct l. Qed.

(** letters, digits, "_" and "-" *)
Theorem V_plain_char : forall c, plain_char c = true <->
  c ∈ String.list_ascii_of_string "0123456789ABCDEFGHIJKLMNOPQRSTUVWXYZabcdefghijklmnopqrstuvwxyz_-".
Proof.
  intros c. destruct c as [[] [] [] [] [] [] [] []];
    (split; intros H;
     [apply (bool_decide_eq_true_1 _); first [vm_compute; reflexivity|exfalso; discriminate H]
     |apply (bool_decide_eq_true_2 _) in H; vm_compute in H; first [reflexivity|discriminate H]]).
Qed.
Theorem V_str_all : forall P s, str_all P s = true <-> Forall (fun c => P c = true) (chars s).
Proof.
  intros P. induction s as [|c s IH]; cbn.
  - split; [constructor|done].
  - rewrite andb_true_iff, Forall_cons, IH. done.
Qed.
(** "^<p>$" finds s: character by character, a dot stands for any character but a
    newline, and one newline may follow. *)
Theorem V_match_name : forall p s, match_name p s = true <->
  exists t, Forall2 (fun a c => a = "."%char /\ c <> "010"%char \/ a <> "."%char /\ a = c)
              (chars p) (chars t) /\ (s = t \/ s = t +:+ String "010" EmptyString).
Proof.
  induction p as [|a p IH]; intros s.
  - destruct s as [|c s]; cbn.
    + split; [|done]. intros _. exists "". split; [constructor|auto].
    + destruct s as [|c' s].
      * rewrite bool_decide_eq_true. split.
        -- intros ->. exists "". split; [constructor|auto].
        -- intros (t & Ht & H). apply Forall2_nil_inv_l in Ht. destruct t; [|done].
           destruct H as [H|H]; [done|]. by injection H.
      * split; [done|]. intros (t & Ht & H). apply Forall2_nil_inv_l in Ht.
        destruct t; [|done]. by destruct H.
  - destruct s as [|c s].
    { split.
      - cbn. by destruct a as [[] [] [] [] [] [] [] []].
      - intros (t & Ht & H). cbn in Ht. destruct t; [by inversion Ht|]. by destruct H. }
    assert (E : match_name (String a p) (String c s) =
      (if decide (a = "."%char) then negb (bool_decide (c = "010"%char)) else bool_decide (a = c))
      && match_name p s).
    { cbn [match_name]. by destruct a as [[] [] [] [] [] [] [] []]. }
    rewrite E, andb_true_iff, IH. clear E IH. split.
    + intros (Hc & t & Ht & H). exists (String c t). split.
      * cbn. constructor; [|done]. destruct (decide _) as [->|Hd].
        -- left. split; [done|]. intros ->. done.
        -- right. split; [done|]. by apply bool_decide_eq_true in Hc.
      * destruct H as [->| ->]; [by left|by right].
    + intros (t & Ht & H). cbn in Ht. destruct t as [|c' t]; [by inversion Ht|].
      cbn in Ht. apply Forall2_cons in Ht as [Hc Ht].
      assert (c' = c /\ (s = t \/ s = t +:+ String "010" "")) as [-> Hs].
      { destruct H as [H|H]; injection H as -> ->; auto. }
      split; [|by exists t].
      destruct Hc as [[-> Hc]|[Hn ->]].
      * rewrite decide_True by done. by rewrite bool_decide_false.
      * rewrite decide_False by done. by rewrite bool_decide_true.
Qed.
Theorem V_asked : forall q name, asked q name = true <->
  q = All \/ exists p, q = Named p /\ match_name p name = true.
Proof. intros [|p] name; cbn; naive_solver. Qed.

(** ** Revisions *)
Theorem V_is_clean : forall r, is_clean r = true <-> exists d, s_duration (r_stats r) = Some d.
Proof. intros r. unfold is_clean. destruct (s_duration _); naive_solver. Qed.
Theorem V_is_local : forall r, is_local r = true <-> r_server r = "".
Proof. intros r. apply bool_decide_eq_true. Qed.
(** [history(clean, local)]: in the same order, exactly those wanted. *)
Theorem V_get_history : forall clean local h,
  sublist (get_history clean local h) h /\
  forall r, r ∈ get_history clean local h <-> r ∈ h /\
    (clean = true -> s_duration (r_stats r) <> None) /\ (local = true -> r_server r = "").
Proof.
  intros clean local h. split.
  { induction h as [|x h IH]; [constructor|]. unfold get_history in *. cbn.
    case_decide; by constructor. }
  intros r. unfold get_history.
  rewrite elem_of_list_filter, andb_true_iff, !orb_true_iff, !negb_true_iff.
  unfold is_clean. rewrite V_is_local. destruct clean, local, (s_duration (r_stats r)); naive_solver.
Qed.
Theorem V_with : forall r,
  (forall t, with_trust t r = MkRev (r_uuid r) (r_ts r) (r_stats r) (r_tags r) (r_orig r) t (r_server r)) /\
  (forall t, with_tags t r = MkRev (r_uuid r) (r_ts r) (r_stats r) t (r_orig r) (r_trust r) (r_server r)) /\
  (forall t, with_orig t r = MkRev (r_uuid r) (r_ts r) (r_stats r) (r_tags r) t (r_trust r) (r_server r)).
Proof. done. Qed.
(** remote, complete, tags changed here, and on a server that is asked *)
Theorem V_push_work : forall peers h r, r ∈ push_work peers h <->
  r ∈ h /\ s_duration (r_stats r) <> None /\ r_server r <> "" /\ r_tags r <> r_orig r /\
  r_server r ∈ peers.
Proof.
  intros peers h r. unfold push_work, pending.
  rewrite elem_of_list_filter, !andb_true_iff, !negb_true_iff, !bool_decide_eq_true, !bool_decide_eq_false.
  rewrite (proj2 (V_get_history true false h)). naive_solver.
Qed.

(** ** Snapshots *)
Theorem V_snap_name : forall u, snap_name u = "backy-" +:+ u.
Proof. done. Qed.
Lemma sub_all s : forall n, (String.length s <= n)%nat -> String.substring 0 n s = s.
Proof.
  induction s as [|c s IH]; intros [|n] H; cbn in *; try done; [lia|]. rewrite IH by lia. done.
Qed.
Lemma remove_all_id f u : ~ (exists a b, u = a +:+ "backy-" +:+ b) -> remove_all f "backy-" u = u.
Proof.
  revert u. induction f as [|f IH]; intros u H; [done|]. cbn [remove_all].
  destruct (String.prefix "backy-" u) eqn:E.
  { exfalso. apply H. apply prefix_spec in E as [r ->]. by exists "", r. }
  destruct u as [|c u]; [done|]. f_equal. apply IH. intros (a & b & ->). apply H.
  by exists (String c a), b.
Qed.
Theorem V_snap_uuid : forall u,
  ~ (exists a b, u = a +:+ "backy-" +:+ b) -> snap_uuid (snap_name u) = u.
Proof.
  intros u H. unfold snap_uuid, snap_name. cbn [remove_all].
  assert (E : String.prefix "backy-" ("backy-" +:+ u) = true) by (apply prefix_spec; eauto).
  change (String.append "backy-" u) with ("backy-" +:+ u). rewrite E.
  assert (E2 : String.substring (String.length "backy-") (String.length ("backy-" +:+ u))
    ("backy-" +:+ u) = u) by (cbn; apply sub_all; do 6 apply Nat.le_le_succ_r; reflexivity).
  rewrite E2. by apply remove_all_id.
Qed.

(** ** Errors and operations *)
Theorem V_backend : forall e, is_backend_exn e = true <-> e = BackendException \/ e = InconsistentHash.
Proof. intros []; cbn; naive_solver. Qed.
Theorem V_client_error : forall e, is_client_error e = true <->
  (exists c, e = ClientResponseError c) \/ e = ClientConnectionError \/ e = ClientError.
Proof. intros []; cbn; naive_solver. Qed.
Theorem V_is_async : forall o, is_async o = true <-> o = PushMetadata \/ o = PullMetadata.
Proof. intros []; cbn; naive_solver. Qed.
(** Who declares which lock. *)
Theorem V_declared : forall o,
  ((".backup"%string, Exclusive) ∈ declared o <->
     o ∈ [Backup; Clean; Rm; Expire; Tags; Distrust; PushMetadata; PullMetadata]) /\
  ((".purge"%string, Exclusive) ∈ declared o <-> o = Gc) /\
  ((".purge"%string, Shared) ∈ declared o <-> o ∈ [Backup; Verify; RestoreFile; RestoreStdout]) /\
  (".backup"%string, Shared) ∉ declared o.
Proof.
  intros []; (split; [|split; [|split]]); cbn [declared];
    rewrite ?elem_of_cons, ?elem_of_nil; naive_solver.
Qed.
Theorem V_exit_status : forall n, (0 <= n < 256)%Z -> exit_status n = n.
Proof. intros. by apply Z.mod_small. Qed.

(** ** Directory entries *)
Theorem V_mtime : forall t l, n_mtime (NFile t) = t /\ n_mtime (NLink t) = t /\ n_mtime (NDir t l) = t.
Proof. done. Qed.

Print Assumptions V_zlen.
Print Assumptions V_slices.
Print Assumptions V_zeros.
Print Assumptions V_read_at.
Print Assumptions V_punch.
Print Assumptions V_startswith.
Print Assumptions V_manual.
Print Assumptions V_schedule_tags.
Print Assumptions V_sched_keys.
Print Assumptions V_contains.
Print Assumptions V_is_ws.
Print Assumptions V_sep1.
Print Assumptions V_strip.
Print Assumptions V_lower.
Print Assumptions V_lower_char.
Print Assumptions V_joined.
Print Assumptions V_plain_char.
Print Assumptions V_str_all.
Print Assumptions V_match_name.
Print Assumptions V_asked.
Print Assumptions V_is_clean.
Print Assumptions V_is_local.
Print Assumptions V_get_history.
Print Assumptions V_with.
Print Assumptions V_push_work.
Print Assumptions V_snap_name.
Print Assumptions V_snap_uuid.
Print Assumptions V_backend.
Print Assumptions V_client_error.
Print Assumptions V_is_async.
Print Assumptions V_declared.
Print Assumptions V_exit_status.
Print Assumptions V_mtime.
