(** C85: what the exit status of [backy restore] says. *)
From Coq.Strings Require Import Ascii.
From Verif Require Import Proofs.RestoreProofs Proofs.ExEnv Props.PVocab Spec.Image Spec.Backup.
From Verif Require Props.PBackup.
From Verif Require Import Model.RestoreCmd.

(** ** Specification *)
(** The image [c] was restored to [target]: appended to what stdout got, or the content
    of that file (of a device, which cannot be truncated, its beginning); nothing else
    changed. *)
Definition restored (X : outside) (c : bytes) (target : string) (s s' : target_side) : Prop :=
  if decide (target = "-")%string
  then s' = MkTarget (t_files s) (t_out s ++ c)
  else t_out s' = t_out s /\
       (forall f, f <> target -> t_files s' !! f = t_files s !! f) /\
       exists x, t_files s' !! target = Some x /\
         if x_truncate X target then x = c
         else exists old, old = match t_files s !! target with Some b => b | None => [] end /\
              x = c ++ drop (length c) old.
(** backy-extract is another program; if it exits with 0, it restored. *)
Definition extract_honest (X : outside) (u : string) (c : bytes) : Prop :=
  forall t s s', x_extract X u t s = (0%Z, s') -> restored X c t s s'.
(** The target reads like a request for help. *)
Definition asks_help (t : string) : Prop :=
  (exists x, t = "-h" +:+ x) \/ t ∈ ["--h"; "--he"; "--hel"; "--help"]%string.
(** An ordinary target. *)
Definition plain (t : string) : Prop := t = "-" \/ forall x, t <> "-" +:+ x.

(** ** The command line *)
Lemma backend_roundtrip b : backend_of (backend_value b) = Some b.
Proof. by destruct b. Qed.
Lemma classify_plain bundle t : plain t -> classify bundle t = Positional.
Proof.
  intros [->|H]; [done|]. destruct t as [|c r]; [done|]. cbn [classify].
  destruct (Ascii.eqb_spec c "-") as [->|Hne]; [|done]. exfalso. by apply (H r).
Qed.
Lemma no_option_help t r : no_option t r <> AskHelp.
Proof. unfold no_option. by destruct (_ || _). Qed.
Lemma after_none t : after_eq t = None -> before_eq t = t.
Proof.
  induction t as [|c r IH]; [done|]. cbn. destruct (Ascii.eqb c "="); [done|].
  intros H. f_equal. by apply IH.
Qed.
Lemma before_prefix t x : before_eq t = x -> exists y, t = x +:+ y.
Proof.
  intros <-. induction t as [|c r [y IH]]; [by exists ""%string|]. cbn [before_eq].
  destruct (Ascii.eqb c "="); [by eexists|]. exists y. exact (f_equal (String c) IH).
Qed.
Lemma help_abbrev r : startswith (String "-" (String "-" r)) "--help" = true -> r <> ""%string ->
  asks_help (String "-" (String "-" r)).
Proof.
  intros H Hr. right. apply V_startswith in H as [x H].
  injection H as H. destruct r as [|a r]; [done|]. injection H as <- H.
  destruct r as [|a r]; [set_solver|]. injection H as <- H.
  destruct r as [|a r]; [set_solver|]. injection H as <- H.
  destruct r as [|a r]; [set_solver|]. injection H as <- H.
  destruct r as [|a r]; [|done]. set_solver.
Qed.
Lemma classify_help bundle t : classify bundle t = AskHelp -> asks_help t.
Proof.
  destruct t as [|c r]; [done|]. cbn [classify].
  destruct (Ascii.eqb_spec c "-") as [->|]; [|done]. cbn [negb].
  destruct (decide (r = ""%string)) as [|Hr]; [done|].
  destruct (decide _) as [|Hdd]; [done|].
  destruct (decide _) as [[Hh|Hh]|Hnh].
  { intros _. left. exists ""%string. exact Hh. }
  { intros _. right. rewrite Hh. set_solver. }
  destruct (decide _) as [|Hb]; [done|].
  destruct (after_eq _) as [x|] eqn:Ea.
  - destruct (decide _) as [He|].
    { intros _. left. apply before_prefix in He as [y Hy]. by exists y. }
    destruct (decide _) as [|]; [done|].
    destruct r as [|d y]; [done|].
    destruct (Ascii.eqb_spec d "-") as [->|].
    { destruct (_ || _); [done|]. intros H. by apply no_option_help in H. }
    destruct (Ascii.eqb_spec d "h") as [->|].
    { intros _. left. by exists y. }
    intros H. by apply no_option_help in H.
  - destruct r as [|d y]; [done|].
    destruct (Ascii.eqb_spec d "-") as [->|].
    { destruct (startswith _ "--help") eqn:Es.
      - intros _. apply help_abbrev; [done|]. intros ->. by apply Hdd.
      - destruct (startswith _ "--backend"); [done|]. intros H. by apply no_option_help in H. }
    destruct (Ascii.eqb_spec d "h") as [->|].
    { intros _. left. by exists y. }
    intros H. by apply no_option_help in H.
Qed.

(** The child restores the revision, with the backend and to the target that the client
    was given, or it restores nothing. *)
Theorem C85_command_line : forall bundle u b t,
  (plain t -> parse_restore bundle u (to_cmdargs b t) = ToRestore u b t) /\
  (forall u' b' t', parse_restore bundle u (to_cmdargs b t) = ToRestore u' b' t' -> u' = u /\ b' = b /\ t' = t) /\
  (parse_restore bundle u (to_cmdargs b t) = HelpShown -> asks_help t).
Proof.
  intros bundle u b t. unfold parse_restore, to_cmdargs.
  rewrite (decide_True (P := "--backend"%string = "--backend"%string)) by done.
  rewrite backend_roundtrip. split; [|split].
  - intros H. by rewrite classify_plain.
  - intros u' b' t'. destruct (classify bundle t); [|done|done]. by intros [= <- <- <-].
  - destruct (classify bundle t) eqn:E; [done| |done]. intros _. by eapply classify_help.
Qed.
Print Assumptions C85_command_line.

(** ** The restore *)
Section Restore.
Context (E : env) (X : outside) (n : Z) (u : string) (c : bytes).
Context (HCS : (0 < CS E)%Z) (Hlzo : lzo_ok E) (Hn : (0 < n)%Z).

Lemma restored_file tr t (s : target_side) : tr = x_truncate X t -> t <> "-"%string ->
  restored X c t s (MkTarget (<[t := (if tr then c else c ++ zdrop (zlen c)
     (match t_files s !! t with Some b => b | None => [] end))]> (t_files s)) (t_out s)).
Proof.
  intros -> Ht. unfold restored. rewrite decide_False by done. cbn [t_files t_out].
  split; [done|]. split; [intros f Hf; by rewrite lookup_insert_ne|].
  eexists. split; [apply lookup_insert|]. destruct (x_truncate X t); [done|].
  eexists. split; [done|]. unfold zdrop, zlen. by rewrite Nat2Z.id.
Qed.

(** A store in which nothing was forged, compared with the undamaged [d0]. *)
Lemma source_ok w d0 b t s s' :
  d_maps (w_disk w) !! u = d_maps d0 !! u -> intact E d0 u -> image_is E d0 u c ->
  not_forged E d0 (w_disk w) u -> extract_honest X u c ->
  restore_source E X n u b t w s = (s', Ok tt) -> restored X c t s s'.
Proof.
  intros Hm Hi Hc Hf Hx. unfold restore_source, file_open. rewrite Hm.
  pose proof Hc as (m & Hd & _). rewrite Hd.
  set (b' := match b with Auto => _ | _ => _ end). cbn [f_size] in *.
  assert (Hp : restore_python E X n (zlen c) u t w s = (s', Ok tt) -> restored X c t s s').
  { unfold restore_python. destruct (x_lock X); [|done]. cbn [negb].
    pose proof (PBackup.C20_damaged E u c n (Z.to_nat (zlen c)) (x_truncate X t)
      (t_files s !! t) w d0 HCS Hlzo Hn ltac:(unfold zlen; lia) Hm Hi Hc Hf) as (_ & Hr & Ho).
    destruct (decide (t = "-"%string)) as [->|Ht].
    - destruct (restore_stdout E n _ u w).2 as [x|e] eqn:Ex; [|done].
      rewrite (Ho x eq_refl). intros [= <-]. unfold restored. by rewrite decide_True by done.
    - destruct (x_openable X t); [|done]. cbn [negb].
      destruct (restore_file E n _ u _ w).2 as [[x z]|e] eqn:Ex; [|done].
      pose proof (Hr _ eq_refl) as Hxz.
      intros [= <-]. apply (f_equal fst) in Hxz. cbn [fst] in Hxz. rewrite Hxz.
      by apply restored_file. }
  assert (Hr : restore_rust X u t s = (s', Ok tt) -> restored X c t s s').
  { unfold restore_rust. destruct (x_extract X u t s) as [e s1] eqn:Ee.
    destruct (Z.eqb_spec e 0) as [->|]; [|done]. intros [= <-]. by apply Hx. }
  destruct b' eqn:Eb; auto.
Qed.
Lemma source_plain w b t s :
  intact E (w_disk w) u -> image_is E (w_disk w) u c ->
  x_lock X = true -> (t <> "-"%string -> x_openable X t = true) ->
  b = Python \/ b = Auto /\ x_version X = None ->
  exists s', restore_source E X n u b t w s = (s', Ok tt) /\ restored X c t s s'.
Proof.
  intros Hi Hc Hl Ho Hb. unfold restore_source, file_open.
  pose proof Hc as (m & Hd & _). rewrite Hd. cbn [f_size].
  assert (Hp : exists s', restore_python E X n (zlen c) u t w s = (s', Ok tt) /\ restored X c t s s').
  { unfold restore_python. rewrite Hl. cbn [negb].
    destruct (decide (t = "-"%string)) as [->|Ht].
    - rewrite (stdout_exact E u c HCS Hlzo n) by (first [done|unfold zlen; lia]).
      eexists. split; [done|]. unfold restored. by rewrite decide_True by done.
    - rewrite (Ho Ht). cbn [negb]. rewrite (restore_exact E u c HCS Hlzo n) by done.
      eexists. split; [done|]. by apply restored_file. }
  destruct Hb as [->|[-> Hv]]; [exact Hp|].
  unfold extract_supported. rewrite Hv. by destruct (negb _).
Qed.
End Restore.

(** ** C85 *)
(** Exit status 0 means the target holds the image, unless the target reads like a request
    for help: whatever happened to the chunk files since (nothing forged), whoever removed
    them, whichever backend was chosen, whether the revision was found or not. *)
Theorem C85_success_partial :
  forall E X n u c bundle known found b t w d0 s s',
  (0 < CS E)%Z -> lzo_ok E -> (0 < n)%Z ->
  d_maps (w_disk w) !! u = d_maps d0 !! u -> intact E d0 u -> image_is E d0 u c ->
  not_forged E d0 (w_disk w) u -> extract_honest X u c ->
  (forall v, found = Ok v -> v = u) ->
  ~ asks_help t ->
  restore_cmd E X n bundle known found b t w s = (s', 0%Z) ->
  restored X c t s s'.
Proof.
  intros E X n u c bundle known found b t w d0 s s' H1 H2 H3 Hm Hi Hc Hf Hx Hu Hh.
  unfold restore_cmd. destruct found as [v|e]; [|done]. rewrite (Hu v eq_refl).
  unfold child_restore. destruct (C85_command_line bundle u b t) as (_ & Hr & Hhelp).
  destruct (parse_restore bundle u (to_cmdargs b t)) as [u' b' t'| |]; [|by destruct Hh; apply Hhelp|done].
  destruct (Hr _ _ _ eq_refl) as (-> & -> & ->).
  destruct (decide (u ∈ known)); [|done].
  destruct (restore_source E X n u b t w s) as [s1 [[]|e1]] eqn:Es; [|done].
  intros [= <-]. by eapply source_ok.
Qed.
Print Assumptions C85_success_partial.
(** An ordinary restore does succeed. *)
Theorem C85_ordinary :
  forall E X n u c bundle known b t w s,
  (0 < CS E)%Z -> lzo_ok E -> (0 < n)%Z ->
  intact E (w_disk w) u -> image_is E (w_disk w) u c -> u ∈ known ->
  x_lock X = true -> (t <> "-"%string -> x_openable X t = true) ->
  b = Python \/ b = Auto /\ x_version X = None ->
  plain t ->
  exists s', restore_cmd E X n bundle known (Ok u) b t w s = (s', 0%Z) /\ restored X c t s s'.
Proof.
  intros E X n u c bundle known b t w s H1 H2 H3 Hi Hc Hk Hl Ho Hb Hp.
  destruct (source_plain E X n u c H1 H2 H3 w b t s Hi Hc Hl Ho Hb) as (s' & Hs & Hr).
  exists s'. split; [|done]. unfold restore_cmd, child_restore.
  destruct (C85_command_line bundle u b t) as (Hpl & _). rewrite (Hpl Hp).
  rewrite decide_True by done. by rewrite Hs.
Qed.
Print Assumptions C85_ordinary.
(** If a chunk of the image cannot be read any more, the Python backend reports failure. *)
Theorem C85_damaged :
  forall E X n u c bundle known t w d0 s,
  (0 < CS E)%Z -> lzo_ok E -> (0 < n)%Z ->
  d_maps (w_disk w) !! u = d_maps d0 !! u -> intact E d0 u -> image_is E d0 u c ->
  not_forged E d0 (w_disk w) u -> damaged E (w_disk w) u -> ~ asks_help t ->
  (restore_cmd E X n bundle known (Ok u) Python t w s).2 <> 0%Z.
Proof.
  intros E X n u c bundle known t w d0 s H1 H2 H3 Hm Hi Hc Hf Hd Hh.
  unfold restore_cmd, child_restore. destruct (C85_command_line bundle u Python t) as (_ & Hr & Hhelp).
  destruct (parse_restore bundle u (to_cmdargs Python t)) as [u' b' t'| |]; [|by destruct Hh; apply Hhelp|done].
  destruct (Hr _ _ _ eq_refl) as (-> & -> & ->).
  destruct (decide (u ∈ known)); [|done].
  unfold restore_source, file_open. rewrite Hm. pose proof Hc as (m & Hdm & _). rewrite Hdm. cbn [f_size].
  pose proof (PBackup.C20_damaged E u c n (Z.to_nat (zlen c)) (x_truncate X t)
      (t_files s !! t) w d0 H1 H2 H3 ltac:(unfold zlen; lia) Hm Hi Hc Hf) as (Hbad & _).
  destruct (Hbad Hd) as [[e1 He1] [e2 He2]].
  unfold restore_python. destruct (x_lock X); [|done]. cbn [negb].
  destruct (decide (t = "-"%string)).
  - by rewrite He2.
  - destruct (x_openable X t); [|done]. cbn [negb]. by rewrite He1.
Qed.
Print Assumptions C85_damaged.
(** False in general: whatever the repository holds, restoring to a target called "-h" (or
    "--help", ...) is reported as successful, and no file was touched. *)
Theorem C85_refuted :
  forall E X n bundle known u b t w s, t ∈ ["-h"; "--h"; "--help"]%string ->
  exists s', restore_cmd E X n bundle known (Ok u) b t w s = (s', 0%Z) /\ t_files s' = t_files s.
Proof.
  intros E X n bundle known u b t w s Ht.
  assert (Hh : parse_restore bundle u (to_cmdargs b t) = HelpShown).
  { unfold parse_restore, to_cmdargs.
    rewrite (decide_True (P := "--backend"%string = "--backend"%string)) by done.
    rewrite backend_roundtrip.
    repeat (apply elem_of_cons in Ht as [->|Ht]; [vm_compute; reflexivity|]). by apply elem_of_nil in Ht. }
  unfold restore_cmd, child_restore. rewrite Hh. eexists. split; [done|]. done.
Qed.
Print Assumptions C85_refuted.

Definition ex_X : outside := MkOutside None (fun _ _ s => (1%Z, s)) (fun f => negb (String.eqb f "")) (fun _ => true) [] true.
Example ex_C85 :
  let w := MkWorld PBackup.ex_disk [] ∅ false in
  let s := MkTarget {["/dev/x"%string := bs "something longer"]} [] in
  let cmd b t := restore_cmd ex_env ex_X 3 (fun _ => false) {["old"%string]} (Ok "old"%string) b t w s in
  extract_honest ex_X "old" (bs "abcdefgh") /\ ~ asks_help "/dev/x" /\ plain "/dev/x" /\
  intact ex_env PBackup.ex_disk "old" /\ image_is ex_env PBackup.ex_disk "old" (bs "abcdefgh") /\
  (cmd Auto "/dev/x"%string).2 = 0%Z /\
  map_to_list (t_files (cmd Auto "/dev/x"%string).1) = [("/dev/x"%string, bs "abcdefgh")] /\
  t_out (cmd Python "-"%string).1 = bs "abcdefgh" /\
  (cmd Rust "/dev/x"%string).2 = 1%Z /\ (cmd Auto "-x"%string).2 = 2%Z /\ (cmd Auto ""%string).2 = 1%Z /\
  map_to_list (t_files (cmd Auto "-12.5"%string).1) = [("-12.5"%string, bs "abcdefgh"); ("/dev/x"%string, bs "something longer")].
Proof.
  cbv zeta. split; [intros t s s' [=]|].
  split. { intros [[x H]|H]; [discriminate H|]. by repeat (apply elem_of_cons in H as [[=]|H]); apply elem_of_nil in H. }
  split. { right. intros x [=]. }
  destruct PBackup.C20_cases as (H1 & H2 & _). split; [exact H1|]. split; [exact H2|].
  repeat split; vm_compute; reflexivity.
Qed.
