(** Running a program on a chunked file is running it on a plain file. *)
From Verif Require Export Model.Prog Proofs.ChunkedLog Proofs.ChunkedProofs Proofs.ChunkedThms.

Fixpoint prog_ok {A} (p : prog A) : Prop :=
  match p with
  | PRet _ | PRaise _ => True
  | POp o k => op_ok o /\ forall x, prog_ok (k x)
  end.
(** Whatever the file object returns: [p] ends by raising an exception
    satisfying P or returning a value satisfying Q. *)
Fixpoint post {A} (P : exn -> Prop) (Q : A -> Prop) (p : prog A) : Prop :=
  match p with
  | PRet a => Q a
  | PRaise e => P e
  | POp _ k => forall x, post P Q (k x)
  end.
Definition raises {A} (P : exn -> Prop) (p : prog A) : Prop := post P (fun _ => False) p.

Lemma pbind_ok {A B} (p : prog A) (k : A -> prog B) :
  prog_ok p -> (forall a, prog_ok (k a)) -> prog_ok (pbind p k).
Proof.
  intros Hp Hk. induction p as [a|e|o f IH]; cbn; [apply Hk|done|].
  destruct Hp as [Ho Hf]. split; [done|]. intros x. apply IH, Hf.
Qed.
Lemma do_op_ok o : op_ok o -> prog_ok (do_op o).
Proof. intros H. split; [done|]. done. Qed.
Lemma post_bind {A B} P Q Q' (p : prog A) (k : A -> prog B) :
  post P Q p -> (forall a, Q a -> post P Q' (k a)) -> post P Q' (pbind p k).
Proof.
  intros Hp Hk. induction p as [a|e|o f IH]; cbn in *; [apply Hk; done|done|].
  intros x. apply IH, Hp.
Qed.
Lemma raises_interp {S A} P (step : fop -> M S fout) (p : prog A) s :
  raises P p ->
  exists s' e, interp step p s = (s', Err e) /\
    (P e \/ exists o s0 s1, step o s0 = (s1, Err e)).
Proof.
  unfold raises. revert s. induction p as [a|e|o k IH]; intros s Hr; cbn in *; [done|eauto|].
  unfold bind. destruct (step o s) as [s1 [x|e]] eqn:Hs.
  - apply IH, Hr.
  - eauto 10.
Qed.

Lemma interp_bind {S A B} (step : fop -> M S fout) (p : prog A) (k : A -> prog B) s :
  interp step (pbind p k) s = bind (interp step p) (fun a => interp step (k a)) s.
Proof.
  revert s. induction p as [a|e|o f IH]; intros s; cbn; [done|done|].
  unfold bind. destruct (step o s) as [s1 [x|e]]; [|done].
  rewrite IH. done.
Qed.

Section Sim.
Context (E : env) (D : bytes -> Prop).
Hypothesis HCS : (0 < CS E)%Z.
Hypothesis Hlzo : lzo_ok E.
Hypothesis Dinj : forall c1 c2, D c1 -> D c2 -> hash E c1 = hash E c2 -> c1 = c2.

Lemma run_file_mono {A} (p : prog A) : mono E (run_file E p).
Proof.
  induction p as [a|e|o k IH]; cbn.
  - apply mono_ret.
  - apply mono_raise.
  - apply mono_bind; [apply file_step_mono|]. apply IH.
Qed.

Lemma prog_sim {A} (p : prog A) : forall f w s,
  prog_ok p -> R E D f w s -> LogD D (run_file E p (f, w)).1.2 ->
  let '(s', r) := run_flat p s in
  exists f' w', run_file E p (f, w) = ((f', w'), r) /\
    R E D f' w' s' /\ ext E (f_name f) w w' /\ f_name f' = f_name f.
Proof.
  induction p as [a|e|o k IH]; intros f w s Hok HR HL; cbn [run_file run_flat interp] in *.
  - exists f, w. split_and!; auto. apply sle_ext, sle_refl.
  - exists f, w. split_and!; auto. apply sle_ext, sle_refl.
  - destruct Hok as [Ho Hk].
    assert (HL1 : LogD D (file_step E o (f, w)).1.2).
    { eapply LogD_bind; [|exact HL]. intros x. apply run_file_mono. }
    pose proof (file_step_spec E D HCS Hlzo Dinj o f w s Ho HR HL1) as Hstep.
    unfold bind, run_file, run_flat in *. cbn [interp] in *. unfold bind in *.
    destruct (flat_step s o) as [s1 r]. destruct Hstep as (f1 & w1 & Heq & HR1 & He1 & Hn1).
    rewrite Heq in *. destruct r as [x|e].
    + specialize (IH x f1 w1 s1 (Hk x) HR1 HL).
      destruct (interp _ (k x) s1) as [s2 r2].
      destruct IH as (f2 & w2 & Heq2 & HR2 & He2 & Hn2).
      exists f2, w2. rewrite Heq2. split_and!; [done|done| |congruence].
      rewrite Hn1 in He2. eapply ext_trans; done.
    + exists f1, w1. auto.
Qed.
End Sim.
