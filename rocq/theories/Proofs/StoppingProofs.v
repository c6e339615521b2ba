(** Lemmas about the event loop of Model/Stopping.v. *)
From Verif Require Import Model.Base.
From Verif Require Import Model.Stopping.

Definition steps (q : list handle) : list nat := omap (fun h => match h with HStep i => Some i | _ => None end) q.
Lemma steps_app q1 q2 : steps (q1 ++ q2) = steps q1 ++ steps q2.
Proof. apply omap_app. Qed.
Lemma elem_steps i q : i ∈ steps q <-> HStep i ∈ q.
Proof.
  unfold steps. rewrite elem_of_list_omap. split.
  - intros ([] & H & E); try discriminate. by injection E as ->.
  - intros H. by exists (HStep i).
Qed.
Definition queued (s : loop) (i : nat) : Prop := exists x, lp_tasks s !! i = Some x /\ tk_at x = AQueued.
(** The steps among the ready handles are those of the tasks that are to be stepped, each once. *)
Definition NQ (s : loop) : Prop :=
  NoDup (steps (lp_now s ++ lp_next s)) /\ forall i, i ∈ steps (lp_now s ++ lp_next s) <-> queued s i.

(** What creating and cancelling tasks does to a state; [b]: also [shutdown_loop] may be
    cancelled; [R]: the roles of the new tasks. *)
Record quiet (b : bool) (R : role -> Prop) (s s' : loop) : Prop := {
  qu_now : lp_now s' = lp_now s;
  qu_stopping : lp_stopping s' = lp_stopping s;
  qu_procs : lp_procs s' = lp_procs s;
  qu_told : lp_told s' = lp_told s;
  qu_next : exists l, lp_next s' = lp_next s ++ l /\ forall h, h ∈ l -> exists i, h = HStep i;
  qu_old : forall i x, lp_tasks s !! i = Some x -> exists x', lp_tasks s' !! i = Some x' /\
    tk_role x' = tk_role x /\ tk_started x' = tk_started x /\ (tk_throw x = true -> tk_throw x' = true) /\
    (b = false -> tk_role x = RShutdown -> x' = x) /\ (tk_at x' = AWait -> tk_throw x' = tk_throw x) /\
    (tk_at x' = tk_at x \/ tk_at x = AWait /\ tk_at x' = AQueued /\ tk_throw x' = true);
  qu_new : forall i x', lp_tasks s' !! i = Some x' -> lp_tasks s !! i = None ->
    tk_started x' = false /\ tk_at x' = AQueued /\ R (tk_role x');
  qu_nq : NQ s -> NQ s' }.
Lemma quiet_refl b R s : quiet b R s s.
Proof.
  constructor; try done.
  - exists []. rewrite app_nil_r. split; [done|]. intros h Hh. by apply elem_of_nil in Hh.
  - intros i x H. exists x. split_and!; try done. by left.
  - intros i x H H'. congruence.
Qed.
Lemma quiet_weaken b R s s' : quiet b R s s' -> quiet true R s s'.
Proof.
  intros [A1 A2 A3 A4 A5 A6 A7 A8]. constructor; try done.
  intros i x Hx. destruct (A6 i x Hx) as (x' & H1 & H2 & H3 & H4 & H5 & H5' & H6). exists x'. by split_and!.
Qed.
Lemma quiet_trans b R s1 s2 s3 : quiet b R s1 s2 -> quiet b R s2 s3 -> quiet b R s1 s3.
Proof.
  intros A B. constructor.
  - by rewrite (qu_now _ _ _ _ B), (qu_now _ _ _ _ A).
  - by rewrite (qu_stopping _ _ _ _ B), (qu_stopping _ _ _ _ A).
  - by rewrite (qu_procs _ _ _ _ B), (qu_procs _ _ _ _ A).
  - by rewrite (qu_told _ _ _ _ B), (qu_told _ _ _ _ A).
  - destruct (qu_next _ _ _ _ A) as (l & E1 & Hl), (qu_next _ _ _ _ B) as (l' & E2 & Hl').
    exists (l ++ l'). rewrite E2, E1, app_assoc. split; [done|]. intros h [H|H]%elem_of_app; eauto.
  - intros i x Hx. destruct (qu_old _ _ _ _ A i x Hx) as (x' & H1 & H2 & H3 & H4 & H5 & H5' & H6).
    destruct (qu_old _ _ _ _ B i x' H1) as (y & G1 & G2 & G3 & G4 & G5 & G5' & G6).
    exists y. split_and!; try congruence; auto.
    + intros Hb Hr. rewrite G5, H5; [done..|congruence].
    + intros Hy. rewrite G5' by done. apply H5'. destruct G6 as [G6|(G6 & G7 & G8)]; congruence.
    + destruct H6 as [H6|(H6 & H7 & H8)].
      * destruct G6 as [G6|(G6 & G7 & G8)]; [left; congruence|right; split_and!; try done; congruence].
      * right. split_and!; [done| |auto]. destruct G6 as [G6|(G6 & G7 & G8)]; congruence.
  - intros i y Hy Hn. destruct (lp_tasks s2 !! i) as [x|] eqn:E.
    + destruct (qu_new _ _ _ _ A i x E Hn) as (H1 & H2 & H3).
      destruct (qu_old _ _ _ _ B i x E) as (y' & G1 & G2 & G3 & G4 & G5 & G5' & G6).
      assert (y' = y) as -> by congruence. split_and!; [congruence| |congruence].
      destruct G6 as [G6|(G6 & G7 & G8)]; congruence.
    + by apply (qu_new _ _ _ _ B i y).
  - intros N. by apply (qu_nq _ _ _ _ B), (qu_nq _ _ _ _ A).
Qed.

(** * Primitive changes *)
Lemma look_put i x s j : lp_tasks (put_task i x s) !! j =
  if bool_decide (i = j) then (if bool_decide (i < length (lp_tasks s)) then Some x else None) else lp_tasks s !! j.
Proof.
  cbn. case_bool_decide as H.
  - subst. case_bool_decide as H'.
    + by apply list_lookup_insert.
    + rewrite list_insert_ge by lia. apply lookup_ge_None_2. lia.
  - by apply list_lookup_insert_ne.
Qed.
Lemma look_put_eq i x y s : lp_tasks s !! i = Some y -> lp_tasks (put_task i x s) !! i = Some x.
Proof. intros H. cbn. apply list_lookup_insert. by apply lookup_lt_Some in H. Qed.
Lemma look_put_ne i x s j : i <> j -> lp_tasks (put_task i x s) !! j = lp_tasks s !! j.
Proof. intros H. cbn. by apply list_lookup_insert_ne. Qed.
(** The task whose step was taken from the queue gets another place. *)
Lemma NQ_put_other s i x y : lp_tasks s !! i = Some y ->
  (tk_at x = AQueued <-> tk_at y = AQueued) -> NQ s -> NQ (put_task i x s).
Proof.
  intros Hy Hx [N1 N2]. split; [done|]. intros j. cbn [lp_now lp_next put_task with_tasks]. rewrite (N2 j).
  unfold queued. destruct (decide (i = j)) as [<-|Hne].
  - rewrite (look_put_eq _ _ _ _ Hy), Hy. split; intros (z & [= <-] & Hz); eexists; (split; [done|]); tauto.
  - by rewrite look_put_ne.
Qed.
Lemma NQ_queue s i x y : lp_tasks s !! i = Some y -> tk_at y <> AQueued -> tk_at x = AQueued ->
  NQ s -> NQ (ready [HStep i] (put_task i x s)).
Proof.
  intros Hy Hn Hx [N1 N2]. split.
  - cbn. rewrite app_assoc, steps_app. apply NoDup_app. split; [done|]. split; [|cbn; apply NoDup_singleton].
    intros j Hj Hj'. cbn in Hj'. apply elem_of_list_singleton in Hj' as ->. apply N2 in Hj as (z & Hz & Hz'). congruence.
  - intros j. cbn [lp_now lp_next ready put_task with_tasks]. rewrite app_assoc, steps_app, elem_of_app, (N2 j).
    unfold queued. cbn [lp_tasks ready steps omap list_omap].
    change (lp_tasks (ready [HStep i] (put_task i x s))) with (lp_tasks (put_task i x s)).
    destruct (decide (i = j)) as [<-|Hne].
    + rewrite (look_put_eq _ _ _ _ Hy), Hy. split; [intros _; by exists x|]. intros _. right. by left.
    + rewrite look_put_ne by done. rewrite elem_of_list_singleton. split; [intros [H|H]; [done|congruence]|by left].
Qed.
Lemma NQ_ready s l : steps l = [] -> NQ s -> NQ (ready l s).
Proof.
  intros Hl [N1 N2]. unfold NQ, queued. cbn. rewrite app_assoc, steps_app, Hl, app_nil_r. by split.
Qed.
Lemma omap_steps_map l : steps (map HStep l) = l.
Proof. induction l as [|x l IH]; [done|]. cbn. f_equal. apply IH. Qed.
Lemma quiet_new l s : quiet false (fun r => r ∈ l) s (new_tasks l s).
Proof.
  constructor; try done.
  - cbn. eexists. split; [done|]. intros h (i & -> & _)%elem_of_list_fmap. by exists i.
  - intros i x Hx. exists x. split_and!; try done; [|by left]. cbn. by apply lookup_app_l_Some.
  - intros i x H Hn. cbn in H. apply lookup_ge_None in Hn. rewrite lookup_app_r in H by done.
    rewrite list_lookup_fmap in H. destruct (l !! (i - length (lp_tasks s))) as [r|] eqn:E; [|done].
    cbn in H. injection H as <-. split_and!; try done. by apply elem_of_list_lookup_2 in E.
  - intros [N1 N2]. split.
    + cbn. rewrite app_assoc, steps_app, omap_steps_map. apply NoDup_app. split; [done|]. split; [|apply NoDup_seq].
      intros j Hj Hj'. apply N2 in Hj as (x & Hx & _). apply lookup_lt_Some in Hx. apply elem_of_seq in Hj'. lia.
    + intros j. cbn. rewrite app_assoc, steps_app, omap_steps_map, elem_of_app, (N2 j), elem_of_seq. unfold queued. cbn.
      destruct (decide (j < length (lp_tasks s))) as [Hj|Hj].
      * rewrite lookup_app_l by done. split; [intros [H|H]; [done|lia]|by left].
      * rewrite (lookup_app_r (lp_tasks s)) by lia. rewrite list_lookup_fmap. split.
        -- intros [(x & Hx & _)|H]; [apply lookup_lt_Some in Hx; lia|].
           destruct (lookup_lt_is_Some_2 l (j - length (lp_tasks s))) as [r Hr]; [lia|]. rewrite Hr. by eexists.
        -- intros (x & Hx & _). right. destruct (l !! _) eqn:E; [|done]. apply lookup_lt_Some in E. lia.
Qed.
Lemma quiet_roles b (R R' : role -> Prop) s s' : (forall r, R r -> R' r) -> quiet b R s s' -> quiet b R' s s'.
Proof.
  intros H [A1 A2 A3 A4 A5 A6 A7 A8]. constructor; try done. intros i x Hx Hn. destruct (A7 i x Hx Hn) as (?&?&?). by auto.
Qed.
Lemma quiet_cancel1 b R s i : (b = false -> forall x, lp_tasks s !! i = Some x -> tk_role x <> RShutdown) ->
  quiet b R s (cancel1 s i).
Proof.
  intros Hb. unfold cancel1. destruct (lp_tasks s !! i) as [x|] eqn:E; [|apply quiet_refl].
  assert (K : forall a, a <> AWait -> a = tk_at x \/ tk_at x = AWait /\ a = AQueued ->
    let y := MkTask (tk_role x) a true (tk_started x) in
    (forall j z, lp_tasks s !! j = Some z -> exists x', lp_tasks (put_task i y s) !! j = Some x' /\
      tk_role x' = tk_role z /\ tk_started x' = tk_started z /\ (tk_throw z = true -> tk_throw x' = true) /\
      (b = false -> tk_role z = RShutdown -> x' = z) /\ (tk_at x' = AWait -> tk_throw x' = tk_throw z) /\
      (tk_at x' = tk_at z \/ tk_at z = AWait /\ tk_at x' = AQueued /\ tk_throw x' = true)) /\
    (forall j z, lp_tasks (put_task i y s) !! j = Some z -> lp_tasks s !! j = None ->
      tk_started z = false /\ tk_at z = AQueued /\ R (tk_role z))).
  { intros a Hw Ha y. split; intros j z Hz.
    - destruct (decide (i = j)) as [<-|Hne].
      + rewrite (look_put_eq _ _ _ _ E). assert (z = x) as -> by congruence.
        exists y. split_and!; try done.
        * intros Hb' Hr. exfalso. by apply (Hb Hb' x).
        * destruct Ha as [->|[Ha ->]]; [by left|right; by split_and!].
      + rewrite look_put_ne by done. exists z. split_and!; try done. by left.
    - intros Hn. exfalso. destruct (decide (i = j)) as [<-|Hne]; [congruence|]. rewrite look_put_ne in Hz by done. congruence. }
  destruct (tk_at x) eqn:Ea.
  - destruct (K AQueued) as [K1 K2]; [done|by right|]. constructor; try done.
    + cbn. eexists. split; [done|]. intros h ->%elem_of_list_singleton. by exists i.
    + apply (NQ_queue _ _ _ _ E); [by rewrite Ea|done].
  - destruct (K (AGather left)) as [K1 K2]; [done|by left|]. constructor; try done.
    + exists []. cbn. rewrite app_nil_r. split; [done|]. intros h Hh. by apply elem_of_nil in Hh.
    + apply (NQ_put_other _ _ _ _ E). by rewrite Ea.
  - destruct (K AQueued) as [K1 K2]; [done|by left|]. constructor; try done.
    + exists []. cbn. rewrite app_nil_r. split; [done|]. intros h Hh. by apply elem_of_nil in Hh.
    + apply (NQ_put_other _ _ _ _ E). by rewrite Ea.
  - apply quiet_refl.
Qed.
(** A cancelled task stays cancelled, or is over. *)
Definition doomed (s : loop) (i : nat) : Prop :=
  forall x, lp_tasks s !! i = Some x -> tk_throw x = true \/ tk_at x = AGone.
Lemma doomed_cancel1 s i : doomed (cancel1 s i) i.
Proof.
  intros x Hx. unfold cancel1 in Hx. destruct (lp_tasks s !! i) as [y|] eqn:E; [|congruence].
  destruct (tk_at y) eqn:Ea.
  1-3: cbn [lp_tasks ready put_task with_tasks] in Hx; rewrite list_lookup_insert in Hx by (by apply lookup_lt_Some in E);
    injection Hx as <-; by left.
  right. congruence.
Qed.
Lemma doomed_quiet b R s s' i : quiet b R s s' -> lp_tasks s !! i <> None -> doomed s i -> doomed s' i.
Proof.
  intros Q Hi H x Hx. destruct (lp_tasks s !! i) as [y|] eqn:E; [|done].
  destruct (qu_old _ _ _ _ Q i y E) as (x' & H1 & _ & _ & H4 & _ & _ & H6). assert (x' = x) as -> by congruence.
  destruct (H y E) as [K|K]; [left; auto|]. destruct H6 as [H6|(H6 & _)]; [right|]; congruence.
Qed.
Lemma cancel1_length s i : length (lp_tasks (cancel1 s i)) = length (lp_tasks s).
Proof.
  unfold cancel1. destruct (lp_tasks s !! i) as [y|]; [|done]. destruct (tk_at y); cbn; try done; apply insert_length.
Qed.
Lemma quiet_fold b R (f : loop -> nat -> loop) l : forall s,
  (forall s' i, i ∈ l -> quiet b R s s' -> quiet b R s' (f s' i)) -> quiet b R s (foldl f s l).
Proof.
  induction l as [|i l IH]; intros s H; [apply quiet_refl|]. cbn [foldl].
  assert (Q : quiet b R s (f s i)). { apply H; [by left|apply quiet_refl]. }
  eapply quiet_trans; [exact Q|]. apply IH. intros s' j Hj Q'. apply H; [by right|]. by eapply quiet_trans.
Qed.
Lemma parts_role s i j x : j ∈ parts s i -> lp_tasks s !! j = Some x -> tk_role x = RPart i.
Proof.
  unfold parts. rewrite elem_of_list_In, filter_In. intros [_ H] E. rewrite E in H. unfold is_part in H.
  destruct (tk_role x); try done. by apply bool_decide_eq_true in H as ->.
Qed.
Lemma quiet_cancel b R s i : (b = false -> forall x, lp_tasks s !! i = Some x -> tk_role x <> RShutdown) ->
  quiet b R s (cancel s i).
Proof.
  intros Hb. apply (quiet_roles b (fun _ => False)); [done|]. unfold cancel. apply quiet_fold. intros s' j Hj Q.
  apply quiet_cancel1. intros -> x Hx. destruct (lp_tasks s !! j) as [y|] eqn:E.
  - destruct (qu_old _ _ _ _ Q j y E) as (x' & H1 & H2 & _). assert (x' = x) as -> by congruence. rewrite H2.
    apply elem_of_app in Hj as [Hj|Hj%elem_of_list_singleton].
    + by rewrite (parts_role _ _ _ _ Hj E).
    + subst. by apply (Hb eq_refl).
  - by destruct (qu_new _ _ _ _ Q j x Hx E) as (_ & _ & []).
Qed.
Lemma quiet_terminate order s : quiet true (fun _ => False) s (terminate order s).
Proof. apply quiet_fold. intros s' i _ _. by apply quiet_cancel. Qed.
Lemma doomed_fold l : forall s i, i ∈ l -> lp_tasks s !! i <> None -> doomed (foldl cancel1 s l) i.
Proof.
  induction l as [|j l IH]; intros s i Hi He; [by apply elem_of_nil in Hi|]. cbn [foldl].
  assert (Q1 : quiet true (fun _ => False) s (cancel1 s j)) by by apply quiet_cancel1.
  assert (Q2 : quiet true (fun _ => False) (cancel1 s j) (foldl cancel1 (cancel1 s j) l)).
  { apply quiet_fold. intros s' k _ _. by apply quiet_cancel1. }
  assert (He' : lp_tasks (cancel1 s j) !! i <> None).
  { destruct (lp_tasks s !! i) as [x|] eqn:E; [|done]. destruct (qu_old _ _ _ _ Q1 i x E) as (x' & -> & _). done. }
  apply elem_of_cons in Hi as [->|Hi]; [|by apply IH].
  eapply doomed_quiet; [exact Q2|done|apply doomed_cancel1].
Qed.
Lemma doomed_terminate order : forall s i, i ∈ order -> doomed (terminate order s) i.
Proof.
  induction order as [|j l IH]; intros s i Hi; [by apply elem_of_nil in Hi|].
  unfold terminate. cbn [foldl]. fold (terminate l (cancel s j)).
  apply elem_of_cons in Hi as [->|Hi]; [|by apply IH].
  destruct (lp_tasks s !! j) as [x|] eqn:E.
  - assert (Q : quiet true (fun _ => False) s (cancel s j)) by by apply quiet_cancel.
    eapply doomed_quiet; [apply quiet_terminate| |].
    + destruct (qu_old _ _ _ _ Q j x E) as (x' & -> & _). done.
    + unfold cancel. apply doomed_fold; [|congruence]. apply elem_of_app. right. by left.
  - intros y Hy. exfalso.
    assert (Q1 : quiet true (fun _ => False) s (cancel s j)) by by apply quiet_cancel.
    pose proof (quiet_trans _ _ _ _ _ Q1 (quiet_terminate l _)) as Q.
    by destruct (qu_new _ _ _ _ Q j y Hy E) as (_ & _ & []).
Qed.
Lemma terminate_all s order : all_tasks s order -> forall i, doomed (terminate order s) i.
Proof.
  intros Ho i x Hx. destruct (decide (i ∈ order)) as [Hi|Hi]; [by apply (doomed_terminate order s i Hi)|].
  exfalso. destruct (lp_tasks s !! i) as [y|] eqn:E.
  - apply Hi. unfold all_tasks in Ho. rewrite Ho. apply elem_of_seq. apply lookup_lt_Some in E. lia.
  - by destruct (qu_new _ _ _ _ (quiet_terminate order s) i x Hx E) as (_ & _ & []).
Qed.
Lemma quiet_besides s b s' : besides s b s' -> quiet b (fun r => r = ROther) s s'.
Proof.
  intros [|n|j x Hj Hx|order Ho].
  - apply quiet_refl.
  - apply (quiet_roles _ (fun r => r ∈ replicate n ROther)); [|apply quiet_new].
    intros r Hr. by apply elem_of_replicate in Hr as [-> _].
  - apply quiet_cancel. intros _ y Hy. assert (y = x) as -> by congruence. unfold is_job in Hx. intros E. by rewrite E in Hx.
  - apply (quiet_roles _ (fun _ => False)); [done|apply quiet_terminate].
Qed.
Lemma besides_doomed s s' : besides s true s' -> forall i, doomed s' i.
Proof. intros H. inversion H; subst. by apply terminate_all. Qed.

(** * What running one handle changes *)
Definition may_start (x : task) : Prop :=
  tk_started x = true /\ tk_throw x = false /\
  match tk_role x with ROther | RRunning _ | RCallback _ => True | _ => False end.
Definition kept (b : bool) (h : handle) (j : nat) (x x' : task) : Prop :=
  tk_role x' = tk_role x /\ tk_started x' = tk_started x /\ (tk_throw x = true -> tk_throw x' = true) /\
  (tk_at x' = AWait -> tk_throw x' = tk_throw x) /\
  (b = false -> tk_role x = RShutdown -> tk_at x <> AWait -> tk_throw x' = tk_throw x \/ exists c, h = HDone j c) /\
  (tk_at x' = tk_at x \/ tk_at x = AWait /\ tk_at x' = AQueued \/ exists n c, tk_at x = AGather n /\ h = HDone j c /\
     (tk_at x' = AQueued \/ exists m, tk_at x' = AGather m)).
Definition passive (x : task) : Prop := match tk_role x with RShutdown | RPart _ | RClosing => True | _ => False end.
Definition stepped (s s' : loop) (x x' : task) : Prop :=
  (tk_at x' = AWait -> tk_throw x' = false) /\
  (tk_role x' = RShutdown -> tk_role x = RShutdown) /\ (forall g, tk_role x' = RPart g -> tk_role x = RPart g) /\
  ((tk_throw x = true /\ lp_procs s' = lp_procs s /\ (process_of x' = None \/ tk_started x = false /\ process_of x' = process_of x) /\
    (tk_role x = RShutdown -> tk_role x' = RShutdown /\ tk_started x' = tk_started x /\ tk_at x' = AGone /\ (tk_started x = true -> lp_stopping s' = true)) /\
    (tk_at x' = AGone \/ tk_role x' = RClosing /\ tk_started x' = true) /\
    (tk_role x <> RShutdown -> lp_stopping s' = lp_stopping s) /\
    (lp_told s' = match process_of x with Some p => if tk_started x then p :: lp_told s else lp_told s | None => lp_told s end)) \/
   (tk_throw x = false /\ lp_stopping s' = lp_stopping s /\ lp_told s' = lp_told s /\ tk_started x' = true /\ (passive x -> passive x') /\
    (tk_role x = RShutdown -> tk_role x' = RShutdown /\ (tk_at x' = AWait \/ tk_at x' = AQueued)) /\
    (lp_procs s' = lp_procs s /\ (process_of x' = None \/ process_of x' = process_of x) \/
     process_of x' = Some (lp_procs s) /\ lp_procs s' = Datatypes.S (lp_procs s) /\ may_start x))).
(** [s]: the state without the handle [h]. *)
Record change (b : bool) (h : handle) (s s' : loop) : Prop := {
  ch_now : lp_now s' = lp_now s;
  ch_next : exists l, lp_next s' = lp_next s ++ l /\ forall h', h' ∈ l ->
    match h' with
    | HStep _ => True
    | HDone g _ => exists i x, h = HStep i /\ lp_tasks s !! i = Some x /\ tk_role x = RPart g
    | HSignal t => h = HRead t
    | _ => False
    end;
  ch_other : forall j x, lp_tasks s !! j = Some x -> h <> HStep j ->
    exists x', lp_tasks s' !! j = Some x' /\ kept b h j x x';
  ch_self : forall i, h = HStep i -> exists x x', lp_tasks s !! i = Some x /\ tk_at x = AQueued /\
    lp_tasks s' !! i = Some x' /\ stepped s s' x x' /\ (b = true -> tk_started x = true /\ is_job x);
  ch_quiet : (forall i, h <> HStep i) -> lp_stopping s' = lp_stopping s /\ lp_told s' = lp_told s /\ lp_procs s' = lp_procs s;
  ch_new : forall j x', lp_tasks s' !! j = Some x' -> lp_tasks s !! j = None ->
    tk_started x' = false /\ tk_at x' = AQueued /\ (tk_role x' = ROther \/ exists i, h = HStep i /\ tk_role x' = RPart i);
  ch_term : b = true -> (forall i, doomed s' i) /\ (h = HSignal true \/ h = HSignal false \/ exists i, h = HStep i);
  ch_nq : NQ (MkLoop (lp_tasks s) (h :: lp_now s) (lp_next s) (lp_stopping s) (lp_procs s) (lp_told s)) -> NQ s' }.

Lemma goes_facts i next st r r' a n k : goes_on i next st r r' a n k ->
  a <> AQueued /\
  (r' = RShutdown <-> r = RShutdown) /\ (forall g, r' = RPart g <-> r = RPart g) /\
  (r = RShutdown -> a = AWait) /\ (passive (MkTask r a false true) -> passive (MkTask r' a false true)) /\
  (k = 0 /\ (forall p, process_of (MkTask r' a false true) = Some p -> process_of (MkTask r a false true) = Some p) \/
   k = 1 /\ r' = RStarting next /\ st = true /\ match r with ROther | RRunning _ | RCallback _ => True | _ => False end).
Proof.
  induction 1 as [| | | | |b0 a0 Ha|b0| |p0|p0|p0|p0 r0 a0 n0 k0 H0 IH|p0 r0 a0 n0 k0 H0 IH];
    try (destruct IH as (H1 & H2 & H3 & H4 & H4' & H5)); (split; [|split; [|split; [|split; [|split]]]]); try done;
    try (intros g'; split; congruence);
    try (by left; split; [done|]); try (by right);
    try (by destruct Ha as [->| ->]);
    try (split; [intros E; by apply H2 in E|done]);
    try (intros g'; split; [intros E; by apply H3 in E|done]).
  all: destruct H5 as [[-> H5]|(-> & H5 & H6 & H7)]; [left|right; by split_and!]; (split; [done|]);
    intros q E; by apply H5 in E.
Qed.
Lemma kept_quiet (b : bool) R s s' h j x : quiet b R s s' -> lp_tasks s !! j = Some x ->
  exists x', lp_tasks s' !! j = Some x' /\ kept b h j x x'.
Proof.
  intros Q Hx. destruct (qu_old _ _ _ _ Q j x Hx) as (x' & H1 & H2 & H3 & H4 & H5 & H5' & H6).
  exists x'. split; [done|]. unfold kept. split_and!; try done.
  - intros Hb Hr _. left. by rewrite H5.
  - destruct H6 as [->|(-> & -> & _)]; [by left|right; by left].
Qed.
Lemma quiet_next b R s s' : quiet b R s s' -> exists l, lp_next s' = lp_next s ++ l /\ forall h, h ∈ l -> exists i, h = HStep i.
Proof. apply qu_next. Qed.
Definition nq_with (h : handle) (s : loop) : loop :=
  MkLoop (lp_tasks s) (h :: lp_now s) (lp_next s) (lp_stopping s) (lp_procs s) (lp_told s).
Lemma nq_skip h s : (forall i, h <> HStep i) -> NQ (nq_with h s) -> NQ s.
Proof. intros H [N1 N2]. destruct h; try done. by destruct (H i). Qed.
(** After a step of [i] that leaves it elsewhere. *)
Lemma nq_step i s x y : lp_tasks s !! i = Some y -> tk_at x <> AQueued -> NQ (nq_with (HStep i) s) -> NQ (put_task i x s).
Proof.
  intros Hy Hx [N1 N2]. cbn in N1. apply NoDup_cons in N1 as [N0 N1]. split; [done|].
  intros j. cbn. unfold queued. destruct (decide (i = j)) as [<-|Hne].
  - cbn. rewrite list_lookup_insert by (by apply lookup_lt_Some in Hy). split; [done|]. intros (z & [= <-] & Hz). done.
  - cbn. rewrite list_lookup_insert_ne by done. specialize (N2 j). unfold queued in N2. cbn in N2. rewrite <- N2.
    split; [by right|]. intros [E|E]%elem_of_cons; [congruence|done].
Qed.
Lemma NQ_other s s' : lp_tasks s' = lp_tasks s -> lp_now s' = lp_now s -> lp_next s' = lp_next s -> NQ s -> NQ s'.
Proof. unfold NQ, queued. intros -> -> ->. done. Qed.

Ltac fin := unfold stepped; cbn; split; [done|]; split; [done|]; split; [done|]; left; split_and!;
  try done; try (by left); try (by right).
Lemma thrown_change i x s s' : lp_tasks s !! i = Some x -> tk_at x = AQueued -> tk_throw x = true ->
  thrown i x s s' -> change false (HStep i) s s'.
Proof.
  intros Hx Ha Ht T.
  assert (E : exists x' l told st, tk_at x' <> AQueued /\ s' = MkLoop (<[i := x']> (lp_tasks s)) (lp_now s) (lp_next s ++ l) st (lp_procs s) told /\
     (l = [] \/ exists g, tk_role x = RPart g /\ l = [HDone g true]) /\ stepped s s' x x').
  { destruct x as [r a th sd]. cbn in Ha, Ht. subst a th. destruct T as [Hu|Hu Hr|p Hu Hr|p Hu Hr|p Hu Hr|g Hu Hr|a Hu Hr Hp]; cbn in *; subst.
    - exists (MkTask r AGone false false), (match r with RPart g => [HDone g true] | _ => [] end), (lp_told s), (lp_stopping s).
      split; [done|]. split; [done|]. split; [destruct r; (try by left); right; by eexists|].
      fin; by destruct r.
    - exists (MkTask RShutdown AGone false true), [], (lp_told s), true.
      split; [done|]. split; [by rewrite app_nil_r|]. split; [by left|]. fin.
    - exists (MkTask RClosing AWait false true), [], (p :: lp_told s), (lp_stopping s).
      split; [done|]. split; [by rewrite app_nil_r|]. split; [by left|]. fin.
    - exists (MkTask RClosing AGone false true), [], (p :: lp_told s), (lp_stopping s).
      split; [done|]. split; [by rewrite app_nil_r|]. split; [by left|]. fin.
    - exists (MkTask RClosing AGone false true), [], (p :: lp_told s), (lp_stopping s).
      split; [done|]. split; [by rewrite app_nil_r|]. split; [by left|]. fin.
    - exists (MkTask (RPart g) AGone false true), [HDone g true], (lp_told s), (lp_stopping s).
      split; [done|]. split; [done|]. split; [right; by eexists|]. fin.
    - exists (MkTask RClosing a false true), [], (lp_told s), (lp_stopping s).
      split; [by destruct Hp as [->| ->]|]. split; [by rewrite app_nil_r|]. split; [by left|]. fin; try (destruct Hr as [->| ->]; done). }
  destruct E as (x' & l & told & st & Hn & -> & Hl & Hs). constructor; try done.
  - exists l. split; [done|]. intros h Hh. destruct Hl as [->|(g & Hg & ->)]; [by apply elem_of_nil in Hh|].
    apply elem_of_list_singleton in Hh as ->. by exists i, x.
  - intros j y Hy Hne. exists y. cbn. rewrite list_lookup_insert_ne by congruence. split; [done|].
    unfold kept. split_and!; try done; by left.
  - intros j [= <-]. exists x, x'. split_and!; try done. cbn. apply list_lookup_insert. by apply lookup_lt_Some in Hx.
  - intros H. by destruct (H i).
  - intros j y Hy Hno. cbn in Hy. exfalso. destruct (decide (i = j)) as [<-|Hne]; [congruence|].
    rewrite list_lookup_insert_ne in Hy by done. congruence.
  - intros N. pose proof (nq_step i s x' x Hx Hn N) as N'. 
    destruct Hl as [->|(g & Hg & ->)].
    + eapply NQ_other; [..|exact N']; try done. cbn. by rewrite app_nil_r.
    + apply (NQ_ready _ [HDone g true] eq_refl) in N'. eapply NQ_other; [..|exact N']; done.
Qed.
Lemma exec_change s h b s' : exec s h b s' -> change b h s s'.
Proof.
  intros X. destruct X as [i x s' Hx Ha Ht T|i x r a n k b s' Hx Ha Ht G s1 s2 s3 s4 B Hb|i x Hx Ha|i Hi|g x n c Hx Ha|g c Hg|b|s' B|b s' B].
  - by eapply thrown_change.
  - pose proof (quiet_besides _ _ _ B) as Q.
    destruct (goes_facts _ _ _ _ _ _ _ _ G) as (G1 & G2 & G3 & G4 & G4' & G5).
    set (l := match r with RPart g => match a with AGone => [HDone g false] | _ => [] end | _ => [] end) in s3.
    assert (Hl : l = [] \/ exists g, tk_role x = RPart g /\ l = [HDone g false]).
    { unfold l. destruct r; try (by left). destruct a; try (by left). right. exists parent. split; [by apply G3|done]. }
    assert (Qn : quiet false (fun r => r ∈ replicate n (RPart i)) s1 s2) by apply quiet_new.
    assert (H1 : lp_tasks s1 !! i = Some (MkTask r a false true)) by (by eapply look_put_eq).
    assert (Hi4 : lp_tasks s4 !! i = Some (MkTask r a false true)).
    { destruct (qu_old _ _ _ _ Qn i _ H1) as (z & Hz & _). change (lp_tasks s2 !! i = Some (MkTask r a false true)).
      cbn. rewrite lookup_app_l; [done|]. cbn. rewrite insert_length. by apply lookup_lt_Some in Hx. }
    assert (Ho4 : forall j y, lp_tasks s !! j = Some y -> j <> i -> lp_tasks s4 !! j = Some y).
    { intros j y Hy Hne. change (lp_tasks s2 !! j = Some y). cbn. rewrite lookup_app_l.
      - cbn. by rewrite list_lookup_insert_ne by done.
      - cbn. rewrite insert_length. by apply lookup_lt_Some in Hy. }
    constructor.
    + rewrite (qu_now _ _ _ _ Q). done.
    + destruct (qu_next _ _ _ _ Q) as (l' & E & Hl').
      exists (map HStep (seq (length (lp_tasks s1)) (length (replicate n (RPart i)))) ++ l ++ l').
      split. { rewrite E. cbn. rewrite <- !app_assoc. done. }
      intros h [Hh|[Hh|Hh]%elem_of_app]%elem_of_app.
      * apply elem_of_list_fmap in Hh as (j & -> & _). done.
      * destruct Hl as [->|(g & Hg & ->)]; [by apply elem_of_nil in Hh|]. apply elem_of_list_singleton in Hh as ->. by exists i, x.
      * by destruct (Hl' h Hh) as [j ->].
    + intros j y Hy Hne. apply (kept_quiet b _ s4 s' _ _ _ Q). apply Ho4; [done|]. congruence.
    + intros j [= <-]. destruct (qu_old _ _ _ _ Q i _ Hi4) as (x' & E1 & E2 & E3 & E4 & E5 & E5' & E6). cbn in E2, E3, E6.
      exists x, x'. split_and!; try done. unfold stepped. rewrite E2.
      split; [exact E5'|]. split; [by apply G2|]. split; [intros g; by apply G3|]. right. rewrite (qu_stopping _ _ _ _ Q), (qu_told _ _ _ _ Q), (qu_procs _ _ _ _ Q).
      assert (Ep : process_of x' = process_of (MkTask r a false true)) by (unfold process_of; by rewrite E2). split_and!; try done.
      * unfold passive in *. rewrite E2. exact G4'.
      * intros E. split; [by apply G2|]. specialize (G4 E). subst a.
        destruct E6 as [->|(_ & -> & _)]; [by left|by right].
      * rewrite Ep. cbn [lp_procs s4 s3 s2 s1 new_tasks ready put_task with_tasks]. destruct G5 as [[-> G5]|(-> & -> & Hs & Hr)].
        -- left. split; [lia|]. destruct (process_of (MkTask r a false true)) as [p|] eqn:E; [|by left].
           right. rewrite <- (G5 p eq_refl). done.
        -- right. split; [done|]. split; [lia|]. split_and!; done.
    + intros H. by destruct (H i).
    + intros j y Hy Hno. destruct (lp_tasks s4 !! j) as [z|] eqn:E.
      * assert (Hz : z = MkTask (RPart i) AQueued false false).
        { change (lp_tasks s2 !! j = Some z) in E. assert (lp_tasks s1 !! j = None) as Hn1.
          { cbn. apply lookup_ge_None. rewrite insert_length. by apply lookup_ge_None in Hno. }
          cbn in E. apply lookup_ge_None in Hn1. cbn in Hn1. rewrite lookup_app_r in E by done. rewrite list_lookup_fmap in E.
          destruct (replicate n (RPart i) !! _) as [q|] eqn:Eq; [|done]. apply lookup_replicate in Eq as [-> _]. by injection E as <-. }
        destruct (qu_old _ _ _ _ Q j z E) as (y' & E1 & E2 & E3 & E4 & E5 & E5' & E6). assert (y' = y) as -> by congruence. subst z.
        cbn in *. split_and!; [done| |right; by exists i]. destruct E6 as [->|(? & _)]; done.
      * destruct (qu_new _ _ _ _ Q j y Hy E) as (E1 & E2 & E3). split_and!; try done. by left.
    + intros ->. split; [by eapply besides_doomed|]. right. right. by exists i.
    + intros N. apply (qu_nq _ _ _ _ Q). pose proof (nq_step i s (MkTask r a false true) x Hx G1 N) as N1.
      apply (qu_nq _ _ _ _ Qn) in N1. apply (NQ_ready _ l) in N1.
      * eapply NQ_other; [..|exact N1]; done.
      * destruct Hl as [->|(g & _ & ->)]; done.
  - assert (Q : lp_tasks s !! i = Some x) by done. constructor; try done.
    + exists [HStep i]. split; [done|]. by intros h ->%elem_of_list_singleton.
    + intros j y Hy _. destruct (decide (i = j)) as [<-|Hne].
      * assert (y = x) as -> by congruence. eexists. split; [by eapply look_put_eq|].
        unfold kept. cbn. split_and!; try done. right. by left.
      * exists y. split; [by rewrite <- Hy; apply look_put_ne|]. unfold kept. split_and!; try done; by left.
    + intros j y Hy Hno. exfalso. destruct (decide (i = j)) as [<-|Hne]; [congruence|].
      change (lp_tasks (put_task i (MkTask (tk_role x) AQueued (tk_throw x) (tk_started x)) s) !! j = Some y) in Hy.
      rewrite look_put_ne in Hy by done. congruence.
    + intros N. apply (NQ_queue _ _ _ _ Hx); [by rewrite Ha|done|]. by apply (nq_skip (HFire i)).
  - constructor; try done.
    + exists []. rewrite app_nil_r. split; [done|]. intros h Hh. by apply elem_of_nil in Hh.
    + intros j y Hy _. exists y. split; [done|]. unfold kept. split_and!; try done; by left.
    + intros j y Hy Hno. congruence.
  - set (x' := if c || bool_decide (n = 1) then MkTask (tk_role x) AQueued (tk_throw x || c) (tk_started x)
              else MkTask (tk_role x) (AGather (n - 1)) (tk_throw x) (tk_started x)).
    set (l := if c || bool_decide (n = 1) then [HStep g] else []).
    assert (E : (if c || bool_decide (n = 1)
         then ready [HStep g] (put_task g (MkTask (tk_role x) AQueued (tk_throw x || c) (tk_started x)) s)
         else put_task g (MkTask (tk_role x) (AGather (n - 1)) (tk_throw x) (tk_started x)) s)
        = ready l (put_task g x' s)).
    { unfold l, x'. destruct (c || _); [done|]. unfold ready. cbn. by rewrite app_nil_r. }
    rewrite E. constructor; try done.
    + exists l. split; [done|]. intros h Hh. unfold l in Hh. destruct (c || _); [|by apply elem_of_nil in Hh].
      by apply elem_of_list_singleton in Hh as ->.
    + intros j y Hy _. destruct (decide (g = j)) as [<-|Hne].
      * assert (y = x) as -> by congruence. exists x'. split; [by eapply (look_put_eq g x' x)|].
        unfold kept. unfold x'. destruct (c || bool_decide (n = 1)) eqn:Ec; cbn; split_and!; try done.
        -- intros ->. done.
        -- intros _ _ _. right. by exists c.
        -- right. right. exists n, c. split_and!; try done. by left.
        -- intros _ _ _. by left.
        -- right. right. exists n, c. split_and!; try done. right. by eexists.
      * exists y. split; [by rewrite <- Hy; apply look_put_ne|]. unfold kept. split_and!; try done; by left.
    + intros j y Hy Hno. exfalso. change (lp_tasks (put_task g x' s) !! j = Some y) in Hy.
      destruct (decide (g = j)) as [<-|Hne]; [congruence|]. rewrite look_put_ne in Hy by done. congruence.
    + intros N. apply nq_skip in N; [|done]. unfold l, x'. destruct (c || _).
      * apply (NQ_queue _ _ _ _ Hx); [by rewrite Ha|done|done].
      * apply NQ_ready; [done|]. apply (NQ_put_other _ _ _ _ Hx); [|done]. cbn. by rewrite Ha.
  - constructor; try done.
    + exists []. rewrite app_nil_r. split; [done|]. intros h Hh. by apply elem_of_nil in Hh.
    + intros j y Hy _. exists y. split; [done|]. unfold kept. split_and!; try done; by left.
    + intros j y Hy Hno. congruence.
  - constructor; try done.
    + exists [HSignal b]. split; [done|]. by intros h ->%elem_of_list_singleton.
    + intros j y Hy _. exists y. split; [done|]. unfold kept. split_and!; try done; by left.
    + intros j y Hy Hno. cbn in Hy. congruence.
    + intros N. apply nq_skip in N; [|done]. by apply NQ_ready.
  - pose proof (quiet_besides _ _ _ B) as Q. constructor; try done.
    + by apply (qu_now _ _ _ _ Q).
    + destruct (qu_next _ _ _ _ Q) as (l' & E & Hl'). exists l'. split; [done|]. intros h Hh. by destruct (Hl' h Hh) as [j ->].
    + intros j y Hy _. by eapply kept_quiet.
    + intros _. split_and!; [by apply (qu_stopping _ _ _ _ Q)|by apply (qu_told _ _ _ _ Q)|by apply (qu_procs _ _ _ _ Q)].
    + intros j y Hy Hno. destruct (qu_new _ _ _ _ Q j y Hy Hno) as (E1 & E2 & E3). split_and!; try done. by left.
    + intros _. split; [by eapply besides_doomed|]. by left.
    + intros N. apply nq_skip in N; [|done]. by apply (qu_nq _ _ _ _ Q).
  - pose proof (quiet_besides _ _ _ B) as Q. constructor; try done.
    + by apply (qu_now _ _ _ _ Q).
    + destruct (qu_next _ _ _ _ Q) as (l' & E & Hl'). exists l'. split; [done|]. intros h Hh. by destruct (Hl' h Hh) as [j ->].
    + intros j y Hy _. by eapply kept_quiet.
    + intros _. split_and!; [by apply (qu_stopping _ _ _ _ Q)|by apply (qu_told _ _ _ _ Q)|by apply (qu_procs _ _ _ _ Q)].
    + intros j y Hy Hno. destruct (qu_new _ _ _ _ Q j y Hy Hno) as (E1 & E2 & E3). split_and!; try done. by left.
    + intros ->. split; [by eapply besides_doomed|]. right. by left.
    + intros N. apply nq_skip in N; [|done]. by apply (qu_nq _ _ _ _ Q).
Qed.
