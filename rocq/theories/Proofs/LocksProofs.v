(** Locks are held as long as the blocks they are taken for. *)
From Verif Require Export Model.Locks Proofs.BaseLemmas.

Section Ok.
Context (R : op -> action -> list (string * mode) -> Prop).
Fixpoint ok_i (held : list (string * mode)) (i : instr) : Prop :=
  match i with
  | Act o a => R o a held
  | Lock t m body => foldr (fun x P => ok_i ((t, m) :: held) x /\ P) True body
  end.
Definition ok_l (held : list (string * mode)) (l : list instr) : Prop :=
  foldr (fun x P => ok_i held x /\ P) True l.
Definition held (F : list (string * mode * list instr)) : list (string * mode) := map fst F.
Fixpoint ok_f (F : list (string * mode * list instr)) : Prop :=
  match F with
  | [] => True
  | (_, _, k) :: F => ok_l (held F) k /\ ok_f F
  end.
Definition ok_c (c : code) (h : list (string * mode)) : Prop :=
  match c with Running l => ok_l h l | _ => True end.
Definition ok_p (P : proc) : Prop :=
  ok_c (p_code P) (held (p_frames P)) /\ ok_f (p_frames P) /\ NoDup (map fst (held (p_frames P))).

Lemma ok_l_app h a b : ok_l h (a ++ b) <-> ok_l h a /\ ok_l h b.
Proof.
  unfold ok_l. induction a as [|x a IH]; cbn [app foldr]; [tauto|]. rewrite IH. tauto.
Qed.
Lemma ok_l_acts h o l : (forall a, R o a h) -> ok_l h (acts o l).
Proof. intros Hr. induction l as [|a l IH]; [done|]. split; [apply Hr|done]. Qed.
Lemma ok_l_acts' h o l : (forall a, a ∈ l -> R o a h) -> ok_l h (acts o l).
Proof.
  intros Hr. induction l as [|a l IH]; [done|]. split; [apply Hr; left|]. apply IH. intros b Hb. apply Hr. right. done.
Qed.

Record good (s : sys) : Prop := MkGood {
  g_ok : forall p P, s_procs s !! p = Some P -> ok_p P;
  g_held : forall p t m, (p, t, m) ∈ s_locks s <->
    exists P, s_procs s !! p = Some P /\ (t, m) ∈ held (p_frames P);
  g_compat : forall p q t m m', (p, t, m) ∈ s_locks s -> (q, t, m') ∈ s_locks s -> p <> q -> m = Shared /\ m' = Shared }.

Lemma may_lock_spec t m L p m' : may_lock t m L = true -> (p, t, m') ∈ L -> m = Shared /\ m' = Shared.
Proof.
  unfold may_lock. intros Hm Hin. apply negb_true_iff in Hm.
  assert (Hc : conflict t m (p, t, m') = false).
  { destruct (conflict t m (p, t, m')) eqn:E; [|done]. assert (existsb (conflict t m) L = true); [|congruence].
    apply existsb_exists. exists (p, t, m'). split; [apply elem_of_list_In; done|done]. }
  unfold conflict in Hc. cbn in Hc. rewrite bool_decide_eq_true_2 in Hc by done. destruct m, m'; done.
Qed.
Lemma held_targets F : map fst (held F) = map (fun f : string * mode * list instr => f.1.1) F.
Proof. unfold held. rewrite map_map. done. Qed.

(** Replacing process [p] by one with the same frames. *)
Lemma good_same s p P P' d : good s -> s_procs s !! p = Some P -> p_frames P' = p_frames P -> ok_p P' ->
  good (MkSys (<[p := P']> (s_procs s)) (s_locks s) d).
Proof.
  intros [G1 G2 G3] Hp Hf Hok. assert (Hlt : p < length (s_procs s)) by (apply lookup_lt_Some in Hp; done).
  constructor; cbn [s_procs s_locks].
  - intros q Q. destruct (decide (q = p)) as [->|Hne].
    + rewrite list_lookup_insert by done. intros [= <-]. done.
    + rewrite list_lookup_insert_ne by done. apply G1.
  - intros q t m. rewrite G2. destruct (decide (q = p)) as [->|Hne].
    + rewrite list_lookup_insert by done. split.
      * intros (Q & HQ & Hin). exists P'. split; [done|]. rewrite Hf. congruence.
      * intros (Q & [= <-] & Hin). exists P. split; [done|]. congruence.
    + rewrite list_lookup_insert_ne by done. done.
  - done.
Qed.
Lemma elem_unlock p t L q u m : (q, u, m) ∈ unlock p t L <-> (q, u, m) ∈ L /\ (q, u) <> (p, t).
Proof. unfold unlock. rewrite elem_of_list_filter. cbn. tauto. Qed.
Lemma good_release s p P c t md k F m : good s -> s_procs s !! p = Some P -> p_frames P = (t, md, k) :: F ->
  ok_c c (held F) ->
  good (MkSys (<[p := MkProc c F m]> (s_procs s)) (unlock p t (s_locks s)) (s_disk s)).
Proof.
  intros [G1 G2 G3] Hp Hf Hc. assert (Hlt : p < length (s_procs s)) by (apply lookup_lt_Some in Hp; done).
  destruct (G1 p P Hp) as (O1 & O2 & O3). rewrite Hf in O2, O3. cbn in O2, O3. apply NoDup_cons in O3 as [O3 O4].
  assert (Hno : forall m', (t, m') ∉ held F).
  { intros m' Hin. apply O3. apply elem_of_list_fmap. exists (t, m'). done. }
  constructor; cbn [s_procs s_locks].
  - intros q Q. destruct (decide (q = p)) as [->|Hne].
    + rewrite list_lookup_insert by done. intros [= <-]. split; [done|]. split; [tauto|done].
    + rewrite list_lookup_insert_ne by done. apply G1.
  - intros q u m'. rewrite elem_unlock, G2. destruct (decide (q = p)) as [->|Hne].
    + rewrite list_lookup_insert by done. split.
      * intros [(Q & HQ & Hin) Hne]. exists (MkProc c F m). split; [done|]. cbn.
        assert (Q = P) as -> by congruence. rewrite Hf in Hin. cbn in Hin. apply elem_of_cons in Hin as [[= -> ->]|Hin]; [done|done].
      * intros (Q & [= <-] & Hin). cbn in Hin. split.
        -- exists P. split; [done|]. rewrite Hf. right. done.
        -- intros [= ->]. apply (Hno m'). done.
    + rewrite list_lookup_insert_ne by done. split; [tauto|]. intros HQ. split; [done|]. intros [= -> ->]. done.
  - intros a b u m1 m2 H1 H2. apply elem_unlock in H1 as [H1 _], H2 as [H2 _]. eauto.
Qed.
Lemma good_step s l s' : good s -> step s l s' -> good s'.
Proof.
  intros G Hs. destruct Hs as [p o a l F m m' d' Hp Ha|p o a l F m Hp|p t md body l F m Hp Hnt Hm|p t body l F m Hp Hnt Hm
    |p t md body l F m Hp Ht|p t md k F m Hp|p t md k F m Hp|p P Hp].
  - destruct (g_ok s G p _ Hp) as (O1 & O2 & O3). cbn in O1, O2, O3. eapply good_same; [done..|]. split; cbn; [tauto|done].
  - destruct (g_ok s G p _ Hp) as (O1 & O2 & O3). cbn in O1, O2, O3. eapply good_same; [done..|]. split; cbn; [tauto|done].
  - destruct (g_ok s G p _ Hp) as ([O1 O1'] & O2 & O3). cbn in O1, O1', O2, O3. destruct G as [G1 G2 G3].
    assert (Hlt : p < length (s_procs s)) by (apply lookup_lt_Some in Hp; done).
    constructor; cbn [s_procs s_locks].
    + intros q Q. destruct (decide (q = p)) as [->|Hne].
      * rewrite list_lookup_insert by done. intros [= <-]. split; [done|]. split; [cbn; tauto|].
        cbn. apply NoDup_cons. rewrite held_targets. split; [done|]. rewrite <- held_targets. done.
      * rewrite list_lookup_insert_ne by done. apply G1.
    + intros q u m'. rewrite elem_of_cons, G2. destruct (decide (q = p)) as [->|Hne].
      * rewrite list_lookup_insert by done. split.
        -- intros [[= -> ->]|(Q & HQ & Hin)]; eexists; (split; [done|]); cbn; [left|right].
           rewrite Hp in HQ. injection HQ as <-. done.
        -- intros (Q & [= <-] & Hin). cbn in Hin. apply elem_of_cons in Hin as [[= -> ->]|Hin]; [auto|]. right.
           eexists. split; [done|]. done.
      * rewrite list_lookup_insert_ne by done. split; [|tauto]. intros [[= -> _ _]|HQ]; done.
    + assert (Hx : forall q m1, (q, t, m1) ∈ s_locks s -> md = Shared /\ m1 = Shared).
      { intros q m1 Hq. eapply may_lock_spec; done. }
      intros a b u m1 m2 H1 H2 Hne. apply elem_of_cons in H1 as [[= -> -> ->]|H1], H2 as [H2|H2].
      * injection H2 as -> ->. done.
      * apply Hx in H2. done.
      * injection H2 as -> -> ->. apply Hx in H1. tauto.
      * eauto.
  - destruct (g_ok s G p _ Hp) as (O1 & O2 & O3). cbn in O1, O2, O3. eapply good_same; [done..|]. split; cbn; [tauto|done].
  - destruct (g_ok s G p _ Hp) as (O1 & O2 & O3). cbn in O1, O2, O3. eapply good_same; [done..|]. split; cbn; [tauto|done].
  - destruct (g_ok s G p _ Hp) as (O1 & O2 & O3). cbn in O1, O2, O3. eapply good_release; [done..|]. cbn. tauto.
  - eapply good_release; [done..|]. cbn. done.
  - destruct G as [G1 G2 G3]. assert (Hlt : p < length (s_procs s)) by (apply lookup_lt_Some in Hp; done).
    assert (Hel : forall q u m, (q, u, m) ∈ unlock_all p (s_locks s) <-> (q, u, m) ∈ s_locks s /\ q <> p).
    { intros q u m. unfold unlock_all. rewrite elem_of_list_filter. cbn. tauto. }
    constructor; cbn [s_procs s_locks].
    + intros q Q. destruct (decide (q = p)) as [->|Hne].
      * rewrite list_lookup_insert by done. intros [= <-]. split; [done|]. split; [done|]. constructor.
      * rewrite list_lookup_insert_ne by done. apply G1.
    + intros q u m'. rewrite Hel, G2. destruct (decide (q = p)) as [->|Hne].
      * rewrite list_lookup_insert by done. split; [tauto|]. intros (Q & [= <-] & Hin). cbn in Hin. apply elem_of_nil in Hin. done.
      * rewrite list_lookup_insert_ne by done. tauto.
    + intros a b u m1 m2 H1 H2. apply Hel in H1 as [H1 _], H2 as [H2 _]. eauto.
Qed.
Lemma good_run s tr s' : good s -> run s tr s' -> good s'.
Proof. intros G Hr. induction Hr as [|tr s1 l s2 Hr IH Hs]; [done|]. eapply good_step; done. Qed.
Lemma good_start cs d : (forall l c, l ∈ cs -> c ∈ l -> ok_l [] (compile c)) -> good (start cs d).
Proof.
  intros Hc. constructor; cbn.
  - intros p P Hp. rewrite list_lookup_fmap in Hp. destruct (cs !! p) as [l|] eqn:Hl; [|done]. injection Hp as <-.
    split; [|split; [done|constructor]]. cbn. assert (Hin : forall c, c ∈ l -> ok_l [] (compile c)).
    { intros c Hcl. eapply Hc; [|done]. apply elem_of_list_lookup. eauto. }
    clear Hl Hc. induction l as [|c l IH]; [done|]. cbn. apply ok_l_app. split; [apply Hin; left|].
    apply IH. intros c' Hc'. apply Hin. right. done.
  - intros p t m. split; [intros Hx; apply elem_of_nil in Hx; done|]. intros (P & HP & Hin).
    rewrite list_lookup_fmap in HP. destruct (cs !! p); [|done]. injection HP as <-. cbn in Hin. apply elem_of_nil in Hin. done.
  - intros p q t m m' Hx. apply elem_of_nil in Hx. done.
Qed.
(** What is required of an action holds whenever it is about to happen, of the
    locks then held. *)
Lemma act_required cs d tr s p o a l F m :
  (forall l c, l ∈ cs -> c ∈ l -> ok_l [] (compile c)) -> run (start cs d) tr s ->
  s_procs s !! p = Some (MkProc (Running (Act o a :: l)) F m) ->
  R o a (held F) /\ (forall t md, (p, t, md) ∈ s_locks s <-> (t, md) ∈ held F).
Proof.
  intros Hc Hr Hp. pose proof (good_run _ _ _ (good_start cs d Hc) Hr) as G.
  destruct (g_ok s G p _ Hp) as (O1 & O2 & O3). split; [cbn in O1; tauto|]. intros t md. rewrite (g_held s G). split.
  - intros (P & HP & Hin). rewrite Hp in HP. injection HP as <-. done.
  - intros Hin. eexists. split; [done|]. done.
Qed.
End Ok.
