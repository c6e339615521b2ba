(** C23: backups are kept as long as everybody knows the current revisions. *)
From Verif Require Export Proofs.LocksProofs Spec.Locks.

(** Actions are those of the operation and happen under its locks. *)
Definition R23 (o : op) (a : action) (h : list (string * mode)) : Prop :=
  does o a = true /\ o <> Verify /\ (a = Scan -> (".purge", Exclusive) ∉ h) /\ (is_async o = false -> forall x, x ∈ declared o -> x ∈ h).
Lemma R23_ok c : possible c -> no_verify c -> ok_l R23 [] (compile c).
Proof.
  intros Hp Hn.
  assert (Hacts : forall o l h, Forall (fun a => does o a = true) l -> o <> Verify ->
    (does o Scan = false \/ (".purge", Exclusive) ∉ h) ->
    (is_async o = false -> forall x, x ∈ declared o -> x ∈ h) -> ok_l R23 h (acts o l)).
  { intros o l h Hl Hv Hsc Hd. apply ok_l_acts'. intros a Ha. rewrite Forall_forall in Hl. split; [auto|]. split; [done|].
    split; [|done]. intros ->. specialize (Hl Scan Ha). destruct Hsc; [congruence|done]. }
  destruct c as [l|l1 dis l2 v|l g|g|o l]; cbn in Hp; cbn [compile].
  - apply Hacts; [done..|right; apply not_elem_of_nil|]. intros _ x Hx. apply elem_of_nil in Hx. done.
  - destruct v; [done|]. destruct Hp as (H1 & H2 & _). apply Forall_app in H1 as [H1 H3].
    change (call Backup (backup_body l1 dis l2 None)) with [Lock ".backup" Exclusive [Lock ".purge" Shared (backup_body l1 dis l2 None)]].
    assert (Hok : ok_l R23 [(".purge", Shared); (".backup", Exclusive)] (backup_body l1 dis l2 None)).
    { unfold backup_body. rewrite !ok_l_app. split; [|split; [|split; [|done]]]; (apply Hacts; [done..|right; set_solver|]);
        intros _ x Hx; cbn in Hx; set_solver. }
    cbn. split; [|done]. split; [|done]. exact Hok.
  - done.
  - change (call Gc (gc_body g)) with [Lock ".purge" Exclusive (gc_body g)].
    assert (Hok : ok_l R23 [(".purge", Exclusive)] (gc_body g)).
    { apply Hacts; [done..|left; done|]. intros _ x Hx. exact Hx. }
    split; [exact Hok|done].
  - destruct Hp as [Ho Hl].
    assert (Hv : o <> Verify) by (intros ->; set_solver).
    assert (Ha : forall h, (does o Scan = false \/ (".purge", Exclusive) ∉ h) -> (is_async o = false -> forall x, x ∈ declared o -> x ∈ h) -> ok_l R23 h (acts o l)).
    { intros h Hh1 Hh. apply Hacts; done. }
    repeat (apply elem_of_cons in Ho as [->|Ho];
      [first [split; [apply Ha; [first [left; done|right; set_solver]|intros _ x Hx; exact Hx]|done] | split; [done|]; apply Ha; [left; done|done]]|]).
    apply elem_of_nil in Ho. done.
Qed.

Definition up (s : sys) (l : label) : Prop :=
  match l with
  | Locked p t Exclusive =>
      exists body k F m, s_procs s !! p = Some (MkProc (Running (Lock t Exclusive body :: k)) F m) /\
      (m_hist m = c_revs (s_disk s) \/ exists o body', body = Act o Scan :: body')
  | _ => True
  end.
Definition heads_scan (c : code) : Prop := exists o l, c = Running (Act o Scan :: l).
Definition alive (c : code) : Prop := exists l, c = Running l.
Record J (s : sys) : Prop := MkJ {
  j_maps : forall u hs, is_Some (c_revs (s_disk s) !! u) -> c_maps (s_disk s) !! u = Some hs -> hs ⊆ c_chunks (s_disk s);
  j_has : forall u, c_revs (s_disk s) !! u = Some true -> is_Some (c_maps (s_disk s) !! u);
  j_file : forall p P u hs, s_procs s !! p = Some P -> (".purge", Shared) ∈ held (p_frames P) ->
    m_file (p_mem P) = Some (u, hs) -> hs ⊆ c_chunks (s_disk s);
  j_back : forall p P, s_procs s !! p = Some P -> (".backup", Exclusive) ∈ held (p_frames P) -> alive (p_code P) ->
    heads_scan (p_code P) \/ forall u b, m_hist (p_mem P) !! u = Some b -> c_revs (s_disk s) !! u = Some b;
  j_gc : forall p P, s_procs s !! p = Some P -> (".purge", Exclusive) ∈ held (p_frames P) -> alive (p_code P) ->
    (forall u, is_Some (c_revs (s_disk s) !! u) -> is_Some (c_maps (s_disk s) !! u) -> is_Some (m_hist (p_mem P) !! u)) /\
    (forall U, m_used (p_mem P) = Some U -> forall u hs, is_Some (c_revs (s_disk s) !! u) ->
       c_maps (s_disk s) !! u = Some hs -> hs ⊆ U) }.

Lemma J_start cs d : sound d -> J (start cs d).
Proof.
  intros [S1 S2]. assert (Hf : forall p P, s_procs (start cs d) !! p = Some P -> p_frames P = []).
  { intros p P Hp. cbn in Hp. rewrite list_lookup_fmap in Hp. destruct (cs !! p); [|done]. injection Hp as <-. done. }
  constructor; cbn.
  - done.
  - intros u Hu. destruct (S2 u Hu) as (hs & -> & _). eauto.
  - intros p P u hs Hp Hin. rewrite (Hf p P Hp) in Hin. apply elem_of_nil in Hin. done.
  - intros p P Hp Hin. rewrite (Hf p P Hp) in Hin. apply elem_of_nil in Hin. done.
  - intros p P Hp Hin. rewrite (Hf p P Hp) in Hin. apply elem_of_nil in Hin. done.
Qed.

(** A step that changes neither directory nor memory, and takes no lock. *)
Lemma J_quiet s p P c F L : J s -> s_procs s !! p = Some P ->
  (forall x, x ∈ held F -> x ∈ held (p_frames P)) ->
  (alive c -> (".backup", Exclusive) ∈ held F \/ (".purge", Exclusive) ∈ held F -> alive (p_code P) /\ ~ heads_scan (p_code P)) ->
  J (MkSys (<[p := MkProc c F (p_mem P)]> (s_procs s)) L (s_disk s)).
Proof.
  intros [J1 J2 J3 J4 J5] Hp HF Hc. assert (Hlt : p < length (s_procs s)) by (apply lookup_lt_Some in Hp; done).
  constructor; cbn [s_disk s_procs]; [done|done|..].
  - intros q Q u hs. destruct (decide (q = p)) as [->|Hne]; [|rewrite list_lookup_insert_ne by done; apply J3].
    rewrite list_lookup_insert by done. intros [= <-] Hin. cbn in *. eauto.
  - intros q Q. destruct (decide (q = p)) as [->|Hne]; [|rewrite list_lookup_insert_ne by done; apply J4].
    rewrite list_lookup_insert by done. intros [= <-] Hin Ha. cbn in *. destruct (Hc Ha ltac:(auto)) as [A B].
    right. destruct (J4 p P Hp (HF _ Hin) A) as [Hh|Hh]; [done|done].
  - intros q Q. destruct (decide (q = p)) as [->|Hne]; [|rewrite list_lookup_insert_ne by done; apply J5].
    rewrite list_lookup_insert by done. intros [= <-] Hin Ha. cbn in *. destruct (Hc Ha ltac:(auto)) as [A B]. eauto.
Qed.
Lemma J_act s p o a l F m m' d' : J s -> s_procs s !! p = Some (MkProc (Running (Act o a :: l)) F m) ->
  (forall u hs, is_Some (c_revs d' !! u) -> c_maps d' !! u = Some hs -> hs ⊆ c_chunks d') ->
  (forall u, c_revs d' !! u = Some true -> is_Some (c_maps d' !! u)) ->
  (forall u hs, (".purge", Shared) ∈ held F -> m_file m' = Some (u, hs) -> hs ⊆ c_chunks d') ->
  ((".backup", Exclusive) ∈ held F -> forall u b, m_hist m' !! u = Some b -> c_revs d' !! u = Some b) ->
  ((".purge", Exclusive) ∈ held F ->
    (forall u, is_Some (c_revs d' !! u) -> is_Some (c_maps d' !! u) -> is_Some (m_hist m' !! u)) /\
    (forall U, m_used m' = Some U -> forall u hs, is_Some (c_revs d' !! u) -> c_maps d' !! u = Some hs -> hs ⊆ U)) ->
  (forall q Q, q <> p -> s_procs s !! q = Some Q ->
    ((".purge", Shared) ∈ held (p_frames Q) -> c_chunks (s_disk s) ⊆ c_chunks d') /\
    ((".backup", Exclusive) ∈ held (p_frames Q) -> forall u b, c_revs (s_disk s) !! u = Some b -> c_revs d' !! u = Some b) /\
    ((".purge", Exclusive) ∈ held (p_frames Q) -> forall u hs, is_Some (c_revs d' !! u) -> c_maps d' !! u = Some hs ->
       is_Some (c_revs (s_disk s) !! u) /\ c_maps (s_disk s) !! u = Some hs)) ->
  J (MkSys (<[p := MkProc (Running l) F m']> (s_procs s)) (s_locks s) d').
Proof.
  intros [J1 J2 J3 J4 J5] Hp A1 A2 A3 A4 A5 A6. assert (Hlt : p < length (s_procs s)) by (apply lookup_lt_Some in Hp; done).
  constructor; cbn [s_disk s_procs]; [done|done|..].
  - intros q Q u hs. destruct (decide (q = p)) as [->|Hne].
    + rewrite list_lookup_insert by done. intros [= <-] Hin Hm. cbn in *. eauto.
    + rewrite list_lookup_insert_ne by done. intros HQ Hin Hm. destruct (A6 q Q Hne HQ) as (B & _).
      specialize (J3 q Q u hs HQ Hin Hm). specialize (B Hin). set_solver.
  - intros q Q. destruct (decide (q = p)) as [->|Hne].
    + rewrite list_lookup_insert by done. intros [= <-] Hin _. cbn in *. eauto.
    + rewrite list_lookup_insert_ne by done. intros HQ Hin Ha. destruct (A6 q Q Hne HQ) as (_ & B & _).
      destruct (J4 q Q HQ Hin Ha) as [Hh|Hh]; [auto|]. right. intros u b Hu. apply B; auto.
  - intros q Q. destruct (decide (q = p)) as [->|Hne].
    + rewrite list_lookup_insert by done. intros [= <-] Hin _. cbn in *. eauto.
    + rewrite list_lookup_insert_ne by done. intros HQ Hin Ha. destruct (A6 q Q Hne HQ) as (_ & _ & B).
      specialize (B Hin). destruct (J5 q Q HQ Hin Ha) as [C1 C2]. split.
      * intros u Hr [hs Hm]. destruct (B u hs Hr Hm) as [D1 D2]. apply C1; [done|eauto].
      * intros U HU u hs Hr Hm. destruct (B u hs Hr Hm) as [D1 D2]. eauto.
Qed.
Lemma elem_union_list (l : list (gset string)) x : x ∈ ⋃ l <-> exists X, X ∈ l /\ x ∈ X.
Proof. rewrite elem_of_union_list. naive_solver. Qed.
Lemma clean_lookup (h r : gmap string bool) u :
  (r ∖ filter (fun p => p.2 = false) h) !! u = if decide (h !! u = Some false) then None else r !! u.
Proof.
  destruct (decide (h !! u = Some false)) as [Hh|Hh].
  - apply lookup_difference_None. right. exists false. apply map_filter_lookup_Some. done.
  - destruct (r !! u) as [b|] eqn:E.
    + apply lookup_difference_Some. split; [done|]. apply map_filter_lookup_None. right. intros b' Hb' Hf. cbn in Hf. congruence.
    + apply lookup_difference_None. auto.
Qed.
Lemma J_step s l s' : good R23 s -> J s -> step s l s' -> up s l -> J s'.
Proof.
  intros G Hj Hs Hup. destruct Hs as [p o a l F m m' d' Hp Ha|p o a l F m Hp|p t md body l F m Hp Hnt Hm|p t body l F m Hp Hnt Hm
    |p t md body l F m Hp Ht|p t md k F m Hp|p t md k F m Hp|p P Hp].
  - destruct (g_ok _ s G p _ Hp) as ([(Hdo & Hver & Hsc & Hlk) _] & _ & _). cbn [p_frames] in Hsc, Hlk.
    assert (Hx : forall q Q t mq mp, q <> p -> s_procs s !! q = Some Q -> (t, mp) ∈ held F -> (t, mq) ∈ held (p_frames Q) ->
      mp = Shared /\ mq = Shared).
    { intros q Q t mq mp Hne HQ H1 H2. apply (g_compat _ s G p q t).
      - apply (g_held _ s G). eexists. split; [done|]. done.
      - apply (g_held _ s G). eexists. split; [done|]. done.
      - done. }
    pose proof Hj as [J1 J2 J3 J4 J5].
    pose proof (fun u hs => J3 p _ u hs Hp) as I3. pose proof (J4 p _ Hp) as I4. pose proof (J5 p _ Hp) as I5.
    cbn [p_frames p_code p_mem] in I3, I4, I5.
    assert (Hal : alive (Running (Act o a :: l))) by (eexists; done).
    assert (I4' : (".backup", Exclusive) ∈ held F -> a <> Scan -> forall u b, m_hist m !! u = Some b -> c_revs (s_disk s) !! u = Some b).
    { intros Hin Hne. destruct (I4 Hin Hal) as [(o' & l' & [= -> -> ->])|?]; done. }
    pose proof (fun Hin => I5 Hin Hal) as I5'. clear I4 I5.
    assert (I3' : forall u hs, (".purge", Shared) ∈ held F -> m_file m = Some (u, hs) -> hs ⊆ c_chunks (s_disk s)).
    { intros u hs Hin Hmf. eapply (I3 u hs); done. } clear I3.
    assert (Hbk : o = Backup -> (".backup", Exclusive) ∈ held F /\ (".purge", Shared) ∈ held F).
    { intros ->. split; apply Hlk; [done|cbn; set_solver|done|cbn; set_solver]. }
    assert (Hbk1 : o ∈ [Backup; Clean; Rm; Expire; Tags; Distrust] -> (".backup", Exclusive) ∈ held F).
    { intros Ho. repeat (apply elem_of_cons in Ho as [->|Ho]; [apply Hlk; [done|cbn; set_solver]|]). apply elem_of_nil in Ho. done. }
    assert (Hgc : o = Gc -> (".purge", Exclusive) ∈ held F) by (intros ->; apply Hlk; [done|cbn; set_solver]).
    assert (Hsx : (".purge", Shared) ∈ held F -> (".purge", Exclusive) ∈ held F -> False).
    { intros H1 H2. destruct (g_ok _ s G p _ Hp) as (_ & _ & Hnd). cbn in Hnd.
      apply elem_of_list_lookup in H1 as [i H1], H2 as [j H2].
      assert (i = j) by (eapply (NoDup_lookup (map fst (held F))); [done|rewrite list_lookup_fmap, H1; done|rewrite list_lookup_fmap, H2; done]).
      subst. congruence. }
    destruct a as [|u|u par|h|h| | |u|u| | |h|]; cbn in Ha.
    + (* Scan *) injection Ha as <- <-. eapply J_act; [exact Hj|exact Hp|..]; cbn.
      * done.
      * done.
      * done.
      * intros Hin u b Hu. done.
      * intros Hin. split; [done|]. apply I5'. done.
      * done.
    + (* Materialize *) destruct (c_revs (s_disk s) !! u) eqn:E1; [done|]. destruct (c_maps (s_disk s) !! u) eqn:E2; [done|].
      injection Ha as <- <-.
      eapply J_act; [exact Hj|exact Hp|..]; cbn.
      * intros v hs [b Hv] Hm. destruct (decide (v = u)) as [->|Hne]; [congruence|].
        rewrite lookup_insert_ne in Hv by done. eauto.
      * intros v Hv. destruct (decide (v = u)) as [->|Hne]; [rewrite lookup_insert in Hv; done|].
        rewrite lookup_insert_ne in Hv by done. eauto.
      * done.
      * intros Hin v b Hv. specialize (I4' Hin ltac:(done) v b Hv). rewrite lookup_insert_ne; [done|]. intros ->. congruence.
      * intros Hin. destruct (I5' Hin) as [C1 C2]. split.
        -- intros v [b Hv] Hm. destruct (decide (v = u)) as [->|Hne]; [rewrite E2 in Hm; destruct Hm; done|].
           rewrite lookup_insert_ne in Hv by done. eauto.
        -- intros U HU v hs [b Hv] Hm. destruct (decide (v = u)) as [->|Hne]; [congruence|].
           rewrite lookup_insert_ne in Hv by done. eauto.
      * intros q Q Hne HQ. split; [done|]. split.
        -- intros Hin v b Hv. rewrite lookup_insert_ne; [done|]. intros ->. congruence.
        -- intros Hin v hs [b Hv] Hm. destruct (decide (v = u)) as [->|Hnv]; [congruence|].
           rewrite lookup_insert_ne in Hv by done. eauto.
    + (* OpenNew *) destruct o; try done. destruct (Hbk eq_refl) as [B1 B2]. specialize (I4' B1 ltac:(done)).
      destruct (m_hist m !! u) as [bu|] eqn:E1; [|done]. destruct par as [q0|].
      * destruct (m_hist m !! q0) eqn:E2; [|done]. destruct (c_maps (s_disk s) !! q0) as [hs|] eqn:E3; [|done].
        injection Ha as <- <-. assert (Hsub : hs ⊆ c_chunks (s_disk s)) by (eapply J1; [|done]; eauto).
        eapply J_act; [exact Hj|exact Hp|..]; cbn.
        -- intros v hs' Hv Hm. destruct (decide (v = u)) as [->|Hne]; [rewrite lookup_insert in Hm; injection Hm as <-; done|].
           rewrite lookup_insert_ne in Hm by done. eauto.
        -- intros v Hv. destruct (decide (v = u)) as [->|Hne]; [rewrite lookup_insert; eauto|].
           rewrite lookup_insert_ne by done. eauto.
        -- intros v hs' _ [= -> ->]. done.
        -- intros _. apply I4'.
        -- intros Hin. exfalso. auto.
        -- intros q Q Hne HQ. split; [done|]. split; [done|]. intros Hin.
           destruct (Hx q Q ".purge" Exclusive Shared Hne HQ B2 Hin) as [_ ?]. done.
      * injection Ha as <- <-. eapply J_act; [exact Hj|exact Hp|..]; cbn.
        -- done.
        -- done.
        -- intros v hs' _ [= -> <-]. set_solver.
        -- intros _. apply I4'.
        -- intros Hin. exfalso. auto.
        -- done.
    + (* PutChunk *) destruct o; try done. destruct (Hbk eq_refl) as [B1 B2]. specialize (I4' B1 ltac:(done)).
      destruct (m_file m) as [[u hs]|] eqn:E; [|done]. injection Ha as <- <-. specialize (I3' u hs B2 eq_refl).
      eapply J_act; [exact Hj|exact Hp|..]; cbn.
      * intros v hs' Hv Hm. specialize (J1 v hs' Hv Hm). set_solver.
      * done.
      * intros v hs' _ [= -> <-]. set_solver.
      * intros _. apply I4'.
      * intros Hin. exfalso. auto.
      * intros q Q Hne HQ. split; [set_solver|]. split; [done|]. intros Hin.
        destruct (Hx q Q ".purge" Exclusive Shared Hne HQ B2 Hin) as [_ ?]. done.
    + (* DropRef *) destruct o; try done. destruct (Hbk eq_refl) as [B1 B2]. specialize (I4' B1 ltac:(done)).
      destruct (m_file m) as [[u hs]|] eqn:E; [|done]. injection Ha as <- <-. specialize (I3' u hs B2 eq_refl).
      eapply J_act; [exact Hj|exact Hp|..]; cbn.
      * done.
      * done.
      * intros v hs' _ [= -> <-]. set_solver.
      * intros _. apply I4'.
      * intros Hin. exfalso. auto.
      * done.
    + (* Flush *) destruct o; try done. destruct (Hbk eq_refl) as [B1 B2]. specialize (I4' B1 ltac:(done)).
      destruct (m_file m) as [[u hs]|] eqn:E; [|done]. injection Ha as <- <-. specialize (I3' u hs B2 eq_refl).
      eapply J_act; [exact Hj|exact Hp|..]; cbn.
      * intros v hs' Hv Hm. destruct (decide (v = u)) as [->|Hne]; [rewrite lookup_insert in Hm; injection Hm as <-; done|].
        rewrite lookup_insert_ne in Hm by done. eauto.
      * intros v Hv. destruct (decide (v = u)) as [->|Hne]; [rewrite lookup_insert; eauto|].
        rewrite lookup_insert_ne by done. eauto.
      * intros v hs' _ Hm. rewrite E in Hm. injection Hm as -> <-. done.
      * intros _. apply I4'.
      * intros Hin. exfalso. auto.
      * intros q Q Hne HQ. split; [done|]. split; [done|]. intros Hin.
        destruct (Hx q Q ".purge" Exclusive Shared Hne HQ B2 Hin) as [_ ?]. done.
    + (* Complete *) destruct o; try done. destruct (Hbk eq_refl) as [B1 B2]. specialize (I4' B1 ltac:(done)).
      destruct (m_file m) as [[u hs]|] eqn:E; [|done]. destruct (m_hist m !! u) as [b|] eqn:E1; [|done].
      destruct (c_maps (s_disk s) !! u) as [hs2|] eqn:E2; [|done]. injection Ha as <- <-.
      eapply J_act; [exact Hj|exact Hp|..]; cbn.
      * intros v hs' [b' Hv] Hm. destruct (decide (v = u)) as [->|Hne]; [eapply J1; [|done]; eauto|].
        rewrite lookup_insert_ne in Hv by done. eauto.
      * intros v Hv. destruct (decide (v = u)) as [->|Hne]; [eauto|]. rewrite lookup_insert_ne in Hv by done. eauto.
      * intros v hs' _ [= -> <-]. eauto.
      * intros _ v b'. destruct (decide (v = u)) as [->|Hne]; [rewrite !lookup_insert; done|].
        rewrite !lookup_insert_ne by done. apply I4'.
      * intros Hin. exfalso. auto.
      * intros q Q Hne HQ. split; [done|]. split.
        -- intros Hin. destruct (Hx q Q ".backup" Exclusive Exclusive Hne HQ B1 Hin) as [? ?]. done.
        -- intros Hin. destruct (Hx q Q ".purge" Exclusive Shared Hne HQ B2 Hin) as [_ ?]. done.
    + (* Remove *) assert (B1 : (".backup", Exclusive) ∈ held F) by (apply Hbk1; destruct o; try done; set_solver).
      specialize (I4' B1 ltac:(done)). injection Ha as <- <-.
      eapply J_act; [exact Hj|exact Hp|..]; cbn.
      * intros v hs' [b' Hv] Hm. apply lookup_delete_Some in Hv as [_ Hv]. eauto.
      * intros v Hv. apply lookup_delete_Some in Hv as [_ Hv]. eauto.
      * done.
      * intros _ v b' Hv. apply lookup_delete_Some in Hv as [Hne Hv]. rewrite lookup_delete_ne by done. auto.
      * intros Hin. destruct (I5' Hin) as [C1 C2]. split.
        -- intros v [b' Hv] Hm. apply lookup_delete_Some in Hv as [Hne Hv]. rewrite lookup_delete_ne by done. eauto.
        -- intros U HU v hs' [b' Hv] Hm. apply lookup_delete_Some in Hv as [Hne Hv]. eauto.
      * intros q Q Hne HQ. split; [done|]. split.
        -- intros Hin. destruct (Hx q Q ".backup" Exclusive Exclusive Hne HQ B1 Hin) as [? ?]. done.
        -- intros Hin v hs' [b' Hv] Hm. apply lookup_delete_Some in Hv as [_ Hv]. eauto.
    + (* WriteInfo *) assert (B1 : (".backup", Exclusive) ∈ held F) by (apply Hbk1; destruct o; try done; set_solver).
      specialize (I4' B1 ltac:(done)). destruct (m_hist m !! u) as [b|] eqn:E1; [|done]. injection Ha as <- <-.
      rewrite (insert_id (c_revs (s_disk s)) u b) by auto. destruct (s_disk s) as [dr dm dc] eqn:Ed. cbn in *.
      eapply J_act; [exact Hj|exact Hp|..]; cbn; [done|done|done|done|done|].
      rewrite Ed. cbn. done.
    + (* CleanOld *) assert (B1 : (".backup", Exclusive) ∈ held F) by (apply Hbk1; destruct o; try done; set_solver).
      specialize (I4' B1 ltac:(done)). injection Ha as <- <-.
      assert (Hlk' : forall v b, (c_revs (s_disk s) ∖ filter (fun p => p.2 = false) (m_hist m)) !! v = Some b -> c_revs (s_disk s) !! v = Some b).
      { intros v b Hv. rewrite clean_lookup in Hv. destruct (decide _); done. }
      eapply J_act; [exact Hj|exact Hp|..]; cbn.
      * intros v hs' [b' Hv] Hm. apply Hlk' in Hv. eauto.
      * intros v Hv. apply Hlk' in Hv. eauto.
      * done.
      * intros _ v b' Hv. rewrite clean_lookup in Hv. rewrite clean_lookup. destruct (decide _); [done|]. auto.
      * intros Hin. destruct (I5' Hin) as [C1 C2]. split.
        -- intros v [b' Hv] Hm. rewrite clean_lookup in Hv. rewrite clean_lookup. destruct (decide _); [done|]. eauto.
        -- intros U HU v hs' [b' Hv] Hm. apply Hlk' in Hv. eauto.
      * intros q Q Hne HQ. split; [done|]. split.
        -- intros Hin. destruct (Hx q Q ".backup" Exclusive Exclusive Hne HQ B1 Hin) as [? ?]. done.
        -- intros Hin v hs' [b' Hv] Hm. apply Hlk' in Hv. eauto.
    + (* LoadUsed *) destruct o; try done. pose proof (Hgc eq_refl) as B1. destruct (I5' B1) as [C1 C2].
      destruct (decide _) as [Hall|]; [|done]. injection Ha as <- <-.
      eapply J_act; [exact Hj|exact Hp|..]; cbn; [done|done| | | |done].
      * intros v hs' Hin. exfalso. auto.
      * intros Hin. apply I4'; done.
      * intros _. split; [done|]. intros U [= <-] v hs' Hv Hm. destruct (C1 v Hv ltac:(eauto)) as [b Hb].
        intros x Hin. apply elem_union_list. exists hs'. split; [|done]. apply elem_of_list_fmap. exists v.
        rewrite Hm. split; [done|]. apply elem_of_elements, elem_of_dom. eauto.
    + (* PurgeOne *) destruct o; try done. pose proof (Hgc eq_refl) as B1. destruct (I5' B1) as [C1 C2].
      destruct (m_used m) as [U|] eqn:E; [|done]. destruct (decide (h ∈ U)) as [Hh|Hh].
      * injection Ha as <- <-. eapply J_act; [exact Hj|exact Hp|..]; cbn; [done|done| | | |done].
        -- done.
        -- intros Hin. apply I4'; done.
        -- intros Hin. rewrite E. apply I5'. done.
      * injection Ha as <- <-. eapply J_act; [exact Hj|exact Hp|..]; cbn.
        -- intros v hs' Hv Hm. specialize (J1 v hs' Hv Hm). specialize (C2 U eq_refl v hs' Hv Hm). set_solver.
        -- done.
        -- intros v hs' Hin. exfalso. auto.
        -- intros Hin. apply I4'; done.
        -- intros Hin. rewrite E. apply I5'. done.
        -- intros q Q Hne HQ. split; [|done]. intros Hin. destruct (Hx q Q ".purge" Shared Exclusive Hne HQ B1 Hin) as [? ?]. done.
    + (* Read *) injection Ha as <- <-. eapply J_act; [exact Hj|exact Hp|..]; cbn.
      * done.
      * done.
      * done.
      * intros Hin. apply I4'; done.
      * done.
      * done.
  - eapply (J_quiet s p _ Raising F (s_locks s)) in Hj; [|done|done|intros [? ?]; done]. exact Hj.
  - pose proof Hj as [J1 J2 J3 J4 J5]. assert (Hlt : p < length (s_procs s)) by (apply lookup_lt_Some in Hp; done).
    destruct (g_ok _ s G p _ Hp) as ([Hbody _] & _ & _). cbn in Hbody.
    constructor; cbn [s_disk s_procs]; [done|done|..].
    + intros q Q u hs. destruct (decide (q = p)) as [->|Hne]; [|rewrite list_lookup_insert_ne by done; apply J3].
      rewrite list_lookup_insert by done. intros [= <-] _ Hmf. cbn in Hmf. done.
    + intros q Q. destruct (decide (q = p)) as [->|Hne]; [|rewrite list_lookup_insert_ne by done; apply J4].
      rewrite list_lookup_insert by done. intros [= <-] Hin Ha. cbn in *. apply elem_of_cons in Hin as [[= <- <-]|Hin].
      * cbn in Hup. destruct Hup as (body' & k' & F' & m' & Hp' & Hf). rewrite Hp in Hp'. injection Hp' as <- <- <- <-.
        destruct Hf as [->|(o & body' & ->)]; [right; done|]. left. exists o, body'. done.
      * right. destruct (J4 p _ Hp Hin) as [(o & k & Hh)|Hh]; [eexists; done|done|done].
    + intros q Q. destruct (decide (q = p)) as [->|Hne]; [|rewrite list_lookup_insert_ne by done; apply J5].
      rewrite list_lookup_insert by done. intros [= <-] Hin Ha. cbn in *. split; [|done].
      apply elem_of_cons in Hin as [[= <- <-]|Hin].
      * cbn in Hup. destruct Hup as (body' & k' & F' & m' & Hp' & Hf). rewrite Hp in Hp'. injection Hp' as <- <- <- <-.
        destruct Hf as [->|(o & body' & ->)]; [done|]. cbn in Hbody. destruct Hbody as [(_ & _ & D3 & _) _].
        exfalso. apply (D3 eq_refl). left.
      * apply (J5 p _ Hp Hin). eexists; done.
  - eapply (J_quiet s p _ Raising F (s_locks s)) in Hj; [|done|done|intros [? ?]; done]. exact Hj.
  - eapply (J_quiet s p _ Raising F (s_locks s)) in Hj; [|done|done|intros [? ?]; done]. exact Hj.
  - refine (J_quiet s p _ (Running k) F _ Hj Hp _ _); [intros x Hin; right; done|].
    intros _ _. cbn. split; [eexists; done|]. intros (? & ? & [=]).
  - refine (J_quiet s p _ Raising F _ Hj Hp _ _); [intros x Hin; right; done|intros [? ?]; done].
  - refine (J_quiet s p _ Dead [] _ Hj Hp _ _); [|intros [? ?]; done].
    intros x Hin. apply elem_of_nil in Hin. done.
Qed.

Lemma J_run cs d tr s' : (forall l c, l ∈ cs -> c ∈ l -> possible c /\ no_verify c) -> sound d ->
  run (start cs d) tr s' -> (forall s l, (s, l) ∈ tr -> up s l) -> good R23 s' /\ J s'.
Proof.
  intros Hc Hd Hr. assert (G0 : good R23 (start cs d)).
  { apply good_start. intros l c Hl Hcl. destruct (Hc l c Hl Hcl). apply R23_ok; done. }
  induction Hr as [|tr s1 l s2 Hr IH Hs]; intros Hup; [split; [done|apply J_start; done]|].
  destruct IH as [G Hj]; [intros s x Hx; apply Hup; apply elem_of_app; auto|]. split; [eapply good_step; done|].
  eapply J_step; [done..|]. apply Hup. apply elem_of_app. right. left.
Qed.
(** Only a request takes the metadata of a complete revision away. *)
Lemma completed_step s l s' u : good R23 s -> J s -> step s l s' -> completed (s_disk s) u ->
  (forall p o, l <> Did p o (Remove u)) -> completed (s_disk s') u.
Proof.
  intros G Hj Hs Hu Hl. unfold completed in *. destruct Hs as [p o a k F m m' d' Hp Ha|?|?|?|?|?|?|?]; try exact Hu.
  destruct (g_ok _ s G p _ Hp) as ([(Hdo & Hver & Hsc & Hlk) _] & _ & _). cbn [p_frames] in Hlk.
  assert (Hbk1 : o ∈ [Backup; Clean; Rm; Expire; Tags; Distrust] -> (".backup", Exclusive) ∈ held F).
  { intros Ho. repeat (apply elem_of_cons in Ho as [->|Ho]; [apply Hlk; [done|cbn; set_solver]|]). apply elem_of_nil in Ho. done. }
  assert (I4 : (".backup", Exclusive) ∈ held F -> a <> Scan -> forall u b, m_hist m !! u = Some b -> c_revs (s_disk s) !! u = Some b).
  { intros Hin Hne. destruct (j_back s Hj p _ Hp Hin) as [(o' & l' & [= -> -> ->])|?]; [eexists; done|done|done]. }
  cbn [s_disk]. destruct a as [|v|v par|h|h| | |v|v| | |h|]; cbn in Ha.
  - injection Ha as <- <-. done.
  - destruct (c_revs (s_disk s) !! v) eqn:E1; [done|]. destruct (c_maps (s_disk s) !! v) eqn:E2; [done|].
    injection Ha as <- <-. cbn. rewrite lookup_insert_ne; [done|]. intros ->. congruence.
  - destruct (m_hist m !! v); [|done]. destruct par as [q|]; [|injection Ha as <- <-; done].
    destruct (m_hist m !! q); [|done]. destruct (c_maps (s_disk s) !! q); [|done]. injection Ha as <- <-. done.
  - destruct (m_file m) as [[? ?]|]; [|done]. injection Ha as <- <-. done.
  - destruct (m_file m) as [[? ?]|]; [|done]. injection Ha as <- <-. done.
  - destruct (m_file m) as [[? ?]|]; [|done]. injection Ha as <- <-. done.
  - destruct (m_file m) as [[v ?]|]; [|done]. destruct (m_hist m !! v); [|done]. destruct (c_maps (s_disk s) !! v); [|done].
    injection Ha as <- <-. cbn. destruct (decide (u = v)) as [->|Hne]; [apply lookup_insert|rewrite lookup_insert_ne by done; done].
  - injection Ha as <- <-. cbn. rewrite lookup_delete_ne; [done|]. intros ->. apply (Hl p o). done.
  - destruct (m_hist m !! v) as [b|] eqn:E; [|done]. injection Ha as <- <-. cbn.
    assert (B1 : (".backup", Exclusive) ∈ held F) by (apply Hbk1; destruct o; try done; set_solver).
    specialize (I4 B1 ltac:(done) v b E). rewrite insert_id; done.
  - injection Ha as <- <-. cbn. rewrite clean_lookup. rewrite decide_False; [done|]. intros Hx.
    assert (B1 : (".backup", Exclusive) ∈ held F) by (apply Hbk1; destruct o; try done; set_solver).
    specialize (I4 B1 ltac:(done) u false Hx). congruence.
  - destruct (decide _); [|done]. injection Ha as <- <-. done.
  - destruct (m_used m); [|done]. destruct (decide _); injection Ha as <- <-; done.
  - injection Ha as <- <-. done.
Qed.

(** ** Carrying out concrete runs *)
Definition next (s : sys) (p : nat) : option (label * sys) :=
  match s_procs s !! p with
  | Some (MkProc (Running (Act o a :: l)) F m) =>
      match act a m (s_disk s) with
      | Some (m', d') => Some (Did p o a, MkSys (<[p := MkProc (Running l) F m']> (s_procs s)) (s_locks s) d')
      | None => None
      end
  | Some (MkProc (Running (Lock t md body :: l)) F m) =>
      if decide (t ∉ map (fun f => f.1.1) F) then
        if may_lock t md (s_locks s)
        then Some (Locked p t md, MkSys (<[p := MkProc (Running body) ((t, md, l) :: F) (fresh_locals m)]> (s_procs s))
                     ((p, t, md) :: s_locks s) (s_disk s))
        else None
      else None
  | Some (MkProc (Running []) ((t, md, k) :: F) m) =>
      Some (Released p t, MkSys (<[p := MkProc (Running k) F m]> (s_procs s)) (unlock p t (s_locks s)) (s_disk s))
  | _ => None
  end.
Lemma next_sound s p l s' : next s p = Some (l, s') -> step s l s'.
Proof.
  unfold next. destruct (s_procs s !! p) as [[[[|[o a|t md body] k]| |] F m]|] eqn:Hp; try done.
  - destruct F as [|[[t md] k] F]; [done|]. intros [= <- <-]. eapply step_return. done.
  - destruct (act a m (s_disk s)) as [[m' d']|] eqn:Ha; [|done]. intros [= <- <-]. eapply step_act; done.
  - destruct (decide _); [|done]. destruct (may_lock t md (s_locks s)) eqn:Hm; [|done]. intros [= <- <-].
    eapply step_lock; done.
Qed.
Fixpoint exec (s : sys) (ps : list nat) : option (list (sys * label) * sys) :=
  match ps with
  | [] => Some ([], s)
  | p :: ps =>
      match next s p with
      | Some (l, s') => match exec s' ps with Some (tr, s2) => Some ((s, l) :: tr, s2) | None => None end
      | None => None
      end
  end.
Lemma run_cons s l s1 tr s2 : step s l s1 -> run s1 tr s2 -> run s ((s, l) :: tr) s2.
Proof.
  intros Hs Hr. induction Hr as [|tr s2 l2 s3 Hr IH Hs2].
  - apply (run_snoc s [] s l s1); [constructor|done].
  - change ((s, l) :: tr ++ [(s2, l2)]) with (((s, l) :: tr) ++ [(s2, l2)]). eapply run_snoc; done.
Qed.
Lemma exec_sound s ps tr s' : exec s ps = Some (tr, s') -> run s tr s'.
Proof.
  revert s tr. induction ps as [|p ps IH]; intros s tr; cbn.
  - intros [= <- <-]. constructor.
  - destruct (next s p) as [[l s1]|] eqn:E; [|done]. destruct (exec s1 ps) as [[tr2 s2]|] eqn:E2; [|done].
    intros [= <- <-]. eapply run_cons; [eapply next_sound; done|]. apply IH. done.
Qed.
Lemma run_app s tr1 s1 tr2 s2 : run s tr1 s1 -> run s1 tr2 s2 -> run s (tr1 ++ tr2) s2.
Proof.
  intros H1 H2. induction H2 as [|tr2 s2 l s3 H2 IH Hs]; [rewrite app_nil_r; done|].
  rewrite app_assoc. eapply run_snoc; done.
Qed.

Definition next_act (s : sys) (p : nat) : option (op * action) :=
  match s_procs s !! p with Some (MkProc (Running (Act o a :: _)) _ _) => Some (o, a) | _ => None end.
Definition next_lock (s : sys) (p : nat) : option (string * mode) :=
  match s_procs s !! p with Some (MkProc (Running (Lock t m _ :: _)) _ _) => Some (t, m) | _ => None end.
Lemma next_act_spec s p o a : next_act s p = Some (o, a) -> about_to s p o a.
Proof.
  unfold next_act, about_to. destruct (s_procs s !! p) as [[[[|[o' a'|t md body] k]| |] F m]|] eqn:Hp; try done.
  intros [= <- <-]. eauto.
Qed.
Lemma next_lock_spec s p t m : next_lock s p = Some (t, m) -> about_to_lock s p t m.
Proof.
  unfold next_lock, about_to_lock. destruct (s_procs s !! p) as [[[[|[o' a'|t' md body] k]| |] F m']|] eqn:Hp; try done.
  intros [= <- <-]. eauto.
Qed.
Definition all_do (o : op) (l : list action) : bool := forallb (does o) l.
Definition possible_b (c : command) : bool :=
  match c with
  | CUnlocked l => all_do Unlocked l
  | CBackup l1 dis l2 v => all_do Backup (l1 ++ l2) && all_do Distrust dis &&
      match v with Some (l, g) => all_do Verify l && all_do Gc g | None => true end
  | CVerify l g => all_do Verify l && all_do Gc g
  | CGc g => all_do Gc g
  | CSimple o l => bool_decide (o ∈ [RestoreFile; RestoreStdout; Clean; Rm; Expire; Tags; Distrust; PushMetadata; PullMetadata]) && all_do o l
  end.
Definition no_verify_b (c : command) : bool :=
  match c with CVerify _ _ | CBackup _ _ _ (Some _) => false | _ => true end.
Lemma all_do_spec o l : all_do o l = true -> Forall (fun a => does o a = true) l.
Proof. unfold all_do. intros Hl. rewrite forallb_forall in Hl. apply Forall_forall. intros a Ha. apply Hl, elem_of_list_In. done. Qed.
Lemma possible_b_spec cs : forallb (forallb possible_b) cs = true -> forall l c, l ∈ cs -> c ∈ l -> possible c.
Proof.
  intros Hb l c Hl Hc. rewrite forallb_forall in Hb. apply elem_of_list_In in Hl. specialize (Hb l Hl).
  rewrite forallb_forall in Hb. apply elem_of_list_In in Hc. specialize (Hb c Hc). clear Hl Hc.
  destruct c as [a|l1 dis l2 v|a g|g|o a]; cbn [possible_b possible] in Hb |- *.
  - apply all_do_spec. done.
  - apply andb_true_iff in Hb as [Hb H2]. apply andb_true_iff in Hb as [Hb H1].
    split; [apply all_do_spec; done|]. split; [apply all_do_spec; done|]. destruct v as [[a g]|]; [|done].
    apply andb_true_iff in H2 as [? ?]. split; apply all_do_spec; done.
  - apply andb_true_iff in Hb as [? ?]. split; apply all_do_spec; done.
  - apply all_do_spec. done.
  - apply andb_true_iff in Hb as [Hb ?]. split; [apply bool_decide_eq_true in Hb; done|]. apply all_do_spec. done.
Qed.
Lemma no_verify_b_spec cs : forallb (forallb possible_b) cs && forallb (forallb no_verify_b) cs = true ->
  forall l c, l ∈ cs -> c ∈ l -> possible c /\ no_verify c.
Proof.
  intros Hb l c Hl Hc. apply andb_true_iff in Hb as [H1 H2]. split; [eapply possible_b_spec; done|].
  rewrite forallb_forall in H2. apply elem_of_list_In in Hl. specialize (H2 l Hl).
  rewrite forallb_forall in H2. apply elem_of_list_In in Hc. specialize (H2 c Hc).
  destruct c as [a|l1 dis l2 [v|]|a g|g|o a]; done.
Qed.
