(** C97-C99: settings of the configuration file, where the API listens, what clients use. *)
From Verif Require Import Proofs.BaseLemmas Proofs.RevSpecTok.
From Verif Require Import Model.ApiServer.

(** ** Specification *)
(** The API should listen on address and port [b]. *)
Definition configured_bind (c : settings) (b : bind_addr) : Prop :=
  b.1 ∈ st_addrs c /\ b.1 <> "" /\ b.2 = st_port c /\ st_port c <> 0%Z.
(** Everything that can happen; [calm]: no reload falls into a reconfiguration. *)
Definition reconfiguring (s : server) : Prop :=
  match v_at s with Adding _ _ | Removing _ _ => True | _ => False end.
Inductive srv_runs (calm : bool) (c0 : settings) : server -> Prop :=
| rn_start : srv_runs calm c0 (server_init c0)
| rn_own s s' : srv_runs calm c0 s -> own s s' -> srv_runs calm c0 s'
| rn_reload s c : srv_runs calm c0 s -> (calm = true -> ~ reconfiguring s) ->
    srv_runs calm c0 (reload_server c s).
(** The loop waits for the next reload; the loop has ended with an exception. *)
Definition at_rest (s : server) : Prop := v_at s = Waiting /\ v_event s = false.
Definition ended (s : server) : Prop := v_at s = Dead.

(** ** C97: the API follows the configuration *)
Lemma binds_spec c b : b ∈ binds c <-> configured_bind c b.
Proof.
  unfold binds, configured_bind. case_bool_decide as H; [split; [intros Hb; inversion Hb|tauto]|].
  rewrite elem_of_list_fmap. setoid_rewrite elem_of_list_filter. destruct b as [a p]; cbn. split.
  - intros (x & [= -> ->] & ? & ?). done.
  - intros (? & ? & -> & _). eauto.
Qed.
Definition good (s : server) : Prop :=
  NoDup (v_sites s) /\
  match v_at s with
  | Starting => v_sites s = []
  | Waiting => v_event s = false -> v_tokens s = st_tokens (v_conf s) /\ (forall b, b ∈ v_sites s <-> b ∈ binds (v_conf s))
  | Adding todo bs => bs = binds (v_conf s) /\ v_tokens s = st_tokens (v_conf s) /\
      (forall b, b ∈ bs -> b ∈ v_sites s \/ b ∈ todo) /\ (forall b, b ∈ todo -> b ∈ bs)
  | Removing todo bs => bs = binds (v_conf s) /\ v_tokens s = st_tokens (v_conf s) /\
      (forall b, b ∈ bs -> b ∈ v_sites s) /\ (forall b, b ∈ v_sites s -> b ∈ bs \/ b ∈ todo)
  | Dead => True
  end.
Lemma good_own s s' : good s -> own s s' -> good s'.
Proof.
  intros [Hnd Hg] Hs. destruct Hs as [s H|s H He|s b l bs H Hb|s b l bs H Hb|s b l bs H Hb|s bs H|s b l bs H Hb|s b l bs H Hb|s bs H];
    rewrite H in Hg; unfold good; cbn.
  - split; [done|]. split; [done|]. split; [done|]. auto.
  - split; [done|]. split; [done|]. split; [done|]. auto.
  - destruct Hg as (-> & Ht & Hg & Hsub). split; [done|]. split; [done|]. split; [done|].
    split; [|intros x Hx; apply Hsub; right; done]. intros x Hx.
    destruct (Hg x Hx) as [?|Hin]; [auto|]. apply elem_of_cons in Hin as [->|?]; auto.
  - destruct Hg as (-> & Ht & Hg & Hsub). split.
    { apply NoDup_app. split; [done|]. split; [|apply NoDup_singleton]. intros x Hx Hin.
      apply elem_of_list_singleton in Hin as ->. done. }
    split; [done|]. split; [done|]. split; [|intros x Hx; apply Hsub; right; done].
    intros x Hx. rewrite elem_of_app, elem_of_list_singleton.
    destruct (Hg x Hx) as [?|Hin]; [auto|]. apply elem_of_cons in Hin as [->|?]; auto.
  - split; [done|]. done.
  - destruct Hg as (-> & Ht & Hg & _). split; [done|]. split; [done|]. split; [done|]. split; [|auto].
    intros x Hx. destruct (Hg x Hx) as [?|Hin]; [done|]. inversion Hin.
  - destruct Hg as (-> & Ht & Hg1 & Hg2). split; [done|]. split; [done|]. split; [done|]. split; [done|].
    intros x Hx. destruct (Hg2 x Hx) as [?|Hin]; [auto|]. apply elem_of_cons in Hin as [->|?]; auto.
  - destruct Hg as (-> & Ht & Hg1 & Hg2). split; [apply NoDup_filter; done|]. split; [done|]. split; [done|]. split.
    + intros x Hx. apply elem_of_list_filter. split; [intros ->; done|auto].
    + intros x Hx. apply elem_of_list_filter in Hx as [Hne Hx].
      destruct (Hg2 x Hx) as [?|Hin]; [auto|]. apply elem_of_cons in Hin as [->|?]; [done|auto].
  - destruct Hg as (-> & Ht & Hg1 & Hg2). split; [done|]. intros _. split; [done|]. intros b. split; [|auto].
    intros Hb. destruct (Hg2 b Hb) as [?|Hin]; [done|]. inversion Hin.
Qed.
Lemma good_runs c0 s : srv_runs true c0 s -> good s.
Proof.
  induction 1 as [|s s' Hr IH Hs|s c Hr IH Hc].
  - split; [apply NoDup_nil_2|done].
  - eapply good_own; done.
  - destruct IH as [Hnd Hg]. specialize (Hc eq_refl). unfold reconfiguring in Hc. unfold good, reload_server. cbn.
    split; [done|]. destruct (v_at s); try done; tauto.
Qed.

(** Whenever the loop rests, the API accepts the tokens of the current configuration and
    listens on exactly the configured addresses, on each once. *)
Theorem C97_follows_partial c0 s :
  srv_runs true c0 s -> at_rest s ->
  v_tokens s = st_tokens (v_conf s) /\ NoDup (v_sites s) /\
  forall b, b ∈ v_sites s <-> configured_bind (v_conf s) b.
Proof.
  intros Hr [Hw He]. destruct (good_runs _ _ Hr) as [Hnd Hg]. rewrite Hw in Hg. destruct (Hg He) as [Ht Hb].
  split; [done|]. split; [done|]. intros b. rewrite Hb. apply binds_spec.
Qed.
Print Assumptions C97_follows_partial.

(** Without further reloads the loop comes to rest, or ends because an address could not be
    bound: no infinite work, no other place where it stops. *)
Definition left_to_do (s : server) : nat :=
  match v_at s with
  | Starting => length (v_sites s) + 2 * length (binds (v_conf s)) + 3
  | Waiting => if v_event s then length (v_sites s) + 2 * length (binds (v_conf s)) + 3 else 0
  | Adding todo _ => length (v_sites s) + 2 * length todo + 2
  | Removing todo _ => length todo + 1
  | Dead => 0
  end.
Lemma own_less s s' : own s s' -> left_to_do s' < left_to_do s.
Proof.
  intros Hs. destruct Hs as [s H|s H He|s b l bs H Hb|s b l bs H Hb|s b l bs H Hb|s bs H|s b l bs H Hb|s b l bs H Hb|s bs H];
    unfold left_to_do; rewrite H; cbn; rewrite ?He; rewrite ?app_length; cbn; lia.
Qed.
Theorem C97_comes_to_rest c0 s :
  (forall n s', nsteps own n s s' -> n <= left_to_do s) /\
  (forall s', rtc own s s' -> (forall s'', ~ own s' s'') -> at_rest s' \/ ended s') /\
  (forall s', srv_runs true c0 s -> own s s' -> ended s' ->
     exists b, configured_bind (v_conf s) b /\ b ∉ v_sites s).
Proof.
  split; [|split].
  - intros n. revert s. induction n as [|n IH]; intros s s' H; [lia|].
    inversion H as [|? ? y ? Hs Hn]; subst. specialize (IH _ _ Hn). apply own_less in Hs. lia.
  - intros s' _ Hstuck. unfold at_rest, ended. destruct (v_at s') as [| |[|b l] bs|[|b l] bs|] eqn:E.
    + exfalso. eapply Hstuck, own_start, E.
    + destruct (v_event s') eqn:Ev; [|auto]. exfalso. eapply Hstuck, own_wake; done.
    + exfalso. eapply Hstuck, own_added, E.
    + exfalso. destruct (decide (b ∈ v_sites s')); eapply Hstuck; [eapply own_known|eapply own_fail]; done.
    + exfalso. eapply Hstuck, own_done, E.
    + exfalso. destruct (decide (b ∈ bs)); eapply Hstuck; [eapply own_keep|eapply own_stop]; done.
    + auto.
  - intros s' Hr Hs Hd. destruct (good_runs _ _ Hr) as [_ Hg]. destruct Hs as [| | | |s b l bs Hat Hb| | | |]; try discriminate Hd.
    + rewrite Hat in Hg. destruct Hg as (-> & _ & _ & Hsub). exists b. split; [|done]. apply binds_spec, Hsub. left.
Qed.
Print Assumptions C97_comes_to_rest.

(** An address that stays configured is served without interruption while the loop
    works on a reload. *)
Theorem C97_uninterrupted c0 s c s' b :
  srv_runs true c0 s -> at_rest s -> b ∈ v_sites s -> configured_bind c b ->
  rtc own (reload_server c s) s' -> b ∈ v_sites s'.
Proof.
  intros Hr [Hw He] Hb Hc Hs. apply binds_spec in Hc.
  assert (Hg : good (reload_server c s)).
  { apply (good_runs c0). apply rn_reload; [done|]. intros _. unfold reconfiguring. rewrite Hw. exact id. }
  assert (Hg0 : b ∈ v_sites (reload_server c s)) by exact Hb.
  assert (Hc0 : v_conf (reload_server c s) = c) by reflexivity.
  revert Hg Hg0 Hc0 Hs. generalize (reload_server c s) as s0. clear -Hc. intros s0 Hg Hg0 Hc0 Hs.
  revert Hg Hg0 Hc0. induction Hs as [s1|s1 s2 s3 Hs Hrest IH]; intros Hg Hb Heq; [done|].
  apply IH.
  - eapply good_own; done.
  - destruct Hs as [s H|s H He|s x l bs H Hx|s x l bs H Hx|s x l bs H Hx|s bs H|s x l bs H Hx|s x l bs H Hx|s bs H]; cbn; try done.
    + apply elem_of_app. auto.
    + apply elem_of_list_filter. split; [|done]. intros ->. destruct Hg as [_ Hg]. rewrite H in Hg.
      destruct Hg as (-> & _). rewrite Heq in Hx. done.
  - destruct Hs; done.
Qed.
Print Assumptions C97_uninterrupted.

(** A configured address that cannot be bound ends the loop for good: the daemon goes on,
    serves the old addresses with the old tokens, and no later reload changes either. *)
Inductive step (s : server) : server -> Prop :=
| st_own s' : own s s' -> step s s'
| st_reload c : step s (reload_server c s).
Theorem C97_refuted c0 c1 c2 a b :
  configured_bind c0 a -> (forall x, configured_bind c0 x -> x = a) -> NoDup (st_addrs c0) ->
  configured_bind c1 b -> b <> a ->
  exists s, srv_runs true c0 s /\ ended s /\ v_conf s = c2 /\ v_tokens s = st_tokens c1 /\ v_sites s = [a] /\
    forall s', rtc step s s' -> ended s' /\ v_tokens s' = st_tokens c1 /\ v_sites s' = [a].
Proof.
  intros Ha Honly Hnd Hb Hne.
  assert (Hb0 : binds c0 = [a]).
  { assert (NoDup (binds c0)).
    { unfold binds. case_bool_decide; [apply NoDup_nil_2|]. apply NoDup_fmap_2; [intros ? ? [= ->]; done|].
      apply NoDup_filter; done. }
    destruct (binds c0) as [|x [|y l]] eqn:E.
    - apply binds_spec in Ha. rewrite E in Ha. inversion Ha.
    - f_equal. apply Honly, binds_spec. rewrite E. left.
    - exfalso. assert (x = a) by (apply Honly, binds_spec; rewrite E; left).
      assert (y = a) by (apply Honly, binds_spec; rewrite E; right; left). subst.
      inversion H as [|? ? Hx _]; subst. apply Hx. left. }
  apply binds_spec in Hb.
  set (s1 := MkServer c0 false (st_tokens c0) [a] Waiting).
  assert (R1 : srv_runs true c0 s1).
  { assert (R : srv_runs true c0 (begin (server_init c0))).
    { eapply rn_own; [apply rn_start|]. apply own_start. reflexivity. }
    unfold begin in R. cbn in R. rewrite Hb0 in R.
    eapply rn_own in R; [|eapply own_listen; [reflexivity|cbn; inversion 1]]. cbn in R.
    eapply rn_own in R; [|eapply own_added; reflexivity]. cbn in R.
    eapply rn_own in R; [|eapply own_keep; [reflexivity|left]]. cbn in R.
    eapply rn_own in R; [|eapply own_done; reflexivity]. exact R. }
  set (s2 := begin (reload_server c1 s1)).
  assert (R2 : srv_runs true c0 s2).
  { eapply rn_own; [apply (rn_reload _ _ s1 c1 R1)|apply own_wake; reflexivity]. intros _ H. exact H. }
  assert (Hfail : forall l, b ∈ l -> forall s, srv_runs true c0 s -> v_at s = Adding l (binds c1) -> v_sites s = [a] ->
    v_tokens s = st_tokens c1 ->
    exists s', srv_runs true c0 s' /\ ended s' /\ v_sites s' = [a] /\ v_tokens s' = st_tokens c1).
  { induction l as [|x l IH]; intros Hin s Hr Hat Hsites Htok; [inversion Hin|].
    destruct (decide (x = a)) as [->|Hx].
    - apply elem_of_cons in Hin as [->|Hin]; [done|].
      eapply (IH Hin (at_ (Adding l (binds c1)) s)); try done.
      eapply rn_own; [exact Hr|]. eapply own_known; [exact Hat|]. rewrite Hsites. left.
    - exists (at_ Dead s). split; [|done]. eapply rn_own; [exact Hr|]. eapply own_fail; [exact Hat|].
      rewrite Hsites. intros Hi. apply elem_of_list_singleton in Hi. done. }
  destruct (Hfail _ Hb s2 R2 eq_refl eq_refl eq_refl) as (s3 & R3 & Hd & Hsites & Htok).
  exists (reload_server c2 s3). split.
  { apply rn_reload; [done|]. intros _. unfold reconfiguring. rewrite Hd. exact id. }
  split; [exact Hd|]. split; [done|]. split; [done|]. split; [done|].
  assert (forall s, ended s -> v_tokens s = st_tokens c1 -> v_sites s = [a] -> forall s', rtc step s s' ->
    ended s' /\ v_tokens s' = st_tokens c1 /\ v_sites s' = [a]) as Hall.
  { intros s D T Sx s' Hs. revert D T Sx. induction Hs as [s4|s4 s5 s6 Hs _ IH]; [done|]. intros D T Sx.
    destruct Hs as [s7 Ho|c].
    - unfold ended in D. destruct Ho; congruence.
    - apply IH; done. }
  apply Hall; done.
Qed.
Print Assumptions C97_refuted.

(** A reload that replaces an address and the tokens, and the loop having dealt with it. *)
Definition ex_conf1 : settings := MkSettings 1 "/srv" None ["::1"; ""; "127.0.0.1"] 6023 {["t1" := "server1"]} None None.
Definition ex_conf2 : settings := MkSettings 1 "/srv" None ["127.0.0.1"; "10.0.0.1"] 6023 {["t2" := "server1"]} None None.
Example C97_case :
  let s := MkServer ex_conf2 false {["t2" := "server1"]} [("127.0.0.1", 6023%Z); ("10.0.0.1", 6023%Z)] Waiting in
  let s0 := MkServer ex_conf1 false {["t1" := "server1"]} [("::1", 6023%Z); ("127.0.0.1", 6023%Z)] Waiting in
  srv_runs true ex_conf1 s0 /\ at_rest s0 /\ srv_runs true ex_conf1 s /\ at_rest s /\
  rtc own (reload_server ex_conf2 s0) s /\ configured_bind ex_conf2 ("127.0.0.1", 6023%Z).
Proof.
  intros s s0.
  assert (R0 : srv_runs true ex_conf1 s0).
  { assert (R : srv_runs true ex_conf1 (begin (server_init ex_conf1))).
    { eapply rn_own; [apply rn_start|]. apply own_start. reflexivity. }
    eapply rn_own in R; [|eapply own_listen; [reflexivity|apply (bool_decide_eq_true_1 _); vm_compute; reflexivity]]. cbn in R.
    eapply rn_own in R; [|eapply own_listen; [reflexivity|apply (bool_decide_eq_true_1 _); vm_compute; reflexivity]]. cbn in R.
    eapply rn_own in R; [|eapply own_added; reflexivity]. cbn in R.
    eapply rn_own in R; [|eapply own_keep; [reflexivity|apply (bool_decide_eq_true_1 _); vm_compute; reflexivity]]. cbn in R.
    eapply rn_own in R; [|eapply own_keep; [reflexivity|apply (bool_decide_eq_true_1 _); vm_compute; reflexivity]]. cbn in R.
    eapply rn_own in R; [|eapply own_done; reflexivity]. exact R. }
  assert (R : rtc own (reload_server ex_conf2 s0) s).
  { eapply rtc_l; [apply own_wake; reflexivity|].
    eapply rtc_l; [eapply own_known; [reflexivity|apply (bool_decide_eq_true_1 _); vm_compute; reflexivity]|].
    eapply rtc_l; [eapply own_listen; [reflexivity|apply (bool_decide_eq_true_1 _); vm_compute; reflexivity]|].
    eapply rtc_l; [eapply own_added; reflexivity|].
    eapply rtc_l; [eapply own_stop; [reflexivity|apply (bool_decide_eq_true_1 _); vm_compute; reflexivity]|].
    eapply rtc_l; [eapply own_keep; [reflexivity|apply (bool_decide_eq_true_1 _); vm_compute; reflexivity]|].
    eapply rtc_l; [eapply own_keep; [reflexivity|apply (bool_decide_eq_true_1 _); vm_compute; reflexivity]|].
    eapply rtc_l; [eapply own_done; reflexivity|]. apply rtc_refl. }
  split; [exact R0|]. split; [done|]. split.
  { assert (R1 : srv_runs true ex_conf1 (reload_server ex_conf2 s0)) by (apply rn_reload; [exact R0|intros _ H; exact H]).
    revert R1. generalize R. generalize (reload_server ex_conf2 s0). intros x. clear. induction 1; [done|].
    intros. apply IHR. eapply rn_own; done. }
  split; [done|]. split; [exact R|]. apply binds_spec. apply (bool_decide_eq_true_1 _). vm_compute. reflexivity.
Qed.

(** ** C98: settings *)
(** Specification: a comma-separated list of names, with spaces around the names. *)
Definition spaces (l : list ascii) : Prop := forall c, c ∈ l -> c = " "%char.
Definition a_name (w : string) : Prop := forall c, c ∈ chars w -> c <> ","%char /\ is_ws c = false.
Inductive comma_list : list string -> list ascii -> Prop :=
| cl_last pre w post : spaces pre -> spaces post -> a_name w -> comma_list [w] (pre ++ chars w ++ post)
| cl_more pre w post l t : spaces pre -> spaces post -> a_name w -> comma_list l t ->
    comma_list (w :: l) (pre ++ chars w ++ post ++ ","%char :: t).


Lemma spaces_ws l : spaces l -> ws l.
Proof. intros H c Hc. rewrite (H c Hc). reflexivity. Qed.
Lemma strip_padded pre w post : spaces pre -> spaces post -> a_name w -> strip_chars (pre ++ chars w ++ post) = chars w.
Proof.
  intros Hpre Hpost Hw. apply strip_pad; [apply spaces_ws; done|apply spaces_ws; done|].
  assert (L : forall l, (forall c, c ∈ l -> is_ws c = false) -> lstrip l = l).
  { intros [|c l] H; [done|]. cbn. rewrite (H c ltac:(left)). done. }
  unfold strip_chars. rewrite (L (chars w)) by (intros c Hc; apply Hw; done).
  rewrite L; [apply reverse_involutive|]. intros c Hc. apply Hw. apply elem_of_reverse. done.
Qed.
Lemma no_comma_padded pre w post : spaces pre -> spaces post -> a_name w -> ","%char ∉ pre ++ chars w ++ post.
Proof.
  intros Hpre Hpost Hw Hin. rewrite !elem_of_app in Hin. destruct Hin as [H|[H|H]].
  - discriminate (Hpre _ H).
  - destruct (Hw _ H) as [? _]. done.
  - discriminate (Hpost _ H).
Qed.
Lemma split_piece cur l t : ","%char ∉ l ->
  split_comma cur (l ++ ","%char :: t) = (reverse cur ++ l) :: split_comma [] t.
Proof.
  revert cur. induction l as [|c l IH]; intros cur H; cbn.
  - rewrite app_nil_r. done.
  - destruct (Ascii.eqb c ",") eqn:E.
    + apply Ascii.eqb_eq in E as ->. exfalso. apply H. left.
    + rewrite IH by (intros Hin; apply H; right; done). rewrite reverse_cons, <- app_assoc. done.
Qed.
Lemma split_final cur l : ","%char ∉ l -> split_comma cur l = [reverse cur ++ l].
Proof.
  revert cur. induction l as [|c l IH]; intros cur H; cbn.
  - rewrite app_nil_r. done.
  - destruct (Ascii.eqb c ",") eqn:E.
    + apply Ascii.eqb_eq in E as ->. exfalso. apply H. left.
    + rewrite IH by (intros Hin; apply H; right; done). rewrite reverse_cons, <- app_assoc. done.
Qed.
Lemma parse_addrs_spec l text : comma_list l (chars text) -> parse_addrs text = l.
Proof.
  unfold parse_addrs. generalize (chars text). clear. intros t H.
  induction H as [pre w post Hpre Hpost Hw|pre w post l t Hpre Hpost Hw _ IH].
  - rewrite split_final by (apply no_comma_padded; done). cbn [map]. rewrite reverse_nil; cbn [app]. rewrite strip_padded by done. rewrite unchars_chars. done.
  - assert (pre ++ chars w ++ post ++ ","%char :: t = (pre ++ chars w ++ post) ++ ","%char :: t) as ->.
    { rewrite <- !app_assoc. done. }
    rewrite split_piece by (apply no_comma_padded; done). cbn [map]. rewrite reverse_nil; cbn [app]. rewrite strip_padded by done. rewrite unchars_chars, IH. done.
Qed.

(** What the manual says about the settings (doc/man-backy.rst:294-327): a setting is what
    the file says, or the default. *)
Record documented (f : gfile) (s : settings) : Prop := {
  dc_base : st_base s = default "/srv/backy" (gf_base f);
  dc_limit : st_limit s = default 1%Z (gf_limit f);
  dc_addrs : forall text l, gf_addrs f = Some text -> comma_list l (chars text) -> st_addrs s = l;
  dc_no_addrs : gf_addrs f = None -> forall a, a ∈ st_addrs s <-> a = "127.0.0.1" \/ a = "::1";
  dc_port : st_port s = default 6023%Z (gf_port f);
  dc_tokens : forall t n, st_tokens s !! t = Some n <-> exists m, gf_tokens f = Some m /\ m !! t = Some n;
  dc_callback : forall c, st_callback s = Some c <-> gf_callback f = Some c /\ c <> "" }.
(** Every start and every reload takes the settings from the file and the defaults, never
    from what was in force before, if the file names the base directory. *)
Theorem C98_settings_partial f old :
  is_Some (gf_base f) -> exists s, read_global f old = Ok s /\ documented f s.
Proof.
  intros [base Hb]. unfold read_global. rewrite Hb. eexists. split; [reflexivity|]. constructor; cbn.
  - rewrite Hb. done.
  - done.
  - intros text l -> Hl. apply parse_addrs_spec. done.
  - intros -> a. cbn [default]. replace (parse_addrs "::1, 127.0.0.1") with ["::1"; "127.0.0.1"] by (vm_compute; reflexivity).
    rewrite elem_of_cons, elem_of_list_singleton. tauto.
  - done.
  - intros t n. destruct (gf_tokens f) as [m|]; cbn; [|rewrite lookup_empty]; split; [eauto|intros (? & [= ->] & ?); done|done|intros (? & ? & _); done].
  - intros c. destruct (gf_callback f) as [x|]; [|split; [done|intros [? _]; done]].
    destruct (String.eqb_spec x "") as [->|Hx]; split.
    + done.
    + intros [[= <-] ?]. done.
    + intros [= ->]. done.
    + intros [[= ->] _]. done.
Qed.
Print Assumptions C98_settings_partial.
(** Without it, neither start nor reload works, though the manual gives a default. *)
Theorem C98_refuted f old : gf_base f = None -> read_global f old = Err TypeError.
Proof. intros Hb. unfold read_global. rewrite Hb. done. Qed.
Print Assumptions C98_refuted.
Example C98_case :
  comma_list ["127.0.0.1"; "::1"] (chars "127.0.0.1,  ::1 ") /\
  exists s, read_global (MkGfile None (Some "/srv") None (Some "127.0.0.1,  ::1 ") None None None None) None = Ok s /\
    st_addrs s = ["127.0.0.1"; "::1"] /\ st_limit s = 1%Z.
Proof.
  split; [|eexists; split; [reflexivity|split; vm_compute; reflexivity]].
  assert (Hn : forall w, forallb (fun c => negb (Ascii.eqb c ",") && negb (is_ws c)) (chars w) = true -> a_name w).
  { intros w H c Hc. rewrite forallb_forall in H. specialize (H c). apply elem_of_list_In in Hc. specialize (H Hc).
    apply andb_prop in H as [H1 H2]. split; [intros ->; done|]. destruct (is_ws c); done. }
  apply (cl_more [] "127.0.0.1" [] ["::1"] (chars "  ::1 ")); [inversion 1|inversion 1|apply Hn; reflexivity|].
  apply (cl_last [" "%char; " "%char] "::1" [" "%char]).
  - intros c Hc. apply elem_of_cons in Hc as [->|Hc]; [done|]. apply elem_of_list_singleton in Hc as ->. done.
  - intros c Hc. apply elem_of_list_singleton in Hc as ->. done.
  - apply Hn. reflexivity.
Qed.

(** ** C99: the default URL of backy client *)
(** Specification (RFC 3986): an http URL of a host and a port; a host that contains a colon
    is written in brackets. *)
Definition digits (p : string) : Prop := p <> "" /\ forall c, c ∈ chars p -> c ∈ chars "0123456789".
Definition http_url (u host port : string) : Prop :=
  u = "http://" +:+ host +:+ ":" +:+ port /\ digits port /\
  (":"%char ∉ chars host \/ exists x, host = "[" +:+ x +:+ "]").
Lemma pretty_char_digit x : (x < 10)%N -> pretty_N_char x ∈ chars "0123456789".
Proof.
  intros Hx. assert (H : forall n, (n < 10)%nat -> pretty_N_char (N.of_nat n) ∈ chars "0123456789").
  { intros n Hn. do 10 (destruct n as [|n]; [cbn; apply (bool_decide_eq_true_1 _); vm_compute; reflexivity|]). lia. }
  specialize (H (N.to_nat x)). rewrite N2Nat.id in H. apply H. lia.
Qed.
Lemma pretty_go_digits x s : (forall c, c ∈ chars s -> c ∈ chars "0123456789") ->
  forall c, c ∈ chars (pretty_N_go x s) -> c ∈ chars "0123456789".
Proof.
  revert s. induction (N.lt_wf_0 x) as [x _ IH]. intros s Hs c Hc.
  destruct (decide (0 < x)%N) as [Hx|Hx].
  - rewrite pretty_N_go_step in Hc by done.
    eapply (IH (x `div` 10)%N); [apply N.div_lt; lia| |exact Hc].
    intros d Hd. cbn in Hd. apply elem_of_cons in Hd as [->|Hd]; [|auto].
    apply pretty_char_digit. apply N.mod_lt. lia.
  - assert (x = 0%N) as -> by lia. rewrite pretty_N_go_0 in Hc. auto.
Qed.
Lemma pretty_go_nonempty x s : s <> "" -> pretty_N_go x s <> "".
Proof.
  revert s. induction (N.lt_wf_0 x) as [x _ IH]. intros s Hs. destruct (decide (0 < x)%N) as [Hx|Hx].
  - rewrite pretty_N_go_step by done. apply IH; [apply N.div_lt; lia|done].
  - assert (x = 0%N) as -> by lia. rewrite pretty_N_go_0. done.
Qed.
Lemma pretty_digits z : (0 < z)%Z -> digits (pretty z).
Proof.
  intros Hz. destruct z as [|p|p]; [lia| |lia]. change (pretty (Z.pos p)) with (pretty (N.pos p)).
  unfold pretty, pretty_N. rewrite decide_False by lia. split.
  - rewrite pretty_N_go_step by lia. apply pretty_go_nonempty. done.
  - intros c. apply pretty_go_digits. intros d Hd. inversion Hd.
Qed.
Lemma url_of f old base a l :
  gf_base f = Some base -> gf_url f = None -> parse_addrs (default "::1, 127.0.0.1" (gf_addrs f)) = a :: l ->
  (0 < default 6023 (gf_port f))%Z ->
  exists s, read_global f old = Ok s /\ st_addrs s = a :: l /\ st_port s = default 6023%Z (gf_port f) /\
    st_url s = Some ("http://" +:+ a +:+ ":" +:+ pretty (st_port s)).
Proof.
  intros Hb Hu Ha Hp. unfold read_global. rewrite Hb, Hu, Ha. eexists. split; [reflexivity|]. cbn [st_addrs st_port st_url].
  rewrite !bool_decide_eq_true_2; [done|done|lia|done].
Qed.

(** If the first address has no colon, the client's default URL leads to an address on
    which the API is to listen. *)
Theorem C99_url_partial f old base text a l :
  gf_base f = Some base -> gf_url f = None -> gf_addrs f = Some text -> comma_list (a :: l) (chars text) ->
  a <> "" -> ":"%char ∉ chars a -> (0 < default 6023 (gf_port f))%Z ->
  exists s u port, read_global f old = Ok s /\ st_url s = Some u /\ http_url u a port /\
    port = pretty (st_port s) /\ configured_bind s (a, st_port s).
Proof.
  intros Hb Hu Ht Hl Hne Hcolon Hp. apply parse_addrs_spec in Hl.
  destruct (url_of f old base a l Hb Hu) as (s & Hs & Ha & Hport & Hurl); [rewrite Ht; exact Hl|done|].
  exists s, ("http://" +:+ a +:+ ":" +:+ pretty (st_port s)), (pretty (st_port s)).
  split; [done|]. split; [done|]. split.
  { split; [done|]. split; [|auto]. apply pretty_digits. rewrite Hport. done. }
  split; [done|]. unfold configured_bind. cbn. rewrite Ha, Hport. split; [left|]. split; [done|]. split; [done|lia].
Qed.
Print Assumptions C99_url_partial.
(** Otherwise it is not a URL at all; this is so for the default addresses. *)
Theorem C99_refuted f old base a l :
  gf_base f = Some base -> gf_url f = None -> (0 < default 6023 (gf_port f))%Z ->
  (gf_addrs f = None \/ exists text, gf_addrs f = Some text /\ comma_list (a :: l) (chars text) /\
     ":"%char ∈ chars a /\ forall x, a <> "[" +:+ x) ->
  exists s u, read_global f old = Ok s /\ st_url s = Some u /\ forall host port, ~ http_url u host port.
Proof.
  intros Hb Hu Hp Ha.
  assert (exists a l, parse_addrs (default "::1, 127.0.0.1" (gf_addrs f)) = a :: l /\ ":"%char ∈ chars a /\
    forall x, a <> "[" +:+ x) as (a' & l' & Hl & Hc & Hbr).
  { destruct Ha as [->|(text & -> & Hl & Hc & Hbr)].
    - exists "::1", ["127.0.0.1"]. split; [vm_compute; reflexivity|]. split; [left|]. intros x Hx. discriminate Hx.
    - exists a, l. split; [apply parse_addrs_spec; done|done]. }
  destruct (url_of f old base a' l' Hb Hu Hl Hp) as (s & Hs & _ & _ & Hurl).
  eexists s, _. split; [done|]. split; [exact Hurl|]. intros host port (Heq & (Hd0 & Hd) & Hhost).
  apply (f_equal chars) in Heq. rewrite !chars_app in Heq. apply app_inv_head in Heq.
  destruct Hhost as [Hh|[x ->]].
  - apply elem_of_list_split in Hc as (l1 & l2 & Hc). rewrite Hc in Heq.
    assert (Hin : ":"%char ∈ chars port).
    { revert Heq Hh. generalize (chars host) (chars port). clear. intros h p Heq Hh.
      revert l1 Heq. induction h as [|c h IH]; intros l1 Heq; cbn in Heq.
      - destruct l1 as [|d l1]; injection Heq as <- Heq || injection Heq as Heq; rewrite <- Heq; set_solver.
      - destruct l1 as [|d l1]; cbn in Heq; injection Heq as H1 Heq.
        + exfalso. apply Hh. rewrite <- H1. left.
        + apply (IH ltac:(intros H; apply Hh; right; done) l1). exact Heq. }
    apply Hd in Hin. revert Hin. apply (bool_decide_eq_true_1 _). vm_compute. reflexivity.
  - destruct (chars a') as [|c t] eqn:E; [inversion Hc|]. rewrite !chars_app in Heq. cbn in Heq. injection Heq as -> _.
    apply (Hbr (unchars t)). rewrite <- (unchars_chars a'), E. done.
Qed.
Print Assumptions C99_refuted.
Example C99_case :
  let f := MkGfile None (Some "/srv") None (Some "127.0.0.1, ::1") None None None None in
  exists s, read_global f None = Ok s /\ st_url s = Some "http://127.0.0.1:6023".
Proof. eexists. split; vm_compute; reflexivity. Qed.
