(** C126: the progress report and the clock. *)
From Verif Require Import Proofs.RestoreProofs Proofs.ProgProofs Proofs.ExEnv Props.PBackup.
From Verif Require Import Model.Progress.
From Verif Require Import Model.Revs Model.RbdBackup.
From Coq Require Import Lqa QArith Qround.
Local Open Scope Z_scope.

(** ** Specification *)
(** The clock is not behind the beginning at any step, no step takes longer than [pace]
    on average so far, and at that pace [n] steps end before the year 10000. *)
Definition plausible (K : clocks) (pace n : Z) : Prop :=
  forall k, (1 <= k)%nat ->
    0 <= pr_time K k - pr_start K <= Z.of_nat k * pace /\
    pr_time K k - pr_start K <= pr_now K k /\ pr_now K k + n * pace <= max_date.
Lemma to_int_bounds (x : Q) (lo hi : Z) : lo <= 0 -> 0 <= hi ->
  (inject_Z lo <= x * inject_Z 1000000)%Q -> (x * inject_Z 1000000 <= inject_Z hi)%Q ->
  lo <= to_int x * 1000000 <= hi.
Proof.
  intros Hl Hh H1 H2. unfold to_int. destruct (Qle_bool 0 x) eqn:E.
  - apply Qle_bool_iff in E. assert (0 <= Qfloor x).
    { change 0 with (Qfloor 0). by apply Qfloor_resp_le. }
    split; [lia|]. pose proof (Qfloor_le x) as Hf. rewrite Zle_Qle, inject_Z_mult.
    eapply Qle_trans; [|exact H2]. apply Qmult_le_compat_r; [done|]. unfold Qle. cbn. lia.
  - assert (x < 0)%Q as Hx.
    { apply Qnot_le_lt. intros Hle. apply Qle_bool_iff in Hle. rewrite Hle in E. done. }
    assert (Qceiling x <= 0).
    { change 0 with (Qceiling 0). apply Qceiling_resp_le. by apply Qlt_le_weak. }
    split; [|lia]. pose proof (Qle_ceiling x) as Hf. rewrite Zle_Qle, inject_Z_mult.
    eapply Qle_trans; [exact H1|]. apply Qmult_le_compat_r; [done|]. unfold Qle. cbn. lia.
Qed.
Lemma tick_ok K pace n steps k : plausible K pace n -> 0 <= n -> 0 <= pace ->
  (0 < steps)%Q -> (steps <= inject_Z n)%Q -> (1 <= k)%nat -> tick K steps k = Ok tt.
Proof.
  intros Hp Hn Hpace H0 Hs Hk. destruct (Hp k Hk) as ([He1 He2] & Hlo & Hhi).
  unfold tick. set (e := pr_time K k - pr_start K) in *.
  assert (Hkq : (0 < inject_Z (Z.of_nat k))%Q) by (change 0%Q with (inject_Z 0); rewrite <- Zlt_Qlt; lia).
  set (kq := inject_Z (Z.of_nat k)) in *. set (p := (inject_Z e / kq)%Q).
  assert (Hpk : (p * kq == inject_Z e)%Q) by (unfold p; field; lra).
  assert (He : (0 <= inject_Z e)%Q) by (change 0%Q with (inject_Z 0); rewrite <- Zle_Qle; lia).
  assert (He' : (inject_Z e <= kq * inject_Z pace)%Q) by (unfold kq; rewrite <- inject_Z_mult, <- Zle_Qle; lia).
  assert (Hp0 : (0 <= p)%Q) by (unfold p; apply Qle_shift_div_l; [done|]; lra).
  assert (Hp1 : (p <= inject_Z pace)%Q) by (unfold p; apply Qle_shift_div_r; [done|]; lra).
  assert (Hpq : (0 <= inject_Z pace)%Q) by lra.
  destruct (to_int_bounds ((steps - kq) * p / inject_Z 1000000) (- e) (n * pace)) as [Hb1 Hb2]; [lia|nia| | |].
  - setoid_replace ((steps - kq) * p / inject_Z 1000000 * inject_Z 1000000)%Q with (steps * p - p * kq)%Q by (field; done).
    rewrite inject_Z_opp, Hpk. assert (0 <= steps * p)%Q by nra. lra.
  - setoid_replace ((steps - kq) * p / inject_Z 1000000 * inject_Z 1000000)%Q with (steps * p - p * kq)%Q by (field; done).
    rewrite inject_Z_mult, Hpk. assert (steps * p <= inject_Z n * inject_Z pace)%Q by nra. lra.
  - set (secs := to_int _) in *. unfold min_date in *.
    replace (0 <=? pr_now K k + secs * 1000000) with true by (symmetry; apply Z.leb_le; lia).
    replace (pr_now K k + secs * 1000000 <=? max_date) with true by (symmetry; apply Z.leb_le; lia).
    cbn [andb negb]. replace (Qeq_bool steps 0) with false; [by rewrite andb_false_r|].
    symmetry. apply not_true_is_false. intros Hq. apply Qeq_bool_eq in Hq. lra.
Qed.

(** ** Restore *)
Lemma copy_loop_reported_flat K steps n : (forall k, (1 <= k)%nat -> tick K steps k = Ok tt) ->
  forall fuel step t p s, (1 <= step)%nat ->
  interp (fun o s => flat_step s o) (copy_loop_reported K steps n fuel step t p) s =
  interp (fun o s => flat_step s o) (copy_loop n fuel t p) s.
Proof.
  intros Ht. induction fuel as [|fuel IH]; intros step t p s Hs; [done|].
  cbn [copy_loop_reported copy_loop]. rewrite !interp_bind. unfold bind.
  destruct (interp _ (p_read n) s) as [s' [[|b chunk]|e]]; [done| |done].
  rewrite Ht by done. cbn [pres pbind]. apply IH. lia.
Qed.
Lemma copy_reported_flat K n tr t c r0 : 0 < n ->
  (c <> [] -> forall k, (1 <= k)%nat -> tick K (inject_Z (zlen c) / inject_Z n) k = Ok tt) ->
  run_flat (copy_reported K n tr t) (MkFlat c r0 true false false) =
  run_flat (copy n tr t) (MkFlat c r0 true false false).
Proof.
  intros Hn Ht. unfold copy_reported, copy, run_flat.
  assert (Hc : 0 <= zlen c) by (unfold zlen; lia).
  assert (H0 : forall (k : Z -> prog (bytes * Z)), interp (fun o s => flat_step s o)
      (pbind (do_op (OSeek 0 FromEnd)) (fun _ => pbind p_tell (fun total => pbind (do_op (OSeek 0 FromStart)) (fun _ => k total))))
      (MkFlat c r0 true false false) =
      interp (fun o s => flat_step s o) (k (zlen c)) (MkFlat c 0 true false false)).
  { intros k. cbn [do_op p_tell pbind interp]. unfold bind at 1. cbn [flat_step].
    destruct (zlen c - 0 <? 0) eqn:H1; [lia|]. destruct (zlen c - 0 <=? zlen c) eqn:H2; [|lia].
    cbn [interp pbind]. unfold bind at 1. cbn [flat_step interp pbind]. unfold bind at 1. cbn [flat_step].
    destruct (0 <? 0) eqn:H3; [lia|]. destruct (0 <=? zlen c) eqn:H4; [|lia].
    cbn [interp pbind]. by rewrite Z.sub_0_r. }
  rewrite !H0, !interp_bind. unfold bind.
  destruct c as [|b c'].
  - cbn [copy_loop_reported copy_loop]. rewrite !interp_bind. unfold bind.
    assert (Hr : interp (fun o s => flat_step s o) (p_read n) (MkFlat [] 0 true false false) =
                 (MkFlat [] 0 true false false, Ok [])).
    { cbn [p_read interp]. unfold bind. cbn [flat_step]. destruct (n =? -1) eqn:E; [lia|].
      unfold ztake, zdrop. rewrite drop_nil, take_nil. done. }
    rewrite Hr. reflexivity.
  - rewrite copy_loop_reported_flat; [reflexivity| |lia]. apply Ht. done.
Qed.
Lemma copy_reported_ok K n tr t : 0 < n -> prog_ok (copy_reported K n tr t) /\ noclose (copy_reported K n tr t).
Proof.
  intros Hn.
  assert (Hl : forall steps fuel step t p, prog_ok (copy_loop_reported K steps n fuel step t p) /\
                noclose (copy_loop_reported K steps n fuel step t p)).
  { intros steps fuel. induction fuel as [|fuel IH]; intros step t0 p; [done|]. cbn. split; (split; [try done; lia|]);
      intros []; cbn; try done; destruct b; try done; destruct (tick K steps step); cbn; try done; apply IH. }
  unfold copy_reported. split.
  - apply pbind_ok; [split; done|]. intros _. apply pbind_ok; [apply p_tell_ok|]. intros z.
    apply pbind_ok; [split; done|]. intros _. apply pbind_ok; [apply Hl|]. intros x.
    apply pbind_ok; [apply p_tell_ok|]. intros y. done.
  - apply noclose_bind; [apply do_op_noclose; done|]. intros _. apply noclose_bind; [apply p_tell_ok|]. intros z.
    apply noclose_bind; [apply do_op_noclose; done|]. intros _. apply noclose_bind; [apply Hl|]. intros x.
    apply noclose_bind; [apply p_tell_ok|]. intros y. done.
Qed.
(** A restore with its progress report is exact (C20), as long as the clock is plausible for
    the number of pieces. *)
Theorem C126_restore_partial E K pace u c n can_truncate target w :
  0 < CS E -> lzo_ok E -> 0 < n -> 0 <= pace ->
  intact E (w_disk w) u -> image_is E (w_disk w) u c ->
  plausible K pace (zlen c / n + 1) ->
  restore_reported E K n can_truncate u target w =
    (w, Ok (if can_truncate then c
            else c ++ zdrop (zlen c) (match target with Some t => t | None => [] end), zlen c)).
Proof.
  intros HCS Hlzo Hn Hpace Hi Hc Hp. unfold restore_reported. set (t' := match target with Some t => t | None => [] end).
  assert (Htick : c <> [] -> forall k, (1 <= k)%nat -> tick K (inject_Z (zlen c) / inject_Z n) k = Ok tt).
  { intros Hne k Hk. assert (0 < zlen c) by (destruct c; [done|unfold zlen; cbn; lia]).
    assert (Hnq : (0 < inject_Z n)%Q) by (change 0%Q with (inject_Z 0); rewrite <- Zlt_Qlt; lia).
    assert (Hcq : (0 < inject_Z (zlen c))%Q) by (change 0%Q with (inject_Z 0); rewrite <- Zlt_Qlt; lia).
    apply (tick_ok K pace (zlen c / n + 1)); [done| |done| | |done].
    - assert (0 <= zlen c / n) by (apply Z.div_pos; lia). lia.
    - apply Qlt_shift_div_l; [done|]. lra.
    - apply Qle_shift_div_r; [done|]. rewrite <- inject_Z_mult, <- Zle_Qle.
      pose proof (Z.mod_pos_bound (zlen c) n Hn). pose proof (Z.div_mod (zlen c) n). lia. }
  destruct (copy_flat n can_truncate t' c 0 Hn) as [st Hst]. destruct (copy_reported_ok K n can_truncate t' Hn) as [H1 H2].
  assert (Hst' : run_flat (copy_reported K n can_truncate t') (flat0 c true false false) =
                 (st, Ok (if can_truncate then c else c ++ zdrop (zlen c) t', zlen c))).
  { etransitivity; [|exact Hst]. by apply copy_reported_flat. }
  pose proof (ro_exact E u c HCS Hlzo (copy_reported K n can_truncate t') w st _ H1 H2 Hi Hc Hst') as H.
  pose proof (session_RO E u true (copy_reported K n can_truncate t') w) as Hw.
  destruct (session _ _ _ _ _ _) as [w' x]. cbn in *. subst. done.
Qed.
Print Assumptions C126_restore_partial.

(** ** Verification *)
Lemma verify_loop_reported_same E K steps : (forall k, (1 <= k)%nat -> tick K steps k = Ok tt) ->
  forall l step s, (1 <= step)%nat ->
  exists s' b step', verify_loop E l s = (s', Ok b) /\ (1 <= step')%nat /\
    verify_loop_reported E K steps step l s = (s', Ok (b, step')).
Proof.
  intros Ht. induction l as [|h l IH]; intros step s Hs; cbn [verify_loop verify_loop_reported].
  - eexists _, _, _. split; [reflexivity|]. split; [done|reflexivity].
  - unfold bind at 2. unfold ticked. rewrite Ht by done.
    destruct (read_existing E (new_chunk (Some h)) (rs_w s)) as [c|e].
    + apply IH. lia.
    + case_bool_decide; (eexists _, _, (S step); split; [reflexivity|]; split; [lia|reflexivity]).
Qed.
Lemma hashes_le O (m : gmap Z Hash) (X : gset Hash) : orders_ok O ->
  zlen (o_set O (map_hashes m ∖ X)) <= Z.of_nat (size m).
Proof.
  intros [_ HO]. unfold zlen. rewrite HO. change (length (elements (map_hashes m ∖ X))) with (size (map_hashes m ∖ X)).
  assert (size (map_hashes m ∖ X) <= size (map_hashes m))%nat by (apply subseteq_size; set_solver).
  assert (size (map_hashes m) <= size m)%nat; [|lia].
  change (size m) with (length (map_to_list m)). unfold map_hashes. rewrite <- (map_length snd).
  generalize (map snd (map_to_list m)) as l.
  induction l as [|h l IH]; [done|]. cbn [list_to_set length]. rewrite size_union_alt, size_singleton.
  assert (size (list_to_set (C := gset Hash) l ∖ {[h]}) <= size (list_to_set (C := gset Hash) l))%nat by (apply subseteq_size; set_solver).
  cbn in *. lia.
Qed.
(** A verification with its progress report is the verification (C17), as long as the clock is
    plausible for the number of chunks. *)
Theorem C126_verify_partial E O K pace r s :
  orders_ok O -> 0 <= pace ->
  (forall m z, d_maps (w_disk (rs_w s)) !! r_uuid r = Some (MapJson m z) ->
     plausible K pace (Z.of_nat (size m) + 2)) ->
  verify_reported E O K r s = verify E O r s.
Proof.
  intros HO Hpace Hp. unfold verify_reported, verify. unfold bind, get.
  pose proof (union_maps_pure (filter (fun x => r_trust x = VERIFIED) (get_history true true (rs_hist s))) s) as Hu.
  destruct (union_maps _ s) as [s1 [verified|e]]; [|done]. cbn [fst] in Hu. subst s1.
  unfold open_map. destruct (file_open _ _ _ _ _) as [f|e] eqn:Hf; [|done].
  unfold file_open in Hf. specialize (Hp (f_map f)).
  destruct (d_maps (w_disk (rs_w s)) !! r_uuid r) as [[m z|]|] eqn:Hm; [|done|done].
  injection Hf as <-. cbn [f_map] in *. specialize (Hp z eq_refl).
  set (l := o_set O (map_hashes m ∖ verified)).
  assert (Ht : forall k, (1 <= k)%nat -> tick K (inject_Z (zlen l + 2)) k = Ok tt).
  { intros k Hk. pose proof (hashes_le O m verified HO). assert (0 <= zlen l) by (unfold zlen; lia).
    apply (tick_ok K pace (Z.of_nat (size m) + 2)); [done|lia|done| | |done].
    - change 0%Q with (inject_Z 0). rewrite <- Zlt_Qlt. lia.
    - rewrite <- Zle_Qle. fold l in H. lia. }
  destruct (verify_loop_reported_same E K _ Ht l 1 s ltac:(lia)) as (s' & b & step' & -> & Hst & ->).
  unfold ticked. rewrite Ht by done.
  destruct (if b then _ else _) as [s2 [[]|e]]; [|done].
  rewrite Ht by lia. done.
Qed.
Print Assumptions C126_verify_partial.

(** An image of 80 chunks. *)
Definition pg_text (i : nat) : string := String (Ascii.ascii_of_nat i) "xyz".
Definition pg_chunks : list (Z * Hash * bytes) :=
  map (fun i => (Z.of_nat i, ("h" ++ pg_text (33 + i))%string, bs (pg_text (33 + i)))) (seq 0 80).
Definition pg_rev : rev := MkRev "old" 1 (MkStats 320 (Some 5) (Some "partial"%string)) {["daily"]} {["daily"]} DISTRUSTED "".
Definition pg_map : gmap Z Hash := list_to_map (map fst pg_chunks).
Definition pg_disk (good : bool) : disk :=
  let all := list_to_map (map (fun x => (x.1.2, x.2)) pg_chunks) in
  MkDisk (if good then all else <["h!xyz"%string := bs "oops"]> all) {[ "old" := MapJson pg_map 320 ]} {[ "old" := pg_rev ]}.
Definition pg_s (good : bool) : rst := MkRst (MkWorld (pg_disk good) [] ∅ false) [pg_rev] [].
Definition pg_image : bytes := concat (map (fun x => x.2) pg_chunks).
(** November 2026; at the step [at_] the clock is set back by 56 years, to 1970. *)
Definition pg_2026 : Z := 739937 * 86400 * 1000000.
Definition pg_clock (at_ : nat) : clocks :=
  let jump (k : nat) := if (at_ <=? k)%nat then 56 * 365 * 86400 * 1000000 else 0 in
  MkClocks 0 (fun k => Z.of_nat k * 1000000 - jump k) (fun k => pg_2026 + Z.of_nat k * 1000000 - jump k).
(** The chunks in the order of their names. *)
Definition pg_O : orders := MkOrders map_to_list elements.
(** False in general: the estimate of the remaining time is no date any more, and the
    operation ends with an exception.  A restore leaves a part of the image; ... *)
Theorem C126_refuted :
  intact ex_env (pg_disk true) "old" /\
  (restore_file ex_env 4 true "old" None (rs_w (pg_s true))).2 = Ok (pg_image, 320) /\
  (restore_reported ex_env (pg_clock 1) 4 true "old" None (rs_w (pg_s true))).2 = Err ZeroDivisionError.
Proof.
  split_and!; [|vm_compute; reflexivity|vm_compute; reflexivity].
  exists pg_map, 320. split; [vm_compute; reflexivity|].
  assert (H : map_Forall (fun _ h => exists c, chunk_content ex_env (pg_disk true) h = Some c /\ zlen c = 4) pg_map).
  { apply map_Forall_to_list. unfold pg_map.
    assert (Forall (fun y => option_map (fun c => zlen c) (chunk_content ex_env (pg_disk true) y.2) = Some 4)
              (map_to_list (list_to_map (M := gmap Z Hash) (map fst pg_chunks)))) as Hf.
    { apply (bool_decide_eq_true_1 _). vm_compute. reflexivity. }
    eapply Forall_impl; [exact Hf|]. intros [i h] Hx.
    change (option_map (fun c => zlen c) (chunk_content ex_env (pg_disk true) h) = Some 4) in Hx.
    change (exists c, chunk_content ex_env (pg_disk true) h = Some c /\ zlen c = 4).
    revert Hx. generalize (chunk_content ex_env (pg_disk true) h). intros [c|] Hx; [|discriminate Hx].
    exists c. split; [done|]. cbn [option_map] in Hx. by injection Hx. }
  intros id h Hh. destruct (H id h Hh) as (c & Hc & Hl). exists c. split; [exact Hc|]. rewrite Hl. done.
Qed.
(** ... a good revision is not marked as verified, and a damaged one is kept. *)
Theorem C126_verify_refuted :
  orders_ok pg_O /\
  let plain := verify ex_env pg_O pg_rev (pg_s true) in
  let reported := verify_reported ex_env pg_O (pg_clock 1) pg_rev (pg_s true) in
  let damaged := verify ex_env pg_O pg_rev (pg_s false) in
  let damaged' := verify_reported ex_env pg_O (pg_clock 1) pg_rev (pg_s false) in
  let trust_in (x : rst * res unit) := r_trust <$> d_revs (w_disk (rs_w x.1)) !! "old"%string in
  plain.2 = Ok tt /\ trust_in plain = Some VERIFIED /\
  reported.2 = Err ZeroDivisionError /\ trust_in reported = Some DISTRUSTED /\
  damaged.2 = Ok tt /\ trust_in damaged = None /\
  damaged'.2 = Err ZeroDivisionError /\ trust_in damaged' = Some DISTRUSTED.
Proof.
  split; [split; intros; reflexivity|]. cbv zeta. split_and!; vm_compute; reflexivity.
Qed.
Print Assumptions C126_refuted.
Print Assumptions C126_verify_refuted.
