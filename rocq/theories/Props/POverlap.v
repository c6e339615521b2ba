(** C75: restoring while other commands run. *)
From Verif Require Import Model.Overlap Proofs.LifeThms Proofs.RestoreProofs Proofs.ExEnv Props.PBackup Props.PLife.
From Verif Require Import Model.RbdBackup.

(** ** Specification *)
(** The disks that occur during a life: before, between and in the middle of the
    processes. *)
Definition occurs (st0 : life_state) (tr : list (life_state * event * list eff)) (d : disk) : Prop :=
  d = lf_disk st0 \/
  exists st ev l k, (st, ev, l) ∈ tr /\ d = replay (take k l) (lf_disk st).

(** ** A file opened for reading sees the same *)
Section Same.
Context (E : env) (during : nat -> disk) (m : gmap Z Hash) (w : world).
Hypothesis Hhere : forall id h, m !! id = Some h -> is_Some (chunk_content E (w_disk w) h).
Hypothesis Hkept : forall t id h c, m !! id = Some h ->
  chunk_content E (w_disk w) h = Some c -> chunk_content E (during t) h = Some c.

Lemma read_existing_now id c f : cauth E (m !! id) c ->
  read_existing E c (world_now during f w) = read_existing E c w.
Proof.
  intros (Hcl & Hh & Hd). unfold read_existing. destruct (ck_data c); [done|]. rewrite Hh.
  destruct (m !! id) as [h|] eqn:Hm; [|done].
  destruct (Hhere id h Hm) as [x Hx]. pose proof (Hkept (f_ticks f) id h x Hm Hx) as Hx'.
  unfold chunk_content in Hx, Hx'. cbn [world_now w_disk].
  destruct (d_chunks (w_disk w) !! h) as [raw|]; [|done].
  destruct (d_chunks (during (f_ticks f)) !! h) as [raw'|]; [|done].
  destruct (decompress E raw) as [y|]; [|done]. destruct (decompress E raw') as [y'|]; [|done].
  destruct (decide (hash E y = h)); [|done]. destruct (decide (hash E y' = h)); [|done]. congruence.
Qed.
Lemma read_loop_now n : forall size acc f, RO E m f ->
  read_loop_d E during n size acc (f, w) = read_loop E n size acc (f, w).
Proof.
  induction n as [|n IH]; intros size acc f HR; cbn [read_loop read_loop_d]; destruct (size =? 0)%Z; try done.
  destruct (current_chunk_RO E m f HR) as (f1 & c & Heq & HR1 & Hp1 & Hc).
  unfold bind, get, lift, put. rewrite Heq. unfold chunk_read.
  rewrite (read_existing_now _ c f1 Hc).
  destruct (read_existing E c w) as [c'|e] eqn:Hre; cbn [res_bind]; [|done].
  destruct (read_existing_auth _ _ c w c' Hc Hre) as [Hc' [x Hx]]. rewrite Hx.
  destruct (bio_read x _ size) as [|b data'] eqn:Hbio; [done|].
  set (data := b :: data') in *.
  set (f2 := set_chunks (aset (f_pos f / CS E)%Z c' (f_chunks f1)) f1).
  apply IH. constructor; [apply HR1|apply HR1|]. cbn. intros id0 c0 Hin.
  apply aset_elem2 in Hin as [[-> ->]|Hin]; [done|]. apply (ro_chunks E m f1 HR1); done.
Qed.
Lemma step_now o f : RO E m f -> file_step_d E during o (f, w) = file_step E o (f, w).
Proof.
  intros HR. destruct o; try done. cbn [file_step_d file_step]. unfold mmap, bind.
  replace (file_read_d E during n (f, w)) with (file_read E n (f, w)); [done|].
  unfold file_read, file_read_d. destruct (negb _); [done|]. symmetry. apply read_loop_now. done.
Qed.
Lemma interp_now {A} (p : prog A) f : RO E m f ->
  interp (file_step_d E during) p (f, w) = run_file E p (f, w).
Proof.
  unfold run_file. revert f. induction p as [a|e|o k IH]; intros f HR; try done.
  cbn [interp]. unfold bind. rewrite (step_now o f HR).
  pose proof (file_step_RO E m o f w HR) as Hs. destruct (file_step E o (f, w)) as [[f1 w1] [x|e]]; [|done].
  destruct Hs as (HR1 & -> & _). apply IH. done.
Qed.
End Same.
Lemma session_now {A} E during n (p : prog A) w : intact E (w_disk w) n ->
  (forall t, data_kept E n (w_disk w) (during t)) ->
  session_d E during n p w = session E n true false p w.
Proof.
  intros (m & sz & Hm & Hc) Hk. unfold session, session_d, file_open. rewrite Hm.
  rewrite (interp_now E during m w).
  - done.
  - intros id h Hh. destruct (Hc id h Hh) as (c & Hcc & _). eauto.
  - intros t id h c Hh Hcc. destruct (Hk t m sz Hm) as [_ G]. eauto.
  - constructor; [done|done|]. cbn. intros id c Hin. inversion Hin.
Qed.

Lemma life_split E st0 tr st : life E st0 tr st -> forall x, x ∈ tr ->
  exists tr1 tr2 st', tr = tr1 ++ x :: tr2 /\ life E st0 tr1 x.1.1 /\ happens E x.1.1 x.1.2 st' x.2.
Proof.
  intros Hl. induction Hl as [|tr st ev st' l Hl IH Hev]; intros x Hx; [inversion Hx|].
  apply elem_of_app in Hx as [Hx|Hx].
  - destruct (IH x Hx) as (tr1 & tr2 & st1 & -> & H1 & H2). exists tr1, (tr2 ++ [(st, ev, l)]), st1.
    split; [rewrite <- app_assoc; done|done].
  - apply elem_of_list_singleton in Hx. subst x. exists tr, [], st'. done.
Qed.
Lemma occurs_kept E st0 tr st u c d :
  lzo_ok E -> rev_files_ok (lf_disk st0) -> life E st0 tr st ->
  no_collision E (lf_disk st0) (all_effects tr) -> Forall sane tr ->
  Forall (fun x => ~ drops u x) tr -> holds E (lf_disk st0) u c ->
  occurs st0 tr d -> data_kept E u (lf_disk st0) d.
Proof.
  intros H1 H2 H3 H4 H5 H6 ((rv & G1 & G2 & G3) & G4 & G5) [->|(st1 & ev & l & k & Hin & ->)].
  { apply data_kept_refl. }
  destruct (life_split E st0 tr st H3 _ Hin) as (tr1 & tr2 & st' & -> & Hl1 & Hev). cbn [fst snd] in *.
  apply Forall_app in H5 as [H5 H5x]. apply Forall_cons in H5x as [H5x _].
  apply Forall_app in H6 as [H6 H6x]. apply Forall_cons in H6x as [H6x _].
  set (D := ever E st0 (tr1 ++ (st1, ev, l) :: tr2)).
  assert (HD : forall c, EFlush c ∈ all_effects tr1 \/ EFlush c ∈ l -> D c).
  { intros c0 Hc0. right. unfold all_effects. rewrite map_app, concat_app. cbn [map concat snd].
    apply elem_of_app. destruct Hc0 as [Hc0|Hc0]; [left; done|right; apply elem_of_app; auto]. }
  assert (Hio : in_order E D u (lf_disk st0)).
  { split; [done|]. split; [exists rv; split; [done|]; split; [apply bool_decide_eq_true; done|done]|].
    split; [done|]. intros m sz id h x _ _ Hx. left. apply (chunk_content_stored E _ h x Hx). }
  destruct (life_keep E D u H1 H4 st0 tr1 st1 Hl1 H5 H6) as [K1 K2]; [auto|done|].
  destruct (happens_prefix E st1 ev st' l Hev) as
    [(O & cm & s' & x & k0 & Hevc & HO & Hrun & Hl & Hd & Hsn)|(-> & Hd & -> & Hsn)].
  2:{ rewrite take_nil. done. }
  destruct (keep_step E D u H1 H4 O cm st1 s' x l k HO Hrun Hl) as [_ Q2]; [auto|done| | |].
  - destruct Hevc as [[? ->]| ->]; exact H5x.
  - destruct Hevc as [[? ->]| ->]; exact H6x.
  - eapply data_kept_trans; done.
Qed.

(** A restore that begins in [st0] and goes on while any other commands run, each finished,
    failed or killed, delivers exactly the content of the revision, unless one of them was asked
    to remove it.  [during]: at each access to a chunk, any disk that occurs. *)
Theorem C75_restore_while_others_run :
  forall E O st0 tr st u c during n k target,
  (0 < CS E)%Z -> lzo_ok E -> rev_files_ok (lf_disk st0) -> life E st0 tr st ->
  no_collision E (lf_disk st0) (all_effects tr) -> Forall sane tr ->
  Forall (fun x => ~ drops u x) tr ->
  holds E (lf_disk st0) u c -> intact E (lf_disk st0) u ->
  (forall t, occurs st0 tr (during t)) ->
  (0 < n)%Z -> length c <= k ->
  let w := rs_w (opened O st0) in
  restore_file_d E during n true u target w = (w, Ok (c, zlen c)) /\
  restore_stdout_d E during n k u w = (w, Ok c).
Proof.
  intros E O st0 tr st u c during n k target HCS H1 H2 H3 H4 H5 H6 Hh Hi Hocc Hn Hk w.
  assert (Hdk : forall t, data_kept E u (w_disk w) (during t)).
  { intros t. eapply occurs_kept; try done. }
  destruct Hh as (_ & _ & Him). unfold restore_file_d, restore_stdout_d.
  rewrite !session_now by done. split.
  - apply (C20_restore_file E u c n true target); done.
  - apply (C20_restore_stdout E u c n k); done.
Qed.
Print Assumptions C75_restore_while_others_run.

(** While revision "3" is restored, "1" is removed and the garbage is collected: the
    hypotheses hold, and the restore delivers the image.  A restore of "1" that began at the
    same time fails (in the real system the garbage collection would have to wait, C22). *)
Definition l_during (t : nat) : disk :=
  match t with
  | 0 => lf_disk l_st3
  | 1 => replay (take 1 (effs l_st3 l_c4)) (lf_disk l_st3)
  | _ => replay (take 99 (effs l_st4 LGc)) (lf_disk l_st4)
  end.
Lemma l_occurs t : occurs l_st3 (drop 3 l_tr) (l_during t).
Proof.
  destruct t as [|[|t]].
  - left. reflexivity.
  - right. exists l_st3, (Ran ex_O l_c4 (Ok true)), (effs l_st3 l_c4), 1. split; [left|]. reflexivity.
  - right. exists l_st4, (Ran ex_O LGc (Ok true)), (effs l_st4 LGc), 99. split; [right; left|]. reflexivity.
Qed.
Lemma l_intact3 : intact ex_env (lf_disk l_st3) "3".
Proof.
  value (d_maps (lf_disk l_st3) !! "3") Hv. eexists _, _. split; [exact Hv|]. clear Hv.
  intros id h Hh. apply elem_of_map_to_list in Hh.
  match type of Hh with _ ∈ ?l => value l Hl end. rewrite Hl in Hh. clear Hl.
  apply elem_of_cons in Hh as [Hh|Hh]; [|apply elem_of_list_singleton in Hh]; injection Hh as -> ->.
  - exists (bs "abXY"). split; [vm_compute; reflexivity|vm_compute; discriminate].
  - exists (bs "efgZ"). split; [vm_compute; reflexivity|vm_compute; discriminate].
Qed.
Example C75_case :
  rev_files_ok (lf_disk l_st3) /\ life ex_env l_st3 (drop 3 l_tr) l_st5 /\
  no_collision ex_env (lf_disk l_st3) (all_effects (drop 3 l_tr)) /\
  Forall sane (drop 3 l_tr) /\ Forall (fun x => ~ drops "3" x) (drop 3 l_tr) /\
  holds ex_env (lf_disk l_st3) "3" (bs "abXYefgZ") /\ intact ex_env (lf_disk l_st3) "3" /\
  (forall t, occurs l_st3 (drop 3 l_tr) (l_during t)) /\
  (restore_file_d ex_env l_during 3 true "3" None (rs_w (opened ex_O l_st3))).2 = Ok (bs "abXYefgZ", 8%Z) /\
  (restore_file ex_env 3 true "1" None (rs_w (opened ex_O l_st3))).2 = Ok (bs "abcdefgh", 8%Z) /\
  (restore_file_d ex_env l_during 3 true "1" None (rs_w (opened ex_O l_st3))).2 = Err BackendException.
Proof.
  destruct C71_case as (H1 & H2 & H3 & H4 & H5 & H6 & _).
  split; [exact H1|]. split; [exact H2|]. split; [exact H3|]. split; [exact H4|]. split; [exact H5|].
  split; [exact H6|]. split.
  { exact l_intact3. }
  split; [exact l_occurs|]. split; [vm_compute; reflexivity|]. split; vm_compute; reflexivity.
Qed.
