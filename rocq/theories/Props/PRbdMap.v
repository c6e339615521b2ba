(** C76: reading a snapshot through a mapped device. *)
From Coq.Strings Require Import Ascii.
From Verif Require Import Model.RbdMap.

(** ** Specification *)
(** The device belongs to this pool, image and snapshot. *)
Definition is_device (pool name snap dev : string) (x : mapping) : Prop :=
  x !! "pool" = Some pool /\ x !! "name" = Some name /\ x !! "snap" = Some snap /\
  x !! "device" = Some dev.
Definition spec (pool name snap : string) : string := pool +:+ "/" +:+ name +:+ "@" +:+ snap.
(** Ceph forbids these in names. *)
Definition plain (s : string) : Prop := forall c, c ∈ String.list_ascii_of_string s ->
  c <> "/"%char /\ c <> "@"%char.
(** Every mapped device is shown with its four keys and plain names, once. *)
Definition shown (s : list mapping) : Prop :=
  NoDup (map (fun x : mapping => x !! "device") s) /\
  forall x, x ∈ s -> exists p n sn d, is_device p n sn d x /\ plain p /\ plain n /\ plain sn.
(** "rbd map" maps what it was asked to a new device. *)
Definition maps_well (R : rbdenv) : Prop := forall p n sn s x,
  plain p -> plain n -> plain sn ->
  rb_map R (spec p n sn) s = Ok x ->
  exists d, is_device p n sn d x /\ Some d ∉ map (fun y : mapping => y !! "device") s.
(** The output is of the form that [map] expects for the version. *)
Definition known_release (R : rbdenv) : Prop :=
  forall s, rb_show R s = if contains "nautilus" (rb_version R) then MList s else MDict s.

Lemma sapp_chars a b : String.list_ascii_of_string (a +:+ b) = String.list_ascii_of_string a ++ String.list_ascii_of_string b.
Proof. induction a as [|c a IH]; [done|]. change (String.list_ascii_of_string (String c (a +:+ b)) = c :: (String.list_ascii_of_string a ++ String.list_ascii_of_string b)). cbn [String.list_ascii_of_string]. f_equal. exact IH. Qed.
Lemma chars_inj a b : String.list_ascii_of_string a = String.list_ascii_of_string b -> a = b.
Proof. intros H. rewrite <- (String.string_of_list_ascii_of_string a), H. apply String.string_of_list_ascii_of_string. Qed.
Lemma sep_inj {A} (x : A) (a b a' b' : list A) : x ∉ a -> x ∉ a' -> a ++ x :: b = a' ++ x :: b' -> a = a' /\ b = b'.
Proof.
  revert a'. induction a as [|y a IH]; intros [|y' a'] Ha Ha' H; cbn in H.
  - injection H as ->. done.
  - injection H as -> _. exfalso. apply Ha'. left.
  - injection H as -> _. exfalso. apply Ha. left.
  - injection H as -> H. destruct (IH a') as [-> ->]; [..|done]; [set_solver|set_solver|done].
Qed.
Lemma spec_inj p n s p' n' s' : plain p -> plain n -> plain s -> plain p' -> plain n' -> plain s' ->
  spec p n s = spec p' n' s' -> p = p' /\ n = n' /\ s = s'.
Proof.
  intros Hp Hn Hs Hp' Hn' Hs' H. apply (f_equal String.list_ascii_of_string) in H. unfold spec in H.
  rewrite !sapp_chars in H. cbn [String.list_ascii_of_string app] in H.
  apply sep_inj in H as [H1 H]; [|intros X; destruct (Hp _ X) as [Y _]; done|intros X; destruct (Hp' _ X) as [Y _]; done].
  apply sep_inj in H as [H2 H3]; [|intros X; destruct (Hn _ X) as [_ Y]; done|intros X; destruct (Hn' _ X) as [_ Y]; done].
  split; [apply chars_inj; done|]. split; apply chars_inj; done.
Qed.

Lemma search_spec p n sn l : plain p -> plain n -> plain sn ->
  (forall x, x ∈ l -> exists p n sn d, is_device p n sn d x /\ plain p /\ plain n /\ plain sn) ->
  (exists x d, x ∈ l /\ is_device p n sn d x) ->
  exists x d, search (spec p n sn) l = Ok x /\ x ∈ l /\ is_device p n sn d x.
Proof.
  intros Hp Hn Hs. induction l as [|y l IH]; intros Hsh (x & d & Hx & Hd); [inversion Hx|].
  destruct (Hsh y ltac:(left)) as (p' & n' & s' & d' & Hy & Hp' & Hn' & Hs').
  cbn [search]. unfold spec_of. destruct Hy as (Y1 & Y2 & Y3 & Y4). rewrite Y1, Y2, Y3. cbn [res_bind].
  case_bool_decide as He.
  - apply spec_inj in He as (-> & -> & ->); try done. exists y, d'. split; [done|]. split; [left|done].
  - apply elem_of_cons in Hx as [->|Hx].
    + exfalso. apply He. destruct Hd as (D1 & D2 & D3 & _). rewrite D1 in Y1. rewrite D2 in Y2. rewrite D3 in Y3.
      simplify_eq.
    + destruct IH as (x' & d'' & H1 & H2 & H3); [intros z Hz; apply Hsh; right; done|eauto|].
      exists x', d''. split; [done|]. split; [right; done|done].
Qed.

Lemma filter_one (s : list mapping) (d : string) (x : mapping) :
  NoDup (map (fun x : mapping => x !! "device") s) -> x ∈ s -> x !! "device" = Some d ->
  x :: filter (fun y : mapping => y !! "device" <> Some d) s ≡ₚ s.
Proof.
  induction s as [|y s IH]; intros Hn Hx Hd; [inversion Hx|]. cbn [map] in Hn. apply NoDup_cons in Hn as [Hy Hn].
  rewrite filter_cons. apply elem_of_cons in Hx as [->|Hx].
  - rewrite decide_False by (intros H; done). f_equiv.
    replace (filter _ s) with s; [done|]. clear IH Hn. induction s as [|z s IH]; [done|].
    rewrite filter_cons, decide_True; [f_equal; apply IH; set_solver|].
    intros Hz. apply Hy. rewrite Hd, <- Hz. left.
  - assert (Hyd : y !! "device" <> Some d).
    { intros H. apply Hy. rewrite H, <- Hd. apply elem_of_list_fmap. eauto. }
    rewrite decide_True by done. rewrite <- (IH Hn Hx Hd) at 2. apply Permutation_swap.
Qed.

(** Full statement: whatever goes wrong, the device that is read is one of the requested
    snapshot, and afterwards no more devices are mapped than before.
    Missing: releases of Ceph after Nautilus, and a device that cannot be opened or unmapped. *)
Theorem C76_reader_partial : forall R p n sn s A (body : string -> res A),
  plain p -> plain n -> plain sn -> shown s -> maps_well R -> known_release R ->
  (forall d, rb_open R d = Ok tt) -> (forall d, rb_unmap R d = Ok tt) ->
  let '(s', r) := image_reader R (spec p n sn) body s in
  (exists e, rb_map R (spec p n sn) s = Err e /\ r = Err e /\ s' = s) \/
  exists new x d, rb_map R (spec p n sn) s = Ok new /\
    x ∈ s ++ [new] /\ is_device p n sn d x /\ r = body d /\ x :: s' ≡ₚ s ++ [new].
Proof.
  intros R p n sn s A body Hp Hn Hs [Hnd Hsh] Hm Hk Ho Hu.
  destruct (rb_map R (spec p n sn) s) as [new|e] eqn:Hmap.
  2:{ unfold image_reader, rbd_map, do_map, bind. rewrite Hmap. left. eauto. }
  destruct (Hm p n sn s new Hp Hn Hs Hmap) as (dn & Hnew & Hfresh).
  assert (Hnd' : NoDup (map (fun x : mapping => x !! "device") (s ++ [new]))).
  { rewrite map_app. apply NoDup_app. split; [done|]. split; [|apply NoDup_singleton].
    intros o Ho1 Ho2. apply elem_of_list_singleton in Ho2. subst o. apply Hfresh.
    destruct Hnew as (_ & _ & _ & <-). done. }
  destruct (search_spec p n sn (s ++ [new]) Hp Hn Hs) as (x & d & H1 & H2 & H3).
  { intros x [Hx|Hx]%elem_of_app; [apply Hsh; done|]. apply elem_of_list_singleton in Hx. subst x. exists p, n, sn, dn. done. }
  { exists new, dn. split; [apply elem_of_app; right; left|done]. }
  unfold image_reader, rbd_map, do_map, bind, get, lift. rewrite Hmap. cbv beta iota zeta. rewrite (Hk (s ++ [new])).
  replace (if contains "nautilus" (rb_version R) then _ else _) with (@Ok mapping x).
  2:{ destruct (contains "nautilus" (rb_version R)); cbn [since_nautilus pre_nautilus]; [done|].
      destruct (contains "luminous" (rb_version R)); done. }
  pose proof H3 as (D1 & D2 & D3 & D4).
  assert (Hscrub : scrub x = Ok x).
  { unfold scrub. cbn [forallb]. rewrite !bool_decide_true by eauto. done. }
  rewrite Hscrub, D4. cbn [default]. rewrite Ho. unfold do_unmap. rewrite Hu.
  right. exists new, x, d. split; [done|]. split; [done|]. split; [done|]. split; [done|].
  apply filter_one; done.
Qed.
Print Assumptions C76_reader_partial.

(** With any later release of Ceph the device stays mapped, and every backup fails ... *)
Theorem C76_later_release_refuted : forall R image s new A (body : string -> res A),
  contains "nautilus" (rb_version R) = false -> (forall s, rb_show R s = MList s) ->
  rb_map R image s = Ok new ->
  image_reader R image body s = (s ++ [new], Err AttributeError).
Proof.
  intros R image s new A body Hv Hshow Hmap. unfold image_reader, rbd_map, do_map, bind, get, lift.
  rewrite Hmap, Hshow, Hv. destruct (contains "luminous" (rb_version R)); done.
Qed.
Print Assumptions C76_later_release_refuted.
(** ... and a device that cannot be opened stays mapped with any release. *)
Theorem C76_open_refuted : exists R s image A (body : string -> res A) new e,
  shown s /\ maps_well R /\ known_release R /\ (forall d, rb_unmap R d = Ok tt) /\
  image_reader R image body s = (s ++ [new], Err e).
Proof.
  set (new := fun (p n sn d : string) => {["pool" := p; "name" := n; "snap" := sn; "device" := d]} : mapping).
  (* the first device /dev/rbd0 is given to rbd/vm@backy-1, others fail *)
  exists (MkRbdEnv "ceph version 14 nautilus"
    (fun i s => if bool_decide (i = "rbd/vm@backy-1" /\ s = []) then Ok (new "rbd" "vm" "backy-1" "/dev/rbd0") else Err OSError)
    MList (fun _ => Err OSError) (fun _ => Ok tt)), [], "rbd/vm@backy-1", unit, (fun _ => Ok tt),
    (new "rbd" "vm" "backy-1" "/dev/rbd0"), OSError.
  split; [split; [constructor|intros x Hx; inversion Hx]|].
  split. { intros p n sn s x Hp Hn Hs Hmap. cbn [rb_map] in Hmap. case_bool_decide as Hb; [|done]. destruct Hb as [Hi ->].
    injection Hmap as <-.
    change "rbd/vm@backy-1" with (spec "rbd" "vm" "backy-1") in Hi.
    assert (Hpl : forall s, forallb (fun c => negb (Ascii.eqb c "/") && negb (Ascii.eqb c "@")) (String.list_ascii_of_string s) = true -> plain s).
    { intros t Ht c Hc. rewrite forallb_forall in Ht. apply elem_of_list_In in Hc. specialize (Ht c Hc).
      split; intros ->; discriminate Ht. }
    apply spec_inj in Hi as (-> & -> & ->); try done; try (apply Hpl; reflexivity).
    exists "/dev/rbd0". split; [split; [|split; [|split]]; reflexivity|]. intros H. inversion H. }
  split; [intros s; reflexivity|]. split; [done|]. vm_compute. reflexivity.
Qed.
Print Assumptions C76_open_refuted.
(** The hypotheses of the partial theorem hold with a device of another snapshot mapped, and
    with a leaked one of the same. *)
Example C76_case :
  let new := fun (p n sn d : string) => {["pool" := p; "name" := n; "snap" := sn; "device" := d]} : mapping in
  let R := MkRbdEnv "ceph version 14 nautilus"
    (fun i s => if bool_decide (i = "rbd/vm@backy-1") then Ok (new "rbd" "vm" "backy-1" "/dev/rbd2") else Err OSError)
    MList (fun _ => Ok tt) (fun _ => Ok tt) in
  let other := new "rbd" "vm" "backy-0" "/dev/rbd0" in
  let leaked := new "rbd" "vm" "backy-1" "/dev/rbd1" in
  image_reader R "rbd/vm@backy-1" (fun d => Ok d) [other] = ([other], Ok "/dev/rbd2") /\
  image_reader R "rbd/vm@backy-1" (fun d => Ok d) [leaked; other] = ([other; new "rbd" "vm" "backy-1" "/dev/rbd2"], Ok "/dev/rbd1") /\
  shown [leaked; other].
Proof.
  split; [vm_compute; reflexivity|]. split; [vm_compute; reflexivity|]. split.
  - vm_compute. repeat constructor; set_solver.
  - assert (Hpl : forall s, forallb (fun c => negb (Ascii.eqb c "/") && negb (Ascii.eqb c "@")) (String.list_ascii_of_string s) = true -> plain s).
    { intros t Ht c Hc. rewrite forallb_forall in Ht. apply elem_of_list_In in Hc. specialize (Ht c Hc).
      split; intros ->; discriminate Ht. }
    intros x Hx. repeat (apply elem_of_cons in Hx as [->|Hx]); [..|inversion Hx];
      (eexists _, _, _, _; split; [split; [|split; [|split]]; reflexivity|]); (split; [|split]); apply Hpl; reflexivity.
Qed.
