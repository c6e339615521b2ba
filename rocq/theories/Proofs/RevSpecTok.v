(** Strings are cut into the tokens they write down. *)
From Verif Require Export Proofs.RevSpecMain.

Lemma chars_app a b : chars (a ++ b)%string = chars a ++ chars b.
Proof. induction a as [|c a IH]; [done|]. change (chars (String c a ++ b)%string) with (c :: chars (a ++ b)%string). rewrite IH. done. Qed.
Lemma unchars_chars s : unchars (chars s) = s.
Proof. apply string_of_list_ascii_of_string. Qed.
Lemma chars_unchars l : chars (unchars l) = l.
Proof. apply list_ascii_of_string_of_list_ascii. Qed.

Definition ws (l : list ascii) : Prop := forall c, c ∈ l -> is_ws c = true.
Lemma lstrip_ws p l : ws p -> lstrip (p ++ l) = lstrip l.
Proof.
  induction p as [|c p IH]; intros Hp; [done|]. cbn. rewrite (Hp c) by left. apply IH. intros x Hx. apply Hp. right. done.
Qed.
Lemma lstrip_len l : length (lstrip l) <= length l.
Proof. induction l as [|c l IH]; cbn; [lia|]. destruct (is_ws c); cbn; lia. Qed.
Lemma lstrip_full l : length (lstrip l) = length l -> lstrip l = l.
Proof. destruct l as [|c l]; [done|]. cbn. destruct (is_ws c); [|done]. pose proof (lstrip_len l). cbn. lia. Qed.
Lemma ws_reverse p : ws p -> ws (reverse p).
Proof. intros Hp c Hc. rewrite elem_of_reverse in Hc. auto. Qed.
Lemma lstrip_keep w l : w <> [] -> lstrip w = w -> lstrip (w ++ l) = w ++ l.
Proof.
  destruct w as [|c w]; [done|]. cbn. destruct (is_ws c); [|done]. pose proof (lstrip_len w). intros _ Hw.
  apply (f_equal length) in Hw. cbn in Hw. lia.
Qed.
Lemma strip_chars_parts w : strip_chars w = w -> lstrip w = w /\ lstrip (reverse w) = reverse w.
Proof.
  unfold strip_chars. intros Hw. assert (L : lstrip w = w).
  { apply lstrip_full. pose proof (lstrip_len w). apply (f_equal length) in Hw. rewrite reverse_length in Hw.
    pose proof (lstrip_len (reverse (lstrip w))). rewrite reverse_length in *. lia. }
  split; [done|]. rewrite L in Hw. rewrite <- Hw at 2. rewrite reverse_involutive. done.
Qed.
Lemma strip_pad p w q : ws p -> ws q -> strip_chars w = w -> strip_chars (p ++ w ++ q) = w.
Proof.
  intros Hp Hq Hw. destruct (strip_chars_parts w Hw) as [L R]. unfold strip_chars.
  rewrite lstrip_ws by done. destruct w as [|c w].
  - cbn [app]. rewrite <- (app_nil_r q), lstrip_ws by done. done.
  - rewrite lstrip_keep by done. rewrite reverse_app, lstrip_ws by (apply ws_reverse; done).
    rewrite R, reverse_involutive. done.
Qed.
Lemma lstrip_split l : exists p, ws p /\ l = p ++ lstrip l.
Proof.
  induction l as [|c l (p & Hp & IH)]; [exists []; split; [intros c Hc; set_solver|done]|]. cbn.
  destruct (is_ws c) eqn:Hc.
  - exists (c :: p). split; [|cbn; congruence]. intros x Hx. apply elem_of_cons in Hx as [->|]; auto.
  - exists []. split; [intros x Hx; set_solver|done].
Qed.
Lemma lstrip_idem l : lstrip (lstrip l) = lstrip l.
Proof. induction l as [|c l IH]; [done|]. cbn. destruct (is_ws c) eqn:Hc; [done|]. cbn. rewrite Hc. done. Qed.
Lemma lstrip_cut a b : lstrip (a ++ b) = a ++ b -> lstrip a = a.
Proof.
  destruct a as [|c a]; [done|]. cbn. destruct (is_ws c); [|done]. intros Hx. apply (f_equal length) in Hx.
  pose proof (lstrip_len (a ++ b)). cbn in Hx. lia.
Qed.
Lemma strip_idem l : strip_chars (strip_chars l) = strip_chars l.
Proof.
  unfold strip_chars. set (m := lstrip l). assert (Hm : lstrip m = m) by apply lstrip_idem.
  destruct (lstrip_split (reverse m)) as (p & _ & Hp).
  assert (E : lstrip (reverse (lstrip (reverse m))) = reverse (lstrip (reverse m))).
  { apply (f_equal reverse) in Hp. rewrite reverse_involutive, reverse_app in Hp.
    apply (lstrip_cut _ (reverse p)). rewrite <- Hp. done. }
  rewrite E, reverse_involutive, lstrip_idem. done.
Qed.
Lemma ws_nosep c : is_ws c = true -> sep1 c = false /\ c <> "."%char.
Proof. destruct c as [[] [] [] [] [] [] [] []]; cbn; done. Qed.

(** A stretch without separators goes to the current piece. *)
Lemma re_split_skip w rest cur : (forall c, c ∈ w -> sep1 c = false) -> no_dots w ->
  re_split cur (w ++ rest) = re_split (reverse w ++ cur) rest.
Proof.
  revert cur. induction w as [|c w IH]; intros cur Hs Hd; [done|].
  destruct Hd as [Hc Hd]. cbn [app re_split]. rewrite (Hs c) by left.
  assert (Hnext : re_split (c :: cur) (w ++ rest) = re_split (reverse (c :: w) ++ cur) rest).
  { rewrite IH; [|intros x Hx; apply Hs; right; done|done]. rewrite reverse_cons, <- app_assoc. done. }
  destruct (Ascii.eqb c ".") eqn:E.
  - apply Ascii.eqb_eq in E. destruct (Hc E) as (d & w' & -> & Hd'). cbn [app].
    assert (Ascii.eqb d "." = false) as -> by (apply Ascii.eqb_neq; done). exact Hnext.
  - cbn [andb]. destruct (w ++ rest) as [|c2 r] eqn:Er; exact Hnext.
Qed.
Lemma no_dots_ws p : ws p -> no_dots p.
Proof.
  induction p as [|c p IH]; intros Hp; cbn; [done|]. split; [|apply IH; intros x Hx; apply Hp; right; done].
  intros ->. exfalso. destruct (ws_nosep "."%char); [apply Hp; left|done].
Qed.
Lemma re_split_ws p rest cur : ws p -> re_split cur (p ++ rest) = re_split (reverse p ++ cur) rest.
Proof. intros Hp. apply re_split_skip; [intros c Hc; apply ws_nosep; auto|apply no_dots_ws; done]. Qed.
Lemma re_split_sep t rest cur : separator t ->
  re_split cur (chars t ++ rest) = reverse cur :: chars t :: re_split [] rest.
Proof.
  unfold separator. intros Ht. repeat (apply elem_of_cons in Ht as [->|Ht]; [done|]).
  rewrite elem_of_nil in Ht. done.
Qed.

Definition toks (l : list (list ascii)) : list (list ascii) := filter (fun l => l <> []) (map strip_chars l).
Lemma separator_chars t : separator t -> chars t <> [] /\ strip_chars (chars t) = chars t.
Proof.
  unfold separator. intros Ht. repeat (apply elem_of_cons in Ht as [->|Ht]; [done|]).
  rewrite elem_of_nil in Ht. done.
Qed.
(** The current piece [cur]: white space around the characters of a word, or
    only white space ([w] empty). *)
Definition piece (cur w : list ascii) : Prop :=
  strip_chars w = w /\ exists p q, ws p /\ ws q /\ reverse cur = p ++ w ++ q.
Lemma piece_strip cur w : piece cur w -> strip_chars (reverse cur) = w.
Proof. intros (Hw & p & q & Hp & Hq & ->). apply strip_pad; done. Qed.
Lemma piece_pad cur w x : piece cur w -> ws x -> piece (reverse x ++ cur) w.
Proof.
  intros (Hw & p & q & Hp & Hq & Hc) Hx. split; [done|]. exists p, (q ++ x). split; [done|].
  split; [intros c Hcc; apply elem_of_app in Hcc as [|]; auto|].
  rewrite reverse_app, reverse_involutive, Hc, <- !app_assoc. done.
Qed.
Lemma piece_nil : piece [] [].
Proof. split; [done|]. exists [], []. split; [intros c Hc; set_solver|]. split; [intros c Hc; set_solver|done]. Qed.
Definition opt (w : list ascii) : list (list ascii) := if decide (w = []) then [] else [w].
Lemma toks_cons x l : toks (x :: l) = opt (strip_chars x) ++ toks l.
Proof.
  unfold toks, opt. cbn [map]. destruct (decide (strip_chars x = [])) as [->|Hn].
  - rewrite filter_cons_False by tauto. done.
  - rewrite filter_cons_True by done. done.
Qed.
Lemma blank_ws s : blank s -> ws (chars s).
Proof. done. Qed.
Lemma sep_not_plain x : separator x -> plain x -> False.
Proof.
  unfold separator. intros Ht (_ & _ & X3 & X4).
  repeat (apply elem_of_cons in Ht as [->|Ht]).
  - assert (Hc : sep1 "(" = false) by (apply X3; left). done.
  - assert (Hc : sep1 ")" = false) by (apply X3; left). done.
  - assert (Hc : sep1 "," = false) by (apply X3; left). done.
  - assert (Hc : sep1 "&" = false) by (apply X3; left). done.
  - cbn in X4. destruct X4 as [X4 _]. destruct (X4 eq_refl) as (d & l & [= <- <-] & Hd). done.
  - rewrite elem_of_nil in Ht. done.
Qed.
Lemma toks_writes ts s : writes ts s ->
  (forall cur w, piece cur w ->
     (w = [] \/ ts = [] \/ exists t ts', ts = t :: ts' /\ separator t) ->
     toks (re_split cur (chars s)) = opt w ++ map chars ts).
Proof.
  assert (Hopt : forall w, w <> [] -> opt w = [w]) by (intros w Hw; unfold opt; rewrite decide_False by done; done).
  induction 1 as [s Hs|t ts pad s Ht Hp Hw IH|x pad s Hx Hp Hs|x t ts pad s Hx Ht Hp Hw IH]; intros cur w Hc Hok.
  - rewrite <- (app_nil_r (chars s)), re_split_ws by (apply blank_ws; done). cbn [re_split].
    rewrite toks_cons, (piece_strip _ w) by (apply piece_pad; done). done.
  - rewrite !chars_app, re_split_ws, re_split_sep by done. rewrite !toks_cons.
    rewrite (piece_strip _ w) by (apply piece_pad; done). destruct (separator_chars t Ht) as [T1 T2].
    rewrite T2, (Hopt (chars t)) by done. f_equal. cbn [map app]. f_equal.
    rewrite (IH [] []) by (auto using piece_nil). done.
  - destruct Hx as (X1 & X2 & X3 & X4).
    assert (Hxs : strip_chars (chars x) = chars x).
    { unfold strip in X2. rewrite <- X2 at 2. rewrite chars_unchars. done. }
    assert (Hx0 : chars x <> []) by (destruct x; done).
    destruct Hok as [->|[Hok|(t & ts' & Hok & Ht)]]; [|done|].
    2: { injection Hok as <- <-. exfalso. apply (sep_not_plain x); [done|]. repeat split; done. }
    rewrite !chars_app, re_split_ws, re_split_skip by done.
    rewrite <- (app_nil_r (chars s)), re_split_ws by (apply blank_ws; done). cbn [re_split].
    rewrite toks_cons. unfold opt at 2. rewrite decide_True by done. cbn [app map toks].
    destruct Hc as (_ & p & q & Hp' & Hq & Hcur). cbn [app] in Hcur.
    rewrite (piece_strip _ (chars x)); [rewrite (Hopt (chars x)) by done; done|].
    apply piece_pad; [|done]. split; [done|]. exists (p ++ q ++ chars pad), [].
    split; [intros c Hcc; rewrite !elem_of_app in Hcc; destruct Hcc as [|[|]]; auto|].
    split; [intros c Hcc; set_solver|].
    rewrite !reverse_app, !reverse_involutive, Hcur, app_nil_r, <- !app_assoc. done.
  - destruct Hx as (X1 & X2 & X3 & X4).
    assert (Hxs : strip_chars (chars x) = chars x).
    { unfold strip in X2. rewrite <- X2 at 2. rewrite chars_unchars. done. }
    assert (Hx0 : chars x <> []) by (destruct x; done).
    destruct Hok as [->|[Hok|(t' & ts' & Hok & Ht')]]; [|done|].
    2: { injection Hok as <- <-. exfalso. apply (sep_not_plain x); [done|]. repeat split; done. }
    rewrite !chars_app, re_split_ws, re_split_skip by done.
    unfold opt at 1. rewrite decide_True by done. cbn [app].
    destruct Hc as (_ & p & q & Hp' & Hq & Hcur). cbn [app] in Hcur.
    rewrite (IH _ (chars x)); [rewrite (Hopt (chars x)) by done; done| |right; right; exists t, ts; done].
    split; [done|]. exists (p ++ q ++ chars pad), [].
    split; [intros c Hcc; rewrite !elem_of_app in Hcc; destruct Hcc as [|[|]]; auto|].
    split; [intros c Hcc; set_solver|].
    rewrite !reverse_app, !reverse_involutive, Hcur, app_nil_r, <- !app_assoc. done.
Qed.
Theorem tokenize_writes ts s : writes ts s -> tokenize s = ts.
Proof.
  intros Hw. unfold tokenize. change (map unchars (toks (re_split [] (chars s))) = ts).
  rewrite (toks_writes ts s Hw [] []) by (auto using piece_nil). cbn [opt].
  rewrite map_app, map_map. cbn. rewrite (map_ext _ id) by (intros x; apply unchars_chars). apply map_id.
Qed.

(** Every string whose words are plain can be evaluated by [eval_render]. *)
Lemma no_fuel_string H iso s : find_revisions H iso s <> Err OutOfFuel.
Proof. unfold find_revisions. apply no_fuel. lia. Qed.

(** ** Dates *)
Section Dates.
Context (H : list rev) (iso : string -> option Z).
Context (Hsort : forall i j a b, H !! i = Some a -> H !! j = Some b -> i < j -> (r_ts a < r_ts b)%Z).

(** The doubled position [k] stands for the point in time [t]. *)
Definition at_time (k t : Z) : Prop :=
  forall i r, H !! i = Some r ->
    ((r_ts r <= t)%Z <-> (2 * Z.of_nat i <= k)%Z) /\ ((t <= r_ts r)%Z <-> (k <= 2 * Z.of_nat i)%Z).
Lemma ts_le i j a b : H !! i = Some a -> H !! j = Some b -> (r_ts a <= r_ts b)%Z <-> i <= j.
Proof.
  intros Ha Hb. split; intros Hle.
  - destruct (decide (j < i)) as [Hlt|]; [|lia]. pose proof (Hsort j i b a Hb Ha Hlt). lia.
  - destruct (decide (i = j)) as [->|]; [assert (a = b) as -> by congruence; lia|].
    pose proof (Hsort i j a b Ha Hb ltac:(lia)). lia.
Qed.
Lemma at_time_index i r : H !! i = Some r -> at_time (2 * Z.of_nat i) (r_ts r).
Proof. intros Hi j x Hj. rewrite !ts_le by done. lia. Qed.

Lemma last_filter {A} (P : A -> Prop) `{!forall x, Decision (P x)} (l : list A) :
  match last (filter P l) with
  | Some x => exists k, l !! k = Some x /\ P x /\ (forall j y, l !! j = Some y -> k < j -> ~ P y)
  | None => forall j y, l !! j = Some y -> ~ P y
  end.
Proof.
  induction l as [|x l IH] using rev_ind; [done|]. rewrite filter_app.
  destruct (decide (P x)) as [Hx|Hx].
  - rewrite filter_cons_True by done. rewrite filter_nil, last_snoc. exists (length l).
    split; [apply list_lookup_middle; done|]. split; [done|]. intros j y Hy Hj.
    apply lookup_lt_Some in Hy. rewrite app_length in Hy. cbn in Hy. lia.
  - rewrite filter_cons_False, filter_nil, app_nil_r by done.
    assert (Hold : forall j y, (l ++ [x]) !! j = Some y -> P y -> l !! j = Some y).
    { intros j y Hy Hp. apply lookup_app_Some in Hy as [Hy|[_ Hy]]; [done|].
      apply list_lookup_singleton_Some in Hy as [_ <-]. done. }
    destruct (last (filter P l)) as [z|].
    + destruct IH as (k & Hk & Hz & IH). exists k. split; [apply lookup_app_l_Some; done|]. split; [done|].
      intros j y Hy Hj Hp. apply (IH j y); [apply Hold; done|done|done].
    + intros j y Hy Hp. apply (IH j y); [apply Hold; done|done].
Qed.
Lemma head_filter {A} (P : A -> Prop) `{!forall x, Decision (P x)} (l : list A) :
  match filter P l with
  | x :: _ => exists k, l !! k = Some x /\ P x /\ (forall j y, l !! j = Some y -> j < k -> ~ P y)
  | [] => forall j y, l !! j = Some y -> ~ P y
  end.
Proof.
  induction l as [|x l IH]; [done|]. destruct (decide (P x)) as [Hx|Hx].
  - rewrite filter_cons_True by done. exists 0. split; [done|]. split; [done|]. intros; lia.
  - rewrite filter_cons_False by done. destruct (filter P l) as [|z f].
    + intros [|j] y Hy; cbn in Hy; [injection Hy as <-; done|eauto].
    + destruct IH as (k & Hk & Hz & IH). exists (S k). split; [done|]. split; [done|].
      intros [|j] y Hy Hj; cbn in Hy; [injection Hy as <-; done|]. eapply IH; [done|lia].
Qed.
Lemma enum_lookup k i r : imap (fun i r => (i, r)) H !! k = Some (i, r) -> i = k /\ H !! k = Some r.
Proof. rewrite list_lookup_imap. destruct (H !! k); cbn; intros Hx; simplify_eq; done. Qed.
Lemma enum_intro i r : H !! i = Some r -> imap (fun i r => (i, r)) H !! i = Some (i, r).
Proof. rewrite list_lookup_imap. intros ->. done. Qed.
Lemma date_left_spec d i r : H !! i = Some r -> (r_ts r <= d)%Z <-> (Z.of_nat i <= date_left H d)%Z.
Proof.
  intros Hi. unfold date_left.
  pose proof (last_filter (fun x => (r_ts x.2 <= d)%Z) (imap (fun i r => (i, r)) H)) as Hl.
  destruct (last _) as [[k x]|].
  - destruct Hl as (k' & Hk & Hx & Hl). apply enum_lookup in Hk as [-> Hk]. cbn in Hx.
    split; intros Hle.
    + destruct (decide (k' < i)); [|lia]. exfalso. apply (Hl i (i, r)); [apply enum_intro; done|done|]. done.
    + assert (r_ts r <= r_ts x)%Z by (rewrite ts_le by done; lia). lia.
  - split; intros Hle; [|lia]. exfalso. apply (Hl i (i, r)); [apply enum_intro; done|]. done.
Qed.
Lemma date_right_spec d i r : H !! i = Some r -> (d <= r_ts r)%Z <-> (date_right H d <= Z.of_nat i)%Z.
Proof.
  intros Hi. unfold date_right.
  pose proof (head_filter (fun x => (r_ts x.2 >= d)%Z) (imap (fun i r => (i, r)) H)) as Hl.
  destruct (filter _ _) as [|[k x] f].
  - split; intros Hle.
    + exfalso. apply (Hl i (i, r)); [apply enum_intro; done|]. cbn. lia.
    + apply lookup_lt_Some in Hi. unfold zlen in Hle. lia.
  - destruct Hl as (k' & Hk & Hx & Hl). apply enum_lookup in Hk as [-> Hk]. cbn in Hx.
    split; intros Hle.
    + destruct (decide (i < k')); [|lia]. exfalso. apply (Hl i (i, r)); [apply enum_intro; done|done|]. cbn. lia.
    + assert (r_ts x <= r_ts r)%Z by (rewrite ts_le by done; lia). lia.
Qed.
Lemma date_bounds d : (-1 <= date_left H d < zlen H)%Z /\ (0 <= date_right H d <= zlen H)%Z.
Proof.
  split.
  - unfold date_left. pose proof (last_filter (fun x => (r_ts x.2 <= d)%Z) (imap (fun i r => (i, r)) H)) as Hl.
    destruct (last _) as [[k x]|].
    + destruct Hl as (k' & Hk & _). apply enum_lookup in Hk as [-> Hk]. apply lookup_lt_Some in Hk. unfold zlen. lia.
    + unfold zlen. lia.
  - unfold date_right. pose proof (head_filter (fun x => (r_ts x.2 >= d)%Z) (imap (fun i r => (i, r)) H)) as Hl.
    destruct (filter _ _) as [|[k x] f].
    + unfold zlen. lia.
    + destruct Hl as (k' & Hk & _). apply enum_lookup in Hk as [-> Hk]. apply lookup_lt_Some in Hk. unfold zlen. lia.
Qed.
(** The two sides are equal or next to each other: the assertion never fails. *)
Lemma date_gap d : (0 <= date_right H d - date_left H d <= 1)%Z.
Proof.
  pose proof (date_bounds d) as [B1 B2]. split.
  - destruct (decide (date_right H d < date_left H d)%Z) as [Hlt|]; [|lia]. exfalso.
    destruct (lookup_lt_is_Some_2 H (Z.to_nat (date_left H d))) as [x Hx]; [unfold zlen in *; lia|].
    destruct (lookup_lt_is_Some_2 H (Z.to_nat (date_right H d))) as [y Hy]; [unfold zlen in *; lia|].
    pose proof (proj2 (date_left_spec d _ x Hx) ltac:(lia)).
    pose proof (proj2 (date_right_spec d _ y Hy) ltac:(lia)).
    pose proof (Hsort _ _ y x Hy Hx ltac:(lia)). lia.
  - destruct (decide (date_left H d + 1 < date_right H d)%Z) as [Hlt|]; [|lia]. exfalso.
    destruct (lookup_lt_is_Some_2 H (Z.to_nat (date_left H d + 1))) as [x Hx]; [unfold zlen in *; lia|].
    destruct (decide (r_ts x <= d)%Z) as [Hle|Hgt].
    + apply (date_left_spec d _ x Hx) in Hle. lia.
    + assert (d <= r_ts x)%Z as Hge by lia. apply (date_right_spec d _ x Hx) in Hge. lia.
Qed.
Lemma date_at_time d : at_time (date_left H d + date_right H d) d.
Proof.
  pose proof (date_gap d). intros i r Hi. rewrite (date_left_spec d i r Hi), (date_right_spec d i r Hi). lia.
Qed.
Lemma date_zero d : (date_left H d + date_right H d = 0)%Z -> exists r, head H = Some r /\ r_ts r = d.
Proof.
  intros Hz. pose proof (date_gap d). pose proof (date_bounds d).
  assert (Hl : date_left H d = 0%Z) by lia. assert (Hr : date_right H d = 0%Z) by lia.
  destruct (lookup_lt_is_Some_2 H 0) as [x Hx]; [unfold zlen in *; lia|].
  exists x. split; [destruct H; done|].
  pose proof (proj2 (date_left_spec d 0 x Hx) ltac:(lia)).
  pose proof (proj2 (date_right_spec d 0 x Hx) ltac:(lia)). lia.
Qed.

(** A slice between two positions is what lies between the two times. *)
Lemma filter_slice {A} (P : A -> Prop) `{!forall x, Decision (P x)} (l : list A) lo hi :
  (forall i x, l !! i = Some x -> P x <-> lo <= i < hi) ->
  filter P l = take (hi - lo) (drop lo l).
Proof.
  revert lo hi. induction l as [|x l IH]; intros lo hi HP; [rewrite drop_nil, take_nil; done|].
  pose proof (HP 0 x eq_refl) as Hz0. destruct lo as [|lo].
  - rewrite drop_0. destruct hi as [|hi].
    + cbn [Nat.sub take]. rewrite filter_cons_False by (rewrite Hz0; lia).
      rewrite (IH 0 0); [done|]. intros i y Hy. rewrite (HP (S i) y Hy). lia.
    + rewrite filter_cons_True by (apply Hz0; lia). cbn [Nat.sub take]. f_equal.
      rewrite (IH 0 hi); [rewrite drop_0; replace (hi - 0) with hi by lia; done|].
      intros i y Hy. rewrite (HP (S i) y Hy). lia.
  - rewrite filter_cons_False by (rewrite Hz0; lia). cbn [drop].
    rewrite (IH lo (hi - 1)); [f_equal; lia|]. intros i y Hy. rewrite (HP (S i) y Hy). lia.
Qed.
Lemma slice_times a b ka kb : at_time ka a -> at_time kb b -> (-1 <= ka)%Z -> (-1 <= kb)%Z ->
  ztake (Z.max ka kb / 2 + 1 - (Z.min ka kb + 1) / 2) (zdrop ((Z.min ka kb + 1) / 2) H) =
  filter (fun r => (Z.min a b <= r_ts r <= Z.max a b)%Z) H.
Proof.
  intros Ha Hb Ba Bb. unfold ztake, zdrop.
  pose proof (Z.div_mod (Z.min ka kb + 1) 2 ltac:(lia)) as D1. pose proof (Z.mod_pos_bound (Z.min ka kb + 1) 2 ltac:(lia)) as D2.
  pose proof (Z.div_mod (Z.max ka kb) 2 ltac:(lia)) as D3. pose proof (Z.mod_pos_bound (Z.max ka kb) 2 ltac:(lia)) as D4.
  set (lo := ((Z.min ka kb + 1) / 2)%Z) in *. set (hi := (Z.max ka kb / 2)%Z) in *.
  rewrite (filter_slice _ H (Z.to_nat lo) (Z.to_nat (hi + 1))).
  { f_equal. lia. }
  intros i r Hi. destruct (Ha i r Hi) as [A1 A2]. destruct (Hb i r Hi) as [B1 B2].
  assert (E : (Z.min a b <= r_ts r <= Z.max a b)%Z <-> ((a <= r_ts r \/ b <= r_ts r) /\ (r_ts r <= a \/ r_ts r <= b))%Z) by lia.
  rewrite E, A1, A2, B1, B2. lia.
Qed.
End Dates.

Lemma index2_time H iso (Hsort : forall i j a b, H !! i = Some a -> H !! j = Some b -> i < j -> (r_ts a < r_ts b)%Z)
  (d : string) (p : option string) omitted t :
  NoDup H -> iso d = None -> d <> "" -> strip d = d -> (forall r, single H d = Some r <-> omitted = Some r) ->
  (forall w, p = Some w -> w <> "" /\ strip w = w) ->
  (forall w r, p = Some w -> head H = Some r -> iso w <> Some (r_ts r)) ->
  time_of H iso p omitted t ->
  exists k, index2_by_token H iso (default (TStr d) (head (map TStr (option_list p)))) = Ok k /\
    at_time H k t /\ (-1 <= k)%Z.
Proof.
  intros HH D1 D2 D3 D4 Hp Hne Ht. destruct p as [x|]; cbn in Ht |- *.
  - destruct (Hp x eq_refl) as [P1 P2]. destruct Ht as [Ht|[Ht (r & Hr & Hrt)]].
    + unfold index2_by_date. rewrite Ht. pose proof (date_gap H Hsort t) as G. pose proof (date_bounds H t) as [B1 B2].
      replace ((0 <=? date_right H t - date_left H t) && (date_right H t - date_left H t <=? 1))%Z with true
        by (symmetry; apply andb_true_iff; lia). cbn [res_bind].
      destruct (_ =? 0)%Z eqn:Hz.
      * apply Z.eqb_eq in Hz. destruct (date_zero H Hsort t Hz) as (r & Hr & <-). exfalso. eapply Hne; done.
      * eexists. split; [done|]. split; [apply date_at_time; done|lia].
    + change (exists k, index2_by_token H iso (TStr x) = Ok k /\ at_time H k t /\ (-1 <= k)%Z).
      pose proof (single_in H x r Hr) as Hin. apply elem_of_list_lookup in Hin as [i Hi].
      exists (2 * Z.of_nat i)%Z. split; [apply (index2_word H iso HH); eauto|].
      split; [rewrite <- Hrt; apply at_time_index; done|lia].
  - destruct Ht as (r & Hr & Hrt). apply D4 in Hr.
    change (exists k, index2_by_token H iso (TStr d) = Ok k /\ at_time H k t /\ (-1 <= k)%Z).
    pose proof (single_in H d r Hr) as Hin. apply elem_of_list_lookup in Hin as [i Hi].
    exists (2 * Z.of_nat i)%Z. split; [apply (index2_word H iso HH); eauto|].
    split; [rewrite <- Hrt; apply at_time_index; done|lia].
Qed.
