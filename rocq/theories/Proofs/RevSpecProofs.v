(** Revision specifications: the evaluator of the code computes the meaning. *)
From Verif Require Export Spec.RevSpec.

(** ** Lists of tokens *)
Lemma has_app w a b : has w (a ++ b) = has w a || has w b.
Proof. apply existsb_app. Qed.
Lemma has_cons w t l : has w (t :: l) = is_str w t || has w l.
Proof. done. Qed.
Lemma split_first_spec w l : match split_first w l with
  | Some (a, b) => l = a ++ TStr w :: b /\ has w a = false
  | None => has w l = false
  end.
Proof.
  induction l as [|t l IH]; [done|]. cbn [split_first]. rewrite has_cons.
  destruct (is_str w t) eqn:Ht.
  - destruct t as [x| |]; try done. cbn in Ht. apply bool_decide_eq_true in Ht as ->. done.
  - destruct (split_first w l) as [[a b]|]; [|done]. destruct IH as [-> Ha].
    split; [done|]. rewrite has_cons, Ht. done.
Qed.
Lemma split_last_spec w l : match split_last w l with
  | Some (a, b) => l = a ++ TStr w :: b /\ has w b = false
  | None => has w l = false
  end.
Proof.
  induction l as [|t l IH]; [done|]. cbn [split_last]. rewrite has_cons.
  destruct (split_last w l) as [[a b]|].
  - destruct IH as [-> Hb]. done.
  - destruct (is_str w t) eqn:Ht; [|done].
    destruct t as [x| |]; try done. cbn in Ht. apply bool_decide_eq_true in Ht as ->. done.
Qed.
Lemma is_str_same w : is_str w (TStr w) = true.
Proof. cbn. apply bool_decide_eq_true. done. Qed.
Lemma split_first_app w a b : has w a = false -> split_first w (a ++ TStr w :: b) = Some (a, b).
Proof.
  induction a as [|t a IH]; intros Ha.
  - cbn [app split_first]. rewrite is_str_same. done.
  - rewrite has_cons in Ha. apply orb_false_iff in Ha as [Ht Ha].
    cbn [app split_first]. rewrite Ht, IH by done. done.
Qed.
Lemma split_last_none w l : has w l = false -> split_last w l = None.
Proof.
  induction l as [|t l IH]; intros Hl; [done|]. rewrite has_cons in Hl.
  apply orb_false_iff in Hl as [Ht Hl]. cbn [split_last]. rewrite IH, Ht by done. done.
Qed.
Lemma split_last_app w a b : has w b = false -> split_last w (a ++ TStr w :: b) = Some (a, b).
Proof.
  intros Hb. induction a as [|t a IH]; cbn [app split_last].
  - rewrite split_last_none, is_str_same by done. done.
  - rewrite IH. done.
Qed.
Lemma list_split_none w l : has w l = false -> list_split w l = [l].
Proof.
  induction l as [|t l IH]; intros Hl; [done|]. rewrite has_cons in Hl.
  apply orb_false_iff in Hl as [Ht Hl]. cbn [list_split]. rewrite IH, Ht by done. done.
Qed.
Lemma list_split_app w a b : has w a = false -> has w b = false ->
  list_split w (a ++ TStr w :: b) = [a; b].
Proof.
  intros Ha Hb. induction a as [|t a IH].
  - cbn [app list_split]. rewrite list_split_none, is_str_same by done. done.
  - rewrite has_cons in Ha. apply orb_false_iff in Ha as [Ht Ha].
    cbn [app list_split]. rewrite IH, Ht by done. done.
Qed.

Section F.
Context (H : list rev) (iso : string -> option Z).
Notation FT := (find_tokens H iso).
Definition FF (t : list token) : res (list rev) := FT (S (length t)) t.

Lemma ends_with_func_len prev prev' f :
  ends_with_func prev = Some (prev', f) -> length prev = S (length prev').
Proof.
  unfold ends_with_func. intros Hf. assert (length (reverse prev) = length prev) as <- by apply reverse_length.
  destruct (reverse prev) as [|[w| |] rest]; try done. destruct (func_of w); [|done].
  injection Hf as <- <-. cbn. rewrite reverse_length. done.
Qed.
(** Fuel does not matter. *)
Lemma fuel_enough n : forall m t, length t < n -> length t < m -> FT n t = FT m t.
Proof.
  induction n as [|n IH]; intros m t Hn Hm; [lia|]. destruct m as [|m]; [lia|].
  cbn [find_tokens]. destruct (has "(" t && has ")" t).
  - pose proof (split_last_spec "(" t) as Hs. destruct (split_last "(" t) as [[prev rest]|]; [|done].
    destruct Hs as [-> _]. pose proof (split_first_spec ")" rest) as Hs.
    destruct (split_first ")" rest) as [[mid next]|]; [|done]. destruct Hs as [-> _].
    rewrite !app_length in *. cbn [length] in *. rewrite !app_length in *. cbn [length] in *.
    rewrite (IH m mid) by lia. destruct (FT m mid) as [x|]; [|done]. cbn [res_bind].
    destruct (ends_with_func prev) as [[prev' f]|] eqn:Hf.
    + apply ends_with_func_len in Hf. destruct (apply_func H f x) as [v|]; [|done]. cbn [res_bind].
      apply IH; rewrite app_length; cbn [length]; lia.
    + apply IH; rewrite app_length; cbn [length]; lia.
  - destruct (has "," t).
    + pose proof (split_first_spec "," t) as Hs. destruct (split_first "," t) as [[a b]|]; [|done].
      destruct Hs as [-> _]. rewrite app_length in *. cbn [length] in *.
      rewrite (IH m a), (IH m b) by lia. done.
    + destruct (has "&" t); [|done].
      pose proof (split_first_spec "&" t) as Hs. destruct (split_first "&" t) as [[a b]|]; [|done].
      destruct Hs as [-> _]. rewrite app_length in *. cbn [length] in *.
      rewrite (IH m a), (IH m b) by lia. done.
Qed.
Lemma FF_fuel n t : length t < n -> FT n t = FF t.
Proof. intros Hn. apply fuel_enough; lia. Qed.

(** One step of the evaluator. *)
Definition close (prev : list token) (x : list rev) (next : list token) : res (list rev) :=
  match ends_with_func prev with
  | Some (prev', f) => res_bind (apply_func H f x) (fun v => FF (prev' ++ v :: next))
  | None => FF (prev ++ TList x :: next)
  end.
Lemma FF_paren prev mid next :
  has "(" mid = false -> has ")" mid = false -> has "(" next = false ->
  FF (prev ++ TStr "(" :: mid ++ TStr ")" :: next) =
    res_bind (FF mid) (fun x => close prev x next).
Proof.
  intros H1 H2 H3. unfold FF at 1. cbn [find_tokens].
  assert (Hl : has "(" (prev ++ TStr "(" :: mid ++ TStr ")" :: next) = true)
    by (rewrite has_app, has_cons, is_str_same, orb_true_r; done).
  assert (Hr : has ")" (prev ++ TStr "(" :: mid ++ TStr ")" :: next) = true)
    by (rewrite has_app, !has_cons, has_app, has_cons, is_str_same, !orb_true_r; done).
  rewrite Hl, Hr. cbn [andb].
  rewrite split_last_app; [|rewrite has_app, has_cons, H1, H3; done].
  rewrite split_first_app by done. rewrite app_length. cbn [length]. rewrite app_length. cbn [length].
  rewrite (FF_fuel _ mid) by lia. destruct (FF mid) as [x|]; [|done]. cbn [res_bind]. unfold close.
  destruct (ends_with_func prev) as [[prev' f]|] eqn:Hf.
  - apply ends_with_func_len in Hf. destruct (apply_func H f x) as [v|]; [|done]. cbn [res_bind].
    apply FF_fuel. rewrite app_length. cbn [length]. lia.
  - apply FF_fuel. rewrite app_length. cbn [length]. lia.
Qed.
Definition noparen (t : list token) : Prop := has "(" t = false /\ has ")" t = false.
Lemma noparen_app a b : noparen a -> noparen b -> noparen (a ++ b).
Proof. intros [A1 A2] [B1 B2]. split; rewrite has_app; [rewrite A1|rewrite A2]; done. Qed.
Lemma FF_comma a b : noparen a -> noparen b -> has "," a = false ->
  FF (a ++ TStr "," :: b) =
    res_bind (FF a) (fun x => res_bind (FF b) (fun y => Ok (unique (x ++ y)))).
Proof.
  intros [A1 A2] [B1 B2] H1. unfold FF at 1. cbn [find_tokens].
  assert (Hl : has "(" (a ++ TStr "," :: b) = false) by (rewrite has_app, has_cons, A1, B1; done).
  rewrite Hl. cbn [andb].
  assert (Hr : has "," (a ++ TStr "," :: b) = true)
    by (rewrite has_app, has_cons, is_str_same, orb_true_r; done).
  rewrite Hr, split_first_app by done. rewrite app_length. cbn [length].
  rewrite (FF_fuel _ a), (FF_fuel _ b) by lia. done.
Qed.
Lemma FF_and a b : noparen a -> noparen b -> has "," a = false -> has "," b = false -> has "&" a = false ->
  FF (a ++ TStr "&" :: b) =
    res_bind (FF a) (fun x => res_bind (FF b) (fun y => Ok (duplicates x y))).
Proof.
  intros [A1 A2] [B1 B2] H1 H2 H3. unfold FF at 1. cbn [find_tokens].
  assert (Hl : has "(" (a ++ TStr "&" :: b) = false) by (rewrite has_app, has_cons, A1, B1; done).
  rewrite Hl. cbn [andb].
  assert (Hc : has "," (a ++ TStr "&" :: b) = false) by (rewrite has_app, has_cons, H1, H2; done).
  assert (Hr : has "&" (a ++ TStr "&" :: b) = true)
    by (rewrite has_app, has_cons, is_str_same, orb_true_r; done).
  rewrite Hc, Hr, split_first_app by done. rewrite app_length. cbn [length].
  rewrite (FF_fuel _ a), (FF_fuel _ b) by lia. done.
Qed.
Lemma FF_range a b : noparen a -> noparen b -> has "," a = false -> has "," b = false ->
  has "&" a = false -> has "&" b = false ->
  FF (a ++ TStr ".." :: b) = eval_range H iso (a ++ TStr ".." :: b).
Proof.
  intros [A1 A2] [B1 B2] H1 H2 H3 H4. unfold FF. cbn [find_tokens].
  rewrite !has_app, !has_cons. rewrite A1, B1, H1, H2, H3, H4.
  rewrite is_str_same. rewrite !orb_true_r. reflexivity.
Qed.
(** The model's fuel never runs out. *)
Lemma no_fuel n : forall t, length t < n -> FT n t <> Err OutOfFuel.
Proof.
  assert (Hft : forall s, find_token H s <> Err OutOfFuel).
  { intros s. unfold find_token, find_with. destruct (_ || _); [done|].
    unfold or_else, find_by_number, find_by_uuid, find_by_tag.
    repeat (case_match; try done). }
  assert (Hix : forall r, index_of H r <> Err OutOfFuel) by (intros r; unfold index_of; repeat case_match; done).
  assert (Hin : forall t, index2_by_token H iso t <> Err OutOfFuel).
  { intros [s|r|l]; unfold index2_by_token; [| |done].
    - assert (Ho : res_bind (find_token H s) (fun r => res_bind (index_of H r) (fun i => Ok (2 * i)%Z))
                   <> Err OutOfFuel).
      { specialize (Hft s). destruct (find_token H s) as [r|e]; cbn; [|congruence].
        specialize (Hix r). destruct (index_of H r); cbn; congruence. }
      unfold index2_by_date. repeat (case_match; cbn [res_bind]; try done).
    - specialize (Hix r). destruct (index_of H r); cbn; congruence. }
  induction n as [|n IH]; intros t Hn; [lia|].
  cbn [find_tokens]. destruct (has "(" t && has ")" t).
  - pose proof (split_last_spec "(" t) as Hs. destruct (split_last "(" t) as [[prev rest]|]; [|done].
    destruct Hs as [-> _]. pose proof (split_first_spec ")" rest) as Hs.
    destruct (split_first ")" rest) as [[mid next]|]; [|done]. destruct Hs as [-> _].
    rewrite !app_length in *. cbn [length] in *. rewrite !app_length in *. cbn [length] in *.
    pose proof (IH mid ltac:(lia)) as Hm. destruct (FT n mid) as [x|]; cbn [res_bind]; [|congruence].
    destruct (ends_with_func prev) as [[prev' f]|] eqn:Hf.
    + apply ends_with_func_len in Hf.
      assert (apply_func H f x <> Err OutOfFuel) by (destruct f; cbn; repeat case_match; done).
      destruct (apply_func H f x) as [v|]; cbn [res_bind]; [|congruence].
      apply IH; rewrite app_length; cbn [length]; lia.
    + apply IH; rewrite app_length; cbn [length]; lia.
  - destruct (has "," t).
    + pose proof (split_first_spec "," t) as Hs. destruct (split_first "," t) as [[a b]|]; [|done].
      destruct Hs as [-> _]. rewrite app_length in *. cbn [length] in *.
      pose proof (IH a ltac:(lia)) as Ha. pose proof (IH b ltac:(lia)) as Hb.
      destruct (FT n a); cbn; [|congruence]. destruct (FT n b); cbn; congruence.
    + destruct (has "&" t).
      * pose proof (split_first_spec "&" t) as Hs. destruct (split_first "&" t) as [[a b]|]; [|done].
        destruct Hs as [-> _]. rewrite app_length in *. cbn [length] in *.
        pose proof (IH a ltac:(lia)) as Ha. pose proof (IH b ltac:(lia)) as Hb.
        destruct (FT n a); cbn; [|congruence]. destruct (FT n b); cbn; congruence.
      * destruct (has ".." t).
        -- unfold eval_range. destruct (list_split ".." t) as [|ta [|tb [|]]]; try done.
           destruct (_ || _); [done|].
           pose proof (Hin (default (TStr "first") (head ta))). destruct (index2_by_token _ _ _); cbn; [|congruence].
           pose proof (Hin (default (TStr "last") (head tb))). destruct (index2_by_token _ _ _); cbn; [done|congruence].
        -- destruct t as [|[w|r|l] [|]]; try done. unfold eval_word.
           specialize (Hft w). repeat (case_match; try done). destruct (find_token H w); cbn; congruence.
Qed.
End F.

(** ** Words *)
#[local] Arguments String.append !_ _ / : simpl nomatch.
Lemma starts_spec p w : starts p w = true <-> exists x, w = (p ++ x)%string.
Proof.
  unfold starts. revert p. induction w as [|d w IH]; intros [|c p].
  - split; [intros _; exists ""; reflexivity|reflexivity].
  - split; [done|intros [x Hx]; done].
  - split; [intros _; eexists; reflexivity|reflexivity].
  - change (String.prefix (String c p) (String d w)) with
      (if ascii_dec c d then String.prefix p w else false).
    destruct (ascii_dec c d) as [->|Hne].
    + rewrite IH. split; intros [x Hx]; exists x; [rewrite Hx; reflexivity|cbn in Hx; congruence].
    + split; [done|]. intros [x Hx]. cbn in Hx. congruence.
Qed.
Lemma starts_app p x : starts p (p ++ x) = true.
Proof. apply starts_spec. eauto. Qed.
Lemma substring_all x : String.substring 0 (String.length x) x = x.
Proof. induction x as [|c x IH]; [done|]. cbn. rewrite IH. done. Qed.
Lemma remove_prefix_app p x : remove_prefix p (p ++ x) = x.
Proof.
  unfold remove_prefix. rewrite starts_app.
  assert (Hl : String.length (p ++ x) - String.length p = String.length x).
  { induction p as [|c p IH]; cbn; lia. }
  rewrite Hl. induction p as [|c p IH]; cbn; [apply substring_all|].
  apply IH. clear. induction p as [|c p IH]; cbn; lia.
Qed.
Lemma list_find_head {A} (P : A -> Prop) `{!forall x, Decision (P x)} (l : list A) :
  match list_find P l with
  | Some (_, x) => head (filter P l) = Some x
  | None => filter P l = []
  end.
Proof.
  induction l as [|y l IH]; [done|]. cbn [list_find]. case_decide as Hy.
  - rewrite filter_cons_True by done. done.
  - rewrite filter_cons_False by done. destruct (list_find P l) as [[i x]|]; exact IH.
Qed.
Lemma filter_ext_in {A} (P Q : A -> Prop) `{!forall x, Decision (P x), !forall x, Decision (Q x)} (l : list A) :
  (forall x, x ∈ l -> P x <-> Q x) -> filter P l = filter Q l.
Proof.
  intros Hpq. induction l as [|x l IH]; [done|].
  destruct (decide (P x)) as [Hx|Hx].
  - rewrite !filter_cons_True; [|apply Hpq; [left|done]|done]. f_equal. apply IH. intros; apply Hpq; right; done.
  - rewrite !filter_cons_False; [|rewrite <- Hpq; [done|left]|done]. apply IH. intros; apply Hpq; right; done.
Qed.

Section Words.
Context (H : list rev).
Lemma find_token_spec w r : w <> "" -> strip w = w ->
  find_token H w = Ok r <-> single H w = Some r.
Proof.
  intros Hw Hs. unfold find_token, find_with. rewrite Hs.
  rewrite (bool_decide_eq_false_2 (w = "")) by done. cbn [orb].
  assert (Hid : find_by_uuid H w = match with_id H w with Some x => Ok x | None => Err IndexError end).
  { unfold find_by_uuid, with_id. pose proof (list_find_head (fun r => r_uuid r = w) H) as Hf.
    destruct (list_find _ H) as [[i x]|]; rewrite Hf; done. }
  assert (Hk : find_by_tag H w = match keyword H w with Some x => Ok x
                | None => if decide (w = "last" \/ w = "latest" \/ w = "first") then Err IndexError else Err ValueError end).
  { unfold find_by_tag, keyword. case_bool_decide as H1; cbn [orb].
    - rewrite decide_True by auto. destruct (last H); [done|]. rewrite decide_True by auto. done.
    - case_bool_decide as H2.
      + rewrite decide_True by auto. destruct (last H); [done|]. rewrite decide_True by auto. done.
      + rewrite decide_False by tauto. case_bool_decide as H3.
        * rewrite decide_True by done. destruct H; cbn; [|done]. rewrite decide_True by auto. done.
        * rewrite decide_False by done. rewrite decide_False by tauto. done. }
  case_bool_decide as HH.
  { subst H. unfold single, nth_newest, with_id, keyword. cbn. split; [done|].
    repeat (case_match; try done). }
  unfold single. rewrite Hid, Hk. unfold find_by_number, nth_newest.
  destruct (py_int w) as [n|] eqn:Hn.
  - destruct (n <? 0)%Z eqn:Hneg.
    { destruct (decide (n < 0)%Z); [|lia]. cbn. done. }
    destruct (decide (n < 0)%Z); [lia|]. destruct (n <? zlen H)%Z eqn:Hlt.
    + destruct (decide (0 <= n < zlen H)%Z); [|lia].
      assert (Hl : reverse H !! Z.to_nat n = H !! Z.to_nat (zlen H - n - 1)).
      { rewrite reverse_lookup by (unfold zlen in *; lia). f_equal. unfold zlen in *. lia. }
      rewrite Hl. destruct (H !! _) as [x|] eqn:Hx.
      * cbn. split; congruence.
      * exfalso. apply lookup_ge_None in Hx. unfold zlen in *. lia.
    + destruct (decide (0 <= n < zlen H)%Z); [lia|]. cbn [or_else].
      destruct (with_id H w) as [x|]; cbn [or_else]; [split; congruence|].
      assert (Hkw : keyword H w = None).
      { unfold keyword. rewrite decide_False, decide_False; [done| |].
        - intros ->. done.
        - intros [->| ->]; done. }
      rewrite Hkw. case_decide; done.
  - cbn [or_else]. destruct (with_id H w) as [x|]; cbn [or_else]; [split; congruence|].
    destruct (keyword H w) as [x|]; cbn [or_else]; [split; congruence|]. case_decide; done.
Qed.

Lemma trust_of_spec s t : trust_of s = Some t <-> s = trust_named t.
Proof.
  unfold trust_of. repeat case_bool_decide; split; intros Hx; try congruence;
    try (injection Hx as <-; done); destruct t; cbn in *; congruence.
Qed.
Lemma eval_word_spec w l : w <> "" -> strip w = w ->
  eval_word H w = Ok l <-> selects H w l.
Proof.
  intros Hw Hs. unfold eval_word, selects.
  destruct (starts "server:" w) eqn:H1.
  { apply starts_spec in H1 as [x ->]. rewrite remove_prefix_app.
    assert (He : filter (fun r => x = r_server r) H = filter (fun r => r_server r = x) H)
      by (apply filter_ext_in; intros; split; done).
    rewrite He. split.
    - intros [= <-]. left. eauto.
    - intros [(y & Hy & ->)|[(y & Hy & _)|[(y & t & Hy & _)|[[Hy _]|[[Hy _]|[[Hy _]|[[Hy _]|[Hy _]]]]]]]].
      + injection Hy as ->. done.
      + discriminate Hy.
      + discriminate Hy.
      + discriminate Hy.
      + discriminate Hy.
      + discriminate Hy.
      + discriminate Hy.
      + destruct (Hy x) as [Hn _]. done. }
  destruct (starts "tag:" w) eqn:H2.
  { apply starts_spec in H2 as [x ->]. rewrite remove_prefix_app. split.
    - intros [= <-]. right; left. eauto.
    - intros [(y & Hy & ->)|[(y & Hy & ->)|[(y & t & Hy & _)|[[Hy _]|[[Hy _]|[[Hy _]|[[Hy _]|[Hy _]]]]]]]].
      + discriminate Hy.
      + injection Hy as ->. done.
      + discriminate Hy.
      + discriminate Hy.
      + discriminate Hy.
      + discriminate Hy.
      + discriminate Hy.
      + destruct (Hy x) as (_ & Hn & _). done. }
  destruct (starts "trust:" w) eqn:H3.
  { apply starts_spec in H3 as [x ->]. rewrite remove_prefix_app. split.
    - destruct (trust_of (lower x)) as [t|] eqn:Ht; [|done]. intros [= <-]. right; right; left.
      exists x, t. split; [done|]. split; [apply trust_of_spec; done|].
      apply filter_ext_in. intros; split; done.
    - intros [(y & Hy & ->)|[(y & Hy & ->)|[(y & t & Hy & Ht & ->)|[[Hy _]|[[Hy _]|[[Hy _]|[[Hy _]|[Hy _]]]]]]]].
      + discriminate Hy.
      + discriminate Hy.
      + injection Hy as ->. apply trust_of_spec in Ht. rewrite Ht. f_equal.
        apply filter_ext_in. intros; split; done.
      + discriminate Hy.
      + discriminate Hy.
      + discriminate Hy.
      + discriminate Hy.
      + destruct (Hy x) as (_ & _ & Hn). done. }
  assert (Hno : forall x, w <> ("server:" ++ x)%string /\ w <> ("tag:" ++ x)%string /\ w <> ("trust:" ++ x)%string).
  { intros x. split; [|split]; intros ->; rewrite starts_app in *; done. }
  assert (Hclean : get_history true false H = filter (fun r => is_Some (s_duration (r_stats r))) H).
  { unfold get_history. apply filter_ext_in. intros r _. unfold is_clean. cbn [negb orb].
    destruct (s_duration (r_stats r)); cbn; split; intros Hx; eauto; try done; destruct Hx; done. }
  assert (Hloc : filter (fun r => "" = r_server r) H = filter (fun r => r_server r = "") H).
  { apply filter_ext_in. intros; split; done. }
  assert (Hrem : filter (fun r => r ∉ filter (fun r => "" = r_server r) H) H = filter (fun r => r_server r <> "") H).
  { apply filter_ext_in. intros r Hr. rewrite elem_of_list_filter. split; [intros Hn He|intros Hn [He _]].
    - apply Hn. done.
    - done. }
  case_bool_decide as K1.
  { split; [intros [= <-]; do 3 right; left; done|]. subst w.
    intros [(y & Hy & _)|[(y & Hy & _)|[(y & t & Hy & _)|[[_ ->]|[[Hy _]|[[Hy _]|[[Hy _]|[_ [Hy _]]]]]]]]]; done. }
  case_bool_decide as K2.
  { rewrite Hclean. split; [intros [= <-]; do 4 right; left; done|]. subst w.
    intros [(y & Hy & _)|[(y & Hy & _)|[(y & t & Hy & _)|[[Hy _]|[[_ ->]|[[Hy _]|[[Hy _]|[_ [_ [Hy _]]]]]]]]]]; done. }
  case_bool_decide as K3.
  { rewrite Hloc. split; [intros [= <-]; do 5 right; left; done|]. subst w.
    intros [(y & Hy & _)|[(y & Hy & _)|[(y & t & Hy & _)|[[Hy _]|[[Hy _]|[[_ ->]|[[Hy _]|[_ [_ [_ [Hy _]]]]]]]]]]]; done. }
  case_bool_decide as K4.
  { rewrite Hrem. split; [intros [= <-]; do 6 right; left; done|]. subst w.
    intros [(y & Hy & _)|[(y & Hy & _)|[(y & t & Hy & _)|[[Hy _]|[[Hy _]|[[Hy _]|[[_ ->]|[_ [_ [_ [_ [Hy _]]]]]]]]]]]]; done. }
  split.
  - intros Hx. destruct (find_token H w) as [r|] eqn:Hr; [|done]. cbn in Hx. injection Hx as <-.
    apply find_token_spec in Hr; [|done|done]. do 7 right. split; [done|]. do 4 (split; [done|]). eauto.
  - intros [(y & Hy & _)|[(y & Hy & _)|[(y & t & Hy & _)|[[Hy _]|[[Hy _]|[[Hy _]|[[Hy _]|[_ [_ [_ [_ [_ (r & Hr & ->)]]]]]]]]]]]];
      try done; try (destruct (Hno y) as (? & ? & ?); done).
    apply find_token_spec in Hr; [|done|done]. rewrite Hr. done.
Qed.
End Words.
