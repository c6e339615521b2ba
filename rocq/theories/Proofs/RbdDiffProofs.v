(** Proofs about the rbd diff parser. *)
From Verif Require Export Model.RbdDiff Spec.RbdDiff Proofs.ProgProofs.

(** ** Integers *)
Lemma length_le_bytes k n : length (le_bytes k n) = k.
Proof. revert n. induction k as [|k IH]; intros n; cbn; auto. Qed.
Lemma zlen_le_bytes k n : zlen (le_bytes k n) = Z.of_nat k.
Proof. unfold zlen. rewrite length_le_bytes. done. Qed.
Lemma le_byte n : (0 <= n < 256)%Z ->
  Z.of_N (Byte.to_N (default x00 (Byte.of_N (Z.to_N n)))) = n.
Proof.
  intros Hn. destruct (Byte.of_N (Z.to_N n)) as [b|] eqn:Hb.
  - cbn. apply Byte.to_of_N in Hb. rewrite Hb. lia.
  - apply Byte.of_N_None_iff in Hb. lia.
Qed.
Lemma le_value_bytes k : forall n, (0 <= n < 256 ^ Z.of_nat k)%Z -> le_value (le_bytes k n) = n.
Proof.
  induction k as [|k IH]; intros n Hn.
  { change (256 ^ Z.of_nat 0)%Z with 1%Z in Hn. cbn. lia. }
  cbn [le_bytes le_value].
  rewrite le_byte by (apply Z.mod_pos_bound; lia).
  rewrite IH.
  - pose proof (Z.div_mod n 256 ltac:(lia)). lia.
  - split; [apply Z.div_pos; lia|].
    apply Z.div_lt_upper_bound; [lia|].
    rewrite Nat2Z.inj_succ, Z.pow_succ_r in Hn by lia. lia.
Qed.
Lemma le_value_range b : (0 <= le_value b < 256 ^ zlen b)%Z.
Proof.
  induction b as [|x b IH]; [change (0 <= 0 < 1)%Z; lia|].
  rewrite zlen_cons, Z.pow_add_r by (pose proof (zlen_nonneg b); lia).
  cbn [le_value]. pose proof (Byte.to_N_bounded x).
  change (256 ^ 1)%Z with 256%Z. lia.
Qed.
Lemma le_bytes_value b : le_bytes (length b) (le_value b) = b.
Proof.
  induction b as [|x b IH]; [done|].
  cbn [length le_bytes le_value].
  pose proof (Byte.to_N_bounded x).
  replace ((Z.of_N (Byte.to_N x) + 256 * le_value b) mod 256)%Z with (Z.of_N (Byte.to_N x)).
  2:{ rewrite Z.mul_comm, Z_mod_plus_full, Z.mod_small; lia. }
  replace ((Z.of_N (Byte.to_N x) + 256 * le_value b) / 256)%Z with (le_value b).
  2:{ rewrite Z.mul_comm, Z_div_plus_full, Z.div_small; lia. }
  rewrite IH, N2Z.id, Byte.of_to_N. done.
Qed.

(** ** Cutting streams *)
Lemma ztake_app_l {A} (a b : list A) n : zlen a = n -> ztake n (a ++ b) = a.
Proof. intros <-. unfold ztake, zlen. rewrite Nat2Z.id, take_app. done. Qed.
Lemma zdrop_app_l {A} (a b : list A) n : zlen a = n -> zdrop n (a ++ b) = b.
Proof. intros <-. unfold zdrop, zlen. rewrite Nat2Z.id, drop_app. done. Qed.

Lemma unpack_u_enc k n s : (0 <= n < 256 ^ Z.of_nat k)%Z ->
  unpack_u (Z.of_nat k) (le_bytes k n ++ s) = Ok (n, s).
Proof.
  intros Hn. unfold unpack_u. rewrite ztake_app_l, zdrop_app_l by apply zlen_le_bytes.
  rewrite zlen_le_bytes, Z.eqb_refl, le_value_bytes by done. done.
Qed.
Lemma unpack_u_short k s : (zlen s < k)%Z -> unpack_u k s = Err StructError.
Proof.
  intros H. unfold unpack_u. rewrite ztake_all by lia.
  rewrite (proj2 (Z.eqb_neq _ _)) by lia. done.
Qed.
Lemma unpack_u_ok k s v s' : (0 <= k)%Z -> unpack_u k s = Ok (v, s') ->
  s = le_bytes (Z.to_nat k) v ++ s' /\ (0 <= v < 256 ^ k)%Z.
Proof.
  intros Hk. unfold unpack_u. destruct (Z.eqb_spec (zlen (ztake k s)) k) as [He|]; [|done].
  intros Heq. injection Heq as <- <-.
  assert (length (ztake k s) = Z.to_nat k) as Hl by (unfold zlen in He; lia).
  rewrite <- Hl, le_bytes_value, ztake_zdrop. split; [done|].
  pose proof (le_value_range (ztake k s)) as H. rewrite He in H. done.
Qed.
Lemma unpack_uu_enc o l s : (0 <= o < 2 ^ 64)%Z -> (0 <= l < 2 ^ 64)%Z ->
  unpack_uu (le_bytes 8 o ++ le_bytes 8 l ++ s) = Ok (o, l, s).
Proof.
  intros Ho Hl. unfold unpack_uu.
  rewrite (app_assoc (le_bytes 8 o)).
  rewrite (ztake_app_l (le_bytes 8 o ++ le_bytes 8 l)),
    (zdrop_app_l (le_bytes 8 o ++ le_bytes 8 l))
    by (rewrite zlen_app, !zlen_le_bytes; done).
  rewrite zlen_app, !zlen_le_bytes. change (_ =? _)%Z with true. cbn beta iota.
  rewrite ztake_app_l, zdrop_app_l by apply zlen_le_bytes.
  rewrite !le_value_bytes by done. done.
Qed.
Lemma unpack_uu_short s : (zlen s < 16)%Z -> unpack_uu s = Err StructError.
Proof.
  intros H. unfold unpack_uu. rewrite ztake_all by lia.
  rewrite (proj2 (Z.eqb_neq _ _)) by lia. done.
Qed.
Lemma unpack_uu_ok s o l s' : unpack_uu s = Ok (o, l, s') ->
  s = le_bytes 8 o ++ le_bytes 8 l ++ s' /\ (0 <= o < 2 ^ 64)%Z /\ (0 <= l < 2 ^ 64)%Z.
Proof.
  unfold unpack_uu. destruct (Z.eqb_spec (zlen (ztake 16 s)) 16) as [He|]; [|done].
  intros Heq. injection Heq as <- <- <-.
  assert (H8 : zlen (ztake 8 (ztake 16 s)) = 8%Z) by (rewrite zlen_ztake; lia).
  assert (H8' : zlen (zdrop 8 (ztake 16 s)) = 8%Z) by (rewrite zlen_zdrop; lia).
  assert (L1 : length (ztake 8 (ztake 16 s)) = 8) by (unfold zlen in H8; lia).
  assert (L2 : length (zdrop 8 (ztake 16 s)) = 8) by (unfold zlen in H8'; lia).
  pose proof (le_value_range (ztake 8 (ztake 16 s))) as R1. rewrite H8 in R1.
  pose proof (le_value_range (zdrop 8 (ztake 16 s))) as R2. rewrite H8' in R2.
  split_and!; try done; try lia.
  rewrite <- L1 at 1. rewrite le_bytes_value.
  rewrite <- L2 at 1. rewrite le_bytes_value.
  rewrite app_assoc, ztake_zdrop, ztake_zdrop. done.
Qed.

Lemma is_ascii_iff b : is_ascii b = true <-> Forall (fun x => (Byte.to_N x < 128)%N) b.
Proof.
  unfold is_ascii. rewrite forallb_forall, List.Forall_forall.
  setoid_rewrite N.ltb_lt. done.
Qed.

Lemma read_fbytes_enc n s : ascii_name n ->
  read_fbytes (le_bytes 4 (zlen n) ++ n ++ s) = Ok (n, s).
Proof.
  intros [Ha Hl]. pose proof (zlen_nonneg n). unfold read_fbytes, unpack_i32.
  pose proof (unpack_u_enc 4 (zlen n) (n ++ s) ltac:(lia)) as Hu.
  change (Z.of_nat 4) with 4%Z in Hu. rewrite Hu.
  rewrite (proj2 (Z.ltb_lt _ _)) by lia. cbn [res_bind].
  unfold sread. rewrite (proj2 (Z.eqb_neq _ _)), (proj2 (Z.ltb_ge _ _)) by lia.
  cbn [res_bind]. rewrite ztake_app_l, zdrop_app_l by done.
  rewrite (proj2 (is_ascii_iff n)) by done. done.
Qed.

(** Reading one complete record. *)
Lemma read_meta_enc m s : meta_ok m ->
  read_record Metadata (enc_meta m ++ s) =
    Ok (Metadata, s, Some (match m with MFrom n => FromSnap n | MTo n => ToSnap n
                           | MSize n => SnapSize n end)).
Proof.
  destruct m; cbn -[le_bytes]; intros H; rewrite <- ?app_assoc.
  - rewrite read_fbytes_enc by done. done.
  - rewrite read_fbytes_enc by done. done.
  - pose proof (unpack_u_enc 8 n s H) as Hu.
    change (Z.of_nat 8) with 8%Z in Hu. rewrite Hu. done.
Qed.
Lemma read_data_enc ph r s : data_ok r -> ph <> End ->
  read_record ph (enc_data r ++ s) =
    Ok (DataPhase, match r with DData _ d => d ++ s | _ => s end,
        Some (match r with DZero o l => Zero o l | DData o d => Data o (zlen d) end)).
Proof.
  destruct r as [o l|o d]; cbn -[le_bytes unpack_uu zlen]; intros [H1 H2] Hph;
    rewrite <- ?app_assoc.
  - destruct ph; [| |done]; cbn -[le_bytes unpack_uu zlen]; rewrite unpack_uu_enc by lia; done.
  - pose proof (zlen_nonneg d).
    destruct ph; [| |done]; cbn -[le_bytes unpack_uu zlen]; rewrite unpack_uu_enc by lia; done.
Qed.
Lemma read_end ph s : ph <> End -> read_record ph (x65 :: s) = Ok (End, s, None).
Proof. destruct ph; done. Qed.

(** ** Running on a plain file *)
Definition fl (c : bytes) (p : Z) (r : bool) : flat := MkFlat c p r true false.

Lemma zeros_nil n : (n <= 0)%Z -> zeros n = [].
Proof. intros H. unfold zeros. replace (Z.to_nat n) with 0 by lia. done. Qed.

Lemma flat_seek c p r o : (0 <= o)%Z ->
  flat_step (fl c p r) (OSeek o FromStart) =
    (fl (c ++ zeros (o - zlen c)) o r, Ok (UPos o)).
Proof.
  intros Ho. unfold flat_step, fl. cbn zeta iota beta.
  rewrite (proj2 (Z.ltb_ge _ _)) by lia.
  destruct (Z.leb_spec o (zlen c)); [|done].
  rewrite zeros_nil, app_nil_r by lia. done.
Qed.
Lemma run_flat_bind {A B} (p : prog A) (k : A -> prog B) s :
  run_flat (pbind p k) s =
    match run_flat p s with (s', Ok a) => run_flat (k a) s' | (s', Err e) => (s', Err e) end.
Proof. unfold run_flat. rewrite interp_bind. done. Qed.
Lemma run_flat_do o s :
  run_flat (do_op o) s =
    match flat_step s o with (s', Ok _) => (s', Ok tt) | (s', Err e) => (s', Err e) end.
Proof. unfold run_flat, do_op. cbn. unfold bind. destruct (flat_step s o) as [s' [x|e]]; done. Qed.
Lemma run_flat_ret {A} (a : A) s : run_flat (PRet a) s = (s, Ok a).
Proof. done. Qed.
Lemma run_flat_raise {A} e s : run_flat (@PRaise A e) s = (s, Err e).
Proof. done. Qed.
Lemma flat_write c p r d :
  flat_step (fl c p r) (OWrite d) = (fl (overwrite c p d) (p + zlen d) r, Ok UNone).
Proof. done. Qed.
Lemma run_flat_tell c p r : run_flat p_tell (fl c p r) = (fl c p r, Ok p).
Proof. done. Qed.

Section Piece.
Context (piece : Z) (Hpiece : (0 < piece)%Z).

Lemma stream_flat : forall fuel d rest c p r,
  (zlen d <= Z.of_nat fuel)%Z -> (0 <= p <= zlen c)%Z ->
  run_flat (stream_loop piece fuel (zlen d) (d ++ rest)) (fl c p r)
  = (fl (overwrite c p d) (p + zlen d) r, Ok rest).
Proof.
  induction fuel as [|fuel IH]; intros d rest c p r Hf Hp; cbn [stream_loop].
  - pose proof (zlen_nonneg d). rewrite (proj2 (Z.eqb_eq _ _)) by lia.
    assert (d = []) as -> by (destruct d; [done|rewrite zlen_cons in *; pose proof (zlen_nonneg d); lia]).
    rewrite overwrite_nil, zlen_nil, Z.add_0_r by done. done.
  - destruct (Z.eqb_spec (zlen d) 0) as [H0|H0].
    { assert (d = []) as -> by (destruct d; [done|rewrite zlen_cons in *; pose proof (zlen_nonneg d); lia]).
      rewrite overwrite_nil, zlen_nil, Z.add_0_r by done. done. }
    pose proof (zlen_nonneg d). cbn zeta.
    set (n := Z.min piece (zlen d)).
    rewrite run_flat_bind, run_flat_do.
    replace (ztake n (d ++ rest)) with (ztake n d).
    2:{ unfold ztake. rewrite take_app_le; [done|]. unfold zlen in *. lia. }
    replace (zdrop n (d ++ rest)) with (zdrop n d ++ rest).
    2:{ unfold zdrop. rewrite drop_app_le; [done|]. unfold zlen in *. lia. }
    rewrite flat_write.
    replace (zlen d - n)%Z with (zlen (zdrop n d)) by (rewrite zlen_zdrop; lia).
    assert (Hn : zlen (ztake n d) = n) by (rewrite zlen_ztake; lia).
    rewrite IH.
    + rewrite Hn. f_equal. f_equal.
      * rewrite <- Hn at 2. rewrite overwrite_app by lia. rewrite ztake_zdrop. done.
      * rewrite zlen_zdrop. lia.
    + rewrite zlen_zdrop. lia.
    + rewrite Hn, zlen_overwrite; lia.
Qed.

Lemma punch_flat c p r o l : (0 < l)%Z -> (0 <= o <= zlen c)%Z -> (0 <= p <= zlen c)%Z ->
  run_flat (punch_hole o l) (fl c p r) = (fl (overwrite c o (zeros l)) p r, Ok tt).
Proof.
  intros Hl Ho Hp. unfold punch_hole. rewrite (proj2 (Z.leb_gt _ _)) by lia.
  rewrite run_flat_bind, run_flat_tell, run_flat_bind, run_flat_do, flat_seek by lia.
  rewrite (zeros_nil (o - zlen c)), app_nil_r by lia.
  rewrite run_flat_bind, run_flat_do, flat_write, run_flat_do, flat_seek by lia.
  rewrite (zeros_nil (p - _)), app_nil_r; [done|]. rewrite zlen_overwrite by lia. lia.
Qed.

(** Reading the next record and carrying on with it. *)
Definition data_from (fuel : nat) (ph : phase) (s : bytes) (n : Z) : prog Z :=
  match read_record ph s with
  | Err e => PRaise e
  | Ok (ph, s, r) => data_loop piece fuel ph s r n
  end.

Definition rec_len (r : data_rec) : Z :=
  match r with DZero _ l => l | DData _ d => zlen d end.
Definition total (ds : list data_rec) : Z := fold_right (fun r n => rec_len r + n)%Z 0%Z ds.

Lemma zlen_pad (c : bytes) o : (0 <= o)%Z -> zlen (c ++ zeros (o - zlen c)) = Z.max o (zlen c).
Proof. intros. rewrite zlen_app, zlen_zeros. pose proof (zlen_nonneg c). lia. Qed.

Lemma data_flat tl : forall ds fuel ph n c p r,
  Forall data_ok ds -> ph <> End -> length ds < fuel ->
  exists p', run_flat (data_from fuel ph (concat (map enc_data ds) ++ x65 :: tl) n) (fl c p r)
  = (fl (fold_left (fun c r => apply_data r c) ds c) p' r, Ok (n + total ds)%Z).
Proof.
  induction ds as [|d ds IH]; intros fuel ph n c p r Hok Hph Hf.
  - unfold data_from. cbn [map concat app]. rewrite read_end by done.
    exists p. destruct fuel; cbn [data_loop]; rewrite run_flat_ret; cbn;
      rewrite Z.add_0_r; done.
  - apply Forall_cons in Hok as [Hd Hok].
    unfold data_from. cbn [map concat]. rewrite <- app_assoc.
    rewrite read_data_enc by done.
    destruct fuel as [|fuel]; [cbn in Hf; lia|].
    cbn [data_loop length] in *. rewrite run_flat_bind.
    assert (Hlt : length ds < fuel) by lia.
    destruct d as [o l|o d]; cbn [data_ok] in Hd; cbn [fold_left apply_data total fold_right rec_len].
    + rewrite run_flat_bind, run_flat_do, flat_seek by lia.
      rewrite run_flat_bind, run_flat_tell, run_flat_bind.
      rewrite punch_flat by (rewrite ?zlen_pad; lia).
      rewrite run_flat_ret.
      destruct (IH fuel DataPhase (n + l)%Z (patch o (zeros l) c) o r Hok ltac:(done) Hlt)
        as (p' & Hp').
      exists p'. unfold data_from in Hp'. unfold patch in *. rewrite Hp'.
      change (fold_right _ 0%Z ds) with (total ds). f_equal. f_equal. lia.
    + rewrite run_flat_bind, run_flat_do, flat_seek by lia.
      rewrite run_flat_bind.
      rewrite stream_flat by (rewrite ?zlen_pad; pose proof (zlen_nonneg d); lia).
      rewrite run_flat_ret.
      destruct (IH fuel DataPhase (n + zlen d)%Z (patch o d c) (o + zlen d)%Z r Hok ltac:(done) Hlt)
        as (p' & Hp').
      exists p'. unfold data_from in Hp'. unfold patch in *. rewrite Hp'.
      change (fold_right _ 0%Z ds) with (total ds). f_equal. f_equal. lia.
Qed.

Lemma meta_step_flat m c p r s fuel sf st :
  meta_ok m -> names_ok sf st m ->
  exists p',
  run_flat (meta_loop (S fuel) sf st (enc_meta m ++ s)) (fl c p r)
  = run_flat (meta_loop fuel sf st s) (fl (apply_meta m c) p' r).
Proof.
  intros Hm Hn. cbn [meta_loop]. rewrite read_meta_enc by done.
  rewrite run_flat_bind. destruct m as [x|x|x]; cbn [names_ok] in Hn; subst.
  - exists p. unfold passert. rewrite bool_decide_true by done. rewrite run_flat_ret. done.
  - exists p. unfold passert. rewrite bool_decide_true by done. rewrite run_flat_ret. done.
  - exists x. cbn in Hm.
    rewrite run_flat_bind, run_flat_do, flat_seek, run_flat_do by lia. done.
Qed.

Lemma meta_data_from fuel1 fuel2 sf st s ph :
  ph = Metadata ->
  (forall s' r, read_record ph s <> Ok (Metadata, s', r)) ->
  forall st0,
  run_flat (pbind (meta_loop (S fuel1) sf st s)
     (fun '(ph, s', r) => data_loop piece fuel2 ph s' r 0)) st0
  = run_flat (data_from fuel2 ph s 0) st0.
Proof.
  intros -> Hne st0. cbn [meta_loop]. unfold data_from.
  destruct (read_record Metadata s) as [[[ph s'] r]|e] eqn:Hr; [|done].
  destruct ph; [|done..]. exfalso. eapply Hne. done.
Qed.

Lemma read_data_not_meta tl ds s' r :
  Forall data_ok ds ->
  read_record Metadata (concat (map enc_data ds) ++ x65 :: tl) <> Ok (Metadata, s', r).
Proof.
  destruct ds as [|d ds]; intros Hok.
  - cbn. done.
  - apply Forall_cons in Hok as [Hd _]. cbn [map concat]. rewrite <- app_assoc.
    rewrite read_data_enc by done. done.
Qed.

Lemma enc_data_len r : 17 <= length (enc_data r).
Proof. destruct r; cbn -[le_bytes]; rewrite !app_length, !length_le_bytes; lia. Qed.
Lemma enc_meta_len r : 5 <= length (enc_meta r).
Proof. destruct r; cbn -[le_bytes]; rewrite ?app_length, !length_le_bytes; lia. Qed.
Lemma concat_len {A} (f : A -> bytes) l : (forall a, 1 <= length (f a)) ->
  length l <= length (concat (map f l)).
Proof.
  intros H. induction l as [|a l IH]; cbn; [lia|]. rewrite app_length. specialize (H a). lia.
Qed.

Lemma loops_flat tl ms ds sf st r fuel2 : 
  Forall meta_ok ms -> Forall (names_ok sf st) ms -> Forall data_ok ds ->
  length ds < fuel2 -> forall fuel1 c p, length ms + 1 <= fuel1 ->
  exists p', run_flat
     (pbind (meta_loop fuel1 sf st (concat (map enc_meta ms) ++ concat (map enc_data ds) ++ x65 :: tl))
       (fun '(ph, s', r) => data_loop piece fuel2 ph s' r 0)) (fl c p r)
    = (fl (apply_diff ms ds c) p' r, Ok (total ds)).
Proof.
  intros Hms Hn Hds Hf2. unfold apply_diff.
  induction Hms as [|m ms Hm Hms IH]; intros fuel1 c p Hf1; cbn [length] in Hf1.
  - destruct fuel1 as [|fuel1]; [lia|]. cbn [map concat app].
    rewrite (meta_data_from _ _ _ _ _ Metadata); [|done|intros; apply read_data_not_meta; done].
    apply data_flat; done.
  - apply Forall_cons in Hn as [Hn1 Hn].
    destruct fuel1 as [|fuel1]; [lia|]. cbn [map concat]. rewrite <- app_assoc.
    destruct (meta_step_flat m c p r (concat (map enc_meta ms) ++ concat (map enc_data ds) ++ x65 :: tl)
       fuel1 sf st Hm Hn1) as (p' & Hp').
    rewrite run_flat_bind, Hp'. cbn [fold_left].
    destruct (IH Hn fuel1 (apply_meta m c) p' ltac:(lia)) as (p'' & Hp'').
    rewrite run_flat_bind in Hp''. exists p''. exact Hp''.
Qed.

(** C09 on a plain file. *)
Lemma integrate_flat tl ms ds sf st c p r :
  Forall meta_ok ms -> Forall (names_ok sf st) ms -> Forall data_ok ds ->
  exists p', run_flat (integrate piece sf st (enc_diff ms ds ++ tl)) (fl c p r)
    = (fl (apply_diff ms ds c) p' r, Ok (total ds)).
Proof.
  intros Hms Hn Hds. unfold integrate, enc_diff. rewrite <- !app_assoc. cbn [app].
  change (x72 :: _) with (enc_magic ++ concat (map enc_meta ms) ++ concat (map enc_data ds) ++ x65 :: tl).
  rewrite (ztake_app_l enc_magic), (zdrop_app_l enc_magic) by done.
  rewrite bool_decide_true by done. cbn zeta.
  pose proof (concat_len enc_meta ms ltac:(intros; pose proof (enc_meta_len a); lia)).
  pose proof (concat_len enc_data ds ltac:(intros; pose proof (enc_data_len a); lia)).
  apply loops_flat; try done; rewrite !app_length; cbn [length]; lia.
Qed.
End Piece.
