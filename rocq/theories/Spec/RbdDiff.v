(** Specification of rbd diff v1 streams: their encoding, and what a diff means
    for the bytes of an image.  Nothing here refers to the parser. *)
From Verif Require Export Model.Base Spec.FlatFile.

Inductive meta_rec := MFrom (n : bytes) | MTo (n : bytes) | MSize (n : Z).
Inductive data_rec := DZero (off len : Z) | DData (off : Z) (d : bytes).

(** Little-endian encoding of n in k bytes. *)
Fixpoint le_bytes (k : nat) (n : Z) : bytes :=
  match k with
  | O => []
  | S k => default x00 (Byte.of_N (Z.to_N (n mod 256))) :: le_bytes k (n / 256)
  end%Z.

Definition enc_meta (m : meta_rec) : bytes :=
  match m with
  | MFrom n => [x66] ++ le_bytes 4 (zlen n) ++ n
  | MTo n => [x74] ++ le_bytes 4 (zlen n) ++ n
  | MSize n => [x73] ++ le_bytes 8 n
  end.
Definition enc_data (r : data_rec) : bytes :=
  match r with
  | DZero o l => [x7a] ++ le_bytes 8 o ++ le_bytes 8 l
  | DData o d => [x77] ++ le_bytes 8 o ++ le_bytes 8 (zlen d) ++ d
  end.
Definition enc_magic : bytes :=   (* "rbd diff v1\n" *)
  [x72; x62; x64; x20; x64; x69; x66; x66; x20; x76; x31; x0a].
Definition enc_diff (ms : list meta_rec) (ds : list data_rec) : bytes :=
  enc_magic ++ concat (map enc_meta ms) ++ concat (map enc_data ds) ++ [x65].

(** Well-formed records: fields fit their encoding, names are ascii, zero
    records are not empty. *)
Definition ascii_name (n : bytes) : Prop :=
  Forall (fun x => (Byte.to_N x < 128)%N) n /\ (zlen n < 2 ^ 31)%Z.
Definition meta_ok (m : meta_rec) : Prop :=
  match m with
  | MFrom n | MTo n => ascii_name n
  | MSize n => (0 <= n < 2 ^ 64)%Z
  end.
Definition data_ok (r : data_rec) : Prop :=
  match r with
  | DZero o l => (0 <= o < 2 ^ 64)%Z /\ (0 < l < 2 ^ 64)%Z
  | DData o d => (0 <= o < 2 ^ 64)%Z /\ (zlen d < 2 ^ 64)%Z
  end.

(** Cut or zero-fill to length n. *)
Definition fit (n : Z) (c : bytes) : bytes := ztake n (c ++ zeros (n - zlen c)).
(** Overwrite at an offset; a gap is zero-filled. *)
Definition patch (off : Z) (d : bytes) (c : bytes) : bytes :=
  overwrite (c ++ zeros (off - zlen c)) off d.
Definition apply_meta (m : meta_rec) (c : bytes) : bytes :=
  match m with MSize n => fit n c | _ => c end.
Definition apply_data (r : data_rec) (c : bytes) : bytes :=
  match r with
  | DZero o l => patch o (zeros l) c
  | DData o d => patch o d c
  end.
Definition apply_diff (ms : list meta_rec) (ds : list data_rec) (c : bytes) : bytes :=
  fold_left (fun c r => apply_data r c) ds
    (fold_left (fun c m => apply_meta m c) ms c).

(** The metadata names only the expected snapshots. *)
Definition names_ok (sfrom sto : bytes) (m : meta_rec) : Prop :=
  match m with MFrom n => n = sfrom | MTo n => n = sto | MSize _ => True end.

(** What [rbd export-diff] promises: the data records describe how to get from
    image [a] to image [b].  Each record lies inside [b] and agrees with [b];
    a byte of [b] covered by no record is the one of [a] (zero past its end). *)
Definition covers (r : data_rec) (i : Z) : Prop :=
  match r with
  | DZero o l => o <= i < o + l
  | DData o d => o <= i < o + zlen d
  end%Z.
Definition rec_bytes (r : data_rec) : Z * bytes :=
  match r with DZero o l => (o, zeros l) | DData o d => (o, d) end.
Definition agrees (r : data_rec) (b : bytes) : Prop :=
  let '(o, d) := rec_bytes r in
  (0 <= o /\ o + zlen d <= zlen b)%Z /\ ztake (zlen d) (zdrop o b) = d.
Definition describes (ds : list data_rec) (a b : bytes) : Prop :=
  Forall (fun r => agrees r b) ds /\
  forall i x, b !! i = Some x ->
    (forall r, r ∈ ds -> ~ covers r (Z.of_nat i)) ->
    (a ++ zeros (zlen b - zlen a)) !! i = Some x.

(** Bytes the data records carry. *)
Definition payload (ds : list data_rec) : Z :=
  fold_right (fun r n => zlen (rec_bytes r).2 + n)%Z 0%Z ds.
