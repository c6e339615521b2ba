(** rbd/rbd.py: the parser for "rbd diff v1" streams and its integration into
    an image. *)
From Verif Require Export Model.Prog.

(** [f.read(n)] on the buffered pipe of [rbd export-diff]: fewer than n bytes
    only at the end; -1 reads everything; other negative numbers are refused. *)
Definition sread (n : Z) (s : bytes) : res (bytes * bytes) :=
  if (n =? -1)%Z then Ok (s, [])
  else if (n <? 0)%Z then Err ValueError
  else Ok (ztake n s, zdrop n s).

(** struct's little-endian unsigned integers. *)
Fixpoint le_value (b : bytes) : Z :=
  match b with
  | [] => 0
  | x :: b => Z.of_N (Byte.to_N x) + 256 * le_value b
  end%Z.
(** rbd.py:182-185 [unpack_from] for one unsigned field of [n] bytes ("<Q":
    8) and for the signed "<i". *)
Definition unpack_u (n : Z) (s : bytes) : res (Z * bytes) :=
  let b := ztake n s in
  if (zlen b =? n)%Z then Ok (le_value b, zdrop n s) else Err StructError.
Definition unpack_i32 (s : bytes) : res (Z * bytes) :=
  match unpack_u 4 s with
  | Ok (v, s') => Ok ((if (v <? 2 ^ 31)%Z then v else v - 2 ^ 32)%Z, s')
  | Err e => Err e
  end.
(** "<QQ" (rbd.py:264, 282): one read of 16 bytes. *)
Definition unpack_uu (s : bytes) : res (Z * Z * bytes) :=
  let b := ztake 16 s in
  if (zlen b =? 16)%Z
  then Ok (le_value (ztake 8 b), le_value (zdrop 8 b), zdrop 16 s)
  else Err StructError.

(** rbd.py:188-192.  [Data] keeps no stream object: the data follows in the
    input. *)
Inductive record_ :=
| FromSnap (n : bytes) | ToSnap (n : bytes) | SnapSize (n : Z)
| Zero (start len : Z) | Data (start len : Z).
(** rbd.py:197 [phase]. *)
Inductive phase := Metadata | DataPhase | End.

(** [bytes.decode("ascii")]: bytes >= 128 raise UnicodeDecodeError, a
    ValueError.  A decoded ascii string is represented by its bytes. *)
Definition is_ascii (b : bytes) : bool :=
  forallb (fun x => (Byte.to_N x <? 128)%N) b.

(** rbd.py:234-239 [read_fbytes("ascii")]. *)
Definition read_fbytes (s : bytes) : res (bytes * bytes) :=
  res_bind (unpack_i32 s) (fun '(n, s) =>
  res_bind (sread n s) (fun '(d, s) =>
  if is_ascii d then Ok (d, s) else Err ValueError)).

(** rbd.py:219-232 [read_record] with read_f .. read_z (241-283).  Result: the
    new phase, the rest of the stream and the record (None for the end).
    [self._streaming] is not modelled: [integrate] consumes each data stream
    before it asks for the next record. *)
Definition read_record (ph : phase) (s : bytes)
  : res (phase * bytes * option record_) :=
  match ph with
  | End => Ok (End, s, None)
  | _ =>
      match s with
      | [] => Err ValueError                  (* record type "" is invalid *)
      | t :: s =>
          if Byte.eqb t x66 (* f *) then
            match ph with
            | Metadata => res_bind (read_fbytes s) (fun '(d, s) =>
                Ok (ph, s, Some (FromSnap d)))
            | _ => Err AssertionError
            end
          else if Byte.eqb t x74 (* t *) then
            match ph with
            | Metadata => res_bind (read_fbytes s) (fun '(d, s) =>
                Ok (ph, s, Some (ToSnap d)))
            | _ => Err AssertionError
            end
          else if Byte.eqb t x73 (* s *) then
            match ph with
            | Metadata => res_bind (unpack_u 8 s) (fun '(n, s) =>
                Ok (ph, s, Some (SnapSize n)))
            | _ => Err AssertionError
            end
          else if Byte.eqb t x77 (* w *) then
            res_bind (unpack_uu s) (fun '(o, l, s) =>
              Ok (DataPhase, s, Some (Data o l)))
          else if Byte.eqb t x7a (* z *) then
            res_bind (unpack_uu s) (fun '(o, l, s) =>
              Ok (DataPhase, s, Some (Zero o l)))
          else if Byte.eqb t x65 (* e *) then Ok (End, s, None)
          else Err ValueError
      end
  end.

(** utils.py:639-649 [punch_hole] on a chunked file: [fallocate] fails with an
    OSError (length <= 0, utils.py:623; or no file descriptor, file.py:99-102),
    then [_fake_fallocate] (utils.py:599-607) runs, which refuses lengths <= 0
    again. *)
Definition punch_hole (offset len : Z) : prog unit :=
  (if (len <=? 0)%Z then PRaise OSError
   else
     let^ old := p_tell in
     do^ do_op (OSeek offset FromStart);
     do^ do_op (OWrite (zeros len));
     do_op (OSeek old FromStart))%P.

Section Integrate.
(** The 4 MiB pieces of rbd.py:269. *)
Context (piece : Z).

(** rbd.py:266-273 with 319-320: the data of one record is read piece by piece
    and written; a short read just writes less.  Returns the rest. *)
Fixpoint stream_loop (fuel : nat) (remaining : Z) (s : bytes) : prog bytes :=
  if (remaining =? 0)%Z then PRet s
  else
    match fuel with
    | O => PRaise OutOfFuel
    | S fuel =>
        let n := Z.min piece remaining in
        (do^ do_op (OWrite (ztake n s));
         stream_loop fuel (remaining - n)%Z (zdrop n s))%P
    end.

(** rbd.py:307-314: the metadata records. Returns the first record after them. *)
Fixpoint meta_loop (fuel : nat) (sfrom sto : bytes) (s : bytes)
  : prog (phase * bytes * option record_) :=
  match fuel with
  | O => PRaise OutOfFuel
  | S fuel =>
      match read_record Metadata s with
      | Err e => PRaise e
      | Ok (Metadata, s, r) =>
          (do^ (match r with
                | Some (SnapSize n) =>
                    do^ do_op (OSeek n FromStart); do_op OTruncate
                | Some (FromSnap x) => passert (bool_decide (x = sfrom))
                | Some (ToSnap x) => passert (bool_decide (x = sto))
                | _ => PRet tt
                end);
           meta_loop fuel sfrom sto s)%P
      | Ok (ph, s, r) => PRet (ph, s, r)
      end
  end.

(** rbd.py:316-323: the data records.  [n] counts the bytes. *)
Fixpoint data_loop (fuel : nat) (ph : phase) (s : bytes) (r : option record_)
    (n : Z) : prog Z :=
  match r with
  | None => PRet n
  | Some r =>
      match fuel with
      | O => PRaise OutOfFuel
      | S fuel =>
          (let^ (s, len) :=
             (match r with
              | Zero o len =>
                  do^ do_op (OSeek o FromStart);
                  let^ p := p_tell in
                  do^ punch_hole p len;
                  PRet (s, len)
              | Data o len =>
                  do^ do_op (OSeek o FromStart);
                  let^ s := stream_loop (Z.to_nat len) len s in
                  PRet (s, len)
              | _ => PRaise AttributeError    (* no [start] *)
              end) in
           match read_record ph s with
           | Err e => PRaise e
           | Ok (ph, s, r) => data_loop fuel ph s r (n + len)%Z
           end)%P
      end
  end.

(** rbd.py:206, 213-217 [__init__]/[read_header] and 303-326 [integrate]. *)
Definition diff_header : bytes :=
  [x72; x62; x64; x20; x64; x69; x66; x66; x20; x76; x31; x0a].
Definition integrate (sfrom sto : bytes) (s : bytes) : prog Z :=
  if bool_decide (ztake 12 s = diff_header) then
    let s := zdrop 12 s in
    (let^ (ph, s', r) := meta_loop (S (length s)) sfrom sto s in
     data_loop (S (length s)) ph s' r 0)%P
  else PRaise ValueError.
End Integrate.
