(** Upgrading a version-1 chunk store (rbd/chunked/store.py:28-52).

    Version 1 keeps chunks at <d1>/<d2>/<name>, version 2 at <d1>/<name>.  [v1] and
    [v2] hold the files whose names end in ".chunk.lzo"; [v_dirs] the two-letter
    directories <d1>/<d2>; [v_stray] those of them that contain something else. *)
From Verif Require Export Model.Base.

Record vstore := MkV {
  v1 : gmap (string * string * string) bytes;
  v2 : gmap (string * string) bytes;
  v_dirs : gset (string * string);
  v_stray : gset (string * string);
  v_marker : bool }.

(** One file-system operation of the upgrade. *)
Inductive veff :=
| VRename (d1 d2 name : string)     (* store.py:42-46 *)
| VRmdir (d1 d2 : string)           (* store.py:47-49 *)
| VMarker.                          (* store.py:50-51 *)

Definition occupied (s : vstore) (d1 d2 : string) : Prop :=
  (d1, d2) ∈ v_stray s \/ exists n, is_Some (v1 s !! (d1, d2, n)).
Global Instance occupied_dec s d1 d2 : Decision (occupied s d1 d2).
Proof.
  refine (cast_if (decide ((d1, d2) ∈ v_stray s \/
    Exists (fun kv => (kv.1).1 = (d1, d2)) (map_to_list (v1 s))))).
  - abstract (destruct o as [?|H]; [by left|]; right;
      apply Exists_exists in H as ([[[a b] n] c] & Hin & Heq); cbn in Heq;
      injection Heq as -> ->; exists n; exists c; by apply elem_of_map_to_list).
  - abstract (intros [?|[m [c Hc]]]; apply n; [by left|]; right;
      apply Exists_exists; exists (d1, d2, m, c); split; [|done];
      by apply elem_of_map_to_list).
Defined.

Definition vrun1 (s : vstore) (e : veff) : vstore * res unit :=
  match e with
  | VRename d1 d2 n =>
      match v1 s !! (d1, d2, n) with
      | Some c => (MkV (delete (d1, d2, n) (v1 s)) (<[(d1, n) := c]> (v2 s))
                     (v_dirs s) (v_stray s) (v_marker s), Ok tt)
      | None => (s, Err FileNotFound)
      end
  | VRmdir d1 d2 =>
      if decide (occupied s d1 d2) then (s, Err OSError)
      else (MkV (v1 s) (v2 s) (v_dirs s ∖ {[(d1, d2)]}) (v_stray s) (v_marker s), Ok tt)
  | VMarker => (MkV (v1 s) (v2 s) (v_dirs s) (v_stray s) true, Ok tt)
  end.
Fixpoint vrun (s : vstore) (l : list veff) : vstore * res unit :=
  match l with
  | [] => (s, Ok tt)
  | e :: l => match vrun1 s e with
              | (s, Ok _) => vrun s l
              | (s, Err x) => (s, Err x)
              end
  end.

(** The operations of one opening (store.py:28-38 [__init__], 40-52
    [convert_to_v2]) for directory listings in the order [rs], [ds]. *)
Definition opening (s : vstore) (rs : list (string * string * string))
    (ds : list (string * string)) : list veff :=
  if v_marker s then []
  else map (fun '(d1, d2, n) => VRename d1 d2 n) rs ++
       map (fun '(d1, d2) => VRmdir d1 d2) ds ++ [VMarker].

(** [rs] and [ds] list the directory in some order. *)
Definition listing (s : vstore) (rs : list (string * string * string))
    (ds : list (string * string)) : Prop :=
  NoDup rs /\ (forall k, k ∈ rs <-> is_Some (v1 s !! k)) /\
  NoDup ds /\ (forall k, k ∈ ds <-> k ∈ v_dirs s).
