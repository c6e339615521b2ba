(** A concrete environment used by the examples: 4-byte chunks, an injective
    "hash", no compression. *)
From Verif Require Export Model.Chunked Spec.Image.
From Coq Require Import Strings.String.

Definition ex_env : env :=
  MkEnv 4 1 (fun d => String.append "h" (String.string_of_list_byte d))
    (fun d => d) (fun d => Some d) (fun n => Z.of_nat n).
Definition bs (s : string) : bytes := String.list_byte_of_string s.
Definition empty_world : world := MkWorld (MkDisk ∅ ∅ ∅) [] ∅ false.

Lemma ex_hash_inj c1 c2 : hash ex_env c1 = hash ex_env c2 -> c1 = c2.
Proof.
  cbn. intros H. injection H as H.
  rewrite <- (String.list_byte_of_string_of_list_byte c1), H.
  apply String.list_byte_of_string_of_list_byte.
Qed.
Lemma ex_no_collision d l : no_collision ex_env d l.
Proof. intros c1 c2 _ _. apply ex_hash_inj. Qed.
Lemma ex_lzo : lzo_ok ex_env.
Proof. intros d. done. Qed.
Lemma ex_CS : (0 < CS ex_env)%Z.
Proof. cbn. lia. Qed.
Lemma empty_good : good_store ex_env (w_disk empty_world).
Proof. intros h raw H. cbn in H. rewrite lookup_empty in H. done. Qed.
Lemma empty_seen : seen_ok empty_world.
Proof. intros h H. cbn in H. set_solver. Qed.
Lemma empty_initial n : initial_image ex_env (w_disk empty_world) n [].
Proof. left. cbn. rewrite lookup_empty. done. Qed.
