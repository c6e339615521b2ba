(** Specification: what can be reached from a directory without following a
    symbolic link. *)
From Verif Require Export Model.Fstree.

(** [reach n p m]: walking down the names [p] from [n] leads to [m]. *)
Inductive reach : node -> list string -> node -> Prop :=
| reach_here n : reach n [] n
| reach_down t entries name c p m :
    (name, c) ∈ entries -> reach c p m ->
    reach (NDir t entries) (name :: p) m.
