(** Vocabulary of C17: what the history of executed addresses should be. *)
From Verif Require Import Base HistModel.

(** newest [n] elements *)
Definition newest {A} (n : Z) (l : list A) : list A := skipn (length l - Z.to_nat n) l.

(** one more executed address: another round at the same place, or a new run *)
Fixpoint log (l : list (Z * Z)) (pc : Z) : list (Z * Z) :=
  match l with
  | [] => [(pc, 1)]
  | [(a, n)] => if a =? pc then [(a, n + 1)] else [(a, n); (pc, 1)]
  | e :: l' => e :: log l' pc
  end.

(** run-length encoding of a whole trace *)
Definition rle (trace : list Z) : list (Z * Z) := fold_left log trace [].

(** the ideal history with room for [cap] runs *)
Definition ideal_step (cap : Z) (l : list (Z * Z)) (o : hop) : list (Z * Z) :=
  match o with
  | Put pc => newest cap (log l pc)
  | Keep nr => newest nr l
  end.
Definition ideal (cap : Z) (ops : list hop) : list (Z * Z) := fold_left (ideal_step cap) ops [].
