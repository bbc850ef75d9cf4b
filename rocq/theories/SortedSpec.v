(** Specification of sorted collections, in terms of mathematical sequences. *)
From Coq Require Export Sorting.Sorted.
From Verif Require Import Base ListModel ListSpec SortedModel.

(** The key comparison of the collection is a total preorder (as strcmp). *)
Record preorder {K} (cmp : K -> K -> Z) : Prop := {
  po_anti : forall a b, cmp a b < 0 <-> 0 < cmp b a;
  po_trans : forall a b c, cmp a b <= 0 -> cmp b c <= 0 -> cmp a c <= 0
}.

Section S.
Variables (A K : Type).
Variable eqb : A -> A -> bool.
Variable key_of : A -> K.
Variable cmp : K -> K -> Z.
Variable dup : bool.

(** number of elements whose key is smaller than [k] *)
Definition nless (s : list A) (k : K) : nat :=
  length (filter (fun y => cmp (key_of y) k <? 0) s).
Definition has_key (s : list A) (k : K) : bool :=
  existsb (fun y => cmp (key_of y) k =? 0) s.

(** the sequence after an operation *)
Definition spec_step (s : list A) (o : sop A) : res (list A) :=
  match o with
  | SAdd _ x => Ok (if negb (has_key s (key_of x)) || dup
                    then insert_at _ s (nless s (key_of x)) x else s)
  | SDisconn _ x => match pos_of _ eqb s x with Some i => Ok (remove_at _ s i) | None => Ok s end
  | SDisconnAt _ i => if in_seq _ s i then Ok (remove_at _ s (Z.to_nat i)) else Exit
  | SDisconnAll _ => Ok []
  end.
Fixpoint spec_run (s : list A) (ops : list (sop A)) : res (list A) :=
  match ops with
  | [] => Ok s
  | o :: t => s' <- spec_step s o ;; spec_run s' t
  end.

(** ordered by key; strictly if duplicates are not allowed *)
Definition ordered (s : list A) : Prop :=
  StronglySorted (fun x y => if dup then cmp (key_of x) (key_of y) <= 0
                             else cmp (key_of x) (key_of y) < 0) s.

Definition is_add (o : sop A) : bool := match o with SAdd _ _ => true | _ => false end.
Definition nadds (ops : list (sop A)) : Z := Z.of_nat (length (filter is_add ops)).
End S.

(** strcmp of two NUL terminated strings (lists of non-zero unsigned chars). *)
Fixpoint strcmp (a b : list Z) : Z :=
  match a, b with
  | [], [] => 0
  | [], _ :: _ => -1
  | _ :: _, [] => 1
  | x :: a', y :: b' => if x <? y then -1 else if y <? x then 1 else strcmp a' b'
  end.
