(** Specification of cl_list: a list is a mathematical sequence. *)
From Verif Require Import Base ListModel.

Section Spec.
Variable A : Type.
Variable eqb : A -> A -> bool.

(** position of the first occurrence *)
Fixpoint pos_of (s : list A) (x : A) : option nat :=
  match s with
  | [] => None
  | y :: t => if eqb x y then Some O else option_map S (pos_of t x)
  end.

Definition insert_at (s : list A) (i : nat) (x : A) : list A := firstn i s ++ x :: skipn i s.
Definition remove_at (s : list A) (i : nat) : list A := firstn i s ++ skipn (S i) s.

Definition in_seq (s : list A) (i : Z) : bool := (0 <=? i) && (i <? Z.of_nat (length s)).

(** What each operation does to the sequence; [Exit] is the error exit on a bad index. *)
Definition sstep (s : list A) (o : lop A) : res (list A) :=
  match o with
  | LAdd _ x => Ok (s ++ [x])
  | LPush _ x => Ok (x :: s)
  | LAddAt _ i x => if i <? 0 then Exit else
                      if i <=? Z.of_nat (length s) then Ok (insert_at s (Z.to_nat i) x) else UB
  | LPutAt _ i x => if Z.of_nat (length s) <=? i then Exit else
                      if 0 <=? i then Ok (upd s (Z.to_nat i) x) else UB
  | LDisconnAt _ i | LFreeAt _ i =>
      if in_seq s i then Ok (remove_at s (Z.to_nat i)) else Exit
  | LDisconn _ x => match pos_of s x with Some i => Ok (remove_at s i) | None => Ok s end
  | LDisconnAll _ => Ok []
  | LPop _ => Ok (tl s)
  end.

Fixpoint srun (s : list A) (ops : list (lop A)) : res (list A) :=
  match ops with
  | [] => Ok s
  | o :: t => s' <- sstep s o ;; srun s' t
  end.

(** The sequence stays below the capacity all along the history. *)
Fixpoint fits (s : list A) (ops : list (lop A)) : bool :=
  match ops with
  | [] => true
  | o :: t => match sstep s o with
              | Ok s' => (Z.of_nat (length s') <=? max_list_size) && fits s' t
              | _ => true
              end
  end.

(** Representation: the first [count] slots hold the sequence. *)
Definition repr (l : clist A) (s : list A) : Prop :=
  count l = Z.of_nat (length s) /\
  firstn (length s) (items l) = map Some s /\
  (length s <= length (items l))%nat /\
  Z.of_nat (length (items l)) <= max_list_size /\
  1 <= delta l.
End Spec.

(** What a user of the class can see of a list: its length, the item at each
    index, the position of an item, the item after an item, the first item. *)
Definition observes {A} (eqb : A -> A -> bool) (l : clist A) (s : list A) : Prop :=
  count l = Z.of_nat (length s) /\
  (forall i, at_ _ l i = if in_seq _ s i
     then match nth_error s (Z.to_nat i) with Some x => Ok x | None => Exit end
     else Exit) /\
  (forall x, index_of _ eqb l x = Ok (option_map Z.of_nat (pos_of _ eqb s x))) /\
  (forall x, next _ eqb l x =
     Ok (match pos_of _ eqb s x with Some k => nth_error s (S k) | None => None end)) /\
  top _ l = Ok (hd_error s) /\
  (exists l', pop _ l = Ok (hd_error s, l')).
