(** Model of cl_sorted_list (src/core/utils.src/pobj.cc:616-720) on top of the
    model of cl_list.  [key_of] and [compare] are the virtual functions of the
    derived class; [dup] is the field Duplicates. *)
From Verif Require Import Base ListModel.

Section Sorted.
Variables (A K : Type).
Variable eqb : A -> A -> bool.      (* pointer equality of items *)
Variable key_of : A -> K.           (* pobj.cc:641-645 key_of (virtual) *)
Variable compare : K -> K -> Z.     (* pobjcl.h (virtual), result is an int *)
Variable dup : bool.                (* Duplicates *)

(** pobj.cc:695-720 cl_sorted_list::search, the while loop; [fuel] bounds the
    number of iterations, running out of it is reported as UB (shown never to
    happen). l, h and i are int, (l+h)>>1 is a division by 2. *)
Fixpoint search_loop (fuel : nat) (lst : clist A) (key : K) (l h : Z) (r : bool)
  : res (bool * Z) :=
  if l <=? h then
    match fuel with
    | O => UB
    | S f =>
      let i := Z.shiftr (l + h) 1 in
      x <- get_slot _ lst i ;;
      let c := compare (key_of x) key in
      if c <? 0 then search_loop f lst key (i + 1) h r
      else
        if c =? 0
        then search_loop f lst key (if dup then l else i) (i - 1) true
        else search_loop f lst key l (i - 1) r
    end
  else Ok (r, l).

Definition search (lst : clist A) (key : K) : res (bool * Z) :=
  search_loop (Z.to_nat (count lst)) lst key 0 (count lst - 1) false.

(** pobj.cc:677-688 cl_sorted_list::add: returns the index *)
Definition sadd (lst : clist A) (x : A) : res (clist A * Z) :=
  r <- search lst (key_of x) ;;
  let '(found, i) := r in
  if negb found || dup then
    l' <- add_at _ lst i x ;; Ok (l', i)
  else Ok (lst, i).

(** pobj.cc:652-670 cl_sorted_list::index_of; ccNotFound = -1 (pobjt.h:39).
    The inner while loop walks from i to the first pointer-equal item. *)
Fixpoint walk (n : nat) (lst : clist A) (i : Z) (x : A) : res Z :=
  if i <? count lst then
    match n with
    | O => UB
    | S k => y <- get_slot _ lst i ;;
             if eqb x y then Ok i else walk k lst (i + 1) x
    end
  else Ok i.
Definition sindex_of (lst : clist A) (x : A) : res Z :=
  r <- search lst (key_of x) ;;
  let '(found, i) := r in
  if negb found then Ok (-1)
  else
    j <- (if dup then walk (Z.to_nat (count lst)) lst i x else Ok i) ;;
    if j <? count lst then Ok j else Ok (-1).

(** The public mutators used on sorted collections. *)
Inductive sop := SAdd (x : A) | SDisconn (x : A) | SDisconnAt (i : Z) | SDisconnAll.
Definition sstep (l : clist A) (o : sop) : res (clist A) :=
  match o with
  | SAdd x => r <- sadd l x ;; Ok (fst r)
  | SDisconn x => disconn _ eqb l x
  | SDisconnAt i => disconn_at _ l i
  | SDisconnAll => Ok (disconn_all _ l)
  end.
Fixpoint srun (l : clist A) (ops : list sop) : res (clist A) :=
  match ops with
  | [] => Ok l
  | o :: t => l' <- sstep l o ;; srun l' t
  end.
End Sorted.
