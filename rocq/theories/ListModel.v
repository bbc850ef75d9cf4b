(** Model of the collection class cl_list (src/core/utils.src/pobj.cc, pobjcl.h).
    Items are pointers (any type [A] with decidable equality; NULL is an ordinary
    value).  The storage is modelled slot by slot: [None] is a slot that malloc()
    left uninitialised, so that reading it, or touching a slot outside of the
    storage, is undefined behaviour. *)
From Verif Require Import Base.

Section CList.
Variable A : Type.
Variable eqb : A -> A -> bool.

(** pobjcl.h:114-121: count, Items, Limit, Delta. Limit is the length of [items]. *)
Record clist := mkList { count : Z; delta : Z; items : list (option A) }.

Definition limit (l : clist) : Z := Z.of_nat (length (items l)).

(** pobjt.h:38: max_list_size = 0x10000/sizeof(void ptr), 64 bit pointers. *)
Definition max_list_size : Z := 8192.

(** A write of one slot: Items[index]= item. *)
Definition put_slot (l : clist) (i : Z) (x : A) : res clist :=
  if (0 <=? i) && (i <? limit l)
  then Ok (mkList (count l) (delta l) (upd (items l) (Z.to_nat i) (Some x)))
  else UB.

(** A read of one slot: Items[index]. *)
Definition get_slot (l : clist) (i : Z) : res A :=
  if 0 <=? i then
    match nth_error (items l) (Z.to_nat i) with
    | Some (Some x) => Ok x
    | _ => UB
    end
  else UB.

(** memmove(&Items[dst], &Items[src], n*sizeof(void ptr)): n is converted to
    size_t, so a negative one is an enormous size. *)
Definition memmove (l : clist) (dst src n : Z) : res clist :=
  if (0 <=? n) && (0 <=? dst) && (0 <=? src) &&
     (dst + n <=? limit l) && (src + n <=? limit l)
  then Ok (mkList (count l) (delta l)
             (firstn (Z.to_nat dst) (items l) ++
              firstn (Z.to_nat n) (skipn (Z.to_nat src) (items l)) ++
              skipn (Z.to_nat (dst + n)) (items l)))
  else UB.

(** pobj.cc:587-613 cl_list::set_limit: malloc a new array, copy the first
    [count] items.  (A negative limit can not be asked for by the callers
    modelled here: the result is at least count.) *)
Definition set_limit (l : clist) (alimit : Z) : clist :=
  let a1 := if alimit <? count l then count l else alimit in
  let a2 := if max_list_size <? a1 then max_list_size else a1 in
  if a2 =? limit l then l
  else mkList (count l) (delta l)
         (firstn (Z.to_nat (count l)) (items l) ++
          repeat None (Z.to_nat a2 - Z.to_nat (count l))).

(** pobj.cc:255-264 cl_list::cl_list(alimit, adelta, aname). *)
Definition new_list (alimit adelta : Z) : clist :=
  set_limit (mkList 0 adelta []) alimit.

(** pobjcl.h:128-133 cl_list::at; pobj.cc:291-298 object_at: error() exits. *)
Definition at_ (l : clist) (i : Z) : res A :=
  if (i <? 0) || (count l <=? i) then Exit else get_slot l i.

(** pobj.cc:314-322 cl_list::disconn_at *)
Definition disconn_at (l : clist) (i : Z) : res clist :=
  if (i <? 0) || (count l <=? i) then Exit
  else
    let l1 := mkList (count l - 1) (delta l) (items l) in
    memmove l1 i (i + 1) (count l1 - i).

(** pobj.cc:509-520 cl_list::index_of(item, idx): linear search. *)
Fixpoint find_from (its : list (option A)) (i n : nat) (x : A) {struct n} : res (option Z) :=
  match n with
  | O => Ok None
  | S k =>
    match its with
    | Some y :: t => if eqb x y then Ok (Some (Z.of_nat i)) else find_from t (S i) k x
    | _ => UB
    end
  end.
Definition index_of (l : clist) (x : A) : res (option Z) :=
  find_from (items l) 0 (Z.to_nat (count l)) x.

(** pobj.cc:329-336 cl_list::disconn *)
Definition disconn (l : clist) (x : A) : res clist :=
  r <- index_of l x ;;
  match r with
  | Some i => disconn_at l i
  | None => Ok l
  end.

(** pobj.cc:343-347 cl_list::disconn_all *)
Definition disconn_all (l : clist) : clist := mkList 0 (delta l) (items l).

(** pobj.cc:381-393 cl_list::add_at *)
Definition add_at (l : clist) (i : Z) (x : A) : res clist :=
  if i <? 0 then Exit
  else
    let l1 := if count l =? limit l then set_limit l (count l + delta l) else l in
    l2 <- memmove l1 (i + 1) i (count l1 - i) ;;
    put_slot (mkList (count l2 + 1) (delta l2) (items l2)) i x.

(** pobj.cc:401-407 cl_list::put_at (no check of negative index) *)
Definition put_at (l : clist) (i : Z) (x : A) : res clist :=
  if count l <=? i then Exit else put_slot l i x.

(** pobj.cc:540-547 cl_list::add *)
Definition add (l : clist) (x : A) : res clist := add_at l (count l) x.

(** pobj.cc:557-564 cl_list::push *)
Definition push (l : clist) (x : A) : res clist :=
  if count l =? 0 then add l x else add_at l 0 x.

(** pobj.cc:486-492 cl_list::top *)
Definition top (l : clist) : res (option A) :=
  if count l =? 0 then Ok None else x <- get_slot l 0 ;; Ok (Some x).

(** pobj.cc:474-484 cl_list::pop *)
Definition pop (l : clist) : res (option A * clist) :=
  if count l =? 0 then Ok (None, l)
  else x <- get_slot l 0 ;; l' <- disconn_at l 0 ;; Ok (Some x, l').

(** pobj.cc:522-533 cl_list::next: the item after the (first) occurrence which
    is not the last item. *)
Fixpoint next_from (its : list (option A)) (n : nat) (x : A) {struct n} : res (option A) :=
  match n with
  | O => Ok None
  | S k =>
    match its with
    | Some y :: t =>
      if eqb x y then
        match k with
        | O => next_from t k x
        | S _ => match t with Some z :: _ => Ok (Some z) | _ => UB end
        end
      else next_from t k x
    | _ => UB
    end
  end.
Definition next (l : clist) (x : A) : res (option A) :=
  next_from (items l) (Z.to_nat (count l)) x.

(** pobj.cc:354-361 cl_list::free_at; destruction of the item itself is not modelled. *)
Definition free_at (l : clist) (i : Z) : res clist :=
  _ <- at_ l i ;; disconn_at l i.

(** The public operations as one command type, used to speak about histories. *)
Inductive lop :=
| LAdd (x : A) | LPush (x : A) | LAddAt (i : Z) (x : A) | LPutAt (i : Z) (x : A)
| LDisconnAt (i : Z) | LDisconn (x : A) | LDisconnAll | LPop | LFreeAt (i : Z).

Definition lstep (l : clist) (o : lop) : res clist :=
  match o with
  | LAdd x => add l x
  | LPush x => push l x
  | LAddAt i x => add_at l i x
  | LPutAt i x => put_at l i x
  | LDisconnAt i => disconn_at l i
  | LDisconn x => disconn l x
  | LDisconnAll => Ok (disconn_all l)
  | LPop => r <- pop l ;; Ok (snd r)
  | LFreeAt i => free_at l i
  end.

Fixpoint lrun (l : clist) (ops : list lop) : res clist :=
  match ops with
  | [] => Ok l
  | o :: t => l' <- lstep l o ;; lrun l' t
  end.
End CList.

Arguments count {A}. Arguments delta {A}. Arguments items {A}. Arguments mkList {A}.
