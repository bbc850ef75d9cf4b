(** Model of the symbol table (src/core/sim.src/var.cc, varcl.h) on top of the
    models of the collections (cl_list, cl_sorted_list).  Not modelled: the
    description and the origin of a variable, its cell. *)
From Verif Require Import Base ListModel SortedModel SortedSpec.

(** varcl.h:48-86 cl_cvar and cl_var. [vid]: identity of the object (the pointer);
    [vname]: the characters of the name; [vmem]: uid of the memory of a cl_var
    (never NULL, cmd_uc.cc:891-914), None for a cl_cvar; bit numbers are ordered as
    var.cc:37-57 cl_cvar does. *)
Record var := mkVar { vid : Z; vname : list Z; vmem : option Z; vaddr : Z; vbh : Z; vbl : Z }.
(** var.cc:37-57 cl_cvar, var.cc:123-128 cl_var *)
Definition new_var (id : Z) (name : list Z) (mem : option Z) (addr h l : Z) : var :=
  if l <? h then mkVar id name mem addr h l else mkVar id name mem addr l h.
Definition is_mem_var (v : var) : bool := match vmem v with Some _ => true | None => false end.
Definition same_ptr (a b : var) : bool := vid a =? vid b.

(** var.cc:194-200 compare of cl_var_by_name_list is strcmp (SortedSpec.v) *)
(** var.cc:206-219 compare_addr: unsigned difference of the addresses put into int *)
Definition cmp_addr (v : var) (mem addr : Z) : Z :=
  match vmem v with
  | None => 0
  | Some u => let r := i32 (u - mem) in if r =? 0 then i32 (u32 (vaddr v - addr)) else r
  end.
Definition cmp_high (vb b : Z) : Z :=
  if vb <? 0 then (if b <? 0 then 0 else -1) else (if b <? 0 then 1 else b - vb).
Definition cmp_low (vb b : Z) : Z :=
  if vb <? 0 then (if b <? 0 then 0 else -1) else (if b <? 0 then 1 else vb - b).
(** var.cc:221-244 compare_addr_and_bits *)
Definition cmp_bits (v : var) (mem addr h l : Z) : Z :=
  match vmem v with
  | None => 0
  | Some u =>
      let r := i32 (u - mem) in if negb (r =? 0) then r else
      let r := i32 (u32 (vaddr v - addr)) in if negb (r =? 0) then r else
      let r := cmp_high (vbh v) h in if negb (r =? 0) then r else
      cmp_low (vbl v) l
  end.
(** var.cc:246-258 cl_var_by_addr_list::compare; a cl_cvar (no memory) is never put into this list *)
Definition cmp_var (a b : var) : Z :=
  match vmem b with
  | None => 0
  | Some u => let r := cmp_bits a u (vaddr b) (vbh b) (vbl b) in
              if r =? 0 then strcmp (vname a) (vname b) else r
  end.

(** var.cc:260-288 search and var.cc:290-318 cl_var_by_addr_list::search, [f] compares the element with
    the key. First the inner for loop. *)
Fixpoint walk_down (fuel : nat) (f : var -> Z) (lst : clist var) (l : Z) : res Z :=
  if 0 <? l then
    match fuel with
    | O => UB
    | S k => x <- get_slot _ lst (l - 1) ;;
             if f x =? 0 then walk_down k f lst (l - 1) else Ok l
    end
  else Ok l.
Fixpoint asearch_loop (fuel : nat) (f : var -> Z) (lst : clist var) (l h : Z) (r : bool) : res (bool * Z) :=
  if l <=? h then
    match fuel with
    | O => UB
    | S k =>
      let i := Z.shiftr (l + h) 1 in
      x <- get_slot _ lst i ;;
      let c := f x in
      if c <? 0 then asearch_loop k f lst (i + 1) h r
      else if c =? 0 then
        l' <- walk_down (Z.to_nat (count lst)) f lst i ;; asearch_loop k f lst l' (i - 1) true
      else asearch_loop k f lst l (i - 1) r
    end
  else Ok (r, l).
Definition asearch (f : var -> Z) (lst : clist var) : res (bool * Z) :=
  asearch_loop (Z.to_nat (count lst)) f lst 0 (count lst - 1) false.

(** varcl.h:140-151 cl_var_list *)
Record vars := mkVars { bn : clist var; ba : clist var; maxlen : Z; known : bool }.
(** varcl.h:92-110 cl_sorted_list(10, 10), varcl.h:151 cl_var_list *)
Definition new_vars : vars := mkVars (new_list _ 10 10) (new_list _ 10 10) 0 true.

Notation nsearch := (search var (list Z) vname strcmp false).
Notation nadd := (sadd var (list Z) vname strcmp false).
Notation aadd := (sadd var var (fun v => v) cmp_var false).

Definition slen (n : list Z) : Z := Z.of_nat (length n).
(** var.cc:320-338 get_max_name_len *)
Fixpoint max_from (k : nat) (l : clist var) (i m : Z) : res Z :=
  match k with
  | O => Ok m
  | S k => v <- at_ _ l i ;; max_from k l (i + 1) (if m <? slen (vname v) then slen (vname v) else m)
  end.
Definition get_max_name_len (x : vars) : res (vars * Z) :=
  if known x then Ok (x, maxlen x)
  else m <- max_from (Z.to_nat (count (bn x))) (bn x) 0 0 ;; Ok (mkVars (bn x) (ba x) m true, m).
(** var.cc:340-358 del *)
Definition del (x : vars) (name : list Z) : res (vars * bool) :=
  r <- nsearch (bn x) name ;;
  let '(found, i) := r in
  if found then
    v <- at_ _ (bn x) i ;;
    a <- disconn _ same_ptr (ba x) v ;;
    n <- disconn_at _ (bn x) i ;;
    Ok (mkVars n a (maxlen x) false, true)
  else Ok (x, false).
Definition is_auto (v : var) : bool := match vname v with 46 :: _ => true | _ => false end.
Definition same_place (v w : var) : bool :=
  match vmem v, vmem w with
  | Some a, Some b => (a =? b) && (vaddr v =? vaddr w) && (vbh v =? vbh w) && (vbl v =? vbl w)
  | _, _ => false
  end.
(** var.cc:360-415 add, the loop which removes a label of the analyzer *)
Fixpoint drop_auto (fuel : nat) (item : var) (x : vars) (i : Z) : res vars :=
  if i <? count (ba x) then
    match fuel with
    | O => UB
    | S k =>
      v <- at_ _ (ba x) i ;;
      if negb (same_place v item) then Ok x
      else if is_auto v then
        a <- disconn_at _ (ba x) i ;;
        n <- disconn _ same_ptr (bn x) v ;;
        Ok (mkVars n a (maxlen x)
              (if (slen (vname v) =? maxlen x) && (slen (vname item) <? maxlen x) then false else known x))
      else drop_auto k item x (i + 1)
    end
  else Ok x.
(** var.cc:360-415 add *)
Definition add (x : vars) (item : var) : res vars :=
  r <- del x (vname item) ;;
  let '(x1, found) := r in
  let x2 := if found then mkVars (bn x1) (ba x1) (maxlen x1) true
            else mkVars (bn x1) (ba x1) (if maxlen x1 <? slen (vname item) then slen (vname item) else maxlen x1) (known x1) in
  r <- nadd (bn x2) item ;;
  let x3 := mkVars (fst r) (ba x2) (maxlen x2) (known x2) in
  match vmem item with
  | None => Ok x3
  | Some u =>
      s <- asearch (fun v => cmp_bits v u (vaddr item) (vbh item) (vbl item)) (ba x3) ;;
      x4 <- (if fst s then drop_auto (Z.to_nat (count (ba x3))) item x3 (snd s) else Ok x3) ;;
      r <- aadd (ba x4) item ;;
      Ok (mkVars (bn x4) (fst r) (maxlen x4) (known x4))
  end.
(** uc.cc:2826-2833 get_var *)
Definition get_var (x : vars) (name : list Z) : res (option var) :=
  r <- nsearch (bn x) name ;;
  if fst r then v <- at_ _ (bn x) (snd r) ;; Ok (Some v) else Ok None.
(** the variable found at a place: uc.cc:2868-2874 cell_name, uc.cc:2702-2703 addr_name *)
Definition find_place (x : vars) (mem addr h l : Z) : res (option var) :=
  r <- asearch (fun v => cmp_bits v mem addr h l) (ba x) ;;
  if fst r then v <- at_ _ (ba x) (snd r) ;; Ok (Some v) else Ok None.
(** the first variable at an address: var.cc:531-567 first (without the chip part) *)
Definition find_addr (x : vars) (mem addr : Z) : res (option var) :=
  r <- asearch (fun v => cmp_addr v mem addr) (ba x) ;;
  if fst r then v <- at_ _ (ba x) (snd r) ;; Ok (Some v) else Ok None.

Inductive vop := VAdd (v : var) | VDel (n : list Z) | VMax.
Definition vstep (x : vars) (o : vop) : res vars :=
  match o with
  | VAdd v => add x v
  | VDel n => r <- del x n ;; Ok (fst r)
  | VMax => r <- get_max_name_len x ;; Ok (fst r)
  end.
Fixpoint vrun (x : vars) (ops : list vop) : res vars :=
  match ops with [] => Ok x | o :: t => y <- vstep x o ;; vrun y t end.
