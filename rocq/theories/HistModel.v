(** Model of the execution history (src/core/sim.src/uc.cc cl_exec_hist). *)
From Verif Require Import Base.

Section Hist.
Variable len : Z.             (* uc.cc:382: 10001 *)

(** [arr]: elements (addr, nr), None is memory left uninitialised by malloc *)
Record hist := mkHist { h : Z; t : Z; arr : Z -> option (Z * Z) }.

(** uc.cc:377-386 cl_exec_hist *)
Definition new_hist : hist := mkHist 0 0 (fun _ => None).

Definition set_arr (x : hist) (i : Z) (v : Z * Z) : hist :=
  mkHist (h x) (t x) (fun j => if j =? i then Some v else arr x j).

(** uc.cc:398-419 put; nr++ is an int, it overflows (UB) at INT_MAX *)
Definition put (x : hist) (pc : Z) : res hist :=
  let append :=
    let nh := (h x + 1) mod len in
    let tt := if t x =? nh then (t x + 1) mod len else t x in
    Ok (set_arr (mkHist nh tt (arr x)) nh (pc, 1)) in
  if negb (t x =? h x) then
    match arr x (h x) with
    | None => UB
    | Some (a, n) =>
      if a =? pc then
        if n =? 2147483647 then UB else Ok (set_arr x (h x) (a, n + 1))
      else append
    end
  else append.

(** uc.cc:487-495 get_used *)
Definition get_used (x : hist) : Z :=
  if t x =? h x then 0 else if t x <? h x then h x - t x else len - t x + h x.

(** uc.cc:476-485 keep: the while loop with bound [n], UB if not finished *)
Fixpoint keep_loop (n : nat) (x : hist) (nr : Z) : res hist :=
  if nr <? get_used x then
    match n with O => UB | S k => keep_loop k (mkHist (h x) ((t x + 1) mod len) (arr x)) nr end
  else Ok x.
Definition keep (x : hist) (nr : Z) : res hist :=
  let nr := if nr <? 0 then 0 else nr in
  if t x =? h x then Ok x else keep_loop (Z.to_nat len) x nr.

(** uc.cc:497-515 get_insts: sum of the nr fields as unsigned int *)
Fixpoint insts_loop (n : nat) (x : hist) (p i : Z) : res Z :=
  match n with
  | O => UB
  | S k =>
    match (if (0 <=? p) && (p <? len) then arr x p else None) with
    | None => UB
    | Some (_, nr) =>
      let i := u32 (i + nr) in
      if p =? h x then Ok i else insts_loop k x ((p + 1) mod len) i
    end
  end.
Definition get_insts (x : hist) : res Z :=
  if t x =? h x then Ok 0 else insts_loop (Z.to_nat len) x ((t x + 1) mod len) 0.

(** uc.cc:421-474 list with inc=true (the only use, in cmd_exec.cc):
    the (address, times) pairs printed. An index outside of the array or an
    uninitialised element is UB. *)
Fixpoint list_loop (n : nat) (x : hist) (p : Z) : res (list (Z * Z)) :=
  match n with
  | O => UB
  | S k =>
    match (if (0 <=? p) && (p <? len) then arr x p else None) with
    | None => UB
    | Some e =>
      if p =? h x then Ok [e]
      else l <- list_loop k x ((p + 1) mod len) ;; Ok (e :: l)
    end
  end.
Definition list_hist (x : hist) (nr : Z) : res (list (Z * Z)) :=
  if t x =? h x then Ok []
  else
    let nr := if len - 1 <? nr then len - 1 else nr in
    let nr := if get_used x <? nr then get_used x else nr in
    let s := h x - nr + 1 in
    let s := if s <? 0 then s + len else s in
    list_loop (Z.to_nat len) x s.

Inductive hop := Put (pc : Z) | Keep (nr : Z).
Definition do_hop (x : hist) (o : hop) : res hist :=
  match o with Put pc => put x pc | Keep nr => keep x nr end.
Fixpoint do_hops (x : hist) (l : list hop) : res hist :=
  match l with [] => Ok x | o :: l' => x' <- do_hop x o ;; do_hops x' l' end.
End Hist.
