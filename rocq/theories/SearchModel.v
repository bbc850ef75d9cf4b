(** Model of searching in memory (src/core/sim.src/mem.cc cl_memory::search_next). *)
From Verif Require Import Base.

(** toupper() of letters, others unchanged: C locale. isalpha() on a value which
    is neither EOF (-1) nor an unsigned char is undefined. *)
Definition upper (d : Z) : res Z :=
  if 4294967295 =? d then Ok d
  else if 255 <? d then UB
  else Ok (if (97 <=? d) && (d <=? 122) then d - 32 else d).

Section Search.
Variable get : Z -> Z.        (* cl_memory::get *)
Variable size : Z.
Variable case_sensitive : bool.

(** the comparison of one element *)
Definition same (d1 d2 : Z) : res bool :=
  if case_sensitive then Ok (d1 =? d2)
  else u1 <- upper d1 ;; u2 <- upper d2 ;; Ok (u1 =? u2).

(** the for loop: i < len && match *)
Fixpoint match_at (pat : list Z) (a : Z) : res bool :=
  match pat with
  | [] => Ok true
  | d :: t => m <- same (get (u32 a)) d ;; if m then match_at t (a + 1) else Ok false
  end.

(** the while loop; [n] bounds the rounds, exceeding it is reported as UB *)
Fixpoint search_loop (n : nat) (pat : list Z) (a : Z) : res (bool * Z) :=
  if u32 (a + Z.of_nat (length pat)) <=? size then
    match n with
    | O => UB
    | S k => m <- match_at pat a ;; if m then Ok (true, a) else search_loop k pat (u32 (a + 1))
    end
  else Ok (false, a).

(** mem.cc:690-732 search_next: result and the updated address. a+len is u32. *)
Definition search_next (pat : list Z) (a : Z) : res (bool * Z) :=
  if size <? u32 (a + Z.of_nat (length pat)) then Ok (false, a)
  else search_loop (Z.to_nat (size + 1)) pat a.

(** cmd_uc.cc:662-702 do_real_work (where): all the addresses printed. [n] bounds the
    rounds. *)
Fixpoint where_loop (n : nat) (pat : list Z) (a : Z) : res (list Z) :=
  match n with
  | O => UB
  | S k =>
    r <- search_next pat a ;;
    if fst r then l <- where_loop k pat (u32 (snd r + 1)) ;; Ok (snd r :: l) else Ok []
  end.
Definition where_cmd (pat : list Z) : res (list Z) := where_loop (Z.to_nat (size + 2)) pat 0.
End Search.
