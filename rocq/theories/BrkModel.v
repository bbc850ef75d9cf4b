(** Model of fetch and event breakpoints: the two collections, the fetch flags of
    the ROM cells, the number counter and the commands using them. *)
From Verif Require Import Base.

(** brkcl.h:48-68 cl_brk; [dyn] is perm==brkDYNAMIC, [bhit] and [bcnt] are hit and
    cnt.  The condition is an expression evaluated at the time of the hit: its
    value is an input of the hit operations below (true when there is no
    condition, brk.cc:78-86 condition). *)
Record brk := mkBrk { nr : Z; baddr : Z; dyn : bool; bhit : Z; bcnt : Z }.

(** brk.cc:43-56 cl_brk *)
Definition new_brk (n a : Z) (d : bool) (hit : Z) : brk := mkBrk n a d hit hit.

(** brk.cc:120-130 do_hit: returns the changed object and the result; cnt-- is an
    int decrement (INT_MIN can not be reached: cnt > 0 or cnt = hit, and hit is
    the int given at creation, see [do_hit_safe] in BrkProofs) *)
Definition do_hit (b : brk) (condition : bool) : brk * bool :=
  let c := bcnt b - 1 in
  if c <=? 0 then (mkBrk (nr b) (baddr b) (dyn b) (bhit b) (bhit b), condition)
  else (mkBrk (nr b) (baddr b) (dyn b) (bhit b) c, false).

Section Brk.
Variables (start size : Z).       (* uc->rom: start_address, size *)

Definition valid_address (a : Z) : bool := (start <=? a) && (a <? start + size).

(** [flags]: the CELL_FETCH_BRK flag of the cells of rom; [fl], [el]: fbrk, ebrk *)
Record st := mkSt { flags : Z -> bool; fl : list brk; el : list brk; counter : Z }.

(** uc.cc:753 brk_counter= 0; the collections are empty *)
Definition init_st : st := mkSt (fun _ => false) [] [] 0.

(** brk_coll is a cl_sorted_list ordered by nr with Duplicates=false
    (brk.cc:311-331 key_of, compare; pobj.cc:677-688 add): insertion before the first
    greater element, nothing is inserted if the number is there (the binary
    search is property C15).  More than 8192 elements write out of the storage. *)
Fixpoint insert (b : brk) (l : list brk) : list brk :=
  match l with
  | [] => [b]
  | x :: t => if nr x <? nr b then x :: insert b t
              else if nr x =? nr b then l else b :: l
  end.
Definition add_item (b : brk) (l : list brk) : res (list brk) :=
  if Z.of_nat (length l) <? 8192 then Ok (insert b l) else UB.

(** mem.cc:1940-1973 set_brk, 1976-1999 del_brk of the address space and of the
    cell (mem.cc:1408-1453): the flag of a valid address *)
Definition set_flag (s : st) (a : Z) (v : bool) : st :=
  if valid_address a
  then mkSt (fun x => if x =? a then v else flags s x) (fl s) (el s) (counter s)
  else s.

(** brk.cc:433-439 bp_at *)
Definition bp_at (s : st) (a : Z) : bool := valid_address a && flags s a.

Fixpoint index_if (p : brk -> bool) (l : list brk) : option nat :=
  match l with
  | [] => None
  | x :: t => if p x then Some O else option_map S (index_if p t)
  end.

(** brk.cc:402-417 get_bp(addr, idx): index of the first item with the address *)
Definition get_bp_at (s : st) (a : Z) : option nat :=
  if valid_address a && flags s a then index_if (fun b => baddr b =? a) (fl s) else None.

Definition remove_nth (l : list brk) (i : nat) : list brk := firstn i l ++ skipn (S i) l.

(** brk.cc:374-386 del_bp(addr) of fbrk: inactivate, free_at *)
Definition del_bp_at (s : st) (a : Z) : st :=
  match get_bp_at s a with
  | Some i =>
    match nth_error (fl s) i with
    | Some b => let s1 := set_flag s (baddr b) false in
                mkSt (flags s1) (remove_nth (fl s1) i) (el s1) (counter s1)
    | None => s
    end
  | None => s
  end.

(** brk.cc:419-431 get_bp(nr): first item with the number *)
Definition get_bp_nr (l : list brk) (n : Z) : option nat := index_if (fun b => nr b =? n) l.

(** uc.cc:3764-3780 rm_brk; brk.cc:388-400 del_bp(idx) for ebrk (inactivating an
    event breakpoint does not touch the fetch flags) *)
Definition rm_brk (s : st) (n : Z) : st * bool :=
  match get_bp_nr (fl s) n with
  | Some i => match nth_error (fl s) i with
              | Some b => (del_bp_at s (baddr b), true)
              | None => (s, true)
              end
  | None =>
    match get_bp_nr (el s) n with
    | Some i => (mkSt (flags s) (fl s) (remove_nth (el s) i) (counter s), true)
    | None => (s, false)
    end
  end.

(** uc.cc:3788-3798 remove_all_breaks: the first loop with at most [n] turns,
    None if it has not ended by then *)
Fixpoint remove_fetch (n : nat) (s : st) : option st :=
  match fl s with
  | [] => Some s
  | b :: _ => match n with O => None | S k => remove_fetch k (del_bp_at s (baddr b)) end
  end.
Definition remove_all (n : nat) (s : st) : option st :=
  match remove_fetch n s with
  | Some s1 => Some (mkSt (flags s1) (fl s1) [] (counter s1))
  | None => None
  end.

(** uc.cc:3800-3809 make_new_brknr; the counter is an int *)
Definition make_new_brknr (s : st) : res (st * Z) :=
  if counter s =? 0 then Ok (mkSt (flags s) (fl s) (el s) 1, 1)
  else match fl s, el s with
       | [], [] => Ok (mkSt (flags s) (fl s) (el s) 1, 1)
       | _, _ => if counter s =? 2147483647 then UB
                 else Ok (mkSt (flags s) (fl s) (el s) (counter s + 1), counter s + 1)
       end.

(** brk.cc:363-372 add_bp of a new fetch breakpoint *)
Definition add_fetch (s : st) (a : Z) (d : bool) (hit : Z) : res st :=
  p <- make_new_brknr s ;;
  let '(s1, n) := p in
  l <- add_item (new_brk n a d hit) (fl s1) ;;
  Ok (set_flag (mkSt (flags s1) l (el s1) (counter s1)) a true).

(** cmd_bp.cc:255-280 do_fetch *)
Definition do_fetch (s : st) (a : Z) (d : bool) (hit : Z) : res st :=
  if 99999 <? hit then Ok s
  else if bp_at s a then Ok s
  else add_fetch s a d hit.

(** cmd_bp.cc:283-320 do_event, uc.cc:3811-3833 mk_ebrk *)
Definition do_event (s : st) (a : Z) (d : bool) (hit : Z) : res st :=
  p <- make_new_brknr s ;;
  let '(s1, n) := p in
  l <- add_item (new_brk n a d hit) (el s1) ;;
  Ok (mkSt (flags s1) (fl s1) l (counter s1)).

(** cmd_exec.cc:87-96: run start end; cmd_exec.cc:286-295: next over a call *)
Definition run_to (s : st) (a : Z) : res st :=
  match get_bp_at s a with
  | Some _ => Ok s
  | None => add_fetch s a true 1
  end.

(** uc.cc:3204-3231 do_brk with SIM_GO, steps_done>0 (and no vcd break): [c] is the
    value of the condition of the breakpoint now *)
Definition do_brk (s : st) (pc : Z) (c : bool) : st * bool :=
  match get_bp_at s pc with
  | None => (s, false)
  | Some i =>
    match nth_error (fl s) i with
    | None => (s, false)
    | Some b =>
      let '(b', r) := do_hit b c in
      let s1 := mkSt (flags s) (upd (fl s) i b') (el s) (counter s) in
      if r then (if dyn b' then del_bp_at s1 pc else s1, true) else (s1, false)
    end
  end.

(** mem.cc:878-908 write, read of the event operators and uc.cc:3835-3847
    check_events: an access hits the event breakpoint number [n]; the result
    tells that it is accepted (the simulation stops) *)
Definition event_hit (s : st) (n : Z) (c : bool) : st * bool :=
  match get_bp_nr (el s) n with
  | None => (s, false)
  | Some i =>
    match nth_error (el s) i with
    | None => (s, false)
    | Some b => let '(b', r) := do_hit b c in
                (mkSt (flags s) (fl s) (upd (el s) i b') (counter s), r)
    end
  end.

(** Commands and events. *)
Inductive op :=
| Break (a : Z) (d : bool) (hit : Z)      (* break/tbreak address [hit] *)
| BreakEv (a : Z) (d : bool) (hit : Z)    (* break/tbreak memory r|w address [hit] *)
| Clear (a : Z)                           (* clear address *)
| Delete (n : Z)                          (* delete number *)
| DeleteAll                               (* delete *)
| RunTo (a : Z)                           (* run start a; next *)
| Hit (pc : Z) (c : bool)                 (* instruction fetch at pc *)
| EvHit (n : Z) (c : bool).               (* access of a watched location *)

(** DeleteAll that does not end is reported as UB *)
Definition step (s : st) (o : op) : res (st * bool) :=
  match o with
  | Break a d hit => s' <- do_fetch s a d hit ;; Ok (s', false)
  | BreakEv a d hit => s' <- do_event s a d hit ;; Ok (s', false)
  | Clear a => Ok (if bp_at s a then del_bp_at s a else s, false)     (* cmd_bp.cc:330-361 *)
  | Delete n => Ok (fst (rm_brk s n), false)                         (* cmd_bp.cc:376-398 *)
  | DeleteAll => match remove_all (length (fl s)) s with Some s' => Ok (s', false) | None => UB end
  | RunTo a => s' <- run_to s a ;; Ok (s', false)
  | Hit pc c => Ok (do_brk s pc c)
  | EvHit n c => Ok (event_hit s n c)
  end.

(** Run of a history: final state and, for each operation, whether it stopped
    the simulation. *)
Fixpoint run (s : st) (ops : list op) : res (st * list bool) :=
  match ops with
  | [] => Ok (s, [])
  | o :: t =>
    r <- step s o ;;
    q <- run (fst r) t ;;
    Ok (fst q, snd r :: snd q)
  end.
End Brk.
