(** Model of the clock counters (cl_ticker, uc.cc) and of the timer commands
    (cmd_timer.cc).  Not modelled: the time in seconds (a double) except whether
    it has been initialised. *)
From Verif Require Import Base.

Definition u64 (x : Z) : Z := x mod 18446744073709551616.

(** uccl.h:51-56 ticker_type *)
Inductive tt := TAny | TIsr | TIdle | THalt.
(** uccl.h:58-79 cl_ticker. [tval]: ticks, unsigned long; [tname]: None = no name;
    [tinit]: rtime has been initialised. Names are numbers here. *)
Record ticker := mkTk { tdir : Z; ttype : tt; tval : Z; trun : bool; tuser : bool;
                        tname : option Z; tinit : bool }.
(** uc.cc:71-79 cl_ticker: rtime is not set *)
Definition new_ticker (dir : Z) (ty : tt) (n : option Z) (user : bool) : ticker :=
  mkTk dir ty 0 true user n false.
(** uc.cc:83-96 tick *)
Definition tk_tick (t : ticker) (nr : Z) : ticker :=
  mkTk (tdir t) (ttype t) (if 0 <=? tdir t then u64 (tval t + nr) else u64 (tval t - nr))
    (trun t) (tuser t) (tname t) (tinit t).
(** uccl.h:75 set: the parameter is an int *)
Definition tk_set (t : ticker) (nr : Z) : ticker :=
  mkTk (tdir t) (ttype t) (u64 (i32 nr)) (trun t) (tuser t) (tname t) true.
Definition tk_run (t : ticker) (b : bool) : ticker :=
  mkTk (tdir t) (ttype t) (tval t) b (tuser t) (tname t) (tinit t).

(** State of the processor: uccl.h: stGO, stIDLE, stPD *)
Inductive cpu := StGo | StIdle | StPd.
(** [isr]: the level on top of it_levels is >= 0; [ctrs]: the list of counters *)
Record tst := mkT { ctrs : list (option ticker); isr : bool; cst : cpu }.

(** the condition in uc.cc:3058-3081 tick *)
Definition counts (ty : tt) (isr : bool) (s : cpu) : bool :=
  match ty with
  | TAny => true
  | TIsr => isr
  | TIdle => match s with StIdle => true | _ => false end
  | THalt => match s with StPd => true | _ => false end
  end.
(** uc.cc:3058-3081 tick; int overflow of cycles * clock_per_cycle() is undefined *)
Definition uc_tick (cpc cycles : Z) (x : tst) : res tst :=
  let clocks := cycles * cpc in
  if (clocks <? -2147483648) || (2147483647 <? clocks) then UB
  else Ok (mkT (map (fun o => match o with
                   | Some t => if trun t && counts (ttype t) (isr x) (cst x)
                               then Some (tk_tick t clocks) else Some t
                   | None => None end) (ctrs x)) (isr x) (cst x)).

(** timers are given by number or by name *)
Inductive tid := ByNr (n : Z) | ByName (n : Z).
Definition has_name (n : Z) (o : option ticker) : bool :=
  match o with
  | Some t => match tname t with Some m => m =? n | None => false end
  | None => false
  end.
Fixpoint find_name (n : Z) (l : list (option ticker)) (i : Z) : option Z :=
  match l with
  | [] => None
  | o :: t => if has_name n o then Some i else find_name n t (i + 1)
  end.
(** index of the timer found by uc.cc:3095-3101 get_counter and uc.cc:3103-3119
    get_counter (numbers are positive there, cmd_timer.cc:70-77) *)
Definition get_counter (x : tst) (i : tid) : option Z :=
  match i with
  | ByNr n => if Z.of_nat (length (ctrs x)) <=? n then None
              else match nth (Z.to_nat n) (ctrs x) None with Some _ => Some n | None => None end
  | ByName n => find_name n (ctrs x) 0
  end.
Definition put_at (x : tst) (i : Z) (o : option ticker) : tst :=
  mkT (upd (ctrs x) (Z.to_nat i) o) (isr x) (cst x).
(** uc.cc:3121-3127 add_counter; a list has at most 8192 elements (C16) *)
Definition add_nr (x : tst) (t : ticker) (n : Z) : res tst :=
  let pad := Z.to_nat (n + 1 - Z.of_nat (length (ctrs x))) in
  if 8192 <? Z.of_nat (length (ctrs x) + pad) then UB
  else Ok (put_at (mkT (ctrs x ++ repeat None pad) (isr x) (cst x)) n (Some t)).
Fixpoint first_free (l : list (option ticker)) (i : Z) : option Z :=
  match l with
  | [] => None
  | None :: _ => Some i
  | Some _ :: t => first_free t (i + 1)
  end.
(** uc.cc:3129-3146 add_counter *)
Definition add_name (x : tst) (t : ticker) : res tst :=
  let c := match ctrs x with [] => [None] | c => c end in
  match first_free (tl c) 1 with
  | Some i => Ok (put_at (mkT c (isr x) (cst x)) i (Some t))
  | None => if 8192 <=? Z.of_nat (length c) then UB
            else Ok (mkT (c ++ [Some t]) (isr x) (cst x))
  end.

(** The timer commands. Negative or zero numbers are refused, cmd_timer.cc:70-77. *)
Definition bad_id (i : tid) : bool := match i with ByNr n => n <=? 0 | ByName _ => false end.
Definition tk_at (x : tst) (i : Z) : option ticker := nth (Z.to_nat i) (ctrs x) None.
Definition modify (x : tst) (i : tid) (f : ticker -> ticker) : tst :=
  if bad_id i then x else
  match get_counter x i with
  | Some k => match tk_at x k with Some t => put_at x k (Some (f t)) | None => x end
  | None => x
  end.
(** cmd_timer.cc:96-155 cl_timer_add_cmd *)
Definition cmd_add (x : tst) (i : tid) (dir : Z) (ty : tt) : res tst :=
  if bad_id i then Ok x else
  match get_counter x i with
  | Some _ => Ok x
  | None => match i with
            | ByNr n => add_nr x (new_ticker dir ty None true) n
            | ByName n => add_name x (new_ticker dir ty (Some n) true)
            end
  end.
(** cmd_timer.cc:168-193 cl_timer_delete_cmd, uc.cc:3148-3158 del_counter,
    uc.cc:3160-3179 del_counter. (The first one deletes the object in slot 0 of the
    list, which is always empty: the counter is removed, its memory is not freed.) *)
Definition cmd_del (x : tst) (i : tid) : tst :=
  if bad_id i then x else
  match get_counter x i with
  | Some k => match tk_at x k with
              | Some t => if tuser t then put_at x k None else x
              | None => x end
  | None => x
  end.

(** uc.cc:773-781 reset: ticks, isr_ticks, idle_ticks and halt_ticks, which are in
    slots 1 to 4, made by uc.cc:657-665 cl_uc *)
Definition reset_ctr (x : tst) : tst :=
  mkT (match ctrs x with
       | z :: a :: b :: c :: d :: t =>
           let f o := match o with Some t => Some (tk_set t 0) | None => None end in
           z :: f a :: f b :: f c :: f d :: t
       | l => l end) false StGo.

Inductive tev :=
| Tick (cycles : Z)                    (* time passes *)
| SetIsr (b : bool) | SetCpu (s : cpu) (* an interrupt is accepted / left, mode changes *)
| TAdd (i : tid) (dir : Z) (ty : tt) | TDel (i : tid)
| TRun (i : tid) (b : bool) | TSet (i : tid) (n : Z)
| TReset.
Definition tstep (cpc : Z) (x : tst) (e : tev) : res tst :=
  match e with
  | Tick c => uc_tick cpc c x
  | SetIsr b => Ok (mkT (ctrs x) b (cst x))
  | SetCpu s => Ok (mkT (ctrs x) (isr x) s)
  | TAdd i d ty => cmd_add x i d ty
  | TDel i => Ok (cmd_del x i)
  | TRun i b => Ok (modify x i (fun t => tk_run t b))
  | TSet i n => Ok (modify x i (fun t => tk_set t n))
  | TReset => Ok (reset_ctr x)
  end.
Fixpoint trun_all (cpc : Z) (x : tst) (es : list tev) : res tst :=
  match es with
  | [] => Ok x
  | e :: t => y <- tstep cpc x e ;; trun_all cpc y t
  end.

(** names of the built in counters *)
Definition n_time := -1.  Definition n_isr := -2.  Definition n_idle := -3.  Definition n_halt := -4.
(** uc.cc:657-665 cl_uc *)
Definition tinit_st : tst :=
  mkT [None; Some (new_ticker 1 TAny (Some n_time) false); Some (new_ticker 1 TIsr (Some n_isr) false);
       Some (new_ticker 1 TIdle (Some n_idle) false); Some (new_ticker 1 THalt (Some n_halt) false)] false StGo.
