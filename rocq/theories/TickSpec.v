(** Specification of clock counters. *)
From Verif Require Import Base TickModel.

(** The clocks of a history which a counter of type [ty] must count: those that
    pass while the processor serves an interrupt / is idle / is halted. *)
Fixpoint clocks_of (cpc : Z) (ty : tt) (in_isr : bool) (mode : cpu) (es : list tev) : Z :=
  match es with
  | [] => 0
  | Tick c :: t =>
      (if match ty, mode with
          | TAny, _ => true
          | TIsr, _ => in_isr
          | TIdle, StIdle => true
          | THalt, StPd => true
          | _, _ => false end then c * cpc else 0) + clocks_of cpc ty in_isr mode t
  | SetIsr b :: t => clocks_of cpc ty b mode t
  | SetCpu m :: t => clocks_of cpc ty in_isr m t
  | TReset :: t => clocks_of cpc ty false StGo t
  | _ :: t => clocks_of cpc ty in_isr mode t
  end.

(** does the command designate the timer [t] in slot [k] *)
Definition designates (k : Z) (t : ticker) (i : tid) : Prop :=
  match i with ByNr n => n = k | ByName n => tname t = Some n end.
(** the event is not a delete, start, stop or set of this timer, nor a reset of a
    built in one *)
Definition leaves_alone (k : Z) (t : ticker) (e : tev) : Prop :=
  match e with
  | TDel i | TRun i _ | TSet i _ => ~ designates k t i
  | TReset => 4 < k
  | _ => True
  end.

(** no two timers have the same name *)
Definition names_unique (x : tst) : Prop :=
  forall i j t u n, nth i (ctrs x) None = Some t -> nth j (ctrs x) None = Some u ->
  tname t = Some n -> tname u = Some n -> i = j.
