(** Specification of breakpoints: what the user sees. *)
From Verif Require Import Base BrkModel.

(** k-th hit (k = 1, 2, ...) of a breakpoint of hit count n, the condition being
    [c] at that time *)
Definition accepts (n k : Z) (c : bool) : bool := ((n <? 1) || (k mod n =? 0)) && c.

(** condition values and results of the fetches at address [a] in a history *)
Fixpoint hits_of (a : Z) (ops : list op) (rs : list bool) : list (bool * bool) :=
  match ops, rs with
  | Hit pc c :: t, r :: rt => if pc =? a then (c, r) :: hits_of a t rt else hits_of a t rt
  | _ :: t, _ :: rt => hits_of a t rt
  | _, _ => []
  end.

(** same for the event breakpoint number [n] *)
Fixpoint evhits_of (n : Z) (ops : list op) (rs : list bool) : list (bool * bool) :=
  match ops, rs with
  | EvHit m c :: t, r :: rt => if m =? n then (c, r) :: evhits_of n t rt else evhits_of n t rt
  | _ :: t, _ :: rt => evhits_of n t rt
  | _, _ => []
  end.

(** operations which may delete the breakpoint number [n] at address [a] *)
Definition deletes (a n : Z) (o : op) : Prop :=
  o = Clear a \/ o = Delete n \/ o = DeleteAll.

Definition without (n : Z) (l : list brk) : list brk := filter (fun b => negb (nr b =? n)) l.

(** addresses of the fetch breakpoints made by an operation *)
Definition op_valid (start size : Z) (o : op) : Prop :=
  match o with
  | Break a _ _ | RunTo a => start <= a < start + size
  | _ => True
  end.
