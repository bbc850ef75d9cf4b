(** C16: lists behave like abstract sequences. *)
From Verif Require Import Base ListModel ListSpec ListProofs.

(** Every history of operations on a new list of any initial limit and any
    positive growth, as long as the sequence has at most 8192 elements, has the
    effect that the same history has on a mathematical sequence; the observers
    (count, at, index_of, next, top, pop) agree; a wrong index exits. *)
Theorem C16_list_refines_sequence :
  forall (A : Type) (eqb : A -> A -> bool) lim del ops,
  0 <= lim -> 1 <= del -> fits A eqb [] ops = true ->
  match srun A eqb [] ops with
  | Ok s => exists l, lrun A eqb (new_list A lim del) ops = Ok l /\ observes eqb l s
  | Exit => lrun A eqb (new_list A lim del) ops = Exit
  | UB => lrun A eqb (new_list A lim del) ops = UB
  end.
Proof. exact list_refines. Qed.
Print Assumptions C16_list_refines_sequence.

Example C16_nonvacuous :
  let ops := [LAdd Z 5; LPush Z 6; LAddAt Z 1 7; LAdd Z 8; LDisconn Z 6; LPutAt Z 0 9; LPop Z] in
  fits Z Z.eqb [] ops = true /\ srun Z Z.eqb [] ops = Ok [5; 8].
Proof. vm_compute. split; reflexivity. Qed.

(** The missing part is false: there is a history of plain additions after which
    the list does not behave like a sequence: the 8193rd addition writes outside
    of the allocated storage, whatever the initial limit and the growth is. *)
Theorem C16_capacity_deviation :
  forall (A : Type) (eqb : A -> A -> bool) (x : A) lim del, 0 <= lim -> 1 <= del ->
  exists ops s, srun A eqb [] ops = Ok s /\ lrun A eqb (new_list A lim del) ops = UB.
Proof.
  exact (fun A eqb x lim del Hl Hd => list_capacity_refuted A eqb x lim del Hl Hd).
Qed.
Print Assumptions C16_capacity_deviation.
