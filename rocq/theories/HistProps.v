(** C17: execution history. The buffer of the simulator has len = 10001 slots;
    the theorems hold for every length of at least 2. *)
From Verif Require Import Base HistModel HistSpec HistProofs.

(** Every sequence of executed instructions, mixed with `history clear' (Keep 0)
    and keep requests: the listing of the last [nr] elements, the number of used
    slots and of recorded instructions are those of the ideal history with room
    for len-1 runs. (Less than 2^31 operations: the repeat counter is an int.) *)
Theorem C17_history_is_ideal : forall len ops,
  2 <= len -> Z.of_nat (length ops) < 2^31 ->
  exists x, do_hops len new_hist ops = Ok x /\
    let l := ideal (len - 1) ops in
    get_used len x = Z.of_nat (length l) /\
    get_used len x <= len - 1 /\
    get_insts len x = Ok (u32 (fold_right (fun e s => snd e + s) 0 l)) /\
    forall nr, 1 <= nr -> list_hist len x nr = Ok (newest nr l).
Proof.
  intros len ops Hlen Hn. change (2^31) with 2147483648 in Hn.
  destruct (ops_ok len Hlen ops new_hist [] 0) as (x & E & R).
  - apply rep_new; exact Hlen.
  - constructor.
  - lia.
  - lia.
  - exists x. split; [exact E|]. cbv zeta. fold (ideal (len - 1) ops) in R.
    split; [apply (rused _ _ _ R)|]. split; [rewrite (rused _ _ _ R); apply (rep_len len Hlen _ _ R)|].
    split; [apply (insts_ok len Hlen _ _ R)|]. intros nr Hnr. apply (list_ok len Hlen); auto.
Qed.

(** With no clearing this is the tail of the run-length encoding of the trace. *)
Theorem C17_history_is_tail_of_trace : forall len trace,
  2 <= len -> Z.of_nat (length trace) < 2^31 ->
  exists x, do_hops len new_hist (List.map Put trace) = Ok x /\
    forall nr, 1 <= nr -> list_hist len x nr = Ok (newest nr (newest (len - 1) (rle trace))).
Proof.
  intros len trace Hlen Hn.
  destruct (C17_history_is_ideal len (List.map Put trace) Hlen) as (x & E & _ & _ & _ & L).
  - rewrite map_length. exact Hn.
  - exists x. split; [exact E|]. intros nr Hnr. rewrite L by exact Hnr. rewrite ideal_rle by lia. reflexivity.
Qed.

Example C17_example :
  rle [1;2;2;2;3;1;1;4;5] = [(1,1); (2,3); (3,1); (1,2); (4,1); (5,1)] /\
  match do_hops 4 new_hist (List.map Put [1;2;2;2;3;1;1;4;5]) with
  | Ok x => list_hist 4 x 10 = Ok [(1,2); (4,1); (5,1)] /\ list_hist 4 x 2 = Ok [(4,1); (5,1)]
  | _ => False end.
Proof. vm_compute. auto. Qed.

(** `history list 0' (and negative numbers) must show nothing; it walks out of
    the recorded elements. *)
Theorem C17_list_zero_deviation :
  match do_hops 10001 new_hist [Put 1; Put 2] with
  | Ok x => list_hist 10001 x 0 = UB | _ => False end.
Proof. vm_compute. reflexivity. Qed.

(** A loop of one instruction executed 2^31 times overflows the counter. *)
Theorem C17_counter_overflow_deviation : forall x,
  t x <> h x -> arr x (h x) = Some (5, 2147483647) -> put 10001 x 5 = UB.
Proof.
  intros x H1 H2. unfold put. replace (t x =? h x) with false by lia. rewrite H2. reflexivity.
Qed.

Print Assumptions C17_history_is_ideal.
Print Assumptions C17_history_is_tail_of_trace.
Print Assumptions C17_counter_overflow_deviation.
Print Assumptions C17_list_zero_deviation.
