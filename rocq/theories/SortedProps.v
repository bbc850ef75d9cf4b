(** C15: sorted collections stay sorted and searchable. *)
From Verif Require Import Base ListModel ListSpec SortedModel SortedSpec SortedProofs.

(** After any history of insertions and removals (with at most 8192
    insertions, see C16) the collection is the sequence which the
    specification gives, ordered by its key - strictly, when duplicates are not
    allowed -, and search(k) tells whether an element with key k is present and
    returns the number of elements with a smaller key: the index of the first
    element with the key, or the insertion point.  Removal at a bad index exits. *)
Theorem C15_sorted_history :
  forall (A K : Type) eqb (key_of : A -> K) cmp dup lim del ops,
  preorder cmp -> 0 <= lim -> 1 <= del -> nadds A ops <= max_list_size ->
  match spec_run A K eqb key_of cmp dup [] ops with
  | Ok s => ordered A K key_of cmp dup s /\
      exists l, srun A K eqb key_of cmp dup (new_list A lim del) ops = Ok l /\
        observes eqb l s /\
        forall k, search A K key_of cmp dup l k =
          Ok (has_key A K key_of cmp s k, Z.of_nat (nless A K key_of cmp s k))
  | _ => srun A K eqb key_of cmp dup (new_list A lim del) ops = Exit
  end.
Proof. exact sorted_history. Qed.
Print Assumptions C15_sorted_history.

(** index_of returns the first position of the very item or -1. *)
Theorem C15_index_of :
  forall (A K : Type) eqb (key_of : A -> K) cmp lim del ops s l x,
  preorder cmp -> (forall a b, eqb a b = true <-> a = b) -> 0 <= lim -> 1 <= del ->
  nadds A ops <= max_list_size ->
  spec_run A K eqb key_of cmp true [] ops = Ok s ->
  srun A K eqb key_of cmp true (new_list A lim del) ops = Ok l ->
  exists j, sindex_of A K eqb key_of cmp true l x = Ok j /\
    ((j = -1 /\ ~ In x s) \/
     (0 <= j /\ nth_error s (Z.to_nat j) = Some x /\
      forall k, (k < Z.to_nat j)%nat -> nth_error s k <> Some x)).
Proof. exact sorted_index_of. Qed.
Print Assumptions C15_index_of.

(** The comparison used by the string collections (strcmp) qualifies. *)
Theorem C15_strcmp_is_order : preorder strcmp.
Proof. exact strcmp_preorder. Qed.
Print Assumptions C15_strcmp_is_order.

Example C15_nonvacuous :
  let ops := [SAdd _ [98]; SAdd _ [97; 99]; SAdd _ [98]; SAdd _ [97]; SDisconnAt _ 1; SAdd _ [100]] in
  spec_run _ _ (fun _ _ => false) (fun x => x) strcmp false [] ops = Ok [[97]; [98]; [100]] /\
  spec_run _ _ (fun _ _ => false) (fun x => x) strcmp true [] ops = Ok [[97]; [98]; [98]; [100]].
Proof. vm_compute. split; reflexivity. Qed.
