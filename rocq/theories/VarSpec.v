(** Specification of the symbol table: a set of variables, kept as a list in order
    of their addition. *)
From Verif Require Import Base SortedSpec VarModel.

Definition name_is (n : list Z) (v : var) : bool := if list_eq_dec Z.eq_dec (vname v) n then true else false.
(** a label made by the analyzer (name begins with a dot) at the place of [v] *)
Definition auto_at (v w : var) : bool := is_auto w && same_place w v.
Definition vspec_step (s : list var) (o : vop) : list var :=
  match o with
  | VAdd v => filter (fun w => negb (name_is (vname v) w) && negb (auto_at v w)) s ++ [v]
  | VDel n => filter (fun w => negb (name_is n w)) s
  | VMax => s
  end.
Definition vspec (ops : list vop) : list var := fold_left vspec_step ops [].
Definition lookup (s : list var) (n : list Z) : option var := find (name_is n) s.

Definition is_vadd (o : vop) : bool := match o with VAdd _ => true | _ => false end.
Definition added (ops : list vop) : list var := flat_map (fun o => match o with VAdd v => [v] | _ => [] end) ops.

(** uids are small non-negative numbers, addresses are below 2^31, bit numbers are
    below 64 (-1: the whole cell) *)
Definition wf_var (v : var) : Prop :=
  match vmem v with
  | Some u => 0 <= u < 1000000 /\ 0 <= vaddr v < 2147483648 /\ -1 <= vbl v <= vbh v /\ vbh v < 64
  | None => True
  end.
(** Every addition is a new object. *)
Definition wf_hist (ops : list vop) : Prop :=
  Forall wf_var (added ops) /\ NoDup (map vid (added ops)) /\ Z.of_nat (length (added ops)) <= 8192.
Definition longest (s : list var) : Z := fold_right (fun v m => Z.max (slen (vname v)) m) 0 s.
