(** Common definitions: fixed width arithmetic on [Z], finite sweeps, outcomes. *)
From Coq Require Export ZArith List Bool Lia.
From Coq Require Export ZifyBool ZifyNat.
Export ListNotations.
Global Open Scope Z_scope.
Global Ltac Zify.zify_post_hook ::= Z.div_mod_to_equations.

(** Outcome of a C++ function: a normal result, a call of exit(), or undefined
    behaviour (out of bounds access, NULL dereference, use of uninitialised
    data).  Undefined behaviour is never turned into a normal value. *)
Inductive res (A : Type) : Type :=
| Ok (a : A)
| Exit            (* the program calls exit() *)
| UB.             (* undefined behaviour *)
Arguments Ok {A} a.
Arguments Exit {A}.
Arguments UB {A}.

Definition rbind {A B} (r : res A) (f : A -> res B) : res B :=
  match r with Ok a => f a | Exit => Exit | UB => UB end.
Notation "x <- e1 ;; e2" := (rbind e1 (fun x => e2))
  (at level 61, e1 at next level, right associativity).

(** Unsigned wrap-around of the C types u8_t, u16_t, u32_t (stypes.h:52-57). *)
Definition u8  (x : Z) : Z := x mod 256.
Definition u16 (x : Z) : Z := x mod 65536.
Definition u32 (x : Z) : Z := x mod 4294967296.
(** Conversion to the signed types i8_t, i16_t, int (two's complement). *)
Definition i8  (x : Z) : Z := let y := u8 x in if y <? 128 then y else y - 256.
Definition i16 (x : Z) : Z := let y := u16 x in if y <? 32768 then y else y - 65536.
Definition i32 (x : Z) : Z := let y := u32 x in if y <? 2147483648 then y else y - 4294967296.

Definition is_u8  (x : Z) : Prop := 0 <= x < 256.
Definition is_u16 (x : Z) : Prop := 0 <= x < 65536.
Definition is_u32 (x : Z) : Prop := 0 <= x < 4294967296.

Lemma u8_range x : 0 <= u8 x < 256.
Proof. unfold u8. lia. Qed.
Lemma u16_range x : 0 <= u16 x < 65536.
Proof. unfold u16. lia. Qed.
Lemma u32_range x : 0 <= u32 x < 4294967296.
Proof. unfold u32. lia. Qed.
Lemma u8_id x : 0 <= x < 256 -> u8 x = x.
Proof. unfold u8. intros. lia. Qed.
Lemma u16_id x : 0 <= x < 65536 -> u16 x = x.
Proof. unfold u16. intros. lia. Qed.
Lemma u32_id x : 0 <= x < 4294967296 -> u32 x = x.
Proof. unfold u32. intros. lia. Qed.

(** Finite sweeps: [zrange n] is 0, 1, ..., n-1. *)
Definition zrange (n : nat) : list Z := map Z.of_nat (seq 0 n).

Lemma in_zrange n x : In x (zrange n) <-> 0 <= x < Z.of_nat n.
Proof.
  unfold zrange. rewrite in_map_iff. split.
  - intros [k [Hk Hin]]. apply in_seq in Hin. lia.
  - intros H. exists (Z.to_nat x). split; [lia|]. apply in_seq. lia.
Qed.

Lemma sweep1 (P : Z -> bool) n :
  forallb P (zrange n) = true -> forall x, 0 <= x < Z.of_nat n -> P x = true.
Proof.
  intros H x Hx. rewrite forallb_forall in H. apply H. apply in_zrange. exact Hx.
Qed.

Lemma sweep2 (P : Z -> Z -> bool) n m :
  forallb (fun x => forallb (P x) (zrange m)) (zrange n) = true ->
  forall x y, 0 <= x < Z.of_nat n -> 0 <= y < Z.of_nat m -> P x y = true.
Proof.
  intros H x y Hx Hy.
  pose proof (sweep1 _ _ H x Hx) as H1. cbv beta in H1.
  exact (sweep1 _ _ H1 y Hy).
Qed.

Lemma land_ones_mod x w : 0 <= w -> Z.land x (Z.ones w) = x mod 2 ^ w.
Proof. intros. apply Z.land_ones. assumption. Qed.

(** update of one element of a list *)
Fixpoint upd {A} (l : list A) (n : nat) (x : A) : list A :=
  match l, n with
  | [], _ => []
  | _ :: t, O => x :: t
  | h :: t, S k => h :: upd t k x
  end.

Lemma upd_length {A} (l : list A) n x : length (upd l n x) = length l.
Proof. revert n; induction l as [|h t IH]; intros [|k]; simpl; auto. Qed.

Lemma nth_error_upd_same {A} (l : list A) n x :
  (n < length l)%nat -> nth_error (upd l n x) n = Some x.
Proof.
  revert n; induction l as [|h t IH]; intros [|k] H; simpl in *; try lia; auto.
  apply IH; lia.
Qed.

Lemma nth_error_upd_other {A} (l : list A) n m x :
  n <> m -> nth_error (upd l n x) m = nth_error l m.
Proof.
  revert n m; induction l as [|h t IH]; intros [|k] [|j] H; simpl; try congruence; auto.
Qed.

Lemma upd_split {A} (l : list A) n x :
  (n < length l)%nat -> upd l n x = firstn n l ++ x :: skipn (S n) l.
Proof.
  revert n; induction l as [|h t IH]; intros [|k] H; simpl in *; try lia; auto.
  rewrite IH by lia. reflexivity.
Qed.
