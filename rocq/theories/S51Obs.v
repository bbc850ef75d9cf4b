(** What a user sees of a state of S51Model, and the states and configurations
    the theorems are about. *)
From Verif Require Import Base S51Model S51Spec.

Definition view (s : st) : arch := mkArch (pc s) (iram s) (sfr s) (xram s).

(** States and configurations the theorems are about: bytes are bytes, the
    program counter is in the code space, the register cells are decoded to
    the bank PSW selects. *)
Definition wf_cfg (G : cfg) : Prop :=
  (forall a, 0 <= rom G a < 256) /\ (isize G = 128 \/ isize G = 256).
Definition wf (s : st) : Prop :=
  0 <= pc s < 65536 /\ (forall a, 0 <= iram s a < 256) /\ (forall a, 0 <= sfr s a < 256) /\
  (forall a, 0 <= xram s a < 256) /\ 0 <= hole s < 256 /\ bank s = (sfr s PSW / 8) mod 4.

(** n instructions *)
Fixpoint steps (G : cfg) (n : nat) (s : st) : st :=
  match n with O => s | S n => steps G n (inst_step G s) end.

(** Memory and registers are bytes; the program counter is anywhere up to
    10000h (any state the simulator can be in) *)
Definition any_state (s : st) : Prop := wf (set_pc s 0) /\ 0 <= pc s <= 65536.
