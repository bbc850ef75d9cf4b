(** More about the 8080 and 8085: decimal numbers, and the further instructions of the 8085. *)
From Verif Require Import Base I80Model I80Spec.

(** the byte that writes a number below 100 with two decimal digits *)
Definition bcd (n : Z) : Z := 16 * (n / 10) + n mod 10.
(** carry and auxiliary carry replaced *)
Definition with_flags (a c : bool) (y : M) : M := setf (fS y) (fZ y) a (fP y) c y.
(** two instructions *)
Definition two (m85 : bool) (lim dum : Z) (s : cpu) : cpu :=
  fst (exec_inst m85 lim dum false (fst (exec_inst m85 lim dum false s))).
(** any number of instructions; [dum] may change from one to the next, and breakpoints may
    be hit *)
Inductive reaches (m85 : bool) (lim : Z) : cpu -> cpu -> Prop :=
| r_refl s : reaches m85 lim s s
| r_step s dum hit t : reaches m85 lim s t -> reaches m85 lim s (fst (exec_inst m85 lim dum hit t)).
(** instructions that store two bytes on the stack *)
Definition push_code (m85 : bool) (s : cpu) : bool :=
  let c := mem s (PC s) in
  ((192 <=? c) && (c mod 8 =? 5) && Z.even (c / 8)) || call_code m85 c ||
  ((192 <=? c) && (c mod 8 =? 4) && true_cond (c / 8 mod 8) (abs s)) ||
  m85 && (c =? 203) && Z.testbit (F s) 1.
(** the instruction goes to another place than the next instruction *)
Definition elsewhere (m85 : bool) (s : cpu) : bool :=
  let c := mem s (PC s) in
  jump_code m85 c || taken (abs s) || m85 && (c =? 203) && Z.testbit (F s) 1 ||
  m85 && (c =? 221) && Z.testbit (F s) 5 || m85 && (c =? 253) && negb (Z.testbit (F s) 5).
(** the instruction calls *)
Definition calls_now (m85 : bool) (s : cpu) : bool :=
  let c := mem s (PC s) in
  call_code m85 c || (192 <=? c) && (c mod 8 =? 4) && true_cond (c / 8 mod 8) (abs s) ||
  m85 && (c =? 203) && Z.testbit (F s) 1.
