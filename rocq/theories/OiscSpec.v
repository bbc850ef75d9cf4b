(** What the designs of the one instruction processors say (the tables in misc16.cc, em.cc and urisc.cc), without the
    simulator's cells and operators.  Words are integers from 0 to 65535. *)
From Verif Require Import Base.

(** registers and memory; the sixteen lowest cells are memory too: they keep what was last written to them *)
Record mach := mkM { PC : Z; A : Z; C : bool; P : Z; M : Z -> Z }.
Definition setPC v x := mkM v (A x) (C x) (P x) (M x).
Definition setA v x := mkM (PC x) v (C x) (P x) (M x).
Definition setC v x := mkM (PC x) (A x) v (P x) (M x).
Definition setP v x := mkM (PC x) (A x) (C x) v (M x).
Definition put a v x := mkM (PC x) (A x) (C x) (P x) (fun i => if i =? a then v else M x i).
Definition W : Z := 65536.
Definition negative (v : Z) : bool := W / 2 <=? v.

(** ** the accumulator's operations: new accumulator and carry *)
Definition alu (d v a : Z) (c : bool) : option (Z * bool) :=
  if d =? 8 then Some (v, c)
  else if d =? 9 then Some ((a - v) mod W, a <? v)                       (* subtraction, borrow *)
  else if d =? 11 then Some ((a + v) mod W, W <=? a + v)                 (* addition, carry *)
  else if d =? 12 then Some (Z.lxor a v, c)
  else if d =? 13 then Some (Z.lor a v, c)
  else if d =? 14 then Some (Z.land a v, c)
  else if d =? 15 then Some (v / 2 + (if c then W / 2 else 0), Z.odd v)  (* through the carry *)
  else None.
(** does a write to d jump? *)
Definition jumps (d : Z) (x : mach) : bool :=
  (d =? 0) || (d =? 1) && negative (A x) || (d =? 2) && (A x =? 0) || (d =? 4) && C x.

(** ** MISC16 *)
(** a source which is not [A] *)
Definition direct (a : Z) (x : mach) : Z :=
  if a =? 0 then PC x else if a =? 1 then (PC x + 2) mod W else if a =? 2 then (PC x + 4) mod W else if a =? 3 then (PC x + 6) mod W
  else if a =? 8 then A x else M x a.
Definition source (a : Z) (x : mach) : Z :=
  if a =? 7 then (if A x =? 7 then 7 else direct (A x) x) else direct a x.
(** a destination which is not [A] *)
Definition into (d v : Z) (x : mach) : mach :=
  match alu d v (A x) (C x) with
  | Some (r, c) => put d r (setC c (setA r x))
  | None => put d v (if jumps d x then setPC v x else x)
  end.
Definition destination (d v : Z) (x : mach) : mach :=
  if d =? 7 then put 7 v (if A x =? 7 then x else into (A x) v x) else into d v x.
Definition move (x : mach) : mach :=
  let s := source (PC x) x in
  let d := source ((PC x + 1) mod W) x in
  let v := source s x in
  destination d v (setPC ((PC x + 2) mod W) x).

(** ** extended MISC16: a source may move P or A *)
Inductive gives : Z -> mach -> Z -> mach -> Prop :=
| g_direct a x : 0 <= a < W -> a <> 5 -> a <> 6 -> a <> 7 -> a <> 10 -> gives a x (direct a x) x
| g_P x : gives 5 x (P x) x
| g_pop x v y : gives (P x) (setP ((P x + 1) mod W) x) v y -> gives 6 x v y
| g_self x : A x = 7 -> gives 7 x 7 x
| g_ind x v y : A x <> 7 -> gives (A x) x v y -> gives 7 x v y
| g_inc x v y : gives (A x) (setA ((A x + 1) mod W) x) v y -> gives 10 x v y.
Inductive takes : Z -> Z -> mach -> mach -> Prop :=
| t_into d v x : 0 <= d < W -> d <> 5 -> d <> 6 -> d <> 7 -> d <> 10 -> takes d v x (into d v x)
| t_P v x : takes 5 v x (put 5 v (setP v x))
| t_push v x y : takes ((P x - 1) mod W) v (setP ((P x - 1) mod W) x) y -> takes 6 v x (put 6 v y)
| t_self v x : A x = 7 -> takes 7 v x (put 7 v x)
| t_ind v x y : A x <> 7 -> takes (A x) v x y -> takes 7 v x (put 7 v y)
| t_inc v x y : takes (A x) v (setA ((A x + 1) mod W) x) y -> takes 10 v x (put 10 v y).
Definition moves (x y : mach) : Prop :=
  exists s x1 d x2 v x3, gives (PC x) x s x1 /\ gives ((PC x1 + 1) mod W) x1 d x2 /\ gives s x2 v x3 /\
  takes d v (setPC ((PC x3 + 2) mod W) x3) y.

(** ** plain move, without registers *)
Definition plain (x : mach) : mach :=
  let v := M x (M x (PC x)) in put (M x ((PC x + 1) mod W)) v (setPC ((PC x + 2) mod W) x).

(** ** Ultimate RISC: the accumulator after a value was sent n times to one of its eight addresses *)
Definition after (n : Z) (d v acc : Z) : Z :=
  if d =? 0xfff0 then v                                                 (* acc = data *)
  else if d =? 0xfff1 then (acc - n * v) mod W                          (* acc = acc - data *)
  else if d =? 0xfff2 then (if Z.even n then acc else (v - acc) mod W)  (* acc = data - acc *)
  else if d =? 0xfff3 then (acc + n * v) mod W
  else if d =? 0xfff4 then (if Z.even n then acc else Z.lxor acc v)
  else if d =? 0xfff5 then Z.land acc v
  else if d =? 0xfff6 then Z.lor acc v
  else v / 2.
(** flags: bit 3 overflow, bit 2 negative, bit 1 carry, bit 0 zero *)
Definition flags (f : Z) (c z n o : bool) : Prop := Z.testbit f 1 = c /\ Z.testbit f 0 = z /\ Z.testbit f 2 = n /\ Z.testbit f 3 = o.
(** what a condition address gives (without the factor two) *)
Definition condition (a f : Z) : bool :=
  let o := Z.testbit f 3 in let n := Z.testbit f 2 in let c := Z.testbit f 1 in let z := Z.testbit f 0 in
  if a =? 0xfff1 then n else if a =? 0xfff2 then z else if a =? 0xfff3 then o else if a =? 0xfff4 then c
  else if a =? 0xfff5 then xorb n o else if a =? 0xfff6 then xorb n o || z else xorb c (negb z).

(** ** names of the disassembler: what they promise *)
From Coq Require Import String.
Inductive src_means : string -> mach -> Z -> Prop :=
| sm_pc x : src_means "PC" x (PC x)
| sm_pc2 x : src_means "PC+2" x ((PC x + 2) mod W)
| sm_pc4 x : src_means "PC+4" x ((PC x + 4) mod W)
| sm_pc8 x : src_means "PC+8" x ((PC x + 8) mod W)
| sm_a x : src_means "A" x (A x)
| sm_ind x : 16 <= A x -> src_means "[A]" x (M x (A x)).
Inductive dst_means : string -> Z -> mach -> mach -> Prop :=
| dm_pc v x : dst_means "PC" v x (setPC v x)
| dm_neg v x : dst_means "PC(A<0)" v x (if 32768 <=? A x then setPC v x else x)
| dm_zero v x : dst_means "PC(A==0)" v x (if A x =? 0 then setPC v x else x)
| dm_c v x : dst_means "PC(C)" v x (if C x then setPC v x else x)
| dm_ind v x : 16 <= A x -> dst_means "[A]" v x (put (A x) v x)
| dm_a v x : dst_means "A" v x (setA v x)
| dm_sub v x : dst_means "A-" v x (setC (A x <? v) (setA ((A x - v) mod 65536) x))
| dm_add v x : dst_means "A+" v x (setC (65536 <=? A x + v) (setA ((A x + v) mod 65536) x))
| dm_xor v x : dst_means "A^" v x (setA (Z.lxor (A x) v) x)
| dm_or v x : dst_means "A|" v x (setA (Z.lor (A x) v) x)
| dm_and v x : dst_means "A&" v x (setA (Z.land (A x) v) x)
| dm_shr v x : dst_means ">>" v x (setC (Z.odd v) (setA (v / 2 + (if C x then 32768 else 0)) x)).
