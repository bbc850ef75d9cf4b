(** Specification of interrupt acceptance. *)
From Verif Require Import Base IrqModel.

Section S.
Variable priority_of : regs -> Z -> Z.
Variable priority_main : regs -> Z.

(** the source may be accepted: active, enabled and pending, not a slave, NMI or
    interrupts are enabled, and its priority is higher than that of what is running *)
Definition qualifies (is_en : bool) (r : regs) (lv : list Z) (s : src) : Prop :=
  active s = true /\ enabled r s = true /\ pending r s = true /\ parent s = None /\
  (nmi s = Some true \/ is_en = true) /\
  (match lv with
   | lev :: _ => if 0 <=? lev then lev < priority_of r (u8 (nuof s)) else priority_main r < priority_of r (u8 (nuof s))
   | [] => priority_main r < priority_of r (u8 (nuof s))
   end).
End S.

(** every source has an initialised nmi field *)
Definition nmi_set (l : list src) : Prop := Forall (fun s => nmi s <> None) l.

(** MCS51: enabled, pending and not blocked by a service of the same or higher level *)
Definition qualifies51 (IP : Z) (r : regs) (lv : list Z) (s : src) : Prop :=
  active s = true /\ enabled r s = true /\ pending r s = true /\
  (match lv with
   | lev :: _ => lev < 0 \/ lev < (if Z.land (r IP) (u8 (ie_mask s)) =? 0 then 0 else 1)
   | [] => True
   end).

(** the levels of nested services, strictly increasing upwards, main at the bottom *)
Fixpoint nested (lv : list Z) : Prop :=
  match lv with
  | [] => False
  | [l] => l = -1
  | l :: (m :: _) as t => m < l /\ nested t
  end.
