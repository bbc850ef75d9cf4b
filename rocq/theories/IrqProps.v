(** C22, C23, C29, C33, C34: interrupts. *)
From Verif Require Import Base IrqModel IrqSpec IrqProofs.

(** -- C22: acceptance -- *)
(** For every list of sources (in polling order), register contents and stack of
    levels: after the slaves passed their request over, if no source qualifies
    nothing is accepted and nothing changes; otherwise the first qualifying
    source is accepted, its request is cleared and its priority is the new
    level. *)
Theorem C22_first_qualifying_accepted :
  forall priority_of priority_main it_enabled l x, nmi_set l ->
  let en := it_enabled (rg x) in
  let r := fold_left pass_over l (rg x) in
  let q := qualifies priority_of priority_main en r (levels x) in
  exists o, do_interrupt priority_of priority_main it_enabled l x = Ok o /\
  match o with
  | (x', None) => (forall s, In s l -> ~ q s) /\ rg x' = r /\ levels x' = levels x
  | (x', Some s) => (exists l1 l2, l = l1 ++ s :: l2 /\ q s /\ forall s', In s' l1 -> ~ q s') /\
      rg x' = clear r s /\ levels x' = priority_of r (u8 (nuof s)) :: levels x
  end.
Proof.
  intros po pm ie l x Hn. cbv zeta.
  destruct (scan_ok po pm ie l (ie (rg x)) (fold_left pass_over l (rg x)) (levels x) Hn) as (y & o & E & P).
  exists (y, o). split; [exact E|]. destruct o as [s|].
  - destruct P as (l1 & l2 & P1 & P2 & P3 & ->). split; [|split; reflexivity]. exists l1, l2. auto.
  - destruct P as (P1 & ->). auto.
Qed.
Print Assumptions C22_first_qualifying_accepted.

(** A slave passes its request to its parent exactly when it is pending and
    enabled; it is never accepted itself. *)
Theorem C22_slave_requests_parent : forall r s pc pm pv, parent s = Some (Some pc, pm, pv) ->
  pv <> 0 -> 0 <= pm < 256 -> (forall c, src_cell s = Some c -> c <> pc) ->
  Z.land (pass_over r s pc) pm = (if pending r s && enabled r s then pm else Z.land (r pc) pm).
Proof.
  intros r s pc pm pv Hp Hv Hm Hc. unfold pass_over. rewrite Hp.
  destruct (pending r s && enabled r s) eqn:E; [|reflexivity].
  unfold request_on. replace (pv =? 0) with false by lia.
  assert (clear (wr r pc (Z.lor (r pc) pm)) s pc = wr r pc (Z.lor (r pc) pm) pc) as ->.
  { unfold clear. destruct (src_cell s) as [c|] eqn:Ec; auto. specialize (Hc c eq_refl).
    destruct (clr_bit s); auto. destruct (src_value s =? 0); rewrite wr_other; auto. }
  rewrite wr_same, u8_land by lia. apply land_lor_same.
Qed.
Print Assumptions C22_slave_requests_parent.

(** The nmi field of a newly constructed source is never initialised: with no
    call of set_nmi the decision reads an indeterminate value. *)
Theorem C22_new_source_deviation :
  forall priority_of priority_main it_enabled x n iec iem sc sm a clr,
  do_interrupt priority_of priority_main it_enabled [new_src n iec iem sc sm a clr] x = UB.
Proof. intros. reflexivity. Qed.
Print Assumptions C22_new_source_deviation.

(** MCS51. One call without a preceding RETI or IE/IP access and with EA set. *)
Theorem C22_mcs51_acceptance :
  forall IE IP l x, lv51 x <> [] ->
  was_reti x = false -> Z.testbit (rg51 x IE) 7 = true -> 
  let q := qualifies51 IP (rg51 x) (lv51 x) in
  exists o, do_interrupt51 IE IP l x = Ok o /\
  (((forall s, In s l -> ~ q s) /\ o = (x, None)) \/
   exists l1 s l2, l = l1 ++ s :: l2 /\ q s /\ (forall s', In s' l1 -> ~ q s') /\
     if idle x then
       (* wakes up from idle now, the interrupt is accepted after one more instruction *)
       snd o = None /\ idle (fst o) = false /\ was_reti (fst o) = true /\
       rg51 (fst o) = rg51 x /\ lv51 (fst o) = lv51 x
     else
       snd o = Some s /\ rg51 (fst o) = clear (rg51 x) s /\
       lv51 (fst o) = (if Z.land (rg51 x IP) (u8 (ie_mask s)) =? 0 then 0 else 1) :: lv51 x).
Proof.
  intros IE IP l x Hne Hr Hea. cbv zeta. unfold do_interrupt51. rewrite Hr.
  assert (Z.land (rg51 x IE) 128 =? 0 = false) as ->.
  { apply Z.eqb_neq. intros E. assert (Z.testbit (Z.land (rg51 x IE) 128) 7 = true) as K.
    { rewrite Z.land_spec, Hea. reflexivity. } rewrite E in K. discriminate. }
  destruct (scan51_ok IP l x Hne) as (y & o & E & P). exists (y, o). split; [exact E|].
  destruct P as [(-> & -> & P)|(l1 & s & l2 & P1 & P2 & P3 & P4)]; [left; auto|].
  right. exists l1, s, l2. repeat (split; [assumption|]).
  destruct (idle x); destruct P4 as [-> ->]; cbn [fst snd idle was_reti rg51 lv51]; auto.
Qed.
Print Assumptions C22_mcs51_acceptance.

(** After RETI (or an access of IE/IP) exactly one more instruction runs, and
    nothing is accepted with EA clear. *)
Theorem C22_mcs51_blocked : forall IE IP l x,
  (was_reti x = true ->
     do_interrupt51 IE IP l x = Ok (mkSt51 (rg51 x) (lv51 x) false (idle x), None)) /\
  (was_reti x = false -> Z.testbit (rg51 x IE) 7 = false -> do_interrupt51 IE IP l x = Ok (x, None)).
Proof.
  intros IE IP l x. split.
  - intros H. unfold do_interrupt51. rewrite H. reflexivity.
  - intros H Hea. unfold do_interrupt51. rewrite H.
    assert (Z.land (rg51 x IE) 128 = 0) as ->; [|reflexivity].
    apply Z.bits_inj'. intros n Hn. rewrite Z.land_spec, Z.bits_0. change 128 with (2^7).
    destruct (Z.eq_dec n 7) as [->|Hd]; [rewrite Hea; reflexivity|].
    rewrite Z.pow2_bits_false by lia. apply andb_false_r.
Qed.
Print Assumptions C22_mcs51_blocked.

(** Two sources, the first masked by priority. IE = cell 0, IP = 1, TCON = 2. *)
Example C22_example :
  let r := fun c => if c =? 0 then 0x83 else if c =? 1 then 0x02 else 0x22 in
  let s0 := new_src 1 (Some 0) 1 (Some 2) 2 3 true in
  let s1 := new_src 2 (Some 0) 2 (Some 2) 0x20 0xb true in
  match do_interrupt51 0 1 [s0; s1] (mkSt51 r [0; -1] false false) with
  | Ok (y, o) => o = Some s1 /\ lv51 y = [1; 0; -1] /\ rg51 y 2 = 2
  | _ => False end /\
  match do_interrupt51 0 1 [s0; s1] (mkSt51 r [-1] false false) with
  | Ok (y, o) => o = Some s0 /\ lv51 y = [0; -1] /\ rg51 y 2 = 0x20
  | _ => False end.
Proof. vm_compute. auto. Qed.
Example C22_generic_example :
  let r := fun c => if c =? 0 then 1 else 1 in
  let mk n c b := mkSrc n (Some 0) 1 1 (Some c) 1 1 0x20 true true (Some b) None in
  match do_interrupt (fun _ n => n) (fun _ => 0) (fun _ => false) [mk 3 1 false; mk 2 2 true] (init_st r) with
  | Ok (y, Some s) => nuof s = 2 /\ levels y = [2; -1] /\ rg y 2 = 0 /\ rg y 1 = 1
  | _ => False end.
Proof. vm_compute. auto. Qed.

(** -- C23: nesting -- *)
(** In every history starting after the creation of the processor, of
    acceptances, returns, resets and arbitrary changes of registers, with
    priorities in 0..P-1: levels increase strictly from the main program (-1,
    always present), all are below P, and there are at most P+1 of them. *)
Theorem C23_nesting_bounded :
  forall priority_of priority_main it_enabled l r es x P,
  (forall r n, 0 <= priority_of r n < P) -> 
  erun priority_of priority_main it_enabled l (init_st r) es = Ok x ->
  nested (levels x) /\ Forall (fun v => v < P) (levels x) /\
  Z.of_nat (length (levels x)) <= P + 1.
Proof.
  intros po pm ie l r es x P Hp E.
  assert (N : nested (levels x)).
  { apply (erun_nested po pm ie l es) with (x := init_st r); auto; [intros r0 n; apply Hp | cbn; auto]. }
  assert (B : Forall (fun v => v < P) (levels x)).
  { apply (erun_bound po pm ie P l es Hp) with (x := init_st r); auto. cbn [init_st levels].
    constructor; auto. specialize (Hp r 0). lia. }
  split; auto. split; auto. pose proof (nested_len _ N) as L.
  destruct (levels x) as [|v t]; [destruct N|]. apply Forall_inv in B. cbn [hd] in L. lia.
Qed.
Print Assumptions C23_nesting_bounded.

(** A return ends exactly the innermost service; a reset ends them all. *)
Theorem C23_return_and_reset : forall x, nested (levels x) ->
  (forall lv t, levels x = lv :: t -> 0 <= lv -> levels (reti x) = t) /\
  (levels x = [-1] -> levels (reti x) = [-1]) /\
  unwind (levels x) = [-1].
Proof.
  intros x N. split; [|split].
  - intros lv t E H. unfold reti. rewrite E. replace (0 <=? lv) with true by lia. reflexivity.
  - intros E. unfold reti. rewrite E. cbn. rewrite E. reflexivity.
  - apply nested_unwind. exact N.
Qed.
Print Assumptions C23_return_and_reset.

(** MCS51: histories of interrupt checks, RETI, reset and program steps. *)
Inductive ev51 := EInt51 | EReti51 | EReset51 (r : regs) | EProg51 (r : regs) (wr_ie : bool) (idl : bool).
(** uc51.cc:1804-1844 do_interrupt, jmp.cc:285-314 instruction_32, uc.cc:773-795 reset *)
Definition estep51 (IE IP : Z) (l : list src) (x : st51) (e : ev51) : res st51 :=
  match e with
  | EInt51 => r <- do_interrupt51 IE IP l x ;; Ok (fst r)
  | EReti51 => Ok (mkSt51 (rg51 x) (levels (reti (mkSt (rg51 x) (lv51 x)))) true (idle x))
  | EReset51 r => Ok (mkSt51 r (unwind (lv51 x)) false false)
  | EProg51 r w i => Ok (mkSt51 r (lv51 x) (was_reti x || w) i)
  end.
Fixpoint erun51 (IE IP : Z) (l : list src) (x : st51) (es : list ev51) : res st51 :=
  match es with
  | [] => Ok x
  | e :: t => x' <- estep51 IE IP l x e ;; erun51 IE IP l x' t
  end.

Lemma priority51_range a b : 0 <= priority51 a b < 2.
Proof. unfold priority51. destruct (_ =? _); lia. Qed.

Lemma estep51_ok IE IP l x e : nested (lv51 x) -> Forall (fun v => v < 2) (lv51 x) ->
  exists x', estep51 IE IP l x e = Ok x' /\ nested (lv51 x') /\ Forall (fun v => v < 2) (lv51 x').
Proof.
  intros N B. assert (Hne : lv51 x <> []) by (intros X; rewrite X in N; destruct N).
  destruct e; cbn [estep51].
  - unfold do_interrupt51. destruct (was_reti x); [cbn [rbind fst]; eauto|].
    destruct (_ =? 0); [cbn [rbind fst]; eauto|].
    destruct (scan51_ok IP l x Hne) as (y & o & E & P). rewrite E. cbn [rbind fst]. exists y. split; auto.
    destruct P as [(-> & -> & P)|(l1 & s & l2 & P1 & P2 & P3 & P4)]; [auto|].
    destruct (idle x); destruct P4 as [-> ->]; cbn [lv51]; auto.
    pose proof (priority51_range (rg51 x IP) (u8 (ie_mask s))) as R.
    split; [|constructor; [lia|auto]]. destruct P2 as (_ & _ & _ & Q).
    destruct (lv51 x) as [|lev t]; [congruence|]. cbn [nested]. split; auto.
    unfold priority51 in *. lia.
  - eexists. split; [reflexivity|]. cbn [lv51]. unfold reti. cbn [levels rg].
    destruct (lv51 x) as [|lev t]; [congruence|]. destruct (0 <=? lev) eqn:E; cbn [levels]; auto.
    split; [apply (nested_inv _ _ N); lia|apply (Forall_inv_tail B)].
  - eexists. split; [reflexivity|]. cbn [lv51]. destruct (nested_unwind _ N) as [U1 U2]. rewrite U2.
    split; [reflexivity|]. constructor; [lia|constructor].
  - eexists. split; [reflexivity|]. cbn [lv51]. auto.
Qed.

(** MCS51: at most two services are nested, one of low and one of high priority,
    and the NULL level is never dereferenced. *)
Theorem C23_mcs51_two_levels : forall IE IP l r es,
  exists x, erun51 IE IP l (mkSt51 r [-1] false false) es = Ok x /\
  (lv51 x = [-1] \/ lv51 x = [0; -1] \/ lv51 x = [1; -1] \/ lv51 x = [1; 0; -1]).
Proof.
  intros IE IP l r es.
  assert (K : forall es x, nested (lv51 x) -> Forall (fun v => v < 2) (lv51 x) ->
    exists x', erun51 IE IP l x es = Ok x' /\ nested (lv51 x') /\ Forall (fun v => v < 2) (lv51 x')).
  { clear es. induction es as [|e t IH]; intros x N B; cbn [erun51]; [eauto|].
    destruct (estep51_ok IE IP l x e N B) as (y & E & N' & B'). rewrite E. cbn [rbind]. apply IH; auto. }
  destruct (K es (mkSt51 r [-1] false false)) as (x & E & N & B).
  { cbn. auto. } { constructor; [lia|constructor]. }
  exists x. split; auto. clear E K.
  destruct (lv51 x) as [|a [|b [|c [|d t]]]]; cbn [nested] in N.
  - destruct N.
  - left. subst. reflexivity.
  - destruct N as [N ->]. apply Forall_inv in B. assert (a = 0 \/ a = 1) as [-> | ->] by lia; auto.
  - destruct N as (N1 & N2 & ->). apply Forall_inv in B. assert (a = 1 /\ b = 0) as [-> ->] by lia. auto.
  - exfalso. destruct N as (N1 & N2 & N3 & N4). apply Forall_inv in B.
    pose proof (nested_main d t). destruct t as [|f t].
    + lia.
    + specialize (H N4). lia.
Qed.
Print Assumptions C23_mcs51_two_levels.

Example C23_example :
  let r := fun c => if c =? 0 then 0x83 else if c =? 1 then 0x02 else 0x02 in
  let r2 := fun c => if c =? 0 then 0x83 else if c =? 1 then 0x02 else 0x22 in
  let s0 := new_src 1 (Some 0) 1 (Some 2) 2 3 true in
  let s1 := new_src 2 (Some 0) 2 (Some 2) 0x20 0xb true in
  let f es := match erun51 0 1 [s0; s1] (mkSt51 r [-1] false false) es with Ok x => lv51 x | _ => [] end in
  f [EInt51; EProg51 r2 false false; EInt51; EInt51] = [1; 0; -1] /\
  f [EInt51; EProg51 r2 false false; EInt51; EReti51; EReti51; EReti51] = [-1].
Proof. vm_compute. auto. Qed.

(** -- C29: request, pending, clear -- *)
Theorem C29_request_pending_clear : forall r s c,
  src_cell s = Some c -> 0 <= src_mask s < 256 -> src_value s = src_mask s -> src_mask s <> 0 -> 0 <= r c < 256 ->
  pending (request r s) s = true /\
  (clr_bit s = true -> pending (clear r s) s = false) /\
  (clr_bit s = false -> clear r s = r).
Proof.
  intros r s c Ec Hm Hv Hz Hc. unfold pending, request, request_on, clear. rewrite Ec, Hv.
  replace (src_mask s =? 0) with false by lia. split; [|split].
  - rewrite wr_same, u8_land by lia. rewrite land_lor_same. apply Z.eqb_refl.
  - intros ->. rewrite wr_same, u8_land by lia. rewrite land_lnot_same. lia.
  - intros ->. reflexivity.
Qed.
Print Assumptions C29_request_pending_clear.

(** Bits outside the mask and all other registers are unchanged. *)
Theorem C29_other_bits_unchanged : forall r s, 
  (forall c, 0 <= r c < 256) -> 0 <= src_mask s < 256 ->
  forall c n, (src_cell s <> Some c \/ Z.testbit (src_mask s) n = false) ->
  Z.testbit (request r s c) n = Z.testbit (r c) n /\ Z.testbit (clear r s c) n = Z.testbit (r c) n.
Proof.
  intros r s Hr Hm c n H.
  assert (K : forall v, (forall i, 0 <= i -> Z.testbit (src_mask s) i = false -> Z.testbit v i = Z.testbit (r c) i) ->
    (forall c', src_cell s = Some c' -> c = c' -> Z.testbit (u8 v) n = Z.testbit (r c) n)).
  { intros v Hvb c' E E'. subst c'. destruct H as [H|H]; [congruence|].
    destruct (Z_lt_le_dec n 0) as [L|L]; [rewrite !Z.testbit_neg_r by lia; reflexivity|].
    unfold u8. change 256 with (2^8). destruct (Z_lt_le_dec n 8) as [L8|L8].
    - rewrite Z.mod_pow2_bits_low by lia. auto.
    - rewrite Z.mod_pow2_bits_high by lia. symmetry. destruct (Z.eq_dec (r c) 0) as [->|]; [apply Z.bits_0|]. apply Z.bits_above_log2; [apply Hr|].
      apply Z.log2_lt_pow2; [pose proof (Hr c); lia|]. pose proof (Hr c).
      assert (2 ^ 8 <= 2 ^ n) by (apply Z.pow_le_mono_r; lia). lia. }
  assert (Ko : forall i, 0 <= i -> Z.testbit (src_mask s) i = false -> Z.testbit (Z.lor (r c) (src_mask s)) i = Z.testbit (r c) i).
  { intros i Hi E. rewrite Z.lor_spec, E, orb_false_r. reflexivity. }
  assert (Ka : forall i, 0 <= i -> Z.testbit (src_mask s) i = false -> Z.testbit (Z.land (r c) (Z.lnot (src_mask s))) i = Z.testbit (r c) i).
  { intros i Hi E. rewrite Z.land_spec, Z.lnot_spec, E by lia. apply andb_true_r. }
  unfold request, request_on, clear, wr.
  destruct (src_cell s) as [c'|] eqn:Ec; [|auto].
  destruct (Z.eq_dec c c') as [E|E].
  - specialize (K _ Ko c' eq_refl E) as K1. specialize (K _ Ka c' eq_refl E) as K2. subst c'.
    destruct (src_value s =? 0), (clr_bit s); rewrite ?Z.eqb_refl; auto.
  - replace (c =? c') with false by lia. destruct (src_value s =? 0), (clr_bit s); auto;
      replace (c =? c') with false by lia; auto.
Qed.
Print Assumptions C29_other_bits_unchanged.

Example C29_example :
  let s := new_src 1 (Some 0) 1 (Some 2) 0x20 3 true in
  let r := fun c => if c =? 2 then 0x8a else 0 in
  pending r s = false /\ request r s 2 = 0xaa /\ pending (request r s) s = true /\
  clear (request r s) s 2 = 0x8a.
Proof. vm_compute. auto. Qed.

(** -- C33: non maskable interrupts -- *)
(** mos6502cl.h:145 priority_of, m6809cl.h:155 priority_of: the priority is the
    number of the interrupt, itsrccl.h:103-112 irq_nr: NMI 1, FIRQ 2, IRQ 3, BRK 4.
    priority_main is 0. *)
Definition prio_nr (_ : regs) (n : Z) : Z := n.
Definition prio_main0 (_ : regs) : Z := 0.
Definition irq_nmi := 1.  Definition irq_irq := 3.  Definition irq_firq := 2.

(** The property: a pending, enabled and active NMI, first in the list, is accepted
    whatever is running except a service of its own. What holds: it is accepted
    exactly if nothing (or only the main level) is being served. *)
Theorem C33_nmi_exact : forall ie x s l r0,
  fold_left pass_over (s :: l) (rg x) = r0 ->
  nuof s = irq_nmi -> nmi s = Some true -> parent s = None ->
  active s = true -> enabled r0 s = true -> pending r0 s = true ->
  nested (levels x) ->
  ~ In s l ->
  ((exists y, do_interrupt prio_nr prio_main0 ie (s :: l) x = Ok (y, Some s)) <->
   exists lv t, levels x = lv :: t /\ lv < 1).
Proof.
  intros ie x s l r0 Er Hn Hm Hp Ha He Hpd N Q.
  unfold do_interrupt. rewrite Er. cbn [scan]. unfold is_slave. rewrite Hp, Hm, Ha, He, Hpd, Hn.
  cbn [negb andb]. destruct (prio_nr r0 (u8 irq_nmi) <=? ap prio_main0 r0 (levels x)) eqn:E.
  - assert (K : forall l, ~ In s l -> forall y, scan prio_nr prio_main0 l (ie (rg x)) r0 (levels x) = Ok (y, Some s) -> False).
    { clear l Er Q. induction l as [|a t IH]; cbn [scan]; intros Hi y; [discriminate|].
      assert (Hi' : ~ In s t) by (intros Q; apply Hi; right; auto).
      assert (Hd : a <> s) by (intros ->; apply Hi; left; auto).
      destruct (is_slave a); [apply (IH Hi')|]. destruct (nmi a); [|discriminate].
      destruct (negb b && negb (ie (rg x))); [apply (IH Hi')|].
      destruct (active a && enabled r0 a && pending r0 a); [|apply (IH Hi')].
      destruct (prio_nr r0 (u8 (nuof a)) <=? ap prio_main0 r0 (levels x)); [apply (IH Hi')|].
      intros Y. injection Y as _ Y. congruence. }
    split; [intros [y Y]; destruct (K l Q y Y)|].
    intros (lv & t & E1 & E2). exfalso. unfold ap, prio_nr, prio_main0 in E. rewrite E1 in E.
    change (u8 irq_nmi) with 1 in E. destruct (0 <=? lv) eqn:E3; lia.
  - split; [|eauto]. intros _. destruct (levels x) as [|lv t]; [destruct N|]. exists lv, t. split; auto.
    unfold ap, prio_nr, prio_main0 in E. change (u8 irq_nmi) with 1 in E. destruct (0 <=? lv) eqn:E3; lia.
Qed.
Print Assumptions C33_nmi_exact.

(** Refutation for the 6502 and 6809: while the handler of an ordinary interrupt
    runs (level 3), an NMI is not accepted, though the source list, its enable and
    its request are all right; and during an NMI service (level 1) an ordinary
    interrupt is accepted as soon as the handler clears the I flag. *)
Definition nmi_src := mkSrc irq_nmi (Some 10) 1 1 (Some 11) 1 1 0xfffa false true (Some true) None.
Definition irq_src := mkSrc irq_irq (Some 12) 4 0 (Some 13) 1 1 0xfffe false true (Some false) None.
Theorem C33_nmi_blocked_by_irq_deviation :
  let r := fun c => if (c =? 10) || (c =? 11) then 1 else 0 in
  let en := fun r : regs => Z.land (r 12) 4 =? 0 in
  (match do_interrupt prio_nr prio_main0 en [irq_src; nmi_src] (mkSt r [irq_irq; -1]) with
   | Ok (y, o) => o = None /\ levels y = [irq_irq; -1] | _ => False end) /\
  (let r' := wr r 13 1 in
   match do_interrupt prio_nr prio_main0 en [irq_src; nmi_src] (mkSt r' [irq_nmi; -1]) with
   | Ok (y, o) => o = Some irq_src | _ => False end).
Proof. vm_compute. auto. Qed.

(** -- C34: the 6809 FIRQ mask -- *)
(** m6809.cc:164-176 mk_hw_elements: src_firq, made with mask flagF of CC and no
    set_ie_value; flagF = 64 (m6809cl.h). The IRQ source, m6809.cc:150-162
    mk_hw_elements, has set_ie_value(0) and flagI = 16. CC is cell 3. *)
Definition firq_src (nm : bool) := mkSrc irq_firq (Some 3) 64 64 (Some 20) 1 1 0xfff6 false true (Some nm) None.
Definition irq_src09 (nm : bool) := mkSrc irq_irq (Some 3) 16 0 (Some 21) 1 1 0xfff8 false true (Some nm) None.

Lemma land_pow2_eqb v k : 0 <= k -> (Z.land v (2^k) =? 2^k) = Z.testbit v k /\ (Z.land v (2^k) =? 0) = negb (Z.testbit v k).
Proof.
  intros Hk. assert (Z.land v (2^k) = if Z.testbit v k then 2^k else 0) as ->.
  { apply Z.bits_inj'. intros n Hn. rewrite Z.land_spec. destruct (Z.eq_dec n k) as [->|D].
    - rewrite Z.pow2_bits_true, andb_true_r by lia. destruct (Z.testbit v k); [rewrite Z.pow2_bits_true by lia|rewrite Z.bits_0]; auto.
    - rewrite Z.pow2_bits_false, andb_false_r by lia. destruct (Z.testbit v k); [rewrite Z.pow2_bits_false by lia|rewrite Z.bits_0]; auto. }
  assert (0 < 2^k) by lia. destruct (Z.testbit v k); cbn [negb]; lia.
Qed.

(** Which mask bit enables which request: IRQ is enabled with I clear; FIRQ with F
    set, just the wrong way round, for every register content. *)
Theorem C34_m6809_masks_exact : forall r nm,
  enabled r (irq_src09 nm) = negb (Z.testbit (r 3) 4) /\ enabled r (firq_src nm) = Z.testbit (r 3) 6.
Proof.
  intros r nm. unfold enabled, irq_src09, firq_src. cbn [ie_cell ie_mask ie_value].
  change 16 with (2^4). change 64 with (2^6). split.
  - apply (land_pow2_eqb (r 3) 4). lia.
  - apply (land_pow2_eqb (r 3) 6). lia.
Qed.
Print Assumptions C34_m6809_masks_exact.

Theorem C34_firq_deviation : forall nm,
  (let masked := fun c => if c =? 3 then 64 else if c =? 20 then 1 else 0 in
   match do_interrupt prio_nr prio_main0 (fun _ => true) [firq_src nm] (init_st masked) with
   | Ok (_, o) => o <> None | _ => False end) /\
  (let unmasked := fun c => if c =? 20 then 1 else 0 in
   match do_interrupt prio_nr prio_main0 (fun _ => true) [firq_src nm] (init_st unmasked) with
   | Ok (_, o) => o = None | _ => False end).
Proof. intros [|]; vm_compute; split; congruence. Qed.
Print Assumptions C33_nmi_blocked_by_irq_deviation.
Print Assumptions C34_firq_deviation.
