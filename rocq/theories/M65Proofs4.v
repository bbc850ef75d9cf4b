(** Proofs about the MOS6502: implied instructions, jumps, every opcode. *)
From Verif Require Import Base M65Model M65Spec M65Obs M65Proofs M65Proofs2 M65Proofs3.

Definition kept_tk (n : Z) (t t' : st) : Prop :=
  brk t' = brk t /\ set_b t' = set_b t /\ lvl t' = lvl t /\ hole t' = hole t /\ ticks t' = ticks t + n.
(** an instruction without operand, from the state after its fetch *)
Definition impl_ok (f : st -> st) (i : mnem) (n : Z) : Prop :=
  forall t off, bytes t -> view (f t) = effect i Nowhere off (view t) /\ bytes (f t) /\ kept_tk n t (f t) /\ PC (f t) = PC t /\
    (Z.testbit (rF (f t)) 4 = true -> Z.testbit (rF t) 4 = true).

Lemma bytes_tick n t : bytes t -> bytes (tick n t). Proof. exact (fun H => H). Qed.
Lemma kept_W n t c v : kept_tk n t (tick n (W c v t)).
Proof. destruct c; cbn [W]; try (repeat split); unfold wr; destruct ((0 <=? a) && (a <? 65536)); repeat split. Qed.
Lemma kept_W2 n t c v c2 v2 : c <> cF -> kept_tk n t (tick n (W c2 v2 (W c v t))).
Proof.
  intros H. destruct c2; destruct c; try contradiction; cbn [W]; try (repeat split); unfold wr;
  repeat destruct (_ && _); repeat split.
Qed.
Lemma bytes_WW n t c v c2 v2 : bytes t -> bytes (tick n (W c2 v2 (W c v t))).
Proof. intros. apply bytes_tick. apply bytes_W. apply bytes_W. assumption. Qed.

Lemma regload (t : st) r (reg : cell) (set : Z -> cpu -> cpu) (fl : Z -> Z -> Z) :
  bytes t -> reg <> cF -> fl = nz \/ fl = znset ->
  (forall v, view (W reg v t) = set v (view t)) -> (forall v c, p (set v c) = p c) ->
  view (W cF (fl (u8 r) (rF t)) (W reg r t)) = load set r (view t).
Proof.
  intros Ht Hreg Hfl Hw Hp. assert (HF : is_u8 (rF t)) by apply Ht.
  rewrite view_WF by (destruct Hfl as [-> | ->]; [apply nz_u8|apply znset_u8]; assumption).
  rewrite Hw. unfold load. rewrite setNZ_mod. change (r mod 256) with (u8 r). rewrite setNZ_eq by apply is_u8_u8. rewrite Hp.
  destruct Hfl as [-> | ->]; [rewrite flags_nz by apply is_u8_u8|rewrite flags_znset by apply is_u8_u8]; reflexivity.
Qed.
Lemma b4_W t (r : Z) f : is_u8 f -> Z.testbit f 4 = Z.testbit (rF t) 4 -> forall c v, Z.testbit (rF (tick r (W cF f (W c v t)))) 4 = true -> Z.testbit (rF t) 4 = true.
Proof. intros Hf H c v. cbn [W rF tick sTk sF]. rewrite (u8_id _ Hf), H. exact (fun h => h). Qed.

Ltac reginst reg set fl r :=
  intros t off Ht; assert (HF : is_u8 (rF t)) by apply Ht; cbn [effect];
  split; [apply (regload t (r t) reg set fl); [assumption|discriminate|auto|reflexivity|reflexivity]|];
  split; [apply bytes_WW; assumption|]; split; [apply kept_W2; discriminate|]; split; [reflexivity|];
  apply b4_W; [first [apply nz_u8; assumption|apply znset_u8; assumption]|first [apply nz_b4|apply znset_b4]].

Lemma i_INX : impl_ok M65Model.INX INX 1. Proof. reginst cX setX nz (fun t => rX t + 1). Qed.
Lemma i_INY : impl_ok M65Model.INY INY 1. Proof. reginst cY setY nz (fun t => rY t + 1). Qed.
Lemma i_DEX : impl_ok M65Model.DEX DEX 1. Proof. reginst cX setX nz (fun t => rX t - 1). Qed.
Lemma i_DEY : impl_ok M65Model.DEY DEY 1. Proof. reginst cY setY nz (fun t => rY t - 1). Qed.
Lemma i_TYA : impl_ok M65Model.TYA TYA 1. Proof. reginst cA setA znset (fun t => rY t). Qed.
Lemma i_TXA : impl_ok M65Model.TXA TXA 1. Proof. reginst cA setA znset (fun t => rX t). Qed.
Lemma i_TAY : impl_ok M65Model.TAY TAY 1. Proof. reginst cY setY znset (fun t => rA t). Qed.
Lemma i_TAX : impl_ok M65Model.TAX TAX 1. Proof. reginst cX setX znset (fun t => rA t). Qed.
Lemma i_TSX : impl_ok M65Model.TSX TSX 1. Proof. reginst cX setX znset (fun t => rSP t). Qed.
Lemma i_TXS : impl_ok M65Model.TXS TXS 1.
Proof.
  intros t off Ht. split; [reflexivity|]. split; [apply bytes_tick, bytes_W; assumption|]. split; [apply kept_W|]. split; [reflexivity|]. exact (fun h => h).
Qed.
Lemma i_NOP : impl_ok M65Model.NOP NOP 0.
Proof.
  intros t off Ht. split; [reflexivity|]. split; [exact Ht|]. split; [|split; [reflexivity|exact (fun h => h)]].
  repeat split. unfold M65Model.NOP. lia.
Qed.
Ltac flaginst :=
  intros t off Ht; assert (HF : is_u8 (rF t)) by apply Ht; cbn [effect];
  split; [unfold view; cbn [W rF rA rX rY rSP PC mem tick sTk sF]; rewrite u8_id by bytef;
          unfold setC, setD, setI, setV, setP; cbn [a x y s p pc ram]; f_equal; unfold flags_of; cbn [fN fV fD fI fZ fC]; f_equal; fbits; reflexivity|];
  split; [apply bytes_tick, bytes_W; assumption|]; split; [apply kept_W|]; split; [reflexivity|];
  cbn [W rF tick sTk sF]; rewrite u8_id by bytef; fbits; exact (fun h => h).
Lemma i_CLC : impl_ok M65Model.CLC CLC 1. Proof. unfold M65Model.CLC. flaginst. Qed.
Lemma i_SEC : impl_ok SEc SEC 1. Proof. unfold SEc. flaginst. Qed.
Lemma i_CLD : impl_ok M65Model.CLD CLD 1. Proof. unfold M65Model.CLD. flaginst. Qed.
Lemma i_SED : impl_ok M65Model.SED SED 1. Proof. unfold M65Model.SED. flaginst. Qed.
Lemma i_CLI : impl_ok M65Model.CLI CLI 1. Proof. unfold M65Model.CLI. flaginst. Qed.
Lemma i_SEI : impl_ok M65Model.SEI SEI 1. Proof. unfold M65Model.SEI. flaginst. Qed.
Lemma i_CLV : impl_ok M65Model.CLV CLV 1. Proof. unfold M65Model.CLV. flaginst. Qed.

(* ---------------------------------------------------------------- stack *)
(** the byte at the stack pointer *)
Lemma sp_addr t : bytes t -> 0 <= 0x0100 + rSP t < 65536.
Proof. intros (_ & _ & _ & H & _). unfold is_u8 in H. lia. Qed.
Definition psh (v : Z) (t : st) : st := W cSP (rSP (wr (0x0100 + rSP t) v t) - 1) (wr (0x0100 + rSP t) v t).
Lemma psh_ok v t : bytes t -> view (psh v t) = push v (view t) /\ bytes (psh v t) /\ kept_tk 0 t (psh v t) /\ PC (psh v t) = PC t /\ rF (psh v t) = rF t /\ rA (psh v t) = rA t.
Proof.
  intros Ht. unfold psh. pose proof (sp_addr t Ht). rewrite !wr_in by assumption. split; [reflexivity|]. split.
  - apply bytes_W. pose proof (bytes_W (cM (0x0100 + rSP t)) v t Ht) as H1. cbn [W] in H1. rewrite wr_in in H1 by assumption. exact H1.
  - split; [|repeat split]. repeat split. cbn. lia.
Qed.
Definition pul (t : st) : Z * st := let t' := W cSP (rSP t + 1) t in (rd t' (0x0100 + rSP t'), t').
Lemma pul_ok t : bytes t -> exists v t', pul t = (v, t') /\ pull (view t) = (v, view t') /\ is_u8 v /\ bytes t' /\ kept_tk 0 t t' /\ PC t' = PC t /\ rF t' = rF t.
Proof.
  intros Ht. eexists _, _. split; [reflexivity|]. assert (Hb := bytes_W cSP (rSP t + 1) t Ht). rewrite rd_in by (apply sp_addr; exact Hb).
  split; [reflexivity|]. split; [apply Hb|]. split; [exact Hb|]. split; [|split; reflexivity]. repeat split. cbn. lia.
Qed.
Lemma P_byte_eq f : is_u8 f -> u8 (Z.lor (Z.lor f 0x20) flagB) = P_byte (flags_of f) true /\
  Z.lor f 0x20 = P_byte (flags_of f) (Z.testbit f 4).
Proof.
  intros Hf.
  pose proof (sweep1 (fun f => (u8 (Z.lor (Z.lor f 0x20) flagB) =? P_byte (flags_of f) true) && (Z.lor f 0x20 =? P_byte (flags_of f) (Z.testbit f 4))) 256
    ltac:(vm_compute; reflexivity) f Hf) as H. apply andb_prop in H. lia.
Qed.
Lemma i_PHA : impl_ok M65Model.PHA PHA 2.
Proof.
  intros t off Ht. destruct (psh_ok (rA t) t Ht) as (H1 & H2 & H3 & H4 & H5 & _).
  change (M65Model.PHA t) with (tick 2 (psh (rA t) t)). split; [exact H1|]. split; [exact H2|].
  split; [|split; [exact H4|cbn [rF tick sTk]; rewrite H5; exact (fun h => h)]]. destruct H3 as (K1 & K2 & K3 & K4 & K5). repeat split; try assumption. cbn [ticks tick sTk]. lia.
Qed.
Lemma i_PHP : impl_ok M65Model.PHP PHP 2.
Proof.
  intros t off Ht. set (v := u8 (Z.lor (Z.lor (rF t) 0x20) flagB)). destruct (psh_ok v t Ht) as (H1 & H2 & H3 & H4 & H5 & _).
  change (M65Model.PHP t) with (tick 2 (psh v t)). split.
  - change (view (tick 2 (psh v t))) with (view (psh v t)). rewrite H1. cbn [effect]. f_equal. apply P_byte_eq. apply Ht.
  - split; [exact H2|].
    split; [|split; [exact H4|cbn [rF tick sTk]; rewrite H5; exact (fun h => h)]]. destruct H3 as (K1 & K2 & K3 & K4 & K5). repeat split; try assumption. cbn [ticks tick sTk]. lia.
Qed.
Lemma i_PLA : impl_ok M65Model.PLA PLA 3.
Proof.
  intros t off Ht. destruct (pul_ok t Ht) as (v & t1 & E & Ep & Hv & Hb & (K1 & K2 & K3 & K4 & K5) & Hpc & HrF).
  assert (E2 : M65Model.PLA t = tick 3 (W cF (nz (u8 v) (rF t1)) (W cA v t1))).
  { unfold M65Model.PLA. unfold pul in E. injection E as <- <-. reflexivity. }
  rewrite E2. cbn [effect]. rewrite Ep.
  split; [apply (regload t1 v cA setA nz); [assumption|discriminate|auto|reflexivity|reflexivity]|].
  split; [apply bytes_WW; assumption|]. split; [|split].
  - destruct (kept_W2 3 t1 cA v cF (nz (u8 v) (rF t1)) ltac:(discriminate)) as (J1 & J2 & J3 & J4 & J5).
    unfold kept_tk. rewrite J1, J2, J3, J4, J5. repeat split; try assumption. lia.
  - exact Hpc.
  - rewrite <- HrF. apply b4_W; [apply nz_u8; apply Hb|apply nz_b4].
Qed.
Lemma flags_popped v : is_u8 v -> flags_of (Z.ldiff v (Z.lor 0x20 flagB)) = P_of_byte v.
Proof. intros Hv. rewrite <- flags_of_byte. unfold flags_of. f_equal; fbits; reflexivity. Qed.
Lemma i_PLP : impl_ok M65Model.PLP PLP 3.
Proof.
  intros t off Ht. destruct (pul_ok t Ht) as (v & t1 & E & Ep & Hv & Hb & (K1 & K2 & K3 & K4 & K5) & Hpc & HrF).
  assert (E2 : M65Model.PLP t = tick 3 (W cF (Z.ldiff (u8 v) (Z.lor 0x20 flagB)) t1)).
  { unfold M65Model.PLP. unfold pul in E. injection E as <- <-. reflexivity. }
  rewrite E2. cbn [effect]. rewrite Ep. rewrite (u8_id v Hv).
  split. { change (view (tick 3 (W cF (Z.ldiff v (Z.lor 32 flagB)) t1))) with (view (W cF (Z.ldiff v (Z.lor 32 flagB)) t1)). rewrite view_WF by bytef. rewrite flags_popped by assumption. reflexivity. }
  split; [apply bytes_tick, bytes_W; assumption|]. split; [|split].
  - destruct (kept_W 3 t1 cF (Z.ldiff v (Z.lor 0x20 flagB))) as (J1 & J2 & J3 & J4 & J5).
    unfold kept_tk. rewrite J1, J2, J3, J4, J5. repeat split; try assumption. lia.
  - exact Hpc.
  - cbn [W rF tick sTk sF]. rewrite u8_id by bytef. fbits. discriminate.
Qed.

(* ---------------------------------------------------------------- jumps *)
Lemma pop_addr_ok t : bytes t -> exists v t', pop_addr t = (v, t') /\
  (exists lo hi d, pull (view t) = (lo, d) /\ pull d = (hi, view t') /\ v = lo + 256 * hi /\ is_u8 lo /\ is_u8 hi) /\
  bytes t' /\ kept_tk 2 t t' /\ PC t' = PC t /\ rF t' = rF t.
Proof.
  intros Ht. destruct (pul_ok t Ht) as (lo & t1 & E & Ep & Hv & Hb & (K1 & K2 & K3 & K4 & K5) & Hpc & HrF).
  destruct (pul_ok t1 Hb) as (hi & t2 & E2 & Ep2 & Hv2 & Hb2 & (J1 & J2 & J3 & J4 & J5) & Hpc2 & HrF2).
  exists (hi * 256 + lo), (tick 2 t2). split.
  - change (pop_addr t) with (let (l, u) := pul t in let (h, w) := pul u in (u8 h * 256 + u8 l, tick 2 w)).
    rewrite E, E2. rewrite (u8_id _ Hv), (u8_id _ Hv2). reflexivity.
  - split; [exists lo, hi, (view t1); split; [exact Ep|]; split; [exact Ep2|]; split; [lia|]; split; assumption|].
    split; [exact Hb2|]. split; [|split; cbn [PC rF tick sTk]; congruence].
    unfold kept_tk. cbn [brk set_b lvl hole tick sTk ticks]. repeat (split; [congruence|]). lia.
Qed.
Definition run_ok (f : st -> st) (i : mnem) (m : mode) (n : cpu -> Z) : Prop :=
  forall t0, bytes t0 ->
    let t' := f (start t0) in let c := view t0 in
    (comparable i m c -> view t' = effect i (operand false m c) (at1 c) (setPC (pc c + len m) c)) /\
    bytes t' /\ 0 <= PC t' <= 65536 /\ ((i = RTS -> comparable i m c) -> PC t' < 65536) /\
    brk t' = brk t0 /\ set_b t' = false /\ lvl t' = (match i with RTI => pop_level (lvl t0) | _ => lvl t0 end) /\ hole t' = hole t0 /\
    ticks t' = ticks t0 + n c /\ (Z.testbit (rF t') 4 = true -> Z.testbit (rF t0) 4 = true).

Lemma start_facts t0 : brk (start t0) = brk t0 /\ set_b (start t0) = false /\ lvl (start t0) = lvl t0 /\ hole (start t0) = hole t0 /\
  ticks (start t0) = ticks t0 + 1 /\ rF (start t0) = rF t0 /\ 0 <= PC (start t0) < 65536.
Proof. repeat split; cbn [PC start tick sTk sPC]; lia. Qed.
Lemma run_impl f i n : impl_ok f i n -> i <> RTI -> (forall d, comparable i Imp d) -> (forall l off o2 d, effect i l off d = effect i Nowhere o2 d) ->
  run_ok f i Imp (fun _ => n + 1).
Proof.
  intros H Hi Hc He t0 Ht. cbv zeta. destruct (H (start t0) 0 Ht) as (H1 & H2 & (K1 & K2 & K3 & K4 & K5) & H4 & H5).
  destruct (start_facts t0) as (S1 & S2 & S3 & S4 & S5 & S6 & S7).
  split; [intros _; rewrite H1; symmetry; apply He|]. split; [exact H2|].
  split; [lia|]. split; [lia|]. split; [congruence|]. split; [congruence|]. split; [destruct i; congruence|]. split; [congruence|].
  split; [lia|]. intros h. rewrite <- S6. auto.
Qed.
Definition placed (i : mnem) (l : place) : Prop :=
  match i with INC | DEC | ASL | LSR | ROL | ROR | STA | STX | STY => rmw_place l | _ => True end.
Lemma run_mem op i md m n : op_ok op i -> mode_ok md m n -> (forall c, placed i (operand false m c)) ->
  i <> RTI -> i <> JMP -> i <> RTS -> (forall l off o2 d, effect i l off d = effect i l o2 d) ->
  run_ok (fun t => op (md t)) i m (fun c => n (crossed false m c)).
Proof.
  intros Hop Hmd Hpl N1 N2 N3 He t0 Hwf. cbv zeta.
  destruct (Hmd t0 Hwf) as (c & t' & E & Ha & Ho & Hv & Hb & (K1 & K2 & K3 & K4 & K5) & Htk).
  rewrite E. destruct (Hop c (operand false m (view t0)) t' (at1 (view t0)) Hb Ha Ho) as (H1 & (J1 & J2 & J3 & J4 & J5 & J6) & H3 & H4).
  assert (Hpc : PC t' = (PC t0 + len m) mod 65536) by (change (PC t') with (pc (view t')); rewrite Hv; reflexivity).
  split.
  { intros Hc. rewrite H1, Hv; [reflexivity|].
    unfold needs. pose proof (Hpl (view t0)) as Q. unfold placed in Q. destruct i; try exact I; try exact Q;
      unfold comparable in Hc; rewrite Hv; exact Hc. }
  split; [exact H3|]. split; [rewrite H4, Hpc; lia|]. split; [rewrite H4, Hpc; lia|].
  split; [congruence|]. split; [congruence|]. split; [destruct i; congruence|]. split; [congruence|]. split; [lia|].
  intros h. congruence.
Qed.
