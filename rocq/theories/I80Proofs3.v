(** 8080/8085: one instruction of the simulator against the manual. *)
From Verif Require Import Base I80Model I80Spec I80Proofs I80Proofs2.

(** ** The manual, instruction by instruction *)
Definition manual_op (m85 : bool) (c : Z) (o : op) (x : M) : M :=
  let ad := operand16 x in
  let a := R x 7 in
  let cy := if fC x then 1 else 0 in
  match o with
  | NOP | HLT | EI | DI => next 1 x
  | MOV d s => next 1 (dst (num d) (src (num s) x) x)
  | MVI d => next 2 (dst (num d) (operand8 x) x)
  | LXI p => next 3 (setpair (pnum p) ad x)
  | LDA => next 3 (setr 7 (mm x ad) x)
  | STA => next 3 (setm ad (R x 7) x)
  | LHLD => next 3 (setr 4 (mm x (w (ad + 1))) (setr 5 (mm x ad) x))
  | SHLD => next 3 (setm (w (ad + 1)) (R x 4) (setm ad (R x 5) x))
  | LDAX p => next 1 (setr 7 (mm x (pairv (pnum p) x)) x)
  | STAX p => next 1 (setm (pairv (pnum p) x) (R x 7) x)
  | XCHG => next 1 (setpair 2 (pairv 1 x) (setpair 1 (pairv 2 x) x))
  | INP | OUTP => next 2 x
  | PUSH pPSW => next 1 (push (256 * R x 7 + psw x) x)
  | PUSH p => next 1 (push (pairv (pnum p) x) x)
  | POP pPSW => let v := popv x in
      next 1 (setf (Z.testbit v 7) (Z.testbit v 6) (Z.testbit v 4) (Z.testbit v 2) (Z.testbit v 0)
                   (setr 7 (v / 256) (pop x)))
  | POP p => next 1 (setpair (pnum p) (popv x) (pop x))
  | XTHL => next 1 (setpair 2 (popv x) (setm (w (sp x + 1)) (R x 4) (setm (sp x) (R x 5) x)))
  | SPHL => next 1 (setsp (pairv 2 x) x)
  | ALU k (Some r) => next 1 (arith m85 (knum k) (src (num r) x) x)
  | ALU k None => next 2 (arith m85 (knum k) (operand8 x) x)
  | DAD p => let t := pairv 2 x + pairv (pnum p) x in next 1 (setc (65536 <=? t) (setpair 2 (w t) x))
  | INR r => next 1 (inc (num r) 1 x)
  | DCR r => next 1 (inc (num r) (-1) x)
  | INX p => next 1 (setpair (pnum p) (w (pairv (pnum p) x + 1)) x)
  | DCX p => next 1 (setpair (pnum p) (w (pairv (pnum p) x + -1)) x)
  | RLC => next 1 (setc (128 <=? a) (setr 7 (2 * a mod 256 + a / 128) x))
  | RRC => next 1 (setc (Z.odd a) (setr 7 (a / 2 + 128 * (a mod 2)) x))
  | RAL => next 1 (setc (128 <=? a) (setr 7 (2 * a mod 256 + cy) x))
  | RAR => next 1 (setc (Z.odd a) (setr 7 (a / 2 + 128 * cy) x))
  | DAA =>
      let lo := (9 <? a mod 16) || fA x in
      let a1 := a + (if lo then 6 else 0) in
      let hi := (159 <? a1) || fC x in
      let a2 := a1 + (if hi then 96 else 0) in
      next 1 (flags (a2 mod 256) (lo && (9 <? a mod 16)) (hi || fC x) (setr 7 (a2 mod 256) x))
  | CMA => next 1 (setr 7 (255 - a) x)
  | CMC => next 1 (setc (negb (fC x)) x)
  | STC => next 1 (setc true x)
  | JMP => setpc ad x
  | JCC k => if true_cond (cnum k) x then setpc ad x else next 3 x
  | CALL => setpc ad (push (w (pc x + 3)) x)
  | CCC k => if true_cond (cnum k) x then setpc ad (push (w (pc x + 3)) x) else next 3 x
  | RET => setpc (popv x) (pop x)
  | RCC k => if true_cond (cnum k) x then setpc (popv x) (pop x) else next 1 x
  | RST => setpc (8 * (c / 8 mod 8)) (push (w (pc x + 1)) x)
  | PCHL => setpc (pairv 2 x) x
  | RIM | SIM | ARHL | RDEL | DSUB | JNX5 | JX5 | RSTV | LDHI | LDSI | LHLX | SHLX => x
  end.
Definition manual_code (m85 : bool) (c : Z) (x : M) : M :=
  if c <? 64 then group0 m85 c x
  else if c =? 118 then next 1 x
  else if c <? 128 then next 1 (dst (c / 8 mod 8) (src (c mod 8) x) x)
  else if c <? 192 then next 1 (arith m85 (c / 8 mod 8) (src (c mod 8) x) x)
  else group3 m85 c x.
Lemma manual_by_code m85 x : manual m85 x = manual_code m85 (mm x (pc x)) x.
Proof. reflexivity. Qed.
Lemma nat_cases n (P : nat -> Prop) : Forall P (seq 0 n) -> forall k, (k < n)%nat -> P k.
Proof. intros H k Hk. rewrite Forall_forall in H. apply H, in_seq. lia. Qed.
Lemma manual_code_op m85 c x : 0 <= c < 256 -> ~ undefined_code c ->
  manual_code m85 c x = manual_op m85 c (itab m85 c) x.
Proof.
  intros Hc. pattern c. revert c Hc. apply (range_case 256). refine (nat_cases 256 _ _). cbn [seq].
  repeat (apply Forall_cons;
    [cbn [Z.of_nat Pos.of_succ_nat Pos.succ]; intros N;
     first [exfalso; apply N; unfold undefined_code; cbn [In]; tauto
           | destruct m85; reflexivity]|]).
  apply Forall_nil.
Qed.
