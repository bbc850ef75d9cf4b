(** C78-C88: expressions on the command line. *)
From Verif Require Import Base FioModel ChrModel ExprTab ExprModel ExprSpec ExprText ExprEqs ExprProofs3 ExprProofs5 ExprLex ExprProofs6 ExprObs.
From Coq Require Import Ascii String.
Open Scope Z_scope.

(* ================================================================== C78 *)
(** Any text that spells a tree, with parentheses and blanks wherever one likes, is
    evaluated as that tree: C's precedence, left associativity, operands from left to
    right; the value is given modulo 2^32, and no error is reported. *)
Theorem C78_expression_value : forall M e s t w, text_of e s t ->
  eval M e s w = match ev M false t w with Ok (n, w') => Value (word n) false w' | _ => Undefined end.
Proof. exact eval_text. Qed.
Definition l78 : list (token * list Z) := [
  ((PTOK_MEMORY, VMem 0 5), text "x"); (k PTOK_ADD_ASSIGN, text "+="); ((PTOK_CELL, VCell 1), text "r"); (k PTOK_MINUS, text "-");
  ((PTOK_NUMBER, VNum 2), [50]); (k PTOK_ASTERIX, text "*"); (k PTOK_LEFT_PAREN, text "("); ((PTOK_NUMBER, VNum 3), [51]); (k PTOK_MINUS, text "-");
  ((PTOK_NUMBER, VNum 1), [49]); (k PTOK_RIGHT_PAREN, text ")")].
Lemma t78 : text_of e0 (text "x+=r-2*(3-1)") (Asg (Named 0 5) AAdd (Bin Sub (Reg 1) (Bin Mul (Num 2) (Bin Sub (Num 3) (Num 1))))).
Proof.
  exists false, (map fst l78). split; [|apply (glue_spelt e0 l78); [words|reflexivity]].
  up 15. apply (W_asg false (Named 0 5) AAdd _ [(PTOK_MEMORY, VMem 0 5)]); [constructor|].
  do 10 (match goal with |- writes _ ?l _ _ => let m := eval cbv in (l - 1) in up m end).
  apply (W_bin false Sub (Reg 1) _ [(PTOK_CELL, VCell 1)]); cbn [prec].
  - up 4; up 3; up 2; up 1; up 0. constructor.
  - apply (W_bin false Mul (Num 2) _ [(PTOK_NUMBER, VNum 2)]); cbn [prec].
    + up 3; up 2; up 1; up 0. constructor.
    + up 2; up 1; up 0. apply (W_paren false _ [(PTOK_NUMBER, VNum 3); k PTOK_MINUS; (PTOK_NUMBER, VNum 1)]).
      do 11 (match goal with |- writes _ ?l _ _ => let m := eval cbv in (l - 1) in up m end).
      apply (W_bin false Sub (Num 3) (Num 1) [(PTOK_NUMBER, VNum 3)] [(PTOK_NUMBER, VNum 1)]); cbn [prec].
      * up 4; up 3; up 2; up 1; up 0. constructor.
      * up 3; up 2; up 1; up 0. constructor.
Qed.
Example C78_case : eval M0 e0 (text "x+=r-2*(3-1)") (250, 9) = Value 255 false (255, 9) /\
  eval M0 e0 (text " 7 - 4 - 1, x = 0x1ff, x ") (0, 0) = Value 255 false (255, 0) /\ eval M0 e0 (text "1+2<<3==24&&6^3|8") (0, 0) = Value 1 false (0, 0).
Proof. rewrite (C78_expression_value M0 e0 _ _ (250, 9) t78). vm_compute. auto. Qed.

(* ================================================================== C79 *)
(** The value given for an expression without assignments is the one C gives (where &&,
    || and ?: evaluate only what matters) on a machine where reading changes nothing,
    and nothing changes.  Expressions without these operators are C's in any case. *)
Theorem C79_pure : forall M e s t w v err w', quiet M -> text_of e s t -> pure t = true -> eval M e s w = Value v err w' ->
  err = false /\ w' = w /\ exists n, ev M true t w = Ok (n, w) /\ v = n mod 2 ^ 32.
Proof.
  intros M e s t w v err w' Q T P E. rewrite (eval_text M e s t w T) in E. destruct (ev M false t w) as [[n w1]| |] eqn:V; [|discriminate E|discriminate E].
  destruct (proj1 (pure_same M Q) t P w n w1 V) as [-> V2]. unfold given in E. assert (A : v = word n /\ err = false /\ w' = w) by (split; [|split]; congruence). destruct A as (-> & -> & ->).
  split; [reflexivity|]. split; [reflexivity|]. exists n. split; [exact V2|reflexivity].
Qed.
Theorem C79_plain : forall M e s t w, text_of e s t -> plain t = true ->
  eval M e s w = match ev M true t w with Ok (n, w') => Value (word n) false w' | _ => Undefined end.
Proof. intros M e s t w T P. rewrite (proj1 (plain_same M) t P). apply eval_text, T. Qed.
(** the limit: the right operands of && and || and both branches of ?: are evaluated
    whatever the value of the left one *)
Theorem C79_all_operands_limit : forall M e s o a b w n1 w1, o = LAnd \/ o = LOr -> text_of e s (Bin o a b) -> ev M false a w = Ok (n1, w1) ->
  eval M e s w = match ev M false b w1 with
    | Ok (n2, w2) => Value (if match o with LAnd => negb (n1 =? 0) && negb (n2 =? 0) | _ => negb (n1 =? 0) || negb (n2 =? 0) end then 1 else 0) false w2
    | _ => Undefined end.
Proof.
  intros M e s o a b w n1 w1 O T E. rewrite (eval_text M e s _ w T), e_Bin, E. cbn [rbind].
  destruct O as [-> | ->]; cbn [andb]; destruct (ev M false b w1) as [[n2 w2]| |]; try reflexivity; cbn [rbind c_binop given]; unfold truth; destruct (_ || _) || destruct (_ && _); reflexivity.
Qed.
Theorem C79_both_branches_limit : forall M e s c a b w n w1 n1 w2, text_of e s (Cond c a b) -> ev M false c w = Ok (n, w1) -> ev M false a w1 = Ok (n1, w2) ->
  eval M e s w = match ev M false b w2 with Ok (n2, w3) => Value (word (if n =? 0 then n2 else n1)) false w3 | _ => Undefined end.
Proof.
  intros M e s c a b w n w1 n1 w2 T E1 E2. rewrite (eval_text M e s _ w T), e_Cond, E1. cbn [rbind]. rewrite E2. cbn [rbind].
  destruct (ev M false b w2) as [[n2 w3]| |]; reflexivity.
Qed.
Definition l79 : list (token * list Z) := [
  ((PTOK_NUMBER, VNum 1), [49]); (k PTOK_OR_OP, text "||"); ((PTOK_MEMORY, VMem 0 5), text "x"); (k PTOK_INC_OP, text "++")].
Example C79_case : (exists s t, text_of e0 s t /\ pure t = true) /\ plain (Asg (Named 0 5) AAdd (Bin Sub (Reg 1) (Num 1))) = true /\
  text_of e0 (text "1||x++") (Bin LOr (Num 1) (Bump false 1 (Named 0 5))) /\ eval M0 e0 (text "1||x++") (7, 0) = Value 1 false (8, 0) /\
  eval M0 e0 (text "0&&1/0") (7, 0) = Undefined /\ eval M0 e0 (text "1?x=3:(x=4)") (7, 0) = Value 3 false (4, 0).
Proof.
  assert (T : text_of e0 (text "1||x++") (Bin LOr (Num 1) (Bump false 1 (Named 0 5)))).
  { exists false, (map fst l79). split; [|apply (glue_spelt e0 l79); [words|reflexivity]].
    up 15; up 14; up 13. apply (W_bin false LOr (Num 1) _ [(PTOK_NUMBER, VNum 1)]); cbn [prec].
    - do 13 (match goal with |- writes _ ?l _ _ => let m := eval cbv in (l - 1) in up m end). constructor.
    - do 11 (match goal with |- writes _ ?l _ _ => let m := eval cbv in (l - 1) in up m end). apply (W_post (Named 0 5) 1 [(PTOK_MEMORY, VMem 0 5)]); [constructor|auto]. }
  split; [|split; [reflexivity|split; [exact T|vm_compute; auto]]].
  exists [51], (Num 3). split; [|reflexivity]. exists false, [(PTOK_NUMBER, VNum 3)]. split.
  - do 16 (match goal with |- writes _ ?l _ _ => let m := eval cbv in (l - 1) in up m end). constructor.
  - apply (glue_spelt e0 [((PTOK_NUMBER, VNum 3), [51])]); [words|reflexivity].
Qed.

(* ================================================================== C80 *)
(** p[i:j] and p.i read exactly the named bits, whichever order the limits have. *)
Theorem C80_field_read : forall M e s p i j w m a w1 n1 w2 n2 w3, text_of e s (Field p i j) ->
  ev_place M false p w = Ok (m, a, w1) -> ev M false i w1 = Ok (n1, w2) -> ev M false j w2 = Ok (n2, w3) -> 0 <= n1 < 32 -> 0 <= n2 < 32 ->
  let v := fst (m_read w3 m (a mod 2 ^ 32)) mod 2 ^ 32 in let lo := Z.min n1 n2 in let hi := Z.max n1 n2 in
  eval M e s w = Value ((v / 2 ^ lo) mod 2 ^ (hi - lo + 1)) false (snd (m_read w3 m (a mod 2 ^ 32))).
Proof.
  intros M e s p i j w m a w1 n1 w2 n2 w3 T P1 P2 P3 B1 B2. cbv zeta. rewrite (eval_text M e s _ w T), e_Field, P1. cbn [rbind]. rewrite P2. cbn [rbind]. rewrite P3. cbn [rbind]. cbv zeta.
  rewrite !signed_small by lia. unfold bits_ok. replace ((0 <=? Z.min n1 n2) && (Z.min n1 n2 <? 32) && (Z.max n1 n2 <? 32)) with true by lia.
  unfold given, load, field. replace (Z.max n1 n2 <? Z.min n1 n2) with false by lia. cbn [fst snd]. fold (word a). set (v := word (fst (m_read w3 m (word a)))).
  change (fst (m_read w3 m (word a)) mod 2 ^ 32) with v. f_equal. apply word_small.
  assert (0 <= v < 2 ^ 32) by (apply Z.mod_pos_bound; reflexivity). assert (0 < 2 ^ Z.min n1 n2) by (apply Z.pow_pos_nonneg; lia). assert (0 < 2 ^ (Z.max n1 n2 - Z.min n1 n2 + 1)) by (apply Z.pow_pos_nonneg; lia).
  assert (0 <= v / 2 ^ Z.min n1 n2) by (apply Z.div_pos; lia). pose proof (Z.mod_pos_bound (v / 2 ^ Z.min n1 n2) (2 ^ (Z.max n1 n2 - Z.min n1 n2 + 1)) ltac:(lia)).
  pose proof (Z.mod_le (v / 2 ^ Z.min n1 n2) (2 ^ (Z.max n1 n2 - Z.min n1 n2 + 1)) ltac:(lia) ltac:(lia)). assert (v / 2 ^ Z.min n1 n2 <= v) by (apply Z.div_le_upper_bound; nia). lia.
Qed.
Theorem C80_bit_read : forall M e s p i w m a w1 n w2, text_of e s (BitOf p i) ->
  ev_place M false p w = Ok (m, a, w1) -> ev M false i w1 = Ok (n, w2) -> 0 <= n < 32 ->
  eval M e s w = Value (if Z.testbit (fst (m_read w2 m (a mod 2 ^ 32)) mod 2 ^ 32) n then 1 else 0) false (snd (m_read w2 m (a mod 2 ^ 32))).
Proof.
  intros M e s p i w m a w1 n w2 T P1 P2 B. rewrite (eval_text M e s _ w T), e_BitOf, P1. cbn [rbind]. rewrite P2. cbn [rbind]. cbv zeta.
  rewrite !signed_small by lia. unfold bits_ok. replace ((0 <=? n) && (n <? 32) && (n <? 32)) with true by lia.
  unfold given, load, field. replace (n <? n) with false by lia. cbn [fst snd]. fold (word a). set (v := word (fst (m_read w2 m (word a)))).
  change (fst (m_read w2 m (word a)) mod 2 ^ 32) with v. f_equal. replace (n - n + 1) with 1 by lia. change (2 ^ 1) with 2. rewrite <- Z.bit0_mod, Z.div_pow2_bits by lia. replace (0 + n) with n by lia. destruct (Z.testbit v n); reflexivity.
Qed.
(** Assigning n to p[i:j] does not store the low bits of n in the field: the field's bits
    are cleared, bits lo..hi of n are taken, and those are or-ed into the location lo
    bits higher, at 2 lo .. lo+hi. *)
Theorem C80_field_assign_exact : forall M e s p i j x w m a w1 n1 w2 n2 w3 n w4, text_of e s (AsgField p i j x) ->
  ev_place M false p w = Ok (m, a, w1) -> ev M false i w1 = Ok (n1, w2) -> ev M false j w2 = Ok (n2, w3) -> ev M false x w3 = Ok (n, w4) ->
  0 <= n1 < 32 -> 0 <= n2 < 32 ->
  let r := m_read w4 m (a mod 2 ^ 32) in let old := fst r mod 2 ^ 32 in let lo := Z.min n1 n2 in let hi := Z.max n1 n2 in
  exists v, eval M e s w = Value v false (m_write (snd r) m (a mod 2 ^ 32) v) /\ 0 <= v < 2 ^ 32 /\
  (forall b, 0 <= b < 32 -> Z.testbit v b =
    ((if (lo <=? b) && (b <=? hi) then false else Z.testbit old b) || (if (2 * lo <=? b) && (b <=? lo + hi) then Z.testbit n (b - lo) else false))%bool) /\
  (lo = 0 -> v = old / 2 ^ (hi + 1) * 2 ^ (hi + 1) + n mod 2 ^ (hi + 1)).
Proof.
  intros M e s p i j x w m a w1 n1 w2 n2 w3 n w4 T P1 P2 P3 P4 B1 B2. cbv zeta. fold (word a). set (old := word (fst (m_read w4 m (word a)))). change (fst (m_read w4 m (word a)) mod 2 ^ 32) with old.
  exists (put_bits (Z.min n1 n2) (Z.max n1 n2) old n). assert (OR : 0 <= old < 2 ^ 32) by (apply Z.mod_pos_bound; reflexivity). split; [|split; [apply put_bits_range|split]].
  - rewrite (eval_text M e s _ w T), e_AsgField, P1. cbn [rbind]. rewrite P2. cbn [rbind]. rewrite P3. cbn [rbind]. rewrite P4. cbn [rbind]. cbv zeta.
    rewrite !signed_small by lia. unfold load. fold old. unfold bits_ok. replace ((0 <=? Z.min n1 n2) && (Z.min n1 n2 <? 32) && (Z.max n1 n2 <? 32)) with true by lia. cbn [orb].
    unfold given, store. rewrite (word_small _ (put_bits_range _ _ _ _)). reflexivity.
  - intros b B. rewrite put_bits_bit by lia. replace (Z.max n1 n2 + Z.min n1 n2) with (Z.min n1 n2 + Z.max n1 n2) by lia.
    destruct ((Z.min n1 n2 <=? b) && (b <=? Z.max n1 n2)), ((2 * Z.min n1 n2 <=? b) && (b <=? Z.min n1 n2 + Z.max n1 n2)), (Z.testbit old b), (Z.testbit n (b - Z.min n1 n2)); reflexivity.
  - intros ->. apply put_low; lia.
Qed.
(** The limit: setting a bit other than bit 0 to one clears it instead. *)
Theorem C80_bit_set_limit : forall M e s p i x w m a w1 k w2 w3, text_of e s (AsgBit p i x) ->
  ev_place M false p w = Ok (m, a, w1) -> ev M false i w1 = Ok (k, w2) -> ev M false x w2 = Ok (1, w3) -> 1 <= k < 32 ->
  let r := m_read w3 m (a mod 2 ^ 32) in let old := fst r mod 2 ^ 32 in let v := old - (if Z.testbit old k then 2 ^ k else 0) in
  eval M e s w = Value v false (m_write (snd r) m (a mod 2 ^ 32) v).
Proof.
  intros M e s p i x w m a w1 k w2 w3 T P1 P2 P3 B. cbv zeta. fold (word a). set (old := word (fst (m_read w3 m (word a)))). change (fst (m_read w3 m (word a)) mod 2 ^ 32) with old.
  assert (OR : 0 <= old < 2 ^ 32) by (apply Z.mod_pos_bound; reflexivity). rewrite <- put_bit_one by lia.
  rewrite (eval_text M e s _ w T), e_AsgBit, P1. cbn [rbind]. rewrite P2. cbn [rbind]. rewrite P3. cbn [rbind]. cbv zeta. rewrite !signed_small by lia. unfold load. fold old. unfold bits_ok. replace ((0 <=? k) && (k <? 32) && (k <? 32)) with true by lia.
  unfold given, store. rewrite (word_small _ (put_bits_range _ _ _ _)). reflexivity.
Qed.
Definition l80 : list (token * list Z) := [((PTOK_MEMORY, VMem 0 5), text "x"); (k PTOK_DOT, text "."); ((PTOK_NUMBER, VNum 3), [51]); (k PTOK_EQUAL, text "="); ((PTOK_NUMBER, VNum 1), [49])].
Lemma t80 : text_of e0 (text "x.3=1") (AsgBit (Named 0 5) (Num 3) (Num 1)).
Proof.
  exists false, (map fst l80). split; [|apply (glue_spelt e0 l80); [words|reflexivity]]. up 15.
  apply (W_asgbit1 false (Named 0 5) 3 (Num 1) [(PTOK_MEMORY, VMem 0 5)] [(PTOK_NUMBER, VNum 1)]); [constructor|].
  do 15 (match goal with |- writes _ ?l _ _ => let m := eval cbv in (l - 1) in up m end). constructor.
Qed.
Example C80_case : eval M0 e0 (text "x.3=1") (255, 0) = Value 247 false (247, 0) /\ eval M0 e0 (text "x[5:2]") (180, 0) = Value 13 false (180, 0) /\
  eval M0 e0 (text "x[0:3]=5") (240, 0) = Value 245 false (245, 0) /\ eval M0 e0 (text "x[1:2]=6") (0, 0) = Value 12 false (12, 0).
Proof.
  split; [|vm_compute; auto]. apply (C80_bit_set_limit M0 e0 _ (Named 0 5) (Num 3) (Num 1) (255, 0) 0 5 (255, 0) 3 (255, 0) (255, 0) t80); try reflexivity. lia.
Qed.

(* ================================================================== C81 *)
(** The bit number after a dot is all that follows, not just the next operand. *)
Theorem C81_dot_takes_the_rest : forall M e s m a o i wi w, writes o 16 i wi ->
  spelt e ([(PTOK_MEMORY, VMem m a); k PTOK_DOT] ++ wi) s ->
  eval M e s w = match ev M false (BitOf (Named m a) i) w with Ok (n, w') => Value (word n) false w' | _ => Undefined end.
Proof.
  intros M e s m a o i wi w H S. apply eval_text. exists true, ([(PTOK_MEMORY, VMem m a)] ++ [k PTOK_DOT] ++ wi). split; [|exact S].
  do 16 (match goal with |- writes _ ?l _ _ => let m := eval cbv in (l - 1) in up m end). apply (W_dot o (Named m a)); [constructor|exact H].
Qed.
Theorem C81_dot_operator : forall M e s m a n1 b n2 n w, spelt e [(PTOK_MEMORY, VMem m a); k PTOK_DOT; (PTOK_NUMBER, VNum n1); k (binop_tok b); (PTOK_NUMBER, VNum n2)] s ->
  c_binop b n1 n2 = Ok n -> 0 <= n < 32 ->
  eval M e s w = Value (if Z.testbit (fst (m_read w m (a mod 2 ^ 32)) mod 2 ^ 32) n then 1 else 0) false (snd (m_read w m (a mod 2 ^ 32))).
Proof.
  intros M e s m a n1 b n2 n w S E B.
  assert (UPS : forall (d : nat) x e0 ws o, 0 <= x -> x + Z.of_nat d <= 16 -> writes o x e0 ws -> writes o (x + Z.of_nat d) e0 ws).
  { induction d as [|d IH]; intros x y ws o X D H; [replace (x + Z.of_nat 0) with x by lia; exact H|]. replace (x + Z.of_nat (Datatypes.S d)) with ((x + Z.of_nat d) + 1) by lia. apply W_up; [lia|]. apply IH; [lia|lia|exact H]. }
  assert (PB : 4 <= prec b <= 13) by (destruct b; cbn [prec]; lia).
  assert (NU : forall n x, 0 <= x <= 16 -> writes false x (Num n) [(PTOK_NUMBER, VNum n)]).
  { intros n0 x X. replace x with (0 + Z.of_nat (Z.to_nat x)) by lia. apply UPS; [lia|lia|constructor]. }
  assert (H : writes false 16 (Bin b (Num n1) (Num n2)) [(PTOK_NUMBER, VNum n1); k (binop_tok b); (PTOK_NUMBER, VNum n2)]).
  { replace 16 with (prec b + Z.of_nat (Z.to_nat (16 - prec b))) by lia. apply UPS; [lia|lia|]. apply (W_bin false b (Num n1) (Num n2) [(PTOK_NUMBER, VNum n1)] [(PTOK_NUMBER, VNum n2)]); apply NU; lia. }
  apply (C80_bit_read M e s (Named m a) (Bin b (Num n1) (Num n2)) w m a w n w).
  - exists true, ([(PTOK_MEMORY, VMem m a)] ++ [k PTOK_DOT] ++ [(PTOK_NUMBER, VNum n1); k (binop_tok b); (PTOK_NUMBER, VNum n2)]). split; [|exact S].
    do 16 (match goal with |- writes _ ?l _ _ => let m := eval cbv in (l - 1) in up m end). apply (W_dot false (Named m a)); [constructor|exact H].
  - reflexivity.
  - rewrite e_Bin, e_Num. cbn [rbind]. rewrite e_Num. cbn [rbind]. rewrite E. cbn [rbind]. destruct b; reflexivity.
  - exact B.
Qed.
Definition l81 : list (token * list Z) := [((PTOK_MEMORY, VMem 0 5), text "x"); (k PTOK_DOT, text "."); ((PTOK_NUMBER, VNum 1), [49]); (k PTOK_EQ_OP, text "=="); ((PTOK_NUMBER, VNum 2), [50])].
Example C81_case : eval M0 e0 (text "x.1==2") (1, 0) = Value 1 false (1, 0) /\ eval M0 e0 (text "x.1+2") (8, 0) = Value 1 false (8, 0).
Proof.
  split; [|vm_compute; reflexivity]. rewrite (C81_dot_operator M0 e0 (text "x.1==2") 0 5 1 Eq 2 0 (1, 0)); [reflexivity| |reflexivity|lia].
  apply (glue_spelt e0 l81); [words|reflexivity].
Qed.

(* ================================================================== C82 *)
(** Numbers: decimal, octal after 0, binary after 0b, hexadecimal after 0x, 0X or $, a
    character between apostrophes. *)
Theorem C82_literals : forall M e w,
  (forall c s, 49 <= c <= 57 -> Forall (digit 10) s -> number 10 0 (c :: s) < 2 ^ 63 -> eval M e (c :: s) w = Value (number 10 0 (c :: s) mod 2 ^ 32) false w) /\
  (forall s, Forall (digit 8) s -> number 8 0 s < 2 ^ 63 -> eval M e (48 :: s) w = Value (number 8 0 s mod 2 ^ 32) false w) /\
  (forall s, s <> [] -> Forall (digit 2) s -> number 2 0 s < 2 ^ 63 -> eval M e (text "0b" ++ s) w = Value (number 2 0 s mod 2 ^ 32) false w) /\
  (forall p s, In p ["0x"; "0X"; "$"]%string -> s <> [] -> Forall (digit 16) s -> number 16 0 s < 2 ^ 63 -> eval M e (text p ++ s) w = Value (number 16 0 s mod 2 ^ 32) false w) /\
  (forall c, 0 < c < 128 -> c <> 39 -> c <> 92 -> eval M e [39; c; 39] w = Value c false w).
Proof.
  intros M e w.
  assert (A : forall n s, word_text e (PTOK_NUMBER, VNum n) s -> eval M e s w = Value (n mod 2 ^ 32) false w).
  { intros n s H. rewrite (eval_text M e s (Num n) w); [reflexivity|]. exists false, [(PTOK_NUMBER, VNum n)]. split.
    - do 16 (match goal with |- writes _ ?l _ _ => let m := eval cbv in (l - 1) in up m end). constructor.
    - rewrite <- (app_nil_r s). apply (X_word e (PTOK_NUMBER, VNum n) s [] [] []); [constructor|exact H|apply X_end; constructor|intros c r E; discriminate E]. }
  repeat split; intros.
  - apply A, T_dec; assumption.
  - apply A, T_oct; assumption.
  - apply A, T_bin; assumption.
  - apply A, T_hex; assumption.
  - rewrite <- (Z.mod_small c (2 ^ 32)) at 2 by lia. apply A, T_chr; assumption.
Qed.
Example C82_case : number 10 0 (text "4294967297") = 4294967297 /\ eval M0 e0 (text "4294967297") (0, 0) = Value 1 false (0, 0) /\ eval M0 e0 (text "017+0b101+0xAb+$10+'A'") (0, 0) = Value 272 false (0, 0).
Proof. vm_compute. auto. Qed.

(* ================================================================== C83 *)
(** Whatever text is given, the evaluation ends: with a value and perhaps an error, or in
    an operation that is undefined in C (division by zero, overflow, a bad shift count);
    the parser never gets into a state its tables do not cover. *)
Theorem C83_terminates : forall M e s w,
  (exists v err w', eval M e s w = Value v err w' /\ 0 <= v < 2 ^ 32) \/ (parse M (lex e s) w = Crash M /\ eval M e s w = Undefined).
Proof.
  intros M e s w. destruct (eval_total M e s w) as [B F]. unfold eval, eval_tokens.
  destruct (parse M (lex e s) w) as [w' n|w' n| | |] eqn:P; try contradiction; [left|left|right; auto].
  - eexists _, _, _. split; [reflexivity|]. apply Z.mod_pos_bound. reflexivity.
  - eexists _, _, _. split; [reflexivity|]. apply Z.mod_pos_bound. reflexivity.
Qed.
Example C83_case : eval M0 e0 (text "x = ( 3 + ;;") (1, 2) = Value 0 true (1, 2) /\ eval M0 e0 (text "5 % (r-2)") (1, 2) = Undefined /\ eval M0 e0 [] (1, 2) = Value 0 true (1, 2).
Proof. vm_compute. auto. Qed.

(* ================================================================== C84 *)
(** A name nobody knows ends the expression, silently: it and all behind it is ignored. *)
Theorem C84_unknown_name : forall M e ts s name rest w, spelt e ts s -> unknown e name -> (forall c r, rest = c :: r -> ~ alnum c /\ c <> 36) ->
  eval M e (s ++ [32] ++ name ++ rest) w = eval M e s w.
Proof.
  intros M e ts s name rest w S U R. unfold eval. f_equal. rewrite (lex_spelt e ts s S). unfold lex. apply (lex_unknown e ts s name rest S U R). lia.
Qed.
Example C84_case : unknown e0 (text "y") /\ eval M0 e0 (text "x=3 y+)!") (9, 0) = Value 3 false (3, 0).
Proof.
  assert (U : unknown e0 (text "y")).
  { repeat split; [apply one_name; reflexivity|discriminate| |].
    - intros n m [E|[]]. injection E as <- <-. intros E. discriminate E.
    - intros n x [E|[E|[E|[]]]]; injection E as <- <-; discriminate. }
  split; [exact U|].
  change (text "x=3 y+)!") with (text "x=3" ++ [32] ++ text "y" ++ text "+)!"). rewrite (C84_unknown_name M0 e0 [(PTOK_MEMORY, VMem 0 5); k PTOK_EQUAL; (PTOK_NUMBER, VNum 3)]); [vm_compute; reflexivity| |exact U|].
  - apply (glue_spelt e0 [((PTOK_MEMORY, VMem 0 5), text "x"); (k PTOK_EQUAL, text "="); ((PTOK_NUMBER, VNum 3), [51])]); [words|reflexivity].
  - intros c r E. injection E as <- _. unfold alnum, letter, digit. split; lia.
Qed.

(* ================================================================== C85 *)
(** An expression directly followed by a word that cannot continue it (a closing bracket,
    a colon, or the start of another operand): an error is reported, but the first
    expression has been evaluated, its effects stay, and its value is the result. *)
Theorem C85_error_keeps_value : forall M e s t o ts x rest w, writes o 16 t ts -> spelt e (ts ++ x :: rest) s ->
  In (fst x) [PTOK_RIGHT_PAREN; PTOK_RIGHT_BRACKET; PTOK_COLON; PTOK_NUMBER; PTOK_CELL; PTOK_MEMORY; PTOK_MEMORY_OBJECT; PTOK_LEFT_PAREN; PTOK_TILDE; PTOK_EXCLAMATION; PTOK_INT] ->
  eval M e s w = match ev M false t w with Ok (n, w') => Value (word n) true w' | _ => Undefined end.
Proof.
  intros M e s t o ts x rest w H S C. apply (eval_rest M e s t ts x rest w o H S).
  - repeat (destruct C as [<- | C]; [cbn; tauto|]). contradiction.
  - intros E. rewrite E in C. repeat (destruct C as [C|C]; [discriminate C|]). contradiction.
Qed.
Definition l85 : list (token * list Z) := [((PTOK_MEMORY, VMem 0 5), text "x"); (k PTOK_EQUAL, text "="); ((PTOK_NUMBER, VNum 3), [51]); (k PTOK_RIGHT_PAREN, text ")"); (k PTOK_ASTERIX, text "*")].
Example C85_case : eval M0 e0 (text "x=3)*") (9, 0) = Value 3 true (3, 0).
Proof.
  rewrite (C85_error_keeps_value M0 e0 (text "x=3)*") (Asg (Named 0 5) Set_ (Num 3)) false [(PTOK_MEMORY, VMem 0 5); k PTOK_EQUAL; (PTOK_NUMBER, VNum 3)] (k PTOK_RIGHT_PAREN) [k PTOK_ASTERIX]); [reflexivity| | |cbn; tauto].
  - up 15. apply (W_asg false (Named 0 5) Set_ (Num 3) [(PTOK_MEMORY, VMem 0 5)] [(PTOK_NUMBER, VNum 3)]); [constructor|].
    do 15 (match goal with |- writes _ ?l _ _ => let m := eval cbv in (l - 1) in up m end). constructor.
  - apply (glue_spelt e0 l85); [words|reflexivity].
Qed.

(* ================================================================== C86 *)
(** A variable gives the whole location it stands for, also when it was defined for some
    bits of it only; a memory's name wins over a variable's; addresses of bits are not
    known: &p.i is 2^32-1, &p[i:j] is 0. *)
Theorem C86_variable : forall M e s m a bits w, name_text s -> s <> text "int" -> no_memory e s -> first_of eq (n_vars e) s (Located m a bits) ->
  eval M e s w = Value (fst (m_read w m (a mod 2 ^ 32)) mod 2 ^ 32) false (snd (m_read w m (a mod 2 ^ 32))).
Proof.
  intros M e s m a bits w N I NM F. rewrite (eval_text M e s (Get (Named m a)) w).
  - rewrite e_Get, e_Named. cbn [rbind]. unfold given, load. f_equal. apply Z.mod_mod. lia.
  - exists false, [(PTOK_MEMORY, VMem m a)]. split.
    + do 16 (match goal with |- writes _ ?l _ _ => let m := eval cbv in (l - 1) in up m end). constructor. constructor.
    + rewrite <- (app_nil_r s). apply (X_word e _ s [] [] []); [constructor|exact (T_var e s m a bits N I NM F)|apply X_end; constructor|intros c r E; discriminate E].
Qed.
Theorem C86_register : forall M e s c w, name_text s -> s <> text "int" -> no_memory e s -> first_of eq (n_vars e) s (InCell c) ->
  eval M e s w = Value (fst (c_read w c) mod 2 ^ 32) false (snd (c_read w c)).
Proof.
  intros M e s c w N I NM F. rewrite (eval_text M e s (Reg c) w).
  - rewrite e_Reg. unfold given, loadr. f_equal. apply Z.mod_mod. lia.
  - exists false, [(PTOK_CELL, VCell c)]. split.
    + do 16 (match goal with |- writes _ ?l _ _ => let m := eval cbv in (l - 1) in up m end). constructor.
    + rewrite <- (app_nil_r s). apply (X_word e _ s [] [] []); [constructor|exact (T_reg e s c N I NM F)|apply X_end; constructor|intros ch r E; discriminate E].
Qed.
Theorem C86_addresses : forall M e s p w m a w1, ev_place M false p w = Ok (m, a, w1) ->
  (text_of e s (Addr p) -> eval M e s w = Value (a mod 2 ^ 32) false w1) /\
  (forall i n w2, text_of e s (AddrBit p i) -> ev M false i w1 = Ok (n, w2) -> eval M e s w = Value 4294967295 false w2) /\
  (forall i j n w2 n' w3, text_of e s (AddrField p i j) -> ev M false i w1 = Ok (n, w2) -> ev M false j w2 = Ok (n', w3) -> eval M e s w = Value 0 false w3).
Proof.
  intros M e s p w m a w1 P. split; [|split].
  - intros T. rewrite (eval_text M e s _ w T), e_Addr, P. reflexivity.
  - intros i n w2 T E. rewrite (eval_text M e s _ w T), e_AddrBit, P. cbn [rbind]. rewrite E. reflexivity.
  - intros i j n w2 n' w3 T E E'. rewrite (eval_text M e s _ w T), e_AddrField, P. cbn [rbind]. rewrite E. cbn [rbind]. rewrite E'. reflexivity.
Qed.
Example C86_case : eval M0 e0 (text "flag") (248, 0) = Value 248 false (248, 0) /\ eval M0 e0 (text "&rom[7]+&x") (248, 0) = Value 12 false (248, 0) /\
  eval M0 e0 (text "&x.3") (248, 0) = Value 4294967295 false (248, 0).
Proof.
  split; [|vm_compute; auto]. rewrite (C86_variable M0 e0 (text "flag") 0 5 (Some (3, 3)) (248, 0)); [reflexivity| |discriminate| |].
  - apply N_plain. apply (I_plain 102 (text "lag")); [apply letter_list; reflexivity|]. repeat (apply Forall_cons; [left; apply letter_list; reflexivity|]). constructor.
  - intros n m [E|[]]. injection E as <- <-. intros E. discriminate E.
  - apply F_later; [discriminate|]. apply F_later; [discriminate|]. apply first_here. reflexivity.
Qed.

(* ================================================================== C87 *)
(** x op= n stores and gives what x = x op n does, for the operators * / % + - << >> & ^ |,
    if reading and n change nothing and shift counts are below 32. *)
Theorem C87_compound : forall M e s s' m a o b x w n, quiet M -> bin_of o = Some b ->
  text_of e s (Asg (Named m a) o x) -> text_of e s' (Asg (Named m a) Set_ (Bin b (Get (Named m a)) x)) ->
  ev M false x w = Ok (n, w) -> (b = Shl \/ b = Shr -> 0 <= n < 32) -> eval M e s w = eval M e s' w.
Proof.
  intros M e s s' m a o b x w n Q B T1 T2 E SH. rewrite (eval_text M e s _ w T1), (eval_text M e s' _ w T2), !e_Asg, e_Named. cbn [rbind]. rewrite E. cbn [rbind].
  rewrite e_Bin, e_Get, e_Named. cbn [rbind]. pose proof (load_quiet M w m a Q) as LQ. destruct (load M w m a) as [old w1] eqn:L. cbn [snd] in LQ. subst w1. cbn [rbind]. rewrite E. cbn [rbind].
  assert (OR : 0 <= old < 2 ^ 32) by (replace old with (fst (load M w m a)) by (rewrite L; reflexivity); apply Z.mod_pos_bound; reflexivity).
  pose proof (compound_value o b old n B OR SH) as CV.
  assert (K : (match b with LAnd => if false && (old =? 0) then Ok (0, w) else (v <- c_binop b old n ;; Ok (v, w)) | LOr => if false && negb (old =? 0) then Ok (1, w) else (v <- c_binop b old n ;; Ok (v, w)) | _ => (v <- c_binop b old n ;; Ok (v, w)) end) = (v <- c_binop b old n ;; Ok (v, w))) by (destruct b; reflexivity).
  cbn [andb] in *. 
  match goal with |- given M ?l false = given M (rbind ?r _) false => assert (K2 : r = (v <- c_binop b old n ;; Ok (v, w))) by (destruct b; reflexivity); rewrite K2 end.
  destruct (c_assign o old n) as [v| |], (c_binop b old n) as [v'| |]; try contradiction; cbn [rbind]; [|reflexivity].
  rewrite L. cbn [c_assign rbind]. unfold store. rewrite CV. reflexivity.
Qed.
Example C87_case : quiet M0 /\ bin_of AShl = Some Shl /\ eval M0 e0 (text "x<<=2") (3, 0) = Value 12 false (12, 0) /\ eval M0 e0 (text "x=x<<2") (3, 0) = Value 12 false (12, 0) /\
  text_of e0 (text "x+=r-2*(3-1)") (Asg (Named 0 5) AAdd (Bin Sub (Reg 1) (Bin Mul (Num 2) (Bin Sub (Num 3) (Num 1))))).
Proof. split; [exact M0_quiet|]. split; [reflexivity|]. split; [vm_compute; reflexivity|]. split; [vm_compute; reflexivity|exact t78]. Qed.

(* ================================================================== C88 *)
(** (int)p reads the location as a signed number of the memory's width. *)
Theorem C88_cast : forall M e s p w m a w1, text_of e s (SignExt p) -> ev_place M false p w = Ok (m, a, w1) -> 0 < m_width M m <= 32 ->
  let v := fst (m_read w1 m (a mod 2 ^ 32)) in let W := m_width M m in
  0 <= v < 2 ^ W ->
  eval M e s w = Value ((if v <? 2 ^ (W - 1) then v else v - 2 ^ W) mod 2 ^ 32) false (snd (m_read w1 m (a mod 2 ^ 32))).
Proof.
  intros M e s p w m a w1 T P WI. cbv zeta. fold (word a). intros V. rewrite (eval_text M e s _ w T), e_SignExt, P. cbn [rbind]. unfold load.
  replace ((0 <? m_width M m) && (m_width M m <=? 32)) with true by lia. unfold given. rewrite (word_small (fst (m_read w1 m (word a)))) by (pose proof (Z.pow_le_mono_r 2 (m_width M m) 32 ltac:(lia) ltac:(lia)); lia).
  rewrite sign_extend_ok by lia. reflexivity.
Qed.
Definition l88 : list (token * list Z) := [(k PTOK_LEFT_PAREN, text "("); (k PTOK_INT, text "int"); (k PTOK_RIGHT_PAREN, text ")"); ((PTOK_MEMORY, VMem 0 5), text "x")].
Example C88_case : eval M0 e0 (text "(int)x") (200, 0) = Value 4294967240 false (200, 0) /\ text_of e0 (text "(int)x") (SignExt (Named 0 5)).
Proof.
  split; [vm_compute; reflexivity|]. exists false, (map fst l88). split.
  - do 13 (match goal with |- writes _ ?l _ _ => let m := eval cbv in (l - 1) in up m end). apply (W_int (Named 0 5) [(PTOK_MEMORY, VMem 0 5)]). constructor.
  - apply (glue_spelt e0 l88); [|reflexivity]. apply Forall_cons; [apply text_o; in_op|]. apply Forall_cons; [apply T_int|]. words.
Qed.

Print Assumptions C78_expression_value.
Print Assumptions C79_pure.
Print Assumptions C79_plain.
Print Assumptions C79_all_operands_limit.
Print Assumptions C79_both_branches_limit.
Print Assumptions C80_field_read.
Print Assumptions C80_bit_read.
Print Assumptions C80_field_assign_exact.
Print Assumptions C80_bit_set_limit.
Print Assumptions C81_dot_takes_the_rest.
Print Assumptions C81_dot_operator.
Print Assumptions C82_literals.
Print Assumptions C83_terminates.
Print Assumptions C84_unknown_name.
Print Assumptions C85_error_keeps_value.
Print Assumptions C86_variable.
Print Assumptions C86_register.
Print Assumptions C86_addresses.
Print Assumptions C87_compound.
Print Assumptions C88_cast.
