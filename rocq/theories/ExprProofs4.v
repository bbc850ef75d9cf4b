(** Every expression written as in C is parsed as its tree: the rules one by one. *)
From Verif Require Import Base ExprTab ExprModel ExprSpec ExprProofs ExprProofs2 ExprProofs3 ExprEqs.

Section P.
Context (M : machine).
Notation W := (World M).
Notation goes := (goes M).
Notation PE := (PE M).
Notation PP := (PP M).

Ltac open_path r PT :=
  let l := eval vm_compute in (nth (Z.to_nat r) rhs []) in
  change (nth (Z.to_nat r) rhs []) with l in PT; cbn [pathP] in PT;
  repeat match type of PT with exists _, _ => let H := fresh "S" in destruct PT as (? & H & PT) end; subst.
Ltac prod r L G RD :=
  let PT := fresh "PT" in let e := fresh "e" in
  destruct (check_ok r (follow false L) _ _ ltac:(vm_compute; reflexivity) G) as (e & PT & RD); open_path r PT.
Ltac prod_any r G RD :=
  let PT := fresh "PT" in let e := fresh "e" in
  destruct (check_any_ok r _ _ ltac:(lia) ltac:(discriminate) ltac:(vm_compute; reflexivity) G) as (e & PT & RD); open_path r PT.
Ltac ubs := let E := fresh in intros E; try evc; rewrite ?E; reflexivity.
Ltac shift_ H := eapply sh; [exact H|reflexivity|]; cbn [snd].
Ltac numr_ r top := match goal with |- goes (mkCf _ (_ :: ?rest) _ _ _) (lands _ _ ?s ?v0 ?stk _ _ _) => eapply (reduce_num M r top s v0 stk) end.

Lemma num_ok n : PE false 0 (Num n) [(PTOK_NUMBER, VNum n)].
Proof.
  intros s v0 stk s' t rest w rs G F. prod_any 4 G RD. cbn [app]. shift_ S. evc; cbn [lands].
  apply (reduce_val M 4 [(x, VNum n)] s v0 stk (t :: rest) w rs s' (VNum n)); [exact G|apply RD|lia|reflexivity|discriminate|reflexivity|apply G_here].
Qed.
Lemma name_ok m a : PP (Named m a) [(PTOK_MEMORY, VMem m a)].
Proof.
  intros s v0 stk s' toks w rs G. prod_any 73 G RD. cbn [app]. shift_ S. evc; cbn [landsp].
  apply (reduce_val M 73 [(x, VMem m a)] s v0 stk toks w rs s' (VMem m a)); [exact G|apply RD|lia|reflexivity|discriminate|reflexivity|apply G_here].
Qed.
Lemma at_ok o m e ws : PE o 16 e ws -> PP (At m e) ([(PTOK_MEMORY_OBJECT, VObj m); k PTOK_LEFT_BRACKET] ++ ws ++ [k PTOK_RIGHT_BRACKET]).
Proof.
  intros P s v0 stk s' toks w rs G. prod_any 74 G RD. cbn [app]. rewrite <- app_assoc. cbn [app]. shift_ S. shift_ S0.
  eapply (seqE M o 16 e ws P); [exact S1|apply nt_nonneg|apply closer_follow; cbn; auto| |ubs|ubs].
  intros n w1 E. evc. rewrite E. cbn [rbind landsp]. shift_ S2.
  apply (reduce_val M 74 [(x2, VNone); (x1, VNum n); (x0, VNone); (x, VObj m)] s v0 stk toks w1 rs s' (VMem m n)); [exact G|apply RD|lia|reflexivity|discriminate|reflexivity|apply G_here].
Qed.
Lemma get_ok p ws : PP p ws -> PE false 0 (Get p) ws.
Proof.
  intros P s v0 stk s' t rest w rs G F. prod 2 0 G RD.
  eapply (seqP M p ws P); [exact S| |ubs|ubs].
  intros m a w1 E. evc. rewrite E. cbn [rbind].
  apply (reduce_num M 2 [(x, VMem m a)] s v0 stk (t :: rest) w1 rs s'); [exact G|apply RD, F|lia|reflexivity|discriminate|reflexivity].
Qed.
Lemma reg_ok c : PE false 0 (Reg c) [(PTOK_CELL, VCell c)].
Proof.
  intros s v0 stk s' t rest w rs G F. prod 5 0 G RD. cbn [app]. shift_ S. evc.
  apply (reduce_num M 5 [(x, VCell c)] s v0 stk (t :: rest) w rs s'); [exact G|apply RD, F|lia|reflexivity|discriminate|reflexivity].
Qed.
Lemma paren_ok o e ws : PE o 16 e ws -> PE false 0 e ([k PTOK_LEFT_PAREN] ++ ws ++ [k PTOK_RIGHT_PAREN]).
Proof.
  intros P s v0 stk s' t rest w rs G F. prod_any 6 G RD. cbn [app]. rewrite <- app_assoc. cbn [app]. shift_ S.
  eapply (seqE M o 16 e ws P); [exact S0|apply nt_nonneg|apply closer_follow; cbn; auto| |ubs|ubs].
  intros n w1 E. rewrite E. cbn [lands]. shift_ S1.
  apply (reduce_val M 6 [(x1, VNone); (x0, VNum n); (x, VNone)] s v0 stk (t :: rest) w1 rs s' (VNum n)); [exact G|apply RD|lia|reflexivity|discriminate|reflexivity|apply G_here].
Qed.

(** ** Bits *)
(** after the place and the dot or the brackets: a bit value on the stack *)
Lemma dot_goes o p i wp wi : PP p wp -> PE o 16 i wi ->
  forall s v0 stk s' t rest w rs R, goto s nt_bit = Some s' -> In (fst t) closers ->
  (forall m a w1 n w2, ev_place M false p w = Ok (m, a, w1) -> ev M false i w1 = Ok (n, w2) ->
     goes (mkCf M ((s', VBit m a no_bit_address (i32 n) (i32 n)) :: (s, v0) :: stk) (t :: rest) w2 rs) R) ->
  ((x <- ev_place M false p w ;; let '(m, a, w1) := x in ev M false i w1) = UB -> R = inr (Crash M)) ->
  ((x <- ev_place M false p w ;; let '(m, a, w1) := x in ev M false i w1) = Exit -> R = inr (Broken M)) ->
  goes (mkCf M ((s, v0) :: stk) (wp ++ [k PTOK_DOT] ++ wi ++ t :: rest) w rs) R.
Proof.
  intros Pp Pi s v0 stk s' t rest w rs R G F K1 K2 K3.
  destruct (check_ok 76 closers _ _ ltac:(vm_compute; reflexivity) G) as (e & PT & RD). open_path 76 PT.
  eapply (seqP M p wp Pp); [exact S| |intros E; apply K2; rewrite E; reflexivity|intros E; apply K3; rewrite E; reflexivity].
  intros m a w1 E. cbn [app]. shift_ S0.
  eapply (seqE M o 16 i wi Pi); [exact S1|apply nt_nonneg|apply closer_follow, F| |intros E1; apply K2; rewrite E; exact E1|intros E1; apply K3; rewrite E; exact E1].
  intros n w2 E1.
  apply (reduce_val M 76 [(x1, VNum n); (x0, VNone); (x, VMem m a)] s v0 stk (t :: rest) w2 rs s' (VBit m a no_bit_address (i32 n) (i32 n))); [exact G|apply RD, F|lia|reflexivity|discriminate|reflexivity|apply (K1 m a w1 n w2 E E1)].
Qed.
Definition field_val (m a n1 n2 : Z) : sval := if n1 <? n2 then VBit m a (-1) (i32 n2) (i32 n1) else VBit m a (-1) (i32 n1) (i32 n2).
Lemma field_goes oi oj p i j wp wi wj : PP p wp -> PE oi 16 i wi -> PE oj 16 j wj ->
  forall s v0 stk s' toks w rs R, goto s nt_bit = Some s' ->
  (forall m a w1 n1 w2 n2 w3, ev_place M false p w = Ok (m, a, w1) -> ev M false i w1 = Ok (n1, w2) -> ev M false j w2 = Ok (n2, w3) ->
     goes (mkCf M ((s', field_val m a n1 n2) :: (s, v0) :: stk) toks w3 rs) R) ->
  ((x <- ev_place M false p w ;; let '(m, a, w1) := x in y <- ev M false i w1 ;; let '(_, w2) := y in ev M false j w2) = UB -> R = inr (Crash M)) ->
  ((x <- ev_place M false p w ;; let '(m, a, w1) := x in y <- ev M false i w1 ;; let '(_, w2) := y in ev M false j w2) = Exit -> R = inr (Broken M)) ->
  goes (mkCf M ((s, v0) :: stk) (wp ++ [k PTOK_LEFT_BRACKET] ++ wi ++ [k PTOK_COLON] ++ wj ++ [k PTOK_RIGHT_BRACKET] ++ toks) w rs) R.
Proof.
  intros Pp Pi Pj s v0 stk s' toks w rs R G K1 K2 K3. prod_any 77 G RD.
  eapply (seqP M p wp Pp); [exact S| |intros E; apply K2; rewrite E; reflexivity|intros E; apply K3; rewrite E; reflexivity].
  intros m a w1 E. cbn [app]. shift_ S0.
  eapply (seqE M oi 16 i wi Pi); [exact S1|apply nt_nonneg|apply closer_follow; cbn; auto| |intros E1; apply K2; rewrite E; cbn [rbind]; rewrite E1; reflexivity|intros E1; apply K3; rewrite E; cbn [rbind]; rewrite E1; reflexivity].
  intros n1 w2 E1. shift_ S2.
  eapply (seqE M oj 16 j wj Pj); [exact S3|apply nt_nonneg|apply closer_follow; cbn; auto| |intros E2; apply K2; rewrite E; cbn [rbind]; rewrite E1; exact E2|intros E2; apply K3; rewrite E; cbn [rbind]; rewrite E1; exact E2].
  intros n2 w3 E2. shift_ S4.
  apply (reduce_val M 77 [(x4, VNone); (x3, VNum n2); (x2, VNone); (x1, VNum n1); (x0, VNone); (x, VMem m a)] s v0 stk toks w3 rs s' (field_val m a n1 n2)); [exact G|apply RD|lia|reflexivity|discriminate|reflexivity|apply (K1 m a w1 n1 w2 n2 w3 E E1 E2)].
Qed.
Lemma bit_from r s s' L : check r L = true -> goto s (fst (rule r)) = Some s' -> forall x l, nth (Z.to_nat r) rhs [] = x :: l -> exists s1, sym_next s x = Some s1.
Proof. intros C G x l E. destruct (check_ok _ _ _ _ C G) as (e & PT & _). rewrite E in PT. destruct PT as (s1 & H & _). eauto. Qed.

Lemma field_val_bits m a n1 n2 : field_val m a n1 n2 = VBit m a (-1) (signed 32 (Z.max n1 n2)) (signed 32 (Z.min n1 n2)).
Proof. unfold field_val. rewrite !signed32. destruct (Z.ltb_spec n1 n2); [rewrite Z.max_r, Z.min_l by lia|rewrite Z.max_l, Z.min_r by lia]; reflexivity. Qed.

Ltac fld := let E := fresh in evc; repeat match goal with |- context [rbind ?x _] => match x with ev_place _ _ _ _ => destruct x as [[[? ?] ?]| |] | ev _ _ _ _ => destruct x as [[? ?]| |] end; cbn [rbind] end; intros E; try discriminate E; try rewrite E; reflexivity.
Lemma dot_ok o p i wp wi : PP p wp -> PE o 16 i wi -> PE true 0 (BitOf p i) (wp ++ [k PTOK_DOT] ++ wi).
Proof.
  intros Pp Pi s v0 stk s' t rest w rs G F. prod 3 0 G RD. rewrite <- !app_assoc. apply (sym_n s nt_bit) in S; [|unfold nt_bit; lia].
  eapply (dot_goes o p i wp wi Pp Pi); [exact S|exact F| | |].
  - intros m a w1 n w2 E1 E2. evc. rewrite E1. cbn [rbind]. rewrite E2. cbn [rbind]. rewrite <- signed32.
    rewrite <- read_bits_ok.
    apply (reduce_num M 3 [(x, VBit m a no_bit_address (i32 n) (i32 n))] s v0 stk (t :: rest) w2 rs s'); [exact G|apply RD, closer_follow, F|lia|reflexivity|discriminate|reflexivity].
  - fld.
  - fld.
Qed.
Lemma field_ok oi oj p i j wp wi wj : PP p wp -> PE oi 16 i wi -> PE oj 16 j wj ->
  PE false 0 (Field p i j) (wp ++ [k PTOK_LEFT_BRACKET] ++ wi ++ [k PTOK_COLON] ++ wj ++ [k PTOK_RIGHT_BRACKET]).
Proof.
  intros Pp Pi Pj s v0 stk s' t rest w rs G F. prod 3 0 G RD. rewrite <- !app_assoc. apply (sym_n s nt_bit) in S; [|unfold nt_bit; lia].
  eapply (field_goes oi oj p i j wp wi wj Pp Pi Pj); [exact S| |fld|fld].
  intros m a w1 n1 w2 n2 w3 E1 E2 E3. evc. rewrite E1. cbn [rbind]. rewrite E2. cbn [rbind]. rewrite E3. cbn [rbind]. cbv zeta. rewrite <- read_bits_ok, field_val_bits.
  apply (reduce_num M 3 [(x, VBit m a (-1) (signed 32 (Z.max n1 n2)) (signed 32 (Z.min n1 n2)))] s v0 stk (t :: rest) w3 rs s'); [exact G|apply RD, F|lia|reflexivity|discriminate|reflexivity].
Qed.

(** ** ++ and -- *)
Lemma post_ok p d ws : PP p ws -> d = 1 \/ d = -1 -> PE false 1 (Bump false d p) (ws ++ [k (bump_tok d)]).
Proof.
  intros P D s v0 stk s' t rest w rs G F. rewrite <- app_assoc. cbn [app].
  destruct D as [-> | ->]; [prod_any 8 G RD|prod_any 10 G RD].
  all: eapply (seqP M p ws P); [exact S| |ubs|ubs]; intros m a w1 E; evc; rewrite E; cbn [rbind]; shift_ S0.
  - apply (reduce_num M 8 [(x0, VNone); (x, VMem m a)] s v0 stk (t :: rest) w1 rs s'); [exact G|apply RD|lia|reflexivity|discriminate|reflexivity].
  - apply (reduce_num M 10 [(x0, VNone); (x, VMem m a)] s v0 stk (t :: rest) w1 rs s'); [exact G|apply RD|lia|reflexivity|discriminate|reflexivity].
Qed.
Lemma postr_ok c d : d = 1 \/ d = -1 -> PE false 1 (BumpR false d c) [(PTOK_CELL, VCell c); k (bump_tok d)].
Proof.
  intros D s v0 stk s' t rest w rs G F. cbn [app].
  destruct D as [-> | ->]; [prod_any 9 G RD|prod_any 11 G RD]; shift_ S; shift_ S0; evc.
  - apply (reduce_num M 9 [(x0, VNone); (x, VCell c)] s v0 stk (t :: rest) w rs s'); [exact G|apply RD|lia|reflexivity|discriminate|reflexivity].
  - apply (reduce_num M 11 [(x0, VNone); (x, VCell c)] s v0 stk (t :: rest) w rs s'); [exact G|apply RD|lia|reflexivity|discriminate|reflexivity].
Qed.
Lemma pre_ok p d ws : PP p ws -> d = 1 \/ d = -1 -> PE false 2 (Bump true d p) ([k (bump_tok d)] ++ ws).
Proof.
  intros P D s v0 stk s' t rest w rs G F. cbn [app].
  destruct D as [-> | ->]; [prod 13 2 G RD|prod 15 2 G RD]; shift_ S.
  all: eapply (seqP M p ws P); [exact S0| |ubs|ubs]; intros m a w1 E; evc; rewrite E; cbn [rbind].
  - apply (reduce_num M 13 [(x0, VMem m a); (x, VNone)] s v0 stk (t :: rest) w1 rs s'); [exact G|apply RD, F|lia|reflexivity|discriminate|reflexivity].
  - apply (reduce_num M 15 [(x0, VMem m a); (x, VNone)] s v0 stk (t :: rest) w1 rs s'); [exact G|apply RD, F|lia|reflexivity|discriminate|reflexivity].
Qed.
Lemma prer_ok c d : d = 1 \/ d = -1 -> PE false 2 (BumpR true d c) [k (bump_tok d); (PTOK_CELL, VCell c)].
Proof.
  intros D s v0 stk s' t rest w rs G F. cbn [app].
  destruct D as [-> | ->]; [prod 14 2 G RD|prod 16 2 G RD]; shift_ S; shift_ S0; evc.
  - apply (reduce_num M 14 [(x0, VCell c); (x, VNone)] s v0 stk (t :: rest) w rs s'); [exact G|apply RD, F|lia|reflexivity|discriminate|reflexivity].
  - apply (reduce_num M 16 [(x0, VCell c); (x, VNone)] s v0 stk (t :: rest) w rs s'); [exact G|apply RD, F|lia|reflexivity|discriminate|reflexivity].
Qed.

(** ** Addresses *)
Lemma addr_ok p ws : PP p ws -> PE false 2 (Addr p) ([k PTOK_AMPERSAND] ++ ws).
Proof.
  intros P s v0 stk s' t rest w rs G F. cbn [app]. prod 17 2 G RD. shift_ S.
  eapply (seqP M p ws P); [exact S0| |ubs|ubs]; intros m a w1 E; evc; rewrite E; cbn [rbind].
  apply (reduce_num M 17 [(x0, VMem m a); (x, VNone)] s v0 stk (t :: rest) w1 rs s' (Ok (a, w1))); [exact G|apply RD, F|lia|reflexivity|discriminate|reflexivity].
Qed.
Lemma addrbit_ok o p i wp wi : PP p wp -> PE o 16 i wi -> PE true 2 (AddrBit p i) ([k PTOK_AMPERSAND] ++ wp ++ [k PTOK_DOT] ++ wi).
Proof.
  intros Pp Pi s v0 stk s' t rest w rs G F. prod 18 2 G RD. rewrite <- !app_assoc. cbn [app]. shift_ S. apply (sym_n x nt_bit) in S0; [|unfold nt_bit; lia].
  eapply (dot_goes o p i wp wi Pp Pi); [exact S0|exact F| | |].
  - intros m a w1 n w2 E1 E2. evc. rewrite E1. cbn [rbind]. rewrite E2. cbn [rbind].
    apply (reduce_num M 18 [(x0, VBit m a no_bit_address (i32 n) (i32 n)); (x, VNone)] s v0 stk (t :: rest) w2 rs s' (Ok (2 ^ 32 - 1, w2))); [exact G|apply RD, closer_follow, F|lia|reflexivity|discriminate|reflexivity].
  - fld.
  - fld.
Qed.
Lemma addrfield_ok oi oj p i j wp wi wj : PP p wp -> PE oi 16 i wi -> PE oj 16 j wj ->
  PE false 2 (AddrField p i j) ([k PTOK_AMPERSAND] ++ wp ++ [k PTOK_LEFT_BRACKET] ++ wi ++ [k PTOK_COLON] ++ wj ++ [k PTOK_RIGHT_BRACKET]).
Proof.
  intros Pp Pi Pj s v0 stk s' t rest w rs G F. prod 18 2 G RD. rewrite <- !app_assoc. cbn [app]. shift_ S. apply (sym_n x nt_bit) in S0; [|unfold nt_bit; lia].
  eapply (field_goes oi oj p i j wp wi wj Pp Pi Pj); [exact S0| |fld|fld].
  intros m a w1 n1 w2 n2 w3 E1 E2 E3. evc. rewrite E1. cbn [rbind]. rewrite E2. cbn [rbind]. rewrite E3. cbn [rbind]. rewrite field_val_bits.
  apply (reduce_num M 18 [(x0, VBit m a (-1) (signed 32 (Z.max n1 n2)) (signed 32 (Z.min n1 n2))); (x, VNone)] s v0 stk (t :: rest) w3 rs s' (Ok (0, w3))); [exact G|apply RD, F|lia|reflexivity|discriminate|reflexivity].
Qed.

(** ** Operators *)
Definition unrule (u : unop) : Z := match u with Neg => 19 | Pos => 20 | Inv => 21 | Not => 22 end.
Lemma un_ok o u e ws : PE o 2 e ws -> PE o 2 (Un u e) ([k (unop_tok u)] ++ ws).
Proof.
  intros P s v0 stk s' t rest w rs G F. cbn [app].
  assert (A : forall n v w1, act M (unrule u) [v; VNum n] w1 = Some (numr M (x <- c_unop u n ;; Ok (x, w1)))).
  { intros n v w1. destruct u; reflexivity. }
  destruct u; [prod 19 2 G RD|prod 20 2 G RD|prod 21 2 G RD|prod 22 2 G RD]; shift_ S.
  all: eapply (seqE M o 2 e ws P); [exact S0|apply nt_nonneg|exact F| |ubs|ubs]; intros n w1 E; evc; rewrite E; cbn [rbind].
  - apply (reduce_num M 19 [(x0, VNum n); (x, VNone)] s v0 stk (t :: rest) w1 rs s'); [exact G|apply RD, (follow_closed o), F|lia|reflexivity|discriminate|apply A].
  - apply (reduce_num M 20 [(x0, VNum n); (x, VNone)] s v0 stk (t :: rest) w1 rs s'); [exact G|apply RD, (follow_closed o), F|lia|reflexivity|discriminate|apply A].
  - apply (reduce_num M 21 [(x0, VNum n); (x, VNone)] s v0 stk (t :: rest) w1 rs s'); [exact G|apply RD, (follow_closed o), F|lia|reflexivity|discriminate|apply A].
  - apply (reduce_num M 22 [(x0, VNum n); (x, VNone)] s v0 stk (t :: rest) w1 rs s'); [exact G|apply RD, (follow_closed o), F|lia|reflexivity|discriminate|apply A].
Qed.
Lemma int_ok p ws : PP p ws -> PE false 3 (SignExt p) ([k PTOK_LEFT_PAREN; k PTOK_INT; k PTOK_RIGHT_PAREN] ++ ws).
Proof.
  intros P s v0 stk s' t rest w rs G F. cbn [app]. prod 24 3 G RD. shift_ S.
  apply (sym_n x nt_type_name) in S0; [|unfold nt_type_name; lia]. pose proof S0 as G1. prod_any 25 G1 RD1. shift_ S3.
  apply (reduce_val M 25 [(x3, VNone)] x VNone ((s, v0) :: stk) (k PTOK_RIGHT_PAREN :: ws ++ t :: rest) w rs x0 (VNum PTOK_INT)); [exact S0|apply RD1|lia|reflexivity|discriminate|reflexivity|].
  shift_ S1. eapply (seqP M p ws P); [exact S2| |ubs|ubs]; intros m a w1 E; evc; rewrite E; cbn [rbind]. rewrite <- cast_ok.
  apply (reduce_num M 24 [(x2, VMem m a); (x1, VNone); (x0, VNum PTOK_INT); (x, VNone)] s v0 stk (t :: rest) w1 rs s'); [exact G|apply RD, F|lia|reflexivity|discriminate|reflexivity].
Qed.
Definition binrule (b : binop) : Z :=
  match b with Mul => 27 | Div => 28 | Mod => 29 | Add => 31 | Sub => 32 | Shl => 34 | Shr => 35 | Lt => 37 | Gt => 38 | Le => 39 | Ge => 40
  | Eq => 42 | Ne => 43 | BAnd => 45 | BXor => 47 | BOr => 49 | LAnd => 51 | LOr => 53 end.
Lemma bin_ok o b x y wx wy : PE false (prec b) x wx -> PE o (prec b - 1) y wy -> PE o (prec b) (Bin b x y) (wx ++ [k (binop_tok b)] ++ wy).
Proof.
  intros Px Py s v0 stk s' t rest w rs G F. rewrite <- !app_assoc. cbn [app].
  assert (A : forall n1 n2 v w1, act M (binrule b) [VNum n1; v; VNum n2] w1 = Some (numr M (z <- c_binop b n1 n2 ;; Ok (z, w1)))).
  { intros n1 n2 v w1. rewrite <- binary_ok. destruct b; reflexivity. }
  assert (C : check (binrule b) (follow false (prec b)) = true) by (destruct b; vm_compute; reflexivity).
  assert (R : rule (binrule b) = (nt (prec b), 3)) by (destruct b; reflexivity).
  assert (H : nth (Z.to_nat (binrule b)) rhs [] = [100 + nt (prec b); binop_tok b; 100 + nt (prec b - 1)]) by (destruct b; reflexivity).
  assert (G0 : goto s (fst (rule (binrule b))) = Some s') by (rewrite R; exact G).
  destruct (check_ok _ _ _ _ C G0) as (e & PT & RD). rewrite H in PT. destruct PT as (s1 & S1 & s2 & S2 & s3 & S3 & ->).
  assert (BT : binop_tok b < 100) by (destruct b; reflexivity).
  eapply (seqE M false (prec b) x wx Px); [exact S1|apply nt_nonneg|apply follow_in; right; split; [reflexivity|]; right; right; exists b; split; [reflexivity|lia]| |ubs|ubs].
  intros n1 w1 E1. evc. rewrite E1. cbn [rbind]. rewrite !andb_false_l.
  replace (match b with LAnd => _ | LOr => _ | _ => _ end) with (y <- ev M false y w1 ;; let '(n2, w2) := y in v <- c_binop b n1 n2 ;; Ok (v, w2)) by (destruct b; reflexivity).
  eapply sh; [exact S2|exact BT|]. cbn [snd k].
  eapply (seqE M o (prec b - 1) y wy Py); [exact S3|apply nt_nonneg|eapply follow_down; [|exact F]; lia| |ubs|ubs].
  intros n2 w2 E2. rewrite E2. cbn [rbind].
  apply (reduce_num M (binrule b) [(s3, VNum n2); (s2, VNone); (s1, VNum n1)] s v0 stk (t :: rest) w2 rs s'); [exact G0|apply RD, (follow_closed o), F|destruct b; cbn; lia|rewrite R; reflexivity|discriminate|apply A].
Qed.
Lemma cond_ok oa ob c a b wc wa wb : PE false 13 c wc -> PE oa 16 a wa -> PE ob 14 b wb ->
  PE ob 14 (Cond c a b) (wc ++ [k PTOK_QUESTION] ++ wa ++ [k PTOK_COLON] ++ wb).
Proof.
  intros Pc Pa Pb s v0 stk s' t rest w rs G F. rewrite <- !app_assoc. cbn [app]. rewrite <- ?app_assoc. cbn [app]. prod 55 14 G RD.
  eapply (seqE M false 13 c wc Pc); [exact S|apply nt_nonneg|apply follow_in; right; split; [reflexivity|]; right; left; split; [reflexivity|lia]| |ubs|ubs].
  intros n w1 E. evc. rewrite E. cbn [rbind]. shift_ S0.
  eapply (seqE M oa 16 a wa Pa); [exact S1|apply nt_nonneg|apply closer_follow; cbn; auto| |ubs|ubs].
  intros n1 w2 E1. rewrite E1. cbn [rbind]. shift_ S2.
  eapply (seqE M ob 14 b wb Pb); [exact S3|apply nt_nonneg|exact F| |ubs|ubs].
  intros n2 w3 E2. rewrite E2. cbn [rbind].
  apply (reduce_num M 55 [(x3, VNum n2); (x2, VNone); (x1, VNum n1); (x0, VNone); (x, VNum n)] s v0 stk (t :: rest) w3 rs s' (Ok (if n =? 0 then n2 else n1, w3))); [exact G|apply RD, (follow_closed ob), F|lia|reflexivity|discriminate|reflexivity].
Qed.

(** ** Assignments *)
Lemma asgop_goes a : forall s v0 stk s' toks w rs R, goto s nt_assignment_operator = Some s' ->
  goes (mkCf M ((s', VNum (asgop_tok a)) :: (s, v0) :: stk) toks w rs) R ->
  goes (mkCf M ((s, v0) :: stk) (k (asgop_tok a) :: toks) w rs) R.
Proof.
  intros s v0 stk s' toks w rs R G K.
  pose (r := match a with Set_ => 60 | AMul => 61 | ADiv => 62 | AMod => 63 | AAdd => 64 | ASub => 65 | AShl => 66 | AShr => 67 | AAnd => 68 | AXor => 69 | AOr => 70 end).
  assert (C : check_any r = true) by (destruct a; vm_compute; reflexivity).
  assert (RU : rule r = (nt_assignment_operator, 1)) by (destruct a; reflexivity).
  assert (H : nth (Z.to_nat r) rhs [] = [asgop_tok a]) by (destruct a; reflexivity).
  assert (G0 : goto s (fst (rule r)) = Some s') by (rewrite RU; exact G).
  destruct (check_any_ok r s s' ltac:(destruct a; cbn; lia) ltac:(rewrite H; discriminate) C G0) as (e & PT & RD). rewrite H in PT. destruct PT as (s1 & S1 & ->).
  eapply sh; [exact S1|destruct a; reflexivity|]. cbn [snd k].
  apply (reduce_val M r [(s1, VNone)] s v0 stk toks w rs s' (VNum (asgop_tok a))); [exact G0|apply RD|destruct a; cbn; lia|rewrite RU; reflexivity|discriminate|destruct a; reflexivity|exact K].
Qed.
Lemma asg_ok o p a e wp we : PP p wp -> PE o 15 e we -> PE o 15 (Asg p a e) (wp ++ [k (asgop_tok a)] ++ we).
Proof.
  intros Pp Pe s v0 stk s' t rest w rs G F. rewrite <- !app_assoc. cbn [app]. prod 57 15 G RD.
  eapply (seqP M p wp Pp); [exact S| |ubs|ubs]; intros m ad w1 E; evc; rewrite E; cbn [rbind].
  apply (sym_n x nt_assignment_operator) in S0; [|unfold nt_assignment_operator; lia]. eapply asgop_goes; [exact S0|].
  eapply (seqE M o 15 e we Pe); [exact S1|apply nt_nonneg|exact F| |ubs|ubs].
  intros n w2 E1. rewrite E1. cbn [rbind].
  apply (reduce_num M 57 [(x1, VNum n); (x0, VNum (asgop_tok a)); (x, VMem m ad)] s v0 stk (t :: rest) w2 rs s'); [exact G|apply RD, (follow_closed o), F|lia|reflexivity|discriminate|].
  cbn [map rev app snd]. change (act M 57 [VMem m ad; VNum (asgop_tok a); VNum n] w2) with (Some (numr M (assign_mem M w2 m ad (asgop_tok a) n))).
  unfold assign_mem. rewrite rd_load. destruct (load M w2 m ad) as [old w3]. rewrite assign_ok. reflexivity.
Qed.
Lemma asgr_ok o c a e we : PE o 15 e we -> PE o 15 (AsgR c a e) ([(PTOK_CELL, VCell c); k (asgop_tok a)] ++ we).
Proof.
  intros Pe s v0 stk s' t rest w rs G F. cbn [app]. prod 59 15 G RD. shift_ S.
  apply (sym_n x nt_assignment_operator) in S0; [|unfold nt_assignment_operator; lia]. eapply asgop_goes; [exact S0|].
  eapply (seqE M o 15 e we Pe); [exact S1|apply nt_nonneg|exact F| |ubs|ubs].
  intros n w2 E1. evc. rewrite E1. cbn [rbind].
  apply (reduce_num M 59 [(x1, VNum n); (x0, VNum (asgop_tok a)); (x, VCell c)] s v0 stk (t :: rest) w2 rs s'); [exact G|apply RD, (follow_closed o), F|lia|reflexivity|discriminate|].
  cbn [map rev app snd]. change (act M 59 [VCell c; VNum (asgop_tok a); VNum n] w2) with (Some (numr M (assign_cell M w2 c (asgop_tok a) n))).
  unfold assign_cell. rewrite crd_load. destruct (loadr M w2 c) as [old w3]. rewrite assign_ok. reflexivity.
Qed.
(** a number or an expression in parentheses before "=" is a whole bit number *)
Definition unit_path : list Z := [7; 12; 23; 26; 30; 33; 36; 41; 44; 46; 48; 50; 52; 54; 56; 71].
Lemma unit_facts_eq : forallb (fun n => let l := Z.of_nat n in let r := unit_rule l in
  check r [PTOK_EQUAL] && (fst (rule r) =? nt (l + 1)) && (snd (rule r) =? 1) && (match nth (Z.to_nat r) rhs [] with [x] => x =? 100 + nt l | _ => false end) && negb (r =? 1)) (seq 0 16) = true.
Proof. vm_compute. reflexivity. Qed.
Lemma up_eq (l : nat) : (l < 16)%nat -> forall s v0 stk rest w rs n s' s1 R, goto s (nt (Z.of_nat l + 1)) = Some s' -> goto s (nt (Z.of_nat l)) = Some s1 ->
  goes (mkCf M ((s', VNum n) :: (s, v0) :: stk) (k PTOK_EQUAL :: rest) w rs) R ->
  goes (mkCf M ((s1, VNum n) :: (s, v0) :: stk) (k PTOK_EQUAL :: rest) w rs) R.
Proof.
  intros L s v0 stk rest w rs n s' s1 R G G1 K.
  pose proof unit_facts_eq as U. rewrite forallb_forall in U. specialize (U l ltac:(apply in_seq; lia)). cbv zeta in U.
  apply andb_prop in U. destruct U as [U U5]. apply andb_prop in U. destruct U as [U U4]. apply andb_prop in U. destruct U as [U U3]. apply andb_prop in U. destruct U as [U1 U2].
  apply Z.eqb_eq in U2. rewrite <- U2 in G. destruct (check_ok _ _ _ _ U1 G) as (e' & PT & RD).
  destruct (nth (Z.to_nat (unit_rule (Z.of_nat l))) rhs []) as [|x [|? ?]] eqn:RH; try discriminate. apply Z.eqb_eq in U4. subst x. destruct PT as (s2 & G2 & ->).
  apply sym_n in G2; [|apply nt_nonneg]. rewrite G1 in G2. injection G2 as <-.
  apply (reduce_val M (unit_rule (Z.of_nat l)) [(s1, VNum n)] s v0 stk (k PTOK_EQUAL :: rest) w rs s' (VNum n)); [exact G| | | |discriminate| |exact K].
  - cbn [hd fst head_tok k]. apply RD. left. reflexivity.
  - apply Bool.negb_true_iff, Z.eqb_neq in U5. exact U5.
  - cbn [length]. apply Z.eqb_eq in U3. rewrite U3. reflexivity.
  - apply unit_act. lia.
Qed.
Lemma goto_down_facts : forallb (fun n => forallb (fun l => match goto (Z.of_nat n) (nt (Z.of_nat l + 1)) with Some _ => match goto (Z.of_nat n) (nt (Z.of_nat l)) with Some _ => true | None => false end | None => true end) (seq 0 16)) all_states = true.
Proof. vm_compute. reflexivity. Qed.
Lemma goto_down l s s' : (l < 16)%nat -> goto s (nt (Z.of_nat l + 1)) = Some s' -> exists s1, goto s (nt (Z.of_nat l)) = Some s1.
Proof.
  intros L G. pose proof goto_down_facts as U. rewrite forallb_forall in U. specialize (U _ (goto_dom _ _ _ G)). rewrite forallb_forall in U. specialize (U l ltac:(apply in_seq; lia)).
  rewrite <- !goto_nat, G in U. destruct (goto s (nt (Z.of_nat l))); [eauto|discriminate].
Qed.
Lemma up_eq_all (l : nat) : (l <= 16)%nat -> forall s v0 stk rest w rs n s' R, goto s (nt (Z.of_nat l)) = Some s' ->
  goes (mkCf M ((s', VNum n) :: (s, v0) :: stk) (k PTOK_EQUAL :: rest) w rs) R ->
  exists s0, goto s (nt 0) = Some s0 /\ goes (mkCf M ((s0, VNum n) :: (s, v0) :: stk) (k PTOK_EQUAL :: rest) w rs) R.
Proof.
  induction l as [|l IH]; intros L s v0 stk rest w rs n s' R G K; [eauto|].
  replace (Z.of_nat (S l)) with (Z.of_nat l + 1) in G by lia. destruct (goto_down l s s' ltac:(lia) G) as (s1 & G1).
  apply (IH ltac:(lia) s v0 stk rest w rs n s1 R G1). eapply up_eq; [|exact G|exact G1|exact K]. lia.
Qed.
(** the common end of the three assignments to bits *)
Lemma asgbits_end o e we m ad hi lo ba : PE o 15 e we -> forall s v0 stk s' t rest w rs xb, goto s nt_assignment_expr = Some s' -> goto s nt_bit = Some xb -> In (fst t) (follow o 15) ->
  goes (mkCf M ((xb, VBit m ad ba hi lo) :: (s, v0) :: stk) (k PTOK_EQUAL :: we ++ t :: rest) w rs)
       (lands M s' s v0 stk (t :: rest) rs (y <- ev M false e w ;; let '(n, w2) := y in assign_bits M w2 m ad hi lo n)).
Proof.
  intros Pe s v0 stk s' t rest w rs xb G GB F. prod 58 15 G RD. apply (sym_n s nt_bit) in S; [|unfold nt_bit; lia]. rewrite GB in S. injection S as <-.
  shift_ S0. eapply (seqE M o 15 e we Pe); [exact S1|apply nt_nonneg|exact F| |ubs|ubs].
  intros n w2 E1. rewrite E1. cbn [rbind].
  apply (reduce_num M 58 [(x1, VNum n); (x0, VNone); (xb, VBit m ad ba hi lo)] s v0 stk (t :: rest) w2 rs s'); [exact G|apply RD, (follow_closed o), F|lia|reflexivity|discriminate|reflexivity].
Qed.
Lemma bit_mem_goto s s' : goto s nt_assignment_expr = Some s' -> exists xb, goto s nt_bit = Some xb.
Proof. intros G. prod 58 15 G RD. exists x. apply (sym_n s nt_bit) in S; [exact S|unfold nt_bit; lia]. Qed.
Lemma put_bits_same b (old n : Z) : (bits_ok b b || (b <? b) && (0 <=? b) && (b <? 64)) = bits_ok b b.
Proof. rewrite Z.ltb_irrefl. apply orb_false_r. Qed.
Lemma asgbit_goes p i e o wp wi we (i_goes : forall s v0 stk rest w rs R s', goto s (nt 16) = Some s' ->
    (forall n w1, ev M false i w = Ok (n, w1) -> goes (mkCf M ((s', VNum n) :: (s, v0) :: stk) (k PTOK_EQUAL :: rest) w1 rs) R) ->
    (ev M false i w = UB -> R = inr (Crash M)) -> (ev M false i w = Exit -> R = inr (Broken M)) ->
    goes (mkCf M ((s, v0) :: stk) (wi ++ k PTOK_EQUAL :: rest) w rs) R) :
  PP p wp -> PE o 15 e we -> PE o 15 (AsgBit p i e) (wp ++ [k PTOK_DOT] ++ wi ++ [k PTOK_EQUAL] ++ we).
Proof.
  intros Pp Pe s v0 stk s' t rest w rs G F. rewrite <- !app_assoc. cbn [app]. rewrite <- ?app_assoc. cbn [app].
  destruct (bit_mem_goto _ _ G) as (xb & GB).
  destruct (check_ok 76 [PTOK_EQUAL] s xb ltac:(vm_compute; reflexivity) GB) as (ee & PT & RD). open_path 76 PT.
  eapply (seqP M p wp Pp); [exact S| |ubs|ubs]; intros m ad w1 E; evc; rewrite E; cbn [rbind]. shift_ S0.
  apply (sym_n x0 (nt 16)) in S1; [|apply nt_nonneg].
  eapply i_goes; [exact S1| |ubs|ubs]. intros n1 w2 E1. rewrite E1. cbn [rbind].
  eapply (reduce_val M 76 [(x1, VNum n1); (x0, VNone); (x, VMem m ad)] s v0 stk _ w2 rs xb (VBit m ad no_bit_address (i32 n1) (i32 n1))); [exact GB|apply RD; left; reflexivity|lia|reflexivity|discriminate|reflexivity|].
  pose proof (asgbits_end o e we m ad (i32 n1) (i32 n1) no_bit_address Pe s v0 stk s' t rest w2 rs xb G GB F) as H.
  replace (z <- ev M false e w2 ;; _) with (y <- ev M false e w2 ;; let '(n, w3) := y in assign_bits M w3 m ad (i32 n1) (i32 n1) n); [exact H|].
  destruct (ev M false e w2) as [[n w3]| |]; cbn [rbind]; [|reflexivity|reflexivity]. rewrite assign_bits_ok, signed32.
  destruct (load M w3 m ad) as [old w4]. rewrite put_bits_same by exact n. reflexivity.
Qed.
Lemma asgbit1_ok o p n e wp we : PP p wp -> PE o 15 e we -> PE o 15 (AsgBit p (Num n) e) (wp ++ [k PTOK_DOT; (PTOK_NUMBER, VNum n); k PTOK_EQUAL] ++ we).
Proof.
  intros Pp Pe. apply (asgbit_goes p (Num n) e o wp [(PTOK_NUMBER, VNum n)] we); [|exact Pp|exact Pe].
  intros s v0 stk rest w rs R s' G K1 _ _. cbn [app].
  destruct (up_eq_all 16 ltac:(lia) s v0 stk rest w rs n s' R G (K1 n w eq_refl)) as (s0 & G0 & K0).
  change (nt 0) with (fst (rule 4)) in G0. pose proof G0 as G1. prod_any 4 G1 RD. shift_ S.
  apply (reduce_val M 4 [(x, VNum n)] s v0 stk (k PTOK_EQUAL :: rest) w rs s0 (VNum n)); [exact G0|apply RD|lia|reflexivity|discriminate|reflexivity|exact K0].
Qed.
Lemma asgbit2_ok oi o p i e wp wi we : PP p wp -> PE oi 16 i wi -> PE o 15 e we ->
  PE o 15 (AsgBit p i e) (wp ++ [k PTOK_DOT; k PTOK_LEFT_PAREN] ++ wi ++ [k PTOK_RIGHT_PAREN; k PTOK_EQUAL] ++ we).
Proof.
  intros Pp Pi Pe.
  replace (wp ++ [k PTOK_DOT; k PTOK_LEFT_PAREN] ++ wi ++ [k PTOK_RIGHT_PAREN; k PTOK_EQUAL] ++ we)
    with (wp ++ [k PTOK_DOT] ++ ([k PTOK_LEFT_PAREN] ++ wi ++ [k PTOK_RIGHT_PAREN]) ++ [k PTOK_EQUAL] ++ we) by (cbn [app]; rewrite <- !app_assoc; reflexivity).
  apply (asgbit_goes p i e o wp _ we); [|exact Pp|exact Pe].
  intros s v0 stk rest w rs R s' G K1 K2 K3. cbn [app]. rewrite <- app_assoc. cbn [app].
  destruct (goto_down 15 s s' ltac:(lia) G) as (sa & Ga).
  assert (GG : exists s0, goto s (nt 0) = Some s0).
  { assert (Q : forall l, (l <= 16)%nat -> forall sx, goto s (nt (Z.of_nat l)) = Some sx -> exists s0, goto s (nt 0) = Some s0).
    { induction l as [|l IH]; intros L sx Gx; [eauto|]. replace (Z.of_nat (S l)) with (Z.of_nat l + 1) in Gx by lia. destruct (goto_down l s sx ltac:(lia) Gx) as (s1 & G1). apply (IH ltac:(lia) s1 G1). }
    apply (Q 16%nat ltac:(lia) s' G). }
  destruct GG as (s0 & G0). change (nt 0) with (fst (rule 6)) in G0. pose proof G0 as G1. prod_any 6 G1 RD. shift_ S.
  eapply (seqE M oi 16 i wi Pi); [exact S0|apply nt_nonneg|apply closer_follow; cbn; auto| |exact K2|exact K3].
  intros n w1 E. shift_ S1.
  destruct (up_eq_all 16 ltac:(lia) s v0 stk rest w1 rs n s' R G (K1 n w1 E)) as (s0' & G0' & K0). change (nt 0) with (fst (rule 6)) in G0'. rewrite G0 in G0'. injection G0' as <-.
  apply (reduce_val M 6 [(x1, VNone); (x0, VNum n); (x, VNone)] s v0 stk (k PTOK_EQUAL :: rest) w1 rs s0 (VNum n)); [exact G0|apply RD|lia|reflexivity|discriminate|reflexivity|exact K0].
Qed.
Lemma asgfield_ok oi oj o p i j e wp wi wj we : PP p wp -> PE oi 16 i wi -> PE oj 16 j wj -> PE o 15 e we ->
  PE o 15 (AsgField p i j e) (wp ++ [k PTOK_LEFT_BRACKET] ++ wi ++ [k PTOK_COLON] ++ wj ++ [k PTOK_RIGHT_BRACKET; k PTOK_EQUAL] ++ we).
Proof.
  intros Pp Pi Pj Pe s v0 stk s' t rest w rs G F.
  replace ((wp ++ [k PTOK_LEFT_BRACKET] ++ wi ++ [k PTOK_COLON] ++ wj ++ [k PTOK_RIGHT_BRACKET; k PTOK_EQUAL] ++ we) ++ t :: rest)
    with (wp ++ [k PTOK_LEFT_BRACKET] ++ wi ++ [k PTOK_COLON] ++ wj ++ [k PTOK_RIGHT_BRACKET] ++ (k PTOK_EQUAL :: we ++ t :: rest)) by (cbn [app]; rewrite <- !app_assoc; cbn [app]; rewrite <- !app_assoc; cbn [app]; rewrite <- ?app_assoc; reflexivity).
  destruct (bit_mem_goto _ _ G) as (xb & GB).
  eapply (field_goes oi oj p i j wp wi wj Pp Pi Pj); [exact GB| |fld|fld].
  intros m a w1 n1 w2 n2 w3 E1 E2 E3. evc. rewrite E1. cbn [rbind]. rewrite E2. cbn [rbind]. rewrite E3. cbn [rbind]. cbv zeta. rewrite field_val_bits.
  set (hi := signed 32 (Z.max n1 n2)). set (lo := signed 32 (Z.min n1 n2)).
  pose proof (asgbits_end o e we m a hi lo (-1) Pe s v0 stk s' t rest w3 rs xb G GB F) as H.
  replace (u <- ev M false e w3 ;; _) with (y <- ev M false e w3 ;; let '(n, w4) := y in assign_bits M w4 m a hi lo n); [exact H|].
  destruct (ev M false e w3) as [[n w4]| |]; cbn [rbind]; [|reflexivity|reflexivity]. apply assign_bits_ok.
Qed.
Lemma comma_ok o a b wa wb : PE false 16 a wa -> PE o 15 b wb -> PE o 16 (Comma a b) (wa ++ [k PTOK_COMMA] ++ wb).
Proof.
  intros Pa Pb s v0 stk s' t rest w rs G F. rewrite <- !app_assoc. cbn [app]. prod 72 16 G RD.
  eapply (seqE M false 16 a wa Pa); [exact S|apply nt_nonneg|apply follow_in; right; split; [reflexivity|]; left; reflexivity| |ubs|ubs].
  intros n w1 E. evc. rewrite E. cbn [rbind snd]. shift_ S0.
  eapply (seqE M o 15 b wb Pb); [exact S1|apply nt_nonneg|eapply follow_down; [|exact F]; lia| |ubs|ubs].
  intros n2 w2 E2. rewrite E2.
  apply (reduce_num M 72 [(x1, VNum n2); (x0, VNone); (x, VNum n)] s v0 stk (t :: rest) w2 rs s' (Ok (n2, w2))); [exact G|apply RD, (follow_closed o), F|lia|reflexivity|discriminate|reflexivity].
Qed.
End P.
