(** Expressions of the command line as a user knows them from C: trees, how they are
    written, and what they mean.  Independent of the parser: only the numbers of the
    tokens and the interface of the simulated machine are shared with the model. *)
From Verif Require Import Base ExprTab ExprModel.

(** ** Trees *)
Inductive binop := Mul | Div | Mod | Add | Sub | Shl | Shr | Lt | Gt | Le | Ge | Eq | Ne | BAnd | BXor | BOr | LAnd | LOr.
Inductive unop := Neg | Pos | Inv | Not.
(** what an assignment combines the old value with: [None] is the plain = *)
Inductive asgop := Set_ | AMul | ADiv | AMod | AAdd | ASub | AShl | AShr | AAnd | AXor | AOr.
Inductive expr :=
| Num (n : Z)
| Get (p : place)                        (* a memory location *)
| Reg (c : Z)                            (* a register *)
| BitOf (p : place) (i : expr)           (* p.i *)
| Field (p : place) (i j : expr)         (* p[i:j] *)
| Bump (pre : bool) (d : Z) (p : place)  (* p++ p-- ++p --p *)
| BumpR (pre : bool) (d : Z) (c : Z)
| Addr (p : place) | AddrBit (p : place) (i : expr) | AddrField (p : place) (i j : expr)
| Un (o : unop) (e : expr)
| SignExt (p : place)                    (* (int) p *)
| Bin (o : binop) (a b : expr)
| Cond (c a b : expr)
| Asg (p : place) (o : asgop) (e : expr)
| AsgR (c : Z) (o : asgop) (e : expr)
| AsgBit (p : place) (i e : expr) | AsgField (p : place) (i j e : expr)
| Comma (a b : expr)
with place :=
| Named (m a : Z)                        (* a variable *)
| At (m : Z) (e : expr).                 (* memory[address] *)

(** ** How trees are written *)
Definition binop_tok (o : binop) : Z :=
  match o with
  | Mul => PTOK_ASTERIX | Div => PTOK_SLASH | Mod => PTOK_PERCENT | Add => PTOK_PLUS | Sub => PTOK_MINUS
  | Shl => PTOK_LEFT_OP | Shr => PTOK_RIGHT_OP | Lt => PTOK_LESS | Gt => PTOK_GREATER | Le => PTOK_LE_OP
  | Ge => PTOK_GE_OP | Eq => PTOK_EQ_OP | Ne => PTOK_NE_OP | BAnd => PTOK_AMPERSAND | BXor => PTOK_CIRCUM
  | BOr => PTOK_PIPE | LAnd => PTOK_AND_OP | LOr => PTOK_OR_OP
  end.
(** C's precedence, smaller binds tighter; all are left associative *)
Definition prec (o : binop) : Z :=
  match o with
  | Mul | Div | Mod => 4 | Add | Sub => 5 | Shl | Shr => 6 | Lt | Gt | Le | Ge => 7 | Eq | Ne => 8
  | BAnd => 9 | BXor => 10 | BOr => 11 | LAnd => 12 | LOr => 13
  end.
Definition unop_tok (o : unop) : Z :=
  match o with Neg => PTOK_MINUS | Pos => PTOK_PLUS | Inv => PTOK_TILDE | Not => PTOK_EXCLAMATION end.
Definition asgop_tok (o : asgop) : Z :=
  match o with
  | Set_ => PTOK_EQUAL | AMul => PTOK_MUL_ASSIGN | ADiv => PTOK_DIV_ASSIGN | AMod => PTOK_MOD_ASSIGN
  | AAdd => PTOK_ADD_ASSIGN | ASub => PTOK_SUB_ASSIGN | AShl => PTOK_LEFT_ASSIGN | AShr => PTOK_RIGHT_ASSIGN
  | AAnd => PTOK_AND_ASSIGN | AXor => PTOK_XOR_ASSIGN | AOr => PTOK_OR_ASSIGN
  end.
Definition k (c : Z) : token := (c, VNone).
Definition bump_tok (d : Z) : Z := if d =? 1 then PTOK_INC_OP else PTOK_DEC_OP.

(** [writes open l e w]: the tokens [w] are a way to write [e] at precedence level [l]
    (0 primary, 1 postfix, 2 unary, 3 cast, 4-13 binary operators, 14 ?:, 15 assignment,
    16 comma), with parentheses wherever one likes.  [open]: it ends with the bit number
    of a dot, so it may only be followed by a closing token: the end, ")", "]", ":". *)
Inductive writes : bool -> Z -> expr -> list token -> Prop :=
| W_num n : writes false 0 (Num n) [(PTOK_NUMBER, VNum n)]
| W_get p w : wplace p w -> writes false 0 (Get p) w
| W_reg c : writes false 0 (Reg c) [(PTOK_CELL, VCell c)]
| W_paren o e w : writes o 16 e w -> writes false 0 e ([k PTOK_LEFT_PAREN] ++ w ++ [k PTOK_RIGHT_PAREN])
| W_dot o p i wp wi : wplace p wp -> writes o 16 i wi -> writes true 0 (BitOf p i) (wp ++ [k PTOK_DOT] ++ wi)
| W_field oi oj p i j wp wi wj : wplace p wp -> writes oi 16 i wi -> writes oj 16 j wj ->
    writes false 0 (Field p i j) (wp ++ [k PTOK_LEFT_BRACKET] ++ wi ++ [k PTOK_COLON] ++ wj ++ [k PTOK_RIGHT_BRACKET])
| W_post p d w : wplace p w -> d = 1 \/ d = -1 -> writes false 1 (Bump false d p) (w ++ [k (bump_tok d)])
| W_postr c d : d = 1 \/ d = -1 -> writes false 1 (BumpR false d c) [(PTOK_CELL, VCell c); k (bump_tok d)]
| W_pre p d w : wplace p w -> d = 1 \/ d = -1 -> writes false 2 (Bump true d p) ([k (bump_tok d)] ++ w)
| W_prer c d : d = 1 \/ d = -1 -> writes false 2 (BumpR true d c) [k (bump_tok d); (PTOK_CELL, VCell c)]
| W_addr p w : wplace p w -> writes false 2 (Addr p) ([k PTOK_AMPERSAND] ++ w)
| W_addrbit o p i wp wi : wplace p wp -> writes o 16 i wi ->
    writes true 2 (AddrBit p i) ([k PTOK_AMPERSAND] ++ wp ++ [k PTOK_DOT] ++ wi)
| W_addrfield oi oj p i j wp wi wj : wplace p wp -> writes oi 16 i wi -> writes oj 16 j wj ->
    writes false 2 (AddrField p i j)
      ([k PTOK_AMPERSAND] ++ wp ++ [k PTOK_LEFT_BRACKET] ++ wi ++ [k PTOK_COLON] ++ wj ++ [k PTOK_RIGHT_BRACKET])
| W_un o u e w : writes o 2 e w -> writes o 2 (Un u e) ([k (unop_tok u)] ++ w)
| W_int p w : wplace p w -> writes false 3 (SignExt p) ([k PTOK_LEFT_PAREN; k PTOK_INT; k PTOK_RIGHT_PAREN] ++ w)
| W_bin o b x y wx wy : writes false (prec b) x wx -> writes o (prec b - 1) y wy ->
    writes o (prec b) (Bin b x y) (wx ++ [k (binop_tok b)] ++ wy)
| W_cond oa ob c a b wc wa wb : writes false 13 c wc -> writes oa 16 a wa -> writes ob 14 b wb ->
    writes ob 14 (Cond c a b) (wc ++ [k PTOK_QUESTION] ++ wa ++ [k PTOK_COLON] ++ wb)
| W_asg o p a e wp we : wplace p wp -> writes o 15 e we -> writes o 15 (Asg p a e) (wp ++ [k (asgop_tok a)] ++ we)
| W_asgr o c a e we : writes o 15 e we -> writes o 15 (AsgR c a e) ([(PTOK_CELL, VCell c); k (asgop_tok a)] ++ we)
| W_asgbit1 o p n e wp we : wplace p wp -> writes o 15 e we ->
    writes o 15 (AsgBit p (Num n) e) (wp ++ [k PTOK_DOT; (PTOK_NUMBER, VNum n); k PTOK_EQUAL] ++ we)
| W_asgbit2 oi o p i e wp wi we : wplace p wp -> writes oi 16 i wi -> writes o 15 e we ->
    writes o 15 (AsgBit p i e) (wp ++ [k PTOK_DOT; k PTOK_LEFT_PAREN] ++ wi ++ [k PTOK_RIGHT_PAREN; k PTOK_EQUAL] ++ we)
| W_asgfield oi oj o p i j e wp wi wj we : wplace p wp -> writes oi 16 i wi -> writes oj 16 j wj -> writes o 15 e we ->
    writes o 15 (AsgField p i j e)
      (wp ++ [k PTOK_LEFT_BRACKET] ++ wi ++ [k PTOK_COLON] ++ wj ++ [k PTOK_RIGHT_BRACKET; k PTOK_EQUAL] ++ we)
| W_comma o a b wa wb : writes false 16 a wa -> writes o 15 b wb -> writes o 16 (Comma a b) (wa ++ [k PTOK_COMMA] ++ wb)
| W_up o l e w : 0 <= l < 16 -> writes o l e w -> writes o (l + 1) e w
with wplace : place -> list token -> Prop :=
| P_name m a : wplace (Named m a) [(PTOK_MEMORY, VMem m a)]
| P_at o m e w : writes o 16 e w ->
    wplace (At m e) ([(PTOK_MEMORY_OBJECT, VObj m); k PTOK_LEFT_BRACKET] ++ w ++ [k PTOK_RIGHT_BRACKET]).

(** ** What trees mean: C on 64 bit integers *)
Definition word (n : Z) : Z := n mod 2 ^ 32.
(** a signed result that does not fit is undefined *)
Definition fit (n : Z) : res Z := if (- 2 ^ 63 <=? n) && (n <? 2 ^ 63) then Ok n else UB.
Definition truth (b : bool) : Z := if b then 1 else 0.
(** conversion to a signed 32 or 64 bit integer *)
Definition signed (bits n : Z) : Z := (n + 2 ^ (bits - 1)) mod 2 ^ bits - 2 ^ (bits - 1).
Definition c_binop (o : binop) (a b : Z) : res Z :=
  match o with
  | Mul => fit (a * b)
  | Add => fit (a + b)
  | Sub => fit (a - b)
  | Div => if b =? 0 then UB else fit (Z.quot a b)
  | Mod => if b =? 0 then UB else _ <- fit (Z.quot a b) ;; Ok (a - b * Z.quot a b)
  | Shl => if (0 <=? b) && (b <? 64) then Ok (signed 64 (a * 2 ^ b)) else UB
  | Shr => if (0 <=? b) && (b <? 64) then Ok (a / 2 ^ b) else UB
  | Lt => Ok (truth (a <? b)) | Gt => Ok (truth (b <? a)) | Le => Ok (truth (a <=? b)) | Ge => Ok (truth (b <=? a))
  | Eq => Ok (truth (a =? b)) | Ne => Ok (truth (negb (a =? b)))
  | BAnd => Ok (Z.land a b) | BXor => Ok (Z.lxor a b) | BOr => Ok (Z.lor a b)
  | LAnd => Ok (truth (negb (a =? 0) && negb (b =? 0)))
  | LOr => Ok (truth (negb (a =? 0) || negb (b =? 0)))
  end.
Definition c_unop (o : unop) (a : Z) : res Z :=
  match o with Neg => fit (- a) | Pos => Ok a | Inv => Ok (- a - 1) | Not => Ok (truth (a =? 0)) end.
(** the value an assignment stores: the old value is an unsigned 32 bit number *)
Definition c_assign (o : asgop) (old n : Z) : res Z :=
  match o with
  | Set_ => Ok n
  | AMul => fit (old * n) | AAdd => fit (old + n) | ASub => fit (old - n)
  | ADiv => if n =? 0 then UB else Ok (Z.quot old n)
  | AMod => if n =? 0 then UB else Ok (old - n * Z.quot old n)
  | AShl => if (0 <=? n) && (n <? 32) then Ok (old * 2 ^ n) else UB
  | AShr => if (0 <=? n) && (n <? 32) then Ok (old / 2 ^ n) else UB
  | AAnd => Ok (Z.land old n) | AXor => Ok (Z.lxor old n) | AOr => Ok (Z.lor old n)
  end.
(** bits lo..hi of a number; nothing if hi < lo *)
Definition field (lo hi v : Z) : Z := if hi <? lo then 0 else (v / 2 ^ lo) mod 2 ^ (hi - lo + 1).
(** bit numbers have to be in 0..31 *)
Definition bits_ok (lo hi : Z) : bool := (0 <=? lo) && (lo <? 32) && (hi <? 32).
(** what assigning [n] to bits lo..hi stores: not the low bits of [n], but its bits
    lo..hi, and these shifted to the left by lo once more *)
Definition put_bits (lo hi old n : Z) : Z :=
  word (Z.lor (old - field lo hi old * 2 ^ lo) (field lo hi n * 2 ^ lo * 2 ^ lo)).

Section Meaning.
Context (M : machine).
Notation W := (World M).
Definition load (w : W) (m a : Z) : Z * W := (word (fst (m_read w m (word a))), snd (m_read w m (word a))).
Definition store (w : W) (m a v : Z) : W := m_write w m (word a) (word v).
Definition loadr (w : W) (c : Z) : Z * W := (word (fst (c_read w c)), snd (c_read w c)).
Definition storer (w : W) (c v : Z) : W := c_write w c (word v).
(** the value of a location of [width] bits as signed number, upper bits kept *)
Definition sign_extend (width v : Z) : Z :=
  if Z.testbit v (width - 1) then v mod 2 ^ (width - 1) - 2 ^ (width - 1) else v.

(** [ev lazy e w]: value and machine afterwards; operands are evaluated from left to
    right.  With [lazy] as in C: && || and ?: evaluate an operand only if it matters. *)
Fixpoint ev (lazy : bool) (e : expr) (w : W) : res (Z * W) :=
  match e with
  | Num n => Ok (n, w)
  | Get p => x <- ev_place lazy p w ;; let '(m, a, w1) := x in Ok (load w1 m a)
  | Reg c => Ok (loadr w c)
  | BitOf p i =>
      x <- ev_place lazy p w ;; let '(m, a, w1) := x in
      y <- ev lazy i w1 ;; let '(n, w2) := y in
      let b := signed 32 n in
      if bits_ok b b then Ok (field b b (fst (load w2 m a)), snd (load w2 m a)) else UB
  | Field p i j =>
      x <- ev_place lazy p w ;; let '(m, a, w1) := x in
      y <- ev lazy i w1 ;; let '(n1, w2) := y in
      z <- ev lazy j w2 ;; let '(n2, w3) := z in
      let lo := signed 32 (Z.min n1 n2) in let hi := signed 32 (Z.max n1 n2) in
      if bits_ok lo hi then Ok (field lo hi (fst (load w3 m a)), snd (load w3 m a)) else UB
  | Bump pre d p =>
      x <- ev_place lazy p w ;; let '(m, a, w1) := x in
      let '(v, w2) := load w1 m a in
      let w3 := store w2 m a (v + d) in
      Ok (if pre then load w3 m a else (v, w3))
  | BumpR pre d c =>
      let '(v, w2) := loadr w c in
      let w3 := storer w2 c (v + d) in
      Ok (if pre then loadr w3 c else (v, w3))
  | Addr p => x <- ev_place lazy p w ;; let '(m, a, w1) := x in Ok (a, w1)
  | AddrBit p i =>
      x <- ev_place lazy p w ;; let '(m, a, w1) := x in
      y <- ev lazy i w1 ;; let '(_, w2) := y in Ok (2 ^ 32 - 1, w2)
  | AddrField p i j =>
      x <- ev_place lazy p w ;; let '(m, a, w1) := x in
      y <- ev lazy i w1 ;; let '(_, w2) := y in
      z <- ev lazy j w2 ;; let '(_, w3) := z in Ok (0, w3)
  | Un o e => x <- ev lazy e w ;; let '(n, w1) := x in v <- c_unop o n ;; Ok (v, w1)
  | SignExt p =>
      x <- ev_place lazy p w ;; let '(m, a, w1) := x in
      let '(v, w2) := load w1 m a in
      if (0 <? m_width M m) && (m_width M m <=? 32) then Ok (sign_extend (m_width M m) v, w2) else UB
  | Bin o a b =>
      x <- ev lazy a w ;; let '(n1, w1) := x in
      let rest := (y <- ev lazy b w1 ;; let '(n2, w2) := y in v <- c_binop o n1 n2 ;; Ok (v, w2)) in
      match o with
      | LAnd => if lazy && (n1 =? 0) then Ok (0, w1) else rest
      | LOr => if lazy && negb (n1 =? 0) then Ok (1, w1) else rest
      | _ => rest
      end
  | Cond c a b =>
      x <- ev lazy c w ;; let '(n, w1) := x in
      if lazy then (if n =? 0 then ev lazy b w1 else ev lazy a w1)
      else
        y <- ev lazy a w1 ;; let '(n1, w2) := y in
        z <- ev lazy b w2 ;; let '(n2, w3) := z in
        Ok (if n =? 0 then n2 else n1, w3)
  | Asg p o e =>
      x <- ev_place lazy p w ;; let '(m, a, w1) := x in
      y <- ev lazy e w1 ;; let '(n, w2) := y in
      let '(old, w3) := load w2 m a in
      v <- c_assign o old n ;;
      Ok (load (store w3 m a v) m a)
  | AsgR c o e =>
      y <- ev lazy e w ;; let '(n, w2) := y in
      let '(old, w3) := loadr w2 c in
      v <- c_assign o old n ;;
      Ok (loadr (storer w3 c v) c)
  | AsgBit p i e =>
      x <- ev_place lazy p w ;; let '(m, a, w1) := x in
      y <- ev lazy i w1 ;; let '(n1, w2) := y in
      z <- ev lazy e w2 ;; let '(n, w3) := z in
      let b := signed 32 n1 in
      let '(old, w4) := load w3 m a in
      if bits_ok b b then Ok (put_bits b b old n, store w4 m a (put_bits b b old n)) else UB
  | AsgField p i j e =>
      x <- ev_place lazy p w ;; let '(m, a, w1) := x in
      y <- ev lazy i w1 ;; let '(n1, w2) := y in
      z <- ev lazy j w2 ;; let '(n2, w3) := z in
      u <- ev lazy e w3 ;; let '(n, w4) := u in
      let lo := signed 32 (Z.min n1 n2) in let hi := signed 32 (Z.max n1 n2) in
      let '(old, w5) := load w4 m a in
      if bits_ok lo hi || ((hi <? lo) && (0 <=? lo) && (lo <? 64))
      then Ok (put_bits lo hi old n, store w5 m a (put_bits lo hi old n)) else UB
  | Comma a b => x <- ev lazy a w ;; ev lazy b (snd x)
  end
with ev_place (lazy : bool) (p : place) (w : W) : res (Z * Z * W) :=
  match p with
  | Named m a => Ok (m, a, w)
  | At m e => x <- ev lazy e w ;; let '(a, w1) := x in Ok (m, a, w1)
  end.
End Meaning.
