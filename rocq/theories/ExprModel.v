(** The expressions of the command line (cmd.src/cmdpars.y, cmd.src/cmdlex.l,
    utils.src/app.cc).  The parser is the automaton bison builds (ExprTab.v), the lexer
    picks the longest match and the first rule among equals, as flex does.
    Not modelled: the text of error messages, a simulator without a controller,
    expressions longer than an int, exhaustion of bison's stack (10000 entries).
    Signed overflow, division by zero and shifts by a wrong number of bits are undefined
    ([UB]; a division by zero kills the simulator); a left shift of a long wraps. *)
From Verif Require Import Base FioModel ChrModel ExprTab.

(** ** The simulated machine, as expressions see it: every access of a memory location
    or register may change it.  Addresses and values are 32 bit (t_addr, t_mem,
    stypes.h:60-61 t_addr). *)
Record machine := mkMach {
  World : Type;
  m_read : World -> Z -> Z -> Z * World;            (* memory, address *)
  m_write : World -> Z -> Z -> Z -> World;
  c_read : World -> Z -> Z * World;                 (* cell *)
  c_write : World -> Z -> Z -> World;
  m_width : Z -> Z                                  (* bits of a location *)
}.
Arguments m_read {_}. Arguments m_write {_}. Arguments c_read {_}. Arguments c_write {_}.

Definition i64 (n : Z) : Z := let m := n mod 2 ^ 64 in if m <? 2 ^ 63 then m else m - 2 ^ 64.
(** result of a signed operation on longs *)
Definition long (n : Z) : res Z := if (- 2 ^ 63 <=? n) && (n <? 2 ^ 63) then Ok n else UB.
Definition b2z (b : bool) : Z := if b then 1 else 0.

(** ** Semantic values, cmdpars.y:60-73 union; a long, a memory, a location, a register,
    a field of bits *)
Inductive sval :=
| VNone | VNum (n : Z) | VObj (m : Z) | VMem (m a : Z) | VCell (c : Z)
| VBit (m a ba hi lo : Z).

Section Act.
Context (M : machine).
Notation W := (World M).

Definition rd (w : W) (m a : Z) : Z * W := let r := m_read w m (u32 a) in (u32 (fst r), snd r).
Definition wr (w : W) (m a v : Z) : W := m_write w m (u32 a) (u32 v).
Definition crd (w : W) (c : Z) : Z * W := let r := c_read w c in (u32 (fst r), snd r).
Definition cwr (w : W) (c v : Z) : W := c_write w c (u32 v).

(** cmdpars.y:147-148 bitnr_low, for (i = low; i <= high; mask |= 1U << i++) *)
Fixpoint mask_loop (n : nat) (i : Z) (mask : Z) : res Z :=
  match n with
  | O => Ok mask
  | S k => if (0 <=? i) && (i <? 32) then mask_loop k (i + 1) (Z.lor mask (2 ^ i)) else UB
  end.
Definition bit_mask (lo hi : Z) : res Z :=
  if 33 <? hi - lo then UB else mask_loop (Z.to_nat (hi - lo + 1)) lo 0.
(** shift counts of 32 bit values *)
Definition cnt32 (n : Z) : res Z := if (0 <=? n) && (n <? 32) then Ok n else UB.
Definition cnt64 (n : Z) : res Z := if (0 <=? n) && (n <? 64) then Ok n else UB.

(** cmdpars.y:278-302 multiplicative_expr, additive_expr, shift_expr, relational_expr;
    cmdpars.y:305-333 equality_expr .. logical_or_expr: the value of a op b *)
Definition binary (op : Z) (a b : Z) : res Z :=
  if op =? PTOK_ASTERIX then long (a * b)
  else if op =? PTOK_SLASH then (if b =? 0 then UB else long (Z.quot a b))
  else if op =? PTOK_PERCENT then (if b =? 0 then UB else _ <- long (Z.quot a b) ;; Ok (Z.rem a b))
  else if op =? PTOK_PLUS then long (a + b)
  else if op =? PTOK_MINUS then long (a - b)
  else if op =? PTOK_LEFT_OP then (n <- cnt64 b ;; Ok (i64 (a * 2 ^ n)))
  else if op =? PTOK_RIGHT_OP then (n <- cnt64 b ;; Ok (Z.shiftr a n))
  else if op =? PTOK_LESS then Ok (b2z (a <? b))
  else if op =? PTOK_GREATER then Ok (b2z (b <? a))
  else if op =? PTOK_LE_OP then Ok (b2z (a <=? b))
  else if op =? PTOK_GE_OP then Ok (b2z (b <=? a))
  else if op =? PTOK_EQ_OP then Ok (b2z (a =? b))
  else if op =? PTOK_NE_OP then Ok (b2z (negb (a =? b)))
  else if op =? PTOK_AMPERSAND then Ok (Z.land a b)
  else if op =? PTOK_CIRCUM then Ok (Z.lxor a b)
  else if op =? PTOK_PIPE then Ok (Z.lor a b)
  else if op =? PTOK_AND_OP then Ok (b2z (negb (a =? 0) && negb (b =? 0)))
  else Ok (b2z (negb (a =? 0) || negb (b =? 0))).

(** cmdpars.y:348-383 PTOK_EQUAL: the value an assignment writes; org is unsigned 32 bit *)
Definition assign_val (op org n : Z) : res Z :=
  if op =? PTOK_EQUAL then Ok n
  else if op =? PTOK_MUL_ASSIGN then long (org * n)
  else if op =? PTOK_DIV_ASSIGN then (if n =? 0 then UB else Ok (Z.quot org n))
  else if op =? PTOK_MOD_ASSIGN then (if n =? 0 then UB else Ok (Z.rem org n))
  else if op =? PTOK_ADD_ASSIGN then long (org + n)
  else if op =? PTOK_SUB_ASSIGN then long (org - n)
  else if op =? PTOK_LEFT_ASSIGN then (k <- cnt32 n ;; Ok (org * 2 ^ k))
  else if op =? PTOK_RIGHT_ASSIGN then (k <- cnt32 n ;; Ok (Z.shiftr org k))
  else if op =? PTOK_AND_ASSIGN then Ok (Z.land org n)
  else if op =? PTOK_XOR_ASSIGN then Ok (Z.lxor org n)
  else Ok (Z.lor org n).

(** cmdpars.y:344-385 memory, assignment_operator *)
Definition assign_mem (w : W) (m a op n : Z) : res (Z * W) :=
  let (org, w1) := rd w m a in
  v <- assign_val op org n ;;
  Ok (rd (wr w1 m a v) m a).
(** cmdpars.y:394-435 PTOK_CELL *)
Definition assign_cell (w : W) (c op n : Z) : res (Z * W) :=
  let (org, w1) := crd w c in
  v <- assign_val op org n ;;
  Ok (crd (cwr w1 c v) c).
(** cmdpars.y:145-150 bit *)
Definition read_bits (w : W) (m a hi lo : Z) : res (Z * W) :=
  mask <- bit_mask lo hi ;;
  let (v, w1) := rd w m a in
  k <- cnt32 lo ;;
  Ok (Z.shiftr (Z.land v mask) k, w1).
(** cmdpars.y:386-393 bit *)
Definition assign_bits (w : W) (m a hi lo n : Z) : res (Z * W) :=
  mask <- bit_mask lo hi ;;
  let (v, w1) := rd w m a in
  k <- cnt64 lo ;;
  let nv := u32 (Z.lor (Z.land v (2 ^ 32 - 1 - mask)) (Z.shiftl (Z.land n mask) k)) in
  Ok (nv, wr w1 m a nv).
(** cmdpars.y:259-270 PTOK_INT: the cast of a location *)
Definition cast_int (w : W) (m a : Z) : res (Z * W) :=
  let (v, w1) := rd w m a in
  k <- cnt32 (m_width M m - 1) ;;
  let smask := 2 ^ k in
  Ok ((if Z.land v smask =? 0 then v else Z.lor v (Z.lnot (smask - 1))), w1).

(** uccl.h:550-552 bit_address: no controller overrides it *)
Definition no_bit_address : Z := 2 ^ 32 - 1.

(** ** The actions of the rules.  [None]: the values do not fit the rule, which never
    happens (ExprProofs). *)
Definition act (r : Z) (vs : list sval) (w : W) : option (res (sval * W)) :=
  let num (x : res (Z * W)) : option (res (sval * W)) :=
    Some (p <- x ;; Ok (VNum (fst p), snd p)) in
  let pure (v : sval) : option (res (sval * W)) := Some (Ok (v, w)) in
  let op2 (op : Z) :=
    match vs with
    | [VNum a; _; VNum b] => num (v <- binary op a b ;; Ok (v, w))
    | _ => None
    end in
  let stepm (m a d : Z) (pre : bool) :=
    let (v, w1) := rd w m a in
    let w2 := wr w1 m a (v + d) in
    num (Ok (if pre then rd w2 m a else (v, w2))) in
  let stepc (c d : Z) (pre : bool) :=
    let (v, w1) := crd w c in
    let w2 := cwr w1 c (v + d) in
    num (Ok (if pre then crd w2 c else (v, w2))) in
  (* cmdpars.y:144-144 memory *)
  if r =? 2 then match vs with [VMem m a] => num (Ok (rd w m a)) | _ => None end
  (* cmdpars.y:145-150 bit *)
  else if r =? 3 then match vs with [VBit m a _ hi lo] => num (read_bits w m a hi lo) | _ => None end
  (* cmdpars.y:152-152 PTOK_CELL *)
  else if r =? 5 then match vs with [VCell c] => num (Ok (crd w c)) | _ => None end
  (* cmdpars.y:154-154 PTOK_LEFT_PAREN *)
  else if r =? 6 then match vs with [_; VNum n; _] => pure (VNum n) | _ => None end
  (* cmdpars.y:166-186 PTOK_INC_OP *)
  else if r =? 8 then match vs with [VMem m a; _] => stepm m a 1 false | _ => None end
  else if r =? 9 then match vs with [VCell c; _] => stepc c 1 false | _ => None end
  else if r =? 10 then match vs with [VMem m a; _] => stepm m a (-1) false | _ => None end
  else if r =? 11 then match vs with [VCell c; _] => stepc c (-1) false | _ => None end
  (* cmdpars.y:198-222 PTOK_INC_OP *)
  else if r =? 13 then match vs with [_; VMem m a] => stepm m a 1 true | _ => None end
  else if r =? 14 then match vs with [_; VCell c] => stepc c 1 true | _ => None end
  else if r =? 15 then match vs with [_; VMem m a] => stepm m a (-1) true | _ => None end
  else if r =? 16 then match vs with [_; VCell c] => stepc c (-1) true | _ => None end
  (* cmdpars.y:225-234 PTOK_AMPERSAND *)
  else if r =? 17 then match vs with [_; VMem _ a] => pure (VNum a) | _ => None end
  else if r =? 18 then
    match vs with [_; VBit _ _ ba _ _] => pure (VNum (if ba <? 0 then 0 else ba)) | _ => None end
  (* cmdpars.y:235-238 unary_expr *)
  else if r =? 19 then match vs with [_; VNum n] => num (v <- long (- n) ;; Ok (v, w)) | _ => None end
  else if r =? 20 then match vs with [_; VNum n] => pure (VNum n) | _ => None end
  else if r =? 21 then match vs with [_; VNum n] => pure (VNum (Z.lnot n)) | _ => None end
  else if r =? 22 then match vs with [_; VNum n] => pure (VNum (b2z (n =? 0))) | _ => None end
  (* cmdpars.y:259-270 PTOK_LEFT_PAREN *)
  else if r =? 24 then
    match vs with
    | [_; VNum t; _; VMem m a] => if t =? PTOK_INT then num (cast_int w m a) else num (Ok (rd w m a))
    | _ => None
    end
  (* cmdpars.y:274-274 PTOK_INT *)
  else if r =? 25 then match vs with [_] => pure (VNum PTOK_INT) | _ => None end
  (* cmdpars.y:278-333 multiplicative_expr *)
  else if r =? 27 then op2 PTOK_ASTERIX
  else if r =? 28 then op2 PTOK_SLASH
  else if r =? 29 then op2 PTOK_PERCENT
  else if r =? 31 then op2 PTOK_PLUS
  else if r =? 32 then op2 PTOK_MINUS
  else if r =? 34 then op2 PTOK_LEFT_OP
  else if r =? 35 then op2 PTOK_RIGHT_OP
  else if r =? 37 then op2 PTOK_LESS
  else if r =? 38 then op2 PTOK_GREATER
  else if r =? 39 then op2 PTOK_LE_OP
  else if r =? 40 then op2 PTOK_GE_OP
  else if r =? 42 then op2 PTOK_EQ_OP
  else if r =? 43 then op2 PTOK_NE_OP
  else if r =? 45 then op2 PTOK_AMPERSAND
  else if r =? 47 then op2 PTOK_CIRCUM
  else if r =? 49 then op2 PTOK_PIPE
  else if r =? 51 then op2 PTOK_AND_OP
  else if r =? 53 then op2 PTOK_OR_OP
  (* cmdpars.y:337-337 PTOK_QUESTION *)
  else if r =? 55 then
    match vs with [VNum c; _; VNum a; _; VNum b] => pure (VNum (if c =? 0 then b else a)) | _ => None end
  (* cmdpars.y:344-385 memory *)
  else if r =? 57 then match vs with [VMem m a; VNum op; VNum n] => num (assign_mem w m a op n) | _ => None end
  (* cmdpars.y:386-393 bit *)
  else if r =? 58 then match vs with [VBit m a _ hi lo; _; VNum n] => num (assign_bits w m a hi lo n) | _ => None end
  (* cmdpars.y:394-435 PTOK_CELL *)
  else if r =? 59 then match vs with [VCell c; VNum op; VNum n] => num (assign_cell w c op n) | _ => None end
  (* cmdpars.y:438-450 assignment_operator *)
  else if (60 <=? r) && (r <=? 70) then match vs with [_] => pure (VNum (PTOK_EQUAL + (r - 60))) | _ => None end
  (* cmdpars.y:454-454 PTOK_COMMA *)
  else if r =? 72 then match vs with [VNum _; _; VNum n] => pure (VNum n) | _ => None end
  (* cmdpars.y:459-463 PTOK_MEMORY_OBJECT *)
  else if r =? 74 then match vs with [VObj m; _; VNum a; _] => pure (VMem m a) | _ => None end
  (* cmdpars.y:468-477 PTOK_DOT *)
  else if r =? 76 then
    match vs with [VMem m a; _; VNum n] => pure (VBit m a no_bit_address (i32 n) (i32 n)) | _ => None end
  (* cmdpars.y:478-494 PTOK_COLON *)
  else if r =? 77 then
    match vs with
    | [VMem m a; _; VNum x; _; VNum y; _] =>
        pure (if x <? y then VBit m a (-1) (i32 y) (i32 x) else VBit m a (-1) (i32 x) (i32 y))
    | _ => None
    end
  (* all other rules: $$= $1 *)
  else match vs with [v] => pure v | _ => None end.

(** ** bison's automaton *)
Definition token := (Z * sval)%type.
Definition assoc (k : Z) (l : list (Z * Z)) : option Z :=
  match find (fun p => fst p =? k) l with Some p => Some (snd p) | None => None end.
Inductive action := Shift (s : Z) | Reduce (r : Z) | Error.
Definition action_of (s t : Z) : action :=
  match assoc t (nth (Z.to_nat s) act_rows []) with
  | Some a => if a <? 1000 then Shift a else Reduce (a - 1000)
  | None => let d := nth (Z.to_nat s) act_defs 0 in if d =? 0 then Error else Reduce d
  end.
Definition goto (s n : Z) : option Z := assoc n (nth (Z.to_nat s) goto_rows []).
Definition rule (r : Z) : Z * Z := nth (Z.to_nat r) rules (0, 0).

Definition stack := list (Z * sval).
(** the state of the parser: stack (top first), tokens to come, machine, expr_result *)
Record config := mkCf { cstk : stack; ctok : list token; cw : W; cres : Z }.
Inductive outcome :=
| Accept (w : W) (n : Z)      (* parsed *)
| SynErr (w : W) (n : Z)      (* "Parser error: syntax error" *)
| Crash                       (* undefined behaviour *)
| Broken                      (* never happens *)
| Fuel.                       (* never happens *)
Definition head_tok (l : list token) : token := match l with [] => (PTOK_END, VNone) | t :: _ => t end.
Definition step (c : config) : config + outcome :=
  match cstk c with
  | [] => inr Broken
  | (s, _) :: _ =>
      if s =? final then inr (Accept (cw c) (cres c))
      else
        match action_of s (fst (head_tok (ctok c))) with
        | Shift s' => inl (mkCf ((s', snd (head_tok (ctok c))) :: cstk c) (tl (ctok c)) (cw c) (cres c))
        | Error => inr (SynErr (cw c) (cres c))
        | Reduce r =>
            let n := Z.to_nat (snd (rule r)) in
            let vs := rev (map snd (firstn n (cstk c))) in
            let rest := skipn n (cstk c) in
            match rest with
            | [] => inr Broken
            | (b, _) :: _ =>
                match goto b (fst (rule r)), act r vs (cw c) with
                | Some s', Some (Ok (v, w')) =>
                    (* cmdpars.y:78-78 expr_result *)
                    let res' := match r, v with 1, VNum n => n | _, _ => cres c end in
                    inl (mkCf ((s', v) :: rest) (ctok c) w' res')
                | Some _, Some UB => inr Crash
                | _, _ => inr Broken
                end
            end
        end
  end.
Fixpoint run (fuel : nat) (c : config) : outcome :=
  match fuel with
  | O => Fuel
  | S k => match step c with inl c' => run k c' | inr o => o end
  end.
Definition start (l : list token) (w : W) : config := mkCf [(0, VNone)] l w 0.
Definition fuel_for (l : list token) : nat := 200 * (length l + 2).
Definition parse (l : list token) (w : W) : outcome := run (fuel_for l) (start l w).
End Act.

(** ** The lexer *)
Definition is_hex (c : Z) : bool := (48 <=? c) && (c <=? 57) || (65 <=? c) && (c <=? 70) || (97 <=? c) && (c <=? 102).
Definition is_dec (c : Z) : bool := (48 <=? c) && (c <=? 57).
Definition is_oct (c : Z) : bool := (48 <=? c) && (c <=? 55).
Definition is_bin (c : Z) : bool := (c =? 48) || (c =? 49).
Definition is_id0 (c : Z) : bool := (97 <=? c) && (c <=? 122) || (65 <=? c) && (c <=? 90) || (c =? 95).
Definition is_id (c : Z) : bool := is_id0 c || is_dec c.
Fixpoint span (f : Z -> bool) (s : list Z) : nat :=
  match s with c :: t => if f c then S (span f t) else O | [] => O end.

(** cmdlex.l:21-62 PTOK_INT: the tokens with a fixed spelling *)
Definition fixed : list (list Z * Z) := [
  ([105; 110; 116], PTOK_INT);
  ([42; 61], PTOK_MUL_ASSIGN); ([47; 61], PTOK_DIV_ASSIGN); ([37; 61], PTOK_MOD_ASSIGN);
  ([43; 61], PTOK_ADD_ASSIGN); ([45; 61], PTOK_SUB_ASSIGN);
  ([60; 60; 61], PTOK_LEFT_ASSIGN); ([62; 62; 61], PTOK_RIGHT_ASSIGN);
  ([38; 61], PTOK_AND_ASSIGN); ([94; 61], PTOK_XOR_ASSIGN); ([124; 61], PTOK_OR_ASSIGN);
  ([38; 38], PTOK_AND_OP); ([124; 124], PTOK_OR_OP); ([43; 43], PTOK_INC_OP); ([45; 45], PTOK_DEC_OP);
  ([61; 61], PTOK_EQ_OP); ([33; 61], PTOK_NE_OP); ([62; 61], PTOK_GE_OP); ([60; 61], PTOK_LE_OP);
  ([62; 62], PTOK_RIGHT_OP); ([60; 60], PTOK_LEFT_OP);
  ([43], PTOK_PLUS); ([45], PTOK_MINUS); ([42], PTOK_ASTERIX); ([47], PTOK_SLASH);
  ([40], PTOK_LEFT_PAREN); ([41], PTOK_RIGHT_PAREN); ([91], PTOK_LEFT_BRACKET); ([93], PTOK_RIGHT_BRACKET);
  ([61], PTOK_EQUAL); ([46], PTOK_DOT); ([38], PTOK_AMPERSAND); ([124], PTOK_PIPE); ([94], PTOK_CIRCUM);
  ([37], PTOK_PERCENT); ([126], PTOK_TILDE); ([63], PTOK_QUESTION); ([58], PTOK_COLON);
  ([60], PTOK_LESS); ([62], PTOK_GREATER); ([33], PTOK_EXCLAMATION); ([44], PTOK_COMMA)
].
(** lengths the patterns match, 0 for no match *)
(** cmdlex.l:64-64 xX *)
Definition m_hex (s : list Z) : nat :=
  match s with
  | 36 :: t => match span is_hex t with O => O | n => S n end
  | 48 :: x :: t => if (x =? 120) || (x =? 88) then match span is_hex t with O => O | n => S (S n) end else O
  | _ => O
  end.
(** cmdlex.l:83-88 yytext *)
Definition m_bin (s : list Z) : nat :=
  match s with 48 :: 98 :: t => match span is_bin t with O => O | n => S (S n) end | _ => O end.
(** cmdlex.l:90-99 yytext *)
Definition m_oct (s : list Z) : nat := match s with 48 :: t => S (span is_oct t) | _ => O end.
(** cmdlex.l:101-110 yytext *)
Definition m_dec (s : list Z) : nat :=
  match s with c :: t => if (49 <=? c) && (c <=? 57) then S (span is_dec t) else O | _ => O end.
(** cmdlex.l:112-112 uc_yy_check_id *)
Definition m_id (s : list Z) : nat :=
  let body (t : list Z) : nat :=
    match t with
    | c :: t' =>
        if is_id0 c then
          let n := S (span is_id t') in
          match skipn n t with
          | 36 :: d => match span is_dec d with O => n | k => (n + S k)%nat end
          | _ => n
          end
        else O
    | [] => O
    end in
  match s with
  | 46 :: t => match body t with O => O | n => S n end
  | _ => body s
  end.
(** cmdlex.l:114-128 yytext *)
Definition m_chr (s : list Z) : nat :=
  match s with
  | 39 :: t =>
      let n := span (fun c => negb (c =? 39)) t in
      match n, skipn n t with S _, 39 :: _ => S (S n) | _, _ => O end
  | _ => O
  end.
(** cmdlex.l:19-19 t *)
Definition m_blank (s : list Z) : nat := span (fun c => (c =? 32) || (c =? 9)) s.

(** ** Values of numbers *)
(** cmdlex.l:71-79 val *)
Definition hexv (c : Z) : Z :=
  if (48 <=? c) && (c <=? 57) then c - 48
  else if (97 <=? c) && (c <=? 102) then c - 97 + 10
  else if (65 <=? c) && (c <=? 70) then c - 65 + 10 else 0.
Fixpoint shift_digits (k : Z) (f : Z -> Z) (v : Z) (s : list Z) : Z :=
  match s with [] => v | c :: t => shift_digits k f (Z.lor (i64 (v * 2 ^ k)) (f c)) t end.
(** cmdlex.l:103-108 number: decimal; wraps, although overflow is undefined *)
Fixpoint dec_digits (v : Z) (s : list Z) : Z :=
  match s with [] => v | c :: t => dec_digits (i64 (v * 10 + Z.land (c - 48) 15)) t end.
(** cmdutil.cc:44-100 proc_escape: the first character of the processed string, 0 if it
    is empty; \0 with more digits: an octal number (of at most 21 digits) *)
Definition esc_char (c : Z) : Z :=
  if c =? 102 then 12 else if c =? 110 then 10 else if c =? 114 then 13 else if c =? 116 then 9
  else if c =? 118 then 11 else if c =? 97 then 7 else if c =? 98 then 8 else c.
Definition first_char (s : list Z) : Z :=
  match s with
  | 92 :: c :: t =>
      if c =? 48 then
        match t with
        | d :: _ => if is_dec d then i8 (shift_digits 3 (fun c => c - 48) 0 (firstn (span is_oct (c :: t)) (c :: t))) else 0
        | [] => 0
        end
      else esc_char c
  | c :: _ => c
  | [] => 0
  end.

(** ** Names *)
(** what a variable stands for: a location (with bits), or a register cell *)
Inductive var := Located (m a : Z) (bits : option (Z * Z)) | InCell (c : Z).
Record names := mkNm { n_mems : list (list Z * Z); n_vars : list (list Z * var) }.
Definition lookup {A} (eq : list Z -> list Z -> bool) (l : list (list Z * A)) (s : list Z) : option A :=
  match find (fun p => eq (fst p) s) l with Some p => Some (snd p) | None => None end.
(** cmdlex.l:190-237 uc_yy_check_id: a memory by name (uc.cc:1341-1370 cl_uc::memory,
    ignoring case), else a variable (uc.cc:2778-2801 cl_uc::symbol2address; bits are not
    looked at), else the end of the input *)
Definition check_id (e : names) (s : list Z) : token :=
  match lookup iequal_loop (n_mems e) s with
  | Some m => (PTOK_MEMORY_OBJECT, VObj m)
  | None =>
      match lookup list_eqb (n_vars e) s with
      | Some (Located m a _) => (PTOK_MEMORY, VMem m a)
      | Some (InCell c) => (PTOK_CELL, VCell c)
      | None => (PTOK_END, VNone)
      end
  end.

(** ** The longest match *)
Inductive rule_id := RBlank | RFixed (t : Z) | RHex | RBin | ROct | RDec | RId | RChr | RAny | REcho.
Definition matches (s : list Z) : list (nat * rule_id) :=
  (m_blank s, RBlank)
  :: map (fun p => (if prefixb (fst p) s then length (fst p) else O, RFixed (snd p))) fixed
  ++ [(m_hex s, RHex); (m_bin s, RBin); (m_oct s, ROct); (m_dec s, RDec); (m_id s, RId); (m_chr s, RChr);
      (match s with c :: _ => if c =? 10 then O else 1%nat | [] => O end, RAny);
      (match s with [] => O | _ => 1%nat end, REcho)].
Fixpoint longest (best : nat * rule_id) (l : list (nat * rule_id)) : nat * rule_id :=
  match l with
  | [] => best
  | x :: t => longest (if (fst best <? fst x)%nat then x else best) t
  end.
Definition undefined_token : Z := -1.
(** cmdlex.l:64-130 PTOK_NUMBER: what the matched text gives; nothing for blanks (and
    newlines, which are echoed) *)
Definition token_of (e : names) (r : rule_id) (text : list Z) : option token :=
  match r with
  | RBlank | REcho => None
  | RFixed t => Some (t, VNone)
  | RHex => Some (PTOK_NUMBER, VNum (shift_digits 4 hexv 0 (match text with 36 :: t => t | _ => skipn 2 text end)))
  | RBin => Some (PTOK_NUMBER, VNum (shift_digits 1 (fun c => if c =? 48 then 0 else 1) 0 (skipn 2 text)))
  | ROct => Some (PTOK_NUMBER, VNum (shift_digits 3 (fun c => Z.land (c - 48) 7) 0 (skipn 1 text)))
  | RDec => Some (PTOK_NUMBER, VNum (dec_digits 0 text))
  | RId => Some (check_id e text)
  | RChr => Some (PTOK_NUMBER, VNum (first_char (removelast (tl text))))
  | RAny => match text with c :: _ => Some (if c <=? 0 then PTOK_END else undefined_token, VNone) | [] => None end
  end.
(** the tokens of a string up to the end *)
Fixpoint lex_loop (n : nat) (e : names) (s : list Z) : list token :=
  match n with
  | O => [(PTOK_END, VNone)]
  | S k =>
      match s with
      | [] => [(PTOK_END, VNone)]
      | _ =>
          let (len, r) := longest (O, REcho) (matches s) in
          let rest := skipn len s in
          match token_of e r (firstn len s) with
          | Some t => if fst t =? PTOK_END then [t] else t :: lex_loop k e rest
          | None => lex_loop k e rest
          end
      end
  end.
Definition lex (e : names) (s : list Z) : list token := lex_loop (length s) e s.

(** app.cc:1068-1076 cl_app::eval: the value (t_mem) and the machine; an error message
    has no effect on the value *)
Inductive result (W : Type) := Value (v : Z) (err : bool) (w : W) | Undefined.
Arguments Value {W}. Arguments Undefined {W}.
Definition eval_tokens (M : machine) (l : list token) (w : World M) : result (World M) :=
  match parse M l w with
  | Accept _ w' n => Value (u32 n) false w'
  | SynErr _ w' n => Value (u32 n) true w'
  | _ => Undefined
  end.
Definition eval (M : machine) (e : names) (s : list Z) (w : World M) : result (World M) := eval_tokens M (lex e s) w.
