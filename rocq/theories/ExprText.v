(** How the words of an expression are spelt: the user's view, independent of the lexer. *)
From Verif Require Import Base FioModel ChrModel ExprTab ExprModel ExprSpec.
From Coq Require Import Ascii String.
Open Scope Z_scope.

Definition text (s : string) : list Z := map (fun c => Z.of_nat (nat_of_ascii c)) (list_ascii_of_string s).
(** the operators of C *)
Definition operators : list (string * Z) := [
  ("*=", PTOK_MUL_ASSIGN); ("/=", PTOK_DIV_ASSIGN); ("%=", PTOK_MOD_ASSIGN); ("+=", PTOK_ADD_ASSIGN); ("-=", PTOK_SUB_ASSIGN);
  ("<<=", PTOK_LEFT_ASSIGN); (">>=", PTOK_RIGHT_ASSIGN); ("&=", PTOK_AND_ASSIGN); ("^=", PTOK_XOR_ASSIGN); ("|=", PTOK_OR_ASSIGN);
  ("&&", PTOK_AND_OP); ("||", PTOK_OR_OP); ("++", PTOK_INC_OP); ("--", PTOK_DEC_OP); ("==", PTOK_EQ_OP); ("!=", PTOK_NE_OP);
  (">=", PTOK_GE_OP); ("<=", PTOK_LE_OP); (">>", PTOK_RIGHT_OP); ("<<", PTOK_LEFT_OP);
  ("+", PTOK_PLUS); ("-", PTOK_MINUS); ("*", PTOK_ASTERIX); ("/", PTOK_SLASH); ("(", PTOK_LEFT_PAREN); (")", PTOK_RIGHT_PAREN);
  ("[", PTOK_LEFT_BRACKET); ("]", PTOK_RIGHT_BRACKET); ("=", PTOK_EQUAL); (".", PTOK_DOT); ("&", PTOK_AMPERSAND); ("|", PTOK_PIPE);
  ("^", PTOK_CIRCUM); ("%", PTOK_PERCENT); ("~", PTOK_TILDE); ("?", PTOK_QUESTION); (":", PTOK_COLON); ("<", PTOK_LESS);
  (">", PTOK_GREATER); ("!", PTOK_EXCLAMATION); (",", PTOK_COMMA)
]%string.
Definition letter (c : Z) : Prop := 97 <= c <= 122 \/ 65 <= c <= 90 \/ c = 95.
Definition digit (b c : Z) : Prop :=                       (* digits of base b *)
  48 <= c <= 57 /\ c - 48 < b \/ 97 <= c <= 102 /\ c - 87 < b \/ 65 <= c <= 70 /\ c - 55 < b.
Definition digit_val (c : Z) : Z := if c <=? 57 then c - 48 else if c <=? 70 then c - 55 else c - 87.
(** the number a row of digits stands for *)
Fixpoint number (b : Z) (acc : Z) (s : list Z) : Z :=
  match s with [] => acc | c :: t => number b (acc * b + digit_val c) t end.
Definition alnum (c : Z) : Prop := letter c \/ digit 10 c.
(** letters, digits and _, perhaps after a dot, perhaps with $digits at the end *)
Inductive identifier : list Z -> Prop :=
| I_plain c s : letter c -> Forall alnum s -> identifier (c :: s)
| I_dollar c s d : letter c -> Forall alnum s -> d <> [] -> Forall (digit 10) d -> identifier ((c :: s) ++ [36] ++ d).
Inductive name_text : list Z -> Prop :=
| N_plain s : identifier s -> name_text s
| N_dot s : identifier s -> name_text (46 :: s).
(** same name, ignoring case *)
Definition lower (c : Z) : Z := if (65 <=? c) && (c <=? 90) then c + 32 else c.
Definition same_name (a b : list Z) : Prop := map lower a = map lower b.
(** the first entry of a table *)
Inductive first_of {A} (same : list Z -> list Z -> Prop) : list (list Z * A) -> list Z -> A -> Prop :=
| F_here n x l s : same n s -> first_of same ((n, x) :: l) s x
| F_later n x l s y : ~ same n s -> first_of same l s y -> first_of same ((n, x) :: l) s y.
Definition no_memory (e : names) (s : list Z) : Prop := forall n m, In (n, m) (n_mems e) -> ~ same_name n s.

(** [word e t s]: the text [s] stands for the token [t] *)
Inductive word_text (e : names) : token -> list Z -> Prop :=
| T_op s t : In (s, t) operators -> word_text e (t, VNone) (text s)
| T_int : word_text e (PTOK_INT, VNone) (text "int")
| T_dec c s : 49 <= c <= 57 -> Forall (digit 10) s -> number 10 0 (c :: s) < 2 ^ 63 ->
    word_text e (PTOK_NUMBER, VNum (number 10 0 (c :: s))) (c :: s)
| T_oct s : Forall (digit 8) s -> number 8 0 s < 2 ^ 63 -> word_text e (PTOK_NUMBER, VNum (number 8 0 s)) (48 :: s)
| T_bin s : s <> [] -> Forall (digit 2) s -> number 2 0 s < 2 ^ 63 ->
    word_text e (PTOK_NUMBER, VNum (number 2 0 s)) (text "0b" ++ s)
| T_hex p s : In p ["0x"; "0X"; "$"]%string -> s <> [] -> Forall (digit 16) s -> number 16 0 s < 2 ^ 63 ->
    word_text e (PTOK_NUMBER, VNum (number 16 0 s)) (text p ++ s)
| T_chr c : 0 < c < 128 -> c <> 39 -> c <> 92 -> word_text e (PTOK_NUMBER, VNum c) [39; c; 39]
| T_esc c v : In (c, v) [("n", 10); ("t", 9); ("r", 13); ("f", 12); ("v", 11); ("a", 7); ("b", 8); ("\", 92); ("0", 0)]%string ->
    word_text e (PTOK_NUMBER, VNum v) ([39; 92] ++ text c ++ [39])
| T_memory s m : name_text s -> s <> text "int" -> first_of same_name (n_mems e) s m -> word_text e (PTOK_MEMORY_OBJECT, VObj m) s
| T_var s m a b : name_text s -> s <> text "int" -> no_memory e s -> first_of eq (n_vars e) s (Located m a b) -> word_text e (PTOK_MEMORY, VMem m a) s
| T_reg s c : name_text s -> s <> text "int" -> no_memory e s -> first_of eq (n_vars e) s (InCell c) -> word_text e (PTOK_CELL, VCell c) s.
(** a text starting with [c] may directly follow the word [s]: names and numbers end
    before any other character than a letter, a digit, _ or $; an operator ends if [c]
    does not make it another one *)
Definition may_follow (s : list Z) (c : Z) : Prop :=
  (forall o t q, In (o, t) operators -> text o <> s ++ [c] ++ q) /\
  (s = text "." -> ~ letter c) /\
  (forall p d, s = p ++ [d] -> alnum d -> ~ alnum c /\ c <> 36).
Definition blanks (s : list Z) : Prop := Forall (fun c => c = 32 \/ c = 9) s.
Inductive spelt (e : names) : list token -> list Z -> Prop :=
| X_end b : blanks b -> spelt e [] b
| X_word t s ts rest b : blanks b -> word_text e t s -> spelt e ts rest ->
    (forall c r, rest = c :: r -> may_follow s c) -> spelt e (t :: ts) (b ++ s ++ rest).

(** [s] is a way to write the expression [t] *)
Definition text_of (e : names) (s : list Z) (t : expr) : Prop := exists o ts, writes o 16 t ts /\ spelt e ts s.
(** no operator changes anything *)
Fixpoint pure (e : expr) : bool :=
  match e with
  | Num _ | Reg _ => true
  | Get p | Addr p | SignExt p => pure_place p
  | BitOf p i | AddrBit p i => pure_place p && pure i
  | Field p i j | AddrField p i j => pure_place p && pure i && pure j
  | Un _ a => pure a
  | Bin _ a b | Comma a b => pure a && pure b
  | Cond c a b => pure c && pure a && pure b
  | _ => false
  end
with pure_place (p : place) : bool := match p with Named _ _ => true | At _ e => pure e end.
(** no && || ?: *)
Fixpoint plain (e : expr) : bool :=
  match e with
  | Num _ | Reg _ | BumpR _ _ _ => true
  | Get p | Addr p | SignExt p | Bump _ _ p => plain_place p
  | BitOf p i | AddrBit p i | Asg p _ i => plain_place p && plain i
  | Field p i j | AddrField p i j | AsgBit p i j => plain_place p && plain i && plain j
  | AsgField p i j e => plain_place p && plain i && plain j && plain e
  | Un _ a | AsgR _ _ a => plain a
  | Bin o a b => match o with LAnd | LOr => false | _ => plain a && plain b end
  | Comma a b => plain a && plain b
  | Cond _ _ _ => false
  end
with plain_place (p : place) : bool := match p with Named _ _ => true | At _ e => plain e end.
(** reading does not change the machine *)
Definition quiet (M : machine) : Prop :=
  (forall w m a, snd (@m_read M w m a) = w) /\ (forall w c, snd (@c_read M w c) = w).
(** a name nobody knows *)
Definition unknown (e : names) (s : list Z) : Prop :=
  name_text s /\ s <> text "int" /\ no_memory e s /\ forall n x, In (n, x) (n_vars e) -> n <> s.
