(** What a command line is, said without the interpreter: words, quoted strings,
    separators, comments, semicolons, numbers. *)
From Verif Require Import Base CmdModel.

(** blank, tab, vertical tab, carriage return, comma *)
Definition delim (c : Z) : Prop := c = 32 \/ c = 9 \/ c = 11 \/ c = 13 \/ c = 44.
Definition sep (s : list Z) : Prop := Forall delim s.
(** a character that can be in a word: not a separator, not ; and not # *)
Definition wchar (c : Z) : Prop := c <> 0 /\ ~ delim c /\ c <> 59 /\ c <> 35.
(** the first word of a command *)
Definition cmdname (w : list Z) : Prop := w <> [] /\ Forall wchar w /\ hd 0 w <> 10.
(** a further word: it does not begin with a quote or > , and has no \ and no $ *)
Definition word (w : list Z) : Prop :=
  w <> [] /\ Forall wchar w /\ hd 0 w <> 34 /\ hd 0 w <> 62 /\ ~ In 36 w /\ ~ In 92 w.
(** the text between the quotes of a string: a quote or a $ only behind a backslash *)
Inductive text : list Z -> Prop :=
| text_nil : text []
| text_char c t : c <> 0 -> c <> 34 -> c <> 92 -> c <> 36 -> text t -> text (c :: t)
| text_esc c t : c <> 0 -> text t -> text (92 :: c :: t).
Inductive item := IWord (w : list Z) | IStr (t : list Z).
Definition ok_item (i : item) : Prop := match i with IWord w => word w | IStr t => text t end.
Definition source (i : item) : list Z := match i with IWord w => w | IStr t => 34 :: t ++ [34] end.
Definition content (i : item) : list Z := match i with IWord w => w | IStr t => t end.
(** the items, each with the separators behind it; a word needs one before the next item *)
Fixpoint body (l : list (item * list Z)) : list Z :=
  match l with [] => [] | (i, s) :: t => source i ++ s ++ body t end.
Fixpoint ok_body (l : list (item * list Z)) : Prop :=
  match l with
  | [] => True
  | (i, s) :: t => ok_item i /\ sep s /\ ok_body t /\
                   (match i with IWord _ => t <> [] -> s <> [] | IStr _ => True end)
  end.
(** one command: leading separators, name, separators, items *)
Record command := mkCmd { c_lead : list Z; c_word : list Z; c_sep : list Z; c_items : list (item * list Z) }.
Definition ok_command (c : command) : Prop :=
  sep (c_lead c) /\ cmdname (c_word c) /\ sep (c_sep c) /\ ok_body (c_items c) /\
  (c_items c <> [] -> c_sep c <> []).
Definition written (c : command) : list Z := c_lead c ++ c_word c ++ c_sep c ++ body (c_items c).
(** no ; and no # in the strings of the command *)
Definition quiet (c : command) : Prop :=
  Forall (fun p => match fst p with IStr t => ~ In 59 t /\ ~ In 35 t | _ => True end) (c_items c).
(** how the line goes on behind a command *)
Inductive ending := End | Comment (t : list Z) | More (t : list Z).
Definition tail (e : ending) : list Z :=
  match e with End => [] | Comment t => 35 :: t | More t => 59 :: t end.

(** the parameters that a word is turned into: those of the command "x word" *)
Definition means (w : list Z) (ps : list param) : Prop :=
  exists l, parse (120 :: 32 :: w) = Ok l /\ l_prm l = ps.
Definition means_error (w : list Z) (e : cerr) : Prop :=
  exists l, parse (120 :: 32 :: w) = Ok l /\ l_prm l = [] /\ l_err l = [e].

(** ** Numbers *)
Definition value (b : Z) (ds : list Z) : Z := fold_left (fun a d => a * b + d) ds 0.
Definition long (v : Z) : Z := Z.max (- 2 ^ 63) (Z.min (2 ^ 63 - 1) v).
(** the digit [d] as a character: 0-9, a-f or A-F *)
Definition hexchar (c d : Z) : Prop :=
  (0 <= d <= 9 /\ c = 48 + d) \/ (10 <= d <= 15 /\ (c = 87 + d \/ c = 55 + d)).
Inductive number : list Z -> Z -> Prop :=
| num_zero : number [48] 0
| num_dec d ds : 1 <= d <= 9 -> Forall (fun x => 0 <= x <= 9) ds ->
    number (map (Z.add 48) (d :: ds)) (value 10 (d :: ds))
| num_oct ds : Forall (fun x => 0 <= x <= 7) ds ->
    number (48 :: map (Z.add 48) ds) (value 8 ds)
| num_hex x cs ds : x = 120 \/ x = 88 -> ds <> [] -> Forall2 hexchar cs ds ->
    number (48 :: x :: cs) (value 16 ds).
(** a number or a symbol (a name that does not begin with a digit) *)
Inductive reads : list Z -> simple -> Prop :=
| reads_num s v : number s v -> reads s (PInt (long v))
| reads_sym s : s <> [] -> ~ (48 <= hd 0 s <= 57) -> reads s (PSym s).

(** ** Commands *)
Definition named (c : cmd) (n : list Z) : Prop := In n (cnames c).
Definition named_like (c : cmd) (n : list Z) : Prop := exists x, In (n ++ x) (cnames c).

(** ** Strings of bytes *)
(** one way to write any sequence of bytes in quotes: quote, backslash and dollar behind a
    backslash, a digit behind a backslash (0 as \060), 0 as \000, everything else itself *)
Definition quote1 (b : Z) : list Z :=
  if b =? 0 then [92; 48; 48; 48]
  else if b =? 48 then [92; 48; 54; 48]
  else if (b =? 34) || (b =? 92) || (b =? 36) || ((49 <=? b) && (b <=? 57)) then [92; b]
  else [b].
Definition quote (bs : list Z) : list Z := flat_map quote1 bs.
(** what a string in quotes stands for: \f \n \r \t \v \a \b, \0 with any number of octal
    digits behind it (one byte), a backslash makes any other character plain *)
Definition named_escapes : list (Z * Z) := [(102, 12); (110, 10); (114, 13); (116, 9); (118, 11); (97, 7); (98, 8)].
Inductive stands : list Z -> list Z -> Prop :=
| st_nil : stands [] []
| st_char c s bs : c <> 92 -> stands s bs -> stands (c :: s) (c :: bs)
| st_last : stands [92] [92]
| st_named d b s bs : In (d, b) named_escapes -> stands s bs -> stands (92 :: d :: s) (b :: bs)
| st_self d s bs : (forall b, ~ In (d, b) named_escapes) -> d <> 48 -> stands s bs -> stands (92 :: d :: s) (d :: bs)
| st_octal ds v s bs : Forall (fun x => 0 <= x <= 7) ds -> ~ (48 <= hd 0 s <= 55) -> value 8 ds < 2 ^ 63 ->
    -128 <= v < 128 -> (v - value 8 ds) mod 256 = 0 -> stands s bs ->
    stands (92 :: 48 :: map (Z.add 48) ds ++ s) (v :: bs).

(** the command found under the name [n], if any, is not a composed one *)
Definition simple_cmd (set : list cmd) (n : list Z) : Prop :=
  forall i c, get_cmd (Some n) set = Some i -> nth_error set i = Some c ->
    match c with Leaf _ _ _ => True | Super _ _ _ _ => False end.

(** ** Syntaxes: a address, m memory, b bit, h hardware, c cell, n number, s string; other
    letters accept everything *)
(** what a letter of a syntax accepts *)
Definition accepts (uc : option know) (c : Z) (p : param) : Prop :=
  match uc with
  | Some u =>
      (c = 97 -> k_addr u p = true) /\ (c = 109 -> k_mem u p = true) /\ (c = 98 -> k_bit u p = true) /\
      (c = 104 -> k_hw u p = true) /\ (c = 99 -> k_cell u p = true)
  | None => True
  end /\
  (c = 110 -> match p with P (PSym _) | PStr _ => False | _ => True end) /\
  (c = 115 -> match p with PArr _ _ | PBit _ _ _ => False | _ => True end).
(** a symbol or a string where one number is expected *)
Definition bad_data (c : Z) (p : param) : Prop :=
  c = 100 /\ match p with P (PSym _) | PStr _ => True | _ => False end.
