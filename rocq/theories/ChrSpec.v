(** What the operations of a string are expected to do, on lists of characters. *)
From Verif Require Import Base.

(** A string object holds no string (null) or a sequence of non-zero characters; it
    owns its memory or refers to a constant of the caller. *)
Record sobj := mkS { sval : option (list Z); sown : bool }.

Definition up (c : Z) : Z := if (97 <=? c) && (c <=? 122) then c - 32 else c.
Definition down (c : Z) : Z := if (65 <=? c) && (c <=? 90) then c + 32 else c.
Definition blank (c : Z) : bool := (c =? 32) || ((9 <=? c) && (c <=? 13)).
Definition one_of (set : list Z) (c : Z) : bool := existsb (Z.eqb c) set.
Fixpoint drop (f : Z -> bool) (s : list Z) : list Z :=
  match s with [] => [] | c :: t => if f c then drop f t else s end.
(** the string without its longest tail of characters with [f] *)
Definition rdrop (f : Z -> bool) (s : list Z) : list Z := rev (drop f (rev s)).

Inductive op :=
| OAssign (s : option (list Z)) | OAppend (s : list Z) | OAppendChar (c : Z)
| OAppendN (s : list Z) (n : Z) | OUpper | OLower | OReplaceSet (set : list Z) (w : Z)
| OKeep (start n : Z) | OLtrim | OLrip (set : list Z) | ORrip (set : list Z) | ORripN (n : Z).

Definition mine (s : list Z) : sobj := mkS (Some s) true.
Definition chars_of (o : sobj) : list Z := match sval o with Some s => s | None => [] end.
(** an in-place change copies a constant first *)
Definition change (o : sobj) (f : list Z -> list Z) : sobj :=
  match sval o with Some s => mine (f s) | None => o end.
Definition sop (o : sobj) (p : op) : sobj :=
  match p with
  | OAssign (Some s) => mine s
  | OAssign None => mkS None false
  | OAppend s => mine (chars_of o ++ s)
  | OAppendChar c => mine (chars_of o ++ [c])
  | OAppendN s n => mine (chars_of o ++ firstn (Z.to_nat n) s)
  | OUpper => change o (map up)
  | OLower => change o (map down)
  | OReplaceSet set w => change o (map (fun c => if one_of set c then w else c))
  | OKeep start n => change o (fun s => firstn (Z.to_nat n) (skipn (Z.to_nat start) s))
  | OLtrim => match chars_of o with [] => o | s => mine (drop blank s) end
  | OLrip set => match chars_of o with
                 | [] => o
                 | c :: _ as s => if one_of set c then mine (drop (one_of set) s) else o end
  | ORrip set => match sval o with Some s => mkS (Some (rdrop (one_of set) s)) (sown o) | None => o end
  | ORripN n => match sval o with
                | Some s => mkS (Some (firstn (length s - Z.to_nat n) s)) (sown o) | None => o end
  end.
(** Arguments the operations are defined for: strings without 0 characters,
    non-negative numbers; shortening in place needs a string of its own. *)
Definition text (s : list Z) : Prop := Forall (fun c => c <> 0) s.
Definition sop_ok (o : sobj) (p : op) : Prop :=
  match p with
  | OAssign (Some s) => text s
  | OAssign None => True
  | OAppend s => text s
  | OAppendChar c => c <> 0
  | OAppendN s n => text s /\ 0 <= n
  | OReplaceSet set w => w <> 0
  | OKeep start n => 0 <= start /\ 0 <= n
  | ORrip set => sown o = true \/ rdrop (one_of set) (chars_of o) = chars_of o
  | ORripN n => sown o = true \/ n <= 0 \/ chars_of o = []
  | _ => True
  end.
Definition sobj_ok (o : sobj) : Prop :=
  text (chars_of o) /\ (sval o = None -> sown o = false).
Fixpoint sops (o : sobj) (l : list op) : sobj := match l with [] => o | p :: t => sops (sop o p) t end.
Fixpoint sops_ok (o : sobj) (l : list op) : Prop :=
  match l with [] => True | p :: t => sop_ok o p /\ sops_ok (sop o p) t end.

(** ** Searching *)
(** [x] occurs at index [n] of [s] *)
Definition occurs (s x : list Z) (n : nat) : Prop := exists a b, s = a ++ x ++ b /\ length a = n.
Definition first_occ (s x : list Z) (n : nat) : Prop := occurs s x n /\ forall m, occurs s x m -> (n <= m)%nat.

(** ** Words *)
Fixpoint words_aux (d : Z -> bool) (w : list Z) (s : list Z) : list (list Z) :=
  match s with
  | [] => match w with [] => [] | _ => [w] end
  | c :: t => if d c then match w with [] => words_aux d [] t | _ => w :: words_aux d [] t end
              else words_aux d (w ++ [c]) t
  end.
(** the maximal runs of characters that are no delimiters, in order *)
Definition words (delims s : list Z) : list (list Z) := words_aux (one_of delims) [] s.

(** ** Numbers *)
Definition hex_digit (c : Z) : option Z :=
  if (48 <=? c) && (c <=? 57) then Some (c - 48)
  else if (65 <=? c) && (c <=? 70) then Some (c - 55)
  else if (97 <=? c) && (c <=? 102) then Some (c - 87)
  else None.
(** value of a numeral: Horner, most significant digit first *)
Fixpoint value (base : Z) (acc : Z) (ds : list Z) : Z :=
  match ds with [] => acc | d :: t => value base (acc * base + d) t end.
(** numerals are written with digits 0-9 a-z, or A-Z *)
Definition digit_char (up : bool) (d : Z) : Z := if d <? 10 then 48 + d else if up then 55 + d else 87 + d.
(** How numbers are written: decimal without prefix (no leading 0), octal with 0, and
    0b 0o 0d 0x prefixes. *)
Definition in_base (b : Z) (ds : list Z) : Prop := Forall (fun d => 0 <= d < b) ds.
Inductive numeral : list Z -> Z -> Prop :=
| N_dec u d ds : in_base 10 (d :: ds) -> d <> 0 -> numeral (map (digit_char u) (d :: ds)) (value 10 0 (d :: ds))
| N_oct u ds : in_base 8 ds -> numeral (48 :: map (digit_char u) ds) (value 8 0 ds)
| N_pre u p b ds : In (p, b) [(98, 2); (66, 2); (111, 8); (79, 8); (100, 10); (68, 10); (120, 16); (88, 16)] ->
    in_base b ds -> numeral (48 :: p :: map (digit_char u) ds) (value b 0 ds).
