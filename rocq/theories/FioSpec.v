(** What a user expects from console input, stated without the arrays of the code:
    a bounded queue, a text with a cursor, a history, a terminal. *)
From Verif Require Import Base.

(** ** The queue of pending input *)
Definition queue := list Z.
Definition qroom (q : queue) : Z := 1023 - Z.of_nat (length q).
(** a full queue refuses the value *)
Definition qput (q : queue) (v : Z) : queue * Z :=
  if 0 <? qroom q then (q ++ [v], 0) else (q, -1).
Definition qputs (q : queue) (vs : list Z) : queue :=
  fold_left (fun q v => fst (qput q v)) vs q.
(** a reader sees positive values modulo 256, others as they are *)
Definition seen (v : Z) : Z := if 0 <? v then v mod 256 else v.
Definition qget (q : queue) : queue * Z :=
  match q with [] => ([], -1) | v :: t => (t, seen v) end.

(** ** Keys and the bytes terminals send for them *)
Inductive key :=
| KChar (c : Z)              (* a printable character *)
| KLeft | KRight | KHome | KEnd | KUp | KDown
| KBack                      (* erase the character before the cursor *)
| KDel                       (* erase the character under the cursor *)
| KKill                      (* erase the line *)
| KEnter (nl : Z)            (* CR or LF *)
| KOther.                    (* a key without function: F1..F12, PgUp, Ins... *)

Definition printable (c : Z) : Prop := 32 <= c <= 126.

(** ESC [ n ~ keys without function in the editor *)
Definition idle_numbers : list (list Z) :=
  [[50]; [53]; [54];                                  (* 2 5 6: Ins PgUp PgDn *)
   [49;49]; [49;50]; [49;51]; [49;52]; [49;53];       (* 11..15: F1..F5 *)
   [49;55]; [49;56]; [49;57]; [50;48]; [50;49];       (* 17..21: F6..F10 *)
   [50;51]; [50;52]].                                 (* 23 24: F11 F12 *)

Inductive enc : key -> list Z -> Prop :=
| E_char c : printable c -> enc (KChar c) [c]
| E_left : enc KLeft [27; 91; 68]
| E_right : enc KRight [27; 91; 67]
| E_up : enc KUp [27; 91; 65]
| E_down : enc KDown [27; 91; 66]
| E_home1 : enc KHome [27; 91; 72]
| E_home2 : enc KHome [27; 79; 72]
| E_home3 : enc KHome [27; 91; 49; 126]
| E_home4 : enc KHome [1]
| E_end1 : enc KEnd [27; 91; 70]
| E_end2 : enc KEnd [27; 79; 70]
| E_end3 : enc KEnd [27; 91; 52; 126]
| E_end4 : enc KEnd [5]
| E_back1 : enc KBack [127]
| E_back2 : enc KBack [8]
| E_del : enc KDel [27; 91; 51; 126]
| E_kill : enc KKill [11]
| E_cr : enc (KEnter 13) [13]
| E_lf : enc (KEnter 10) [10]
| E_ss3 c : 80 <= c <= 83 -> enc KOther [27; 79; c]
| E_num n : In n idle_numbers -> enc KOther (27 :: 91 :: n ++ [126]).

(** ** The editor: text before and after the cursor, history, delivered input *)
Record ed := mkEd {
  before : list Z; after : list Z;      (* the line being edited *)
  past : list (list Z); place : nat;    (* history, line being looked at *)
  nl : Z;                               (* newline byte that ended the last line, or 0 *)
  input : queue }.

Definition text (e : ed) : list Z := before e ++ after e.
Definition with_line (e : ed) (b a : list Z) : ed :=
  mkEd b a (past e) (place e) (nl e) (input e).

(** looking at another line keeps the changes made to the one left *)
Definition keep (e : ed) : list (list Z) :=
  if (place e <? length (past e))%nat then upd (past e) (place e) (text e) else past e.
Definition look (e : ed) (n : nat) : ed :=
  mkEd (nth n (keep e) []) [] (keep e) n (nl e) (input e).

Definition edit (e : ed) (k : key) : ed :=
  match k with
  | KChar c =>
      if Z.of_nat (length (text e)) <? 1023 then with_line e (before e ++ [c]) (after e) else e
  | KLeft => match rev (before e) with
             | c :: r => with_line e (rev r) (c :: after e) | [] => e end
  | KRight => match after e with
              | c :: t => with_line e (before e ++ [c]) t | [] => e end
  | KHome => with_line e [] (text e)
  | KEnd => with_line e (text e) []
  | KBack => with_line e (removelast (before e)) (after e)
  | KDel => with_line e (before e) (tl (after e))
  | KKill => with_line e [] []
  | KUp => look e (place e - 1)
  | KDown => look e (if (place e <? length (past e))%nat then S (place e) else place e)
  | KEnter n =>
      (* the other half of a CR LF pair is ignored *)
      if negb (nl e =? 0) && negb (nl e =? n)
      then mkEd (before e) (after e) (past e) (place e) 0 (input e)
      else
        let kept := if (1000 <? length (past e))%nat then tl (past e) else past e in
        let h := match text e with [] => kept | t => kept ++ [t] end in
        mkEd [] [] h (match text e with [] => place e | _ => length h end) n
             (qputs (input e) (text e ++ [10]))
  | KOther => e
  end.
Definition fresh : ed := mkEd [] [] [] 0 0 [].

(** ** The terminal that shows the echo: one row of unlimited width *)
Record term := mkTerm { cell : Z -> Z; col : Z; saved : Z }.
Definition put_char (t : term) (c : Z) : term :=
  if c =? 10 then mkTerm (fun _ => 32) 0 (saved t)
  else mkTerm (fun i => if i =? col t then c else cell t i) (col t + 1) (saved t).
Definition put_text (t : term) (s : list Z) : term := fold_left put_char s t.
(** ESC [ s, ESC [ u, ESC [ n D, ESC [ n C; a terminal takes n = 0 as 1 and does not
    move left of the first column *)
Definition t_save (t : term) : term := mkTerm (cell t) (col t) (col t).
Definition t_restore (t : term) : term := mkTerm (cell t) (saved t) (saved t).
Definition t_left (t : term) (n : Z) : term :=
  mkTerm (cell t) (Z.max 0 (col t - Z.max 1 n)) (saved t).
Definition t_right (t : term) (n : Z) : term :=
  mkTerm (cell t) (col t + Z.max 1 n) (saved t).

(** the row shows [txt] from column [p] on, blanks after it, cursor at [p + cur] *)
Definition shows (t : term) (p : Z) (txt : list Z) (cur : Z) : Prop :=
  0 <= p /\ col t = p + cur /\
  forall i, 0 <= i -> cell t (p + i) = nth (Z.to_nat i) txt 32.

(** An escape sequence also ends the wait for the other half of a CR LF pair. *)
Definition forget_nl (e : ed) : ed :=
  mkEd (before e) (after e) (past e) (place e) 0 (input e).
Definition type_key (e : ed) (kb : key * list Z) : ed :=
  edit (match snd kb with 27 :: _ => forget_nl e | _ => e end) (fst kb).
Definition typed (e : ed) (ks : list (key * list Z)) : ed := fold_left type_key ks e.

(** ** The escape decoder on an unlimited buffer.
    [pend]: the bytes of the sequence read so far, as signed characters (0 bytes are
    dropped).  Result: what is pending next and whether the sequence ended. *)
Definition csi_final (c : Z) : bool :=
  existsb (Z.eqb c) [65; 66; 67; 68; 72; 70; 69; 126].        (* A B C D H F E ~ *)
Definition app_nz (s : list Z) (c : Z) : list Z := if c =? 0 then s else s ++ [c].
Definition pending (pend : list Z) (c : Z) : list Z :=
  match pend with
  | [] => if (c =? 27) || (c =? -1) then [c] else []
  | 27 :: [] => if (c =? 79) || (c =? 78) || (c =? 91) then [27; c] else []
  | 27 :: 91 :: 77 :: t =>                                    (* ESC [ M b x y *)
      if (2 <=? Z.of_nat (length t)) && negb (c =? 0) then [] else app_nz pend c
  | 27 :: 91 :: _ => if csi_final c then [] else app_nz pend c
  | 27 :: _ => []
  | [_] => if c =? -1 then [] else app_nz pend c
  | _ => []
  end.

(** A mouse report with an unknown button and a position other than the corner. *)
Definition known_buttons : list Z := [32; 33; 34; 48; 49; 50; 40; 41; 42; 96; 97; 112; 113].
Definition bad_mouse (pend : list Z) (c : Z) : bool :=
  match pend with
  | [27; 91; 77; b; x] =>
      negb (c =? 0) && negb (existsb (Z.eqb b) known_buttons) && negb ((x =? 32) && (c =? 32))
  | _ => false
  end.
(** byte sequences that make the decoder hold 99 bytes when one more arrives, or
    that contain a bad mouse report *)
Fixpoint overrun (pend : list Z) (bs : list Z) : Prop :=
  match bs with
  | [] => False
  | b :: t => (99 <= length pend)%nat \/ bad_mouse pend (i8 b) = true \/ overrun (pending pend (i8 b)) t
  end.

(** ** A session: the user presses keys, the program fetches input *)
Inductive act := Press (kb : key * list Z) | Fetch (n : nat).
Definition valid (a : act) : Prop := match a with Press (k, bs) => enc k bs | Fetch _ => True end.
Definition expect (e : ed) (a : act) : ed * list Z :=
  match a with
  | Press kb => (type_key e kb, [])
  | Fetch n => (mkEd (before e) (after e) (past e) (place e) (nl e) (skipn n (input e)), firstn n (input e))
  end.
Fixpoint expected (e : ed) (l : list act) : ed * list (list Z) :=
  match l with
  | [] => (e, [])
  | a :: t => let (e1, o) := expect e a in let (e2, os) := expected e1 t in (e2, o :: os)
  end.
