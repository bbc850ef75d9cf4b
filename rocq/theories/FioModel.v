(** Console and file input: the ring buffer, the escape and telnet decoder, the
    line editor with its history and its echo (class cl_f, utils.src/fio.cc).
    Not modelled: opening and closing of files, select(), terminal attributes,
    the Windows variant, colour sequences of the echo (they do not move the
    cursor).  A [char] is the signed 8 bit type of the x86 and ARM/Linux ABI;
    [isprint] is the one of the "C" locale. *)
From Verif Require Import Base.

(** Storage: [arr] is a C array; reads and writes name the size of the array. *)
Definition arr := Z -> Z.
Definition aset (a : arr) (i v : Z) : arr := fun j => if j =? i then v else a j.
Definition awr (sz : Z) (a : arr) (i v : Z) : res arr :=
  if (0 <=? i) && (i <? sz) then Ok (aset a i v) else UB.
Definition ard (sz : Z) (a : arr) (i : Z) : res Z :=
  if (0 <=? i) && (i <? sz) then Ok (a i) else UB.

(** strlen of a C string that starts at index [i] of an array; reading past the
    end of the array is undefined *)
Fixpoint strlen_from (fuel : nat) (a : arr) (i : Z) : res Z :=
  match fuel with
  | O => UB
  | S f => if a i =? 0 then Ok i else strlen_from f a (i + 1)
  end.
Definition strlen (sz : nat) (a : arr) : res Z := strlen_from sz a 0.
(** the characters of a C string of known length *)
Fixpoint chars_of (a : arr) (i : Z) (n : nat) : list Z :=
  match n with O => [] | S k => a i :: chars_of a (i + 1) k end.
(** strcpy of a string into an array *)
Fixpoint strcpy_from (a : arr) (i : Z) (s : list Z) : arr :=
  match s with
  | [] => aset a i 0
  | c :: t => strcpy_from (aset a i c) (i + 1) t
  end.

(** ** The ring buffer of input values *)

(** fiocl.h:140-141 [buffer, prev_last_used, last_used, first_free] *)
Record ring := mkRing { rbuf : arr; rplu : Z; rlu : Z; rff : Z }.

(** fio.cc:393-405 cl_f::put *)
Definition rput (r : ring) (c : Z) : ring * Z :=
  let n := (rff r + 1) mod 1024 in
  if n =? rlu r then (r, -1)
  else (mkRing (aset (rbuf r) (rff r) c) (rplu r) (rlu r) n, 0).

(** fio.cc:407-419 cl_f::get *)
Definition rget (r : ring) : ring * Z :=
  if rlu r =? rff r then (r, -1)
  else
    let c := rbuf r (rlu r) in
    let c' := if 0 <? c then Z.land c 255 else c in
    (mkRing (rbuf r) (rlu r) ((rlu r + 1) mod 1024) (rff r), c').

(** fio.cc:421-427 cl_f::unget *)
Definition runget (r : ring) (c : Z) : res (ring * Z) :=
  b <- awr 1024 (rbuf r) (rplu r) c ;;
  Ok (mkRing b (rplu r) (rplu r) (rff r), c).

(** fio.cc:429-435 cl_f::free_place *)
Definition rfree (r : ring) : Z :=
  if rlu r <=? rff r then 1024 - (rff r - rlu r) - 1
  else rlu r - rff r - 1.

(** a run of [put] calls whose results are ignored, as in fio.cc:779-781 put *)
Fixpoint rputs (r : ring) (cs : list Z) : ring :=
  match cs with [] => r | c :: t => rputs (fst (rput r c)) t end.

(** ** Key codes *)
(** fiocl.h:49-71 tu_special_keys *)
Definition TU_UP := -10.    Definition TU_DOWN := -11.
Definition TU_LEFT := -12.  Definition TU_RIGHT := -13.
Definition TU_HOME := -14.  Definition TU_END := -15.
Definition TU_PGUP := -16.  Definition TU_PGDOWN := -17.
Definition TU_DEL := -18.
Definition TU_F1 := -19.  Definition TU_F2 := -20.  Definition TU_F3 := -21.
Definition TU_F4 := -22.  Definition TU_F5 := -23.  Definition TU_F6 := -24.
Definition TU_F7 := -25.  Definition TU_F8 := -26.  Definition TU_F9 := -27.
Definition TU_F10 := -28. Definition TU_F11 := -29. Definition TU_F12 := -30.
Definition TU_INS := -31.
(** fiocl.h:73-87 TU_BTN1 ... mouse reports *)
Definition TU_BTN1 := -50.  Definition TU_BTN2 := -51.  Definition TU_BTN3 := -52.
Definition TU_CBTN1 := -53. Definition TU_CBTN2 := -54. Definition TU_CBTN3 := -55.
Definition TU_ABTN1 := -56. Definition TU_ABTN2 := -57. Definition TU_ABTN3 := -58.
Definition TU_SUP := -59.   Definition TU_SDOWN := -60.
Definition TU_CSUP := -61.  Definition TU_CSDOWN := -62.

(** strtol(s, 0, 0) stored in an int: blanks, sign, 0x / 0 prefix, digits, clamped
    to the range of long (64 bits) and then cut to 32 bits *)
Definition is_blank (c : Z) : bool := (c =? 32) || ((9 <=? c) && (c <=? 13)).
Fixpoint skip_blank (s : list Z) : list Z :=
  match s with c :: t => if is_blank c then skip_blank t else s | [] => [] end.
Definition digit_of (c : Z) : Z :=
  if (48 <=? c) && (c <=? 57) then c - 48
  else if (65 <=? c) && (c <=? 90) then c - 55
  else if (97 <=? c) && (c <=? 122) then c - 87
  else 99.
Fixpoint digits (base acc : Z) (s : list Z) : Z :=
  match s with
  | c :: t => if digit_of c <? base then digits base (acc * base + digit_of c) t else acc
  | [] => acc
  end.
Definition strtol_mag (s : list Z) : Z :=
  match s with
  | 48 :: x :: t =>
      if ((x =? 120) || (x =? 88)) &&
         (match t with d :: _ => digit_of d <? 16 | [] => false end)
      then digits 16 0 t else digits 8 0 (x :: t)
  | 48 :: [] => 0
  | _ => digits 10 0 s
  end.
Definition strtol0 (s : list Z) : Z :=
  let s1 := skip_blank s in
  let v := match s1 with
           | 45 :: t => - strtol_mag t
           | 43 :: t => strtol_mag t
           | _ => strtol_mag s1
           end in
  i32 (Z.max (- 9223372036854775808) (Z.min 9223372036854775807 v)).

(** ** History *)
(** fiocl.h:97-111 cl_history: [Items] and [nr] *)
Record history := mkHist { hitems : list (list Z); hnr : Z }.
Definition hcount (h : history) : Z := Z.of_nat (length (hitems h)).

(** fio.cc:112-123 cl_history::replace *)
Definition hreplace (h : history) (l : list Z) : history :=
  if hnr h <? hcount h then mkHist (upd (hitems h) (Z.to_nat (hnr h)) l) (hnr h) else h.
Definition hitem (h : history) : option (list Z) :=
  if hnr h <? hcount h then nth_error (hitems h) (Z.to_nat (hnr h)) else None.
(** fio.cc:79-88 cl_history::up *)
Definition hup (h : history) (l : list Z) : history * option (list Z) :=
  let h1 := hreplace h l in
  let h2 := mkHist (hitems h1) (if 0 <? hnr h1 then hnr h1 - 1 else hnr h1) in
  (h2, hitem h2).
(** fio.cc:90-99 cl_history::down *)
Definition hdown (h : history) (l : list Z) : history * option (list Z) :=
  let h1 := hreplace h l in
  let h2 := mkHist (hitems h1) (if hnr h1 <? hcount h1 then hnr h1 + 1 else hnr h1) in
  (h2, hitem h2).
(** fio.cc:101-110 cl_history::enter.  [add] is the list operation of pobj.cc
    (property C16): the list never grows past 1002 items here, far below its
    limit, so it appends. *)
Definition henter (h : history) (l : list Z) : history :=
  let items := if 1000 <? hcount h then tl (hitems h) else hitems h in
  match l with
  | [] => mkHist items (hnr h)
  | _ => mkHist (items ++ [l]) (Z.of_nat (length (items ++ [l])))
  end.

(** ** The input file *)

(** What is sent to the echo terminal (fio.cc:1081-1141). *)
Inductive ev :=
| ESave                    (* ESC [ s *)
| ERestore                 (* ESC [ u *)
| ELeft (n : Z)            (* ESC [ n D *)
| ERight (n : Z)           (* ESC [ n C *)
| EText (s : list Z).

(** fiocl.h:118-146 cl_f, members *)
Record fio := mkFio {
  fcook : bool;            (* cooking *)
  fpesc : bool;            (* proc_escape *)
  fptel : bool;            (* proc_telnet *)
  fline : arr;             (* line[1024] *)
  fcur : Z;                (* cursor *)
  fesc : arr;              (* esc_buffer[100] *)
  flast : Z;               (* last_ln *)
  fring : ring;
  fhist : history }.

Definition set_line (f : fio) (a : arr) (c : Z) : fio :=
  mkFio (fcook f) (fpesc f) (fptel f) a c (fesc f) (flast f) (fring f) (fhist f).
Definition set_esc (f : fio) (e : arr) : fio :=
  mkFio (fcook f) (fpesc f) (fptel f) (fline f) (fcur f) e (flast f) (fring f) (fhist f).
Definition set_last (f : fio) (n : Z) : fio :=
  mkFio (fcook f) (fpesc f) (fptel f) (fline f) (fcur f) (fesc f) n (fring f) (fhist f).
Definition set_ring (f : fio) (r : ring) : fio :=
  mkFio (fcook f) (fpesc f) (fptel f) (fline f) (fcur f) (fesc f) (flast f) r (fhist f).
Definition set_hist (f : fio) (h : history) : fio :=
  mkFio (fcook f) (fpesc f) (fptel f) (fline f) (fcur f) (fesc f) (flast f) (fring f) h.

(** fio.cc:437-442 cl_f::finish_esc *)
Definition finish_esc (f : fio) (k : Z) : fio * Z := (set_esc f (aset (fesc f) 0 0), k).

(** The common start of process_telnet and process_esc (fio.cc:447-450 esc_buffer, fio.cc:556-559 esc_buffer): append one character to
    the escape buffer; result: the buffer and the new length. *)
Definition esc_append (e : arr) (c : Z) : res (arr * Z) :=
  l <- strlen 100 e ;;
  e1 <- awr 100 e l c ;;
  e2 <- awr 100 e1 (l + 1) 0 ;;
  Ok (e2, l + 1).

(** fio.cc:444-461 cl_f::process_telnet *)
Definition process_telnet (f : fio) (ci : Z) : res (fio * Z) :=
  el <- esc_append (fesc f) (i8 ci) ;;
  let f1 := set_esc f (fst el) in
  let l := snd el in
  if (ci =? 255) && (l =? 2) then Ok (finish_esc f1 255)
  else if l =? 3 then Ok (finish_esc f1 0)
  else Ok (f1, 0).

(** fio.cc:474-490 esc_buffer, the button of a mouse report *)
Definition mouse_button (b : Z) : Z :=
  if b =? 32 then TU_BTN1 else if b =? 33 then TU_BTN2 else if b =? 34 then TU_BTN3
  else if b =? 48 then TU_CBTN1 else if b =? 49 then TU_CBTN2 else if b =? 50 then TU_CBTN3
  else if b =? 40 then TU_ABTN1 else if b =? 41 then TU_ABTN2 else if b =? 42 then TU_ABTN3
  else if b =? 96 then TU_SUP else if b =? 97 then TU_SDOWN
  else if b =? 112 then TU_CSUP else if b =? 113 then TU_CSDOWN
  else 0.

(** fio.cc:517-541 strtol, the number of an ESC [ n ~ sequence; None: default *)
Definition tilde_key (n : Z) : option Z :=
  if n =? 1 then Some TU_HOME else if n =? 2 then Some TU_INS
  else if n =? 3 then Some TU_DEL else if n =? 4 then Some TU_END
  else if n =? 5 then Some TU_PGUP else if n =? 6 then Some TU_PGDOWN
  else if n =? 11 then Some TU_F1 else if n =? 12 then Some TU_F2
  else if n =? 13 then Some TU_F3 else if n =? 14 then Some TU_F4
  else if n =? 15 then Some TU_F5 else if n =? 17 then Some TU_F6
  else if n =? 18 then Some TU_F7 else if n =? 19 then Some TU_F8
  else if n =? 20 then Some TU_F9 else if n =? 21 then Some TU_F10
  else if n =? 23 then Some TU_F11 else if n =? 24 then Some TU_F12
  else None.

(** fio.cc:463-549 cl_f::process_csi *)
Definition process_csi (f : fio) : res (fio * Z) :=
  let e := fesc f in
  l <- strlen 100 e ;;
  if l <? 3 then Ok (f, 0)
  else
    let c := e (l - 1) in
    if e 2 =? 77 (* 'M' *) then
      if l =? 6 then
        let ret := Z.land (mouse_button (e 3)) (Z.lnot 16776960) in
        let x := Z.land (e 4 - 32) 255 in
        let y := Z.land (e 5 - 32) 255 in
        Ok (finish_esc f (Z.lor (Z.lor ret (x * 65536)) (y * 256)))
      else Ok (f, 0)
    else if c =? 65 then Ok (finish_esc f TU_UP)
    else if c =? 66 then Ok (finish_esc f TU_DOWN)
    else if c =? 67 then Ok (finish_esc f TU_RIGHT)
    else if c =? 68 then Ok (finish_esc f TU_LEFT)
    else if c =? 72 then Ok (finish_esc f TU_HOME)
    else if c =? 70 then Ok (finish_esc f TU_END)
    else if c =? 69 then Ok (finish_esc f 0)
    else if c =? 126 then
      match tilde_key (strtol0 (chars_of e 2 (Z.to_nat (l - 2)))) with
      | Some k => Ok (finish_esc f k)
      | None => Ok (finish_esc f c)
      end
    else Ok (f, 0).

(** fio.cc:548-610 cl_f::process_esc; [c] is a char, [u8 c] is [ci] *)
Definition process_esc (f : fio) (c : Z) : res (fio * Z) :=
  let b0 := u8 (fesc f 0) in
  if b0 =? 27 then
    el <- esc_append (fesc f) c ;;
    let f1 := set_esc f (fst el) in
    let l := snd el in
    let e1 := fst el 1 in
    if e1 =? 79 (* 'O' *) then
      if l <? 3 then Ok (f1, 0)
      else Ok (finish_esc f1
             (if c =? 80 then TU_F1 else if c =? 81 then TU_F2
              else if c =? 82 then TU_F3 else if c =? 83 then TU_F4
              else if c =? 72 then TU_HOME else if c =? 70 then TU_END else c))
    else if e1 =? 78 (* 'N' *) then
      if l <? 3 then Ok (f1, 0) else Ok (finish_esc f1 c)
    else if e1 =? 91 (* '[' *) then process_csi f1
    else Ok (finish_esc f1 c)
  else if b0 =? 255 then process_telnet f (u8 c)
  else if u8 c =? 27 then Ok (set_esc f (aset (aset (fesc f) 0 27) 1 0), 0)
  else if u8 c =? 255 then Ok (set_esc f (aset (aset (fesc f) 0 (-1)) 1 0), 0)
  else Ok (f, c).

(** isprint() of the C locale; its argument must be EOF or an unsigned char *)
Definition isprint (k : Z) : res bool :=
  if (-1 <=? k) && (k <=? 255) then Ok ((32 <=? k) && (k <=? 126)) else UB.

(** fio.cc:795-796 cursor, and fio.cc:812-813 cursor: for (i= start; line[i]; i++) line[i-1]= line[i]; *)
Fixpoint shift_left (fuel : nat) (a : arr) (i : Z) : res arr :=
  match fuel with
  | O => UB
  | S f =>
      c <- ard 1024 a i ;;
      if c =? 0 then Ok a
      else a' <- awr 1024 a (i - 1) c ;; shift_left f a' (i + 1)
  end.
(** fio.cc:849-850 cursor: for (j= l; j>=cursor; j--) line[j+1]= line[j]; *)
Fixpoint shift_right (n : nat) (a : arr) (j : Z) : res arr :=
  match n with
  | O => Ok a
  | S k =>
      c <- ard 1024 a j ;;
      a' <- awr 1024 a (j + 1) c ;; shift_right k a' (j - 1)
  end.

(** fio.cc:735-748 cursor, and fio.cc:752-765 cursor: the line is replaced on the screen and in
    the buffer by a line of the history *)
Definition show_item (f : fio) (l : Z) (s : option (list Z)) : res (fio * list ev) :=
  let wipe := (if 0 <? fcur f then [ELeft (fcur f)] else []) ++
              [ESave] ++ repeat (EText [32]) (Z.to_nat l) ++ [ERestore] in
  let f1 := set_line f (aset (fline f) 0 0) 0 in
  match s with
  | None => Ok (f1, wipe)
  | Some t =>
      if 1023 <? Z.of_nat (length t) then UB
      else Ok (set_line f1 (strcpy_from (fline f1) 0 t) (Z.of_nat (length t)),
               wipe ++ (match t with [] => [] | _ => [EText t] end))
  end.

(** fio.cc:691-859 cl_f::process, the cooked part: effect of the key [k] that
    process_esc returned for the character [c]; result: new state, return value,
    echo *)
Definition cook_key (f : fio) (c k : Z) : res (fio * Z * list ev) :=
  l <- strlen 1024 (fline f) ;;
  let a := fline f in
  let cur := fcur f in
  if k =? 0 then Ok (set_last f 0, 0, [])
  else if k =? TU_LEFT then
    if 0 <? cur then Ok (set_line f a (cur - 1), 0, [ELeft 1]) else Ok (f, 0, [])
  else if k =? TU_RIGHT then
    x <- ard 1024 a cur ;;
    if negb (x =? 0) then Ok (set_line f a (cur + 1), 0, [ERight 1]) else Ok (f, 0, [])
  else if (k =? TU_HOME) || (k =? 1) then
    if 0 <? cur then Ok (set_line f a 0, 0, [ELeft cur]) else Ok (f, 0, [])
  else if (k =? TU_END) || (k =? 5) then
    x <- ard 1024 a cur ;;
    if negb (x =? 0) then Ok (set_line f a l, 0, [ERight (l - cur)]) else Ok (f, 0, [])
  else if k =? TU_UP then
    let hs := hup (fhist f) (chars_of a 0 (Z.to_nat l)) in
    fe <- show_item (set_hist f (fst hs)) l (snd hs) ;;
    Ok (fst fe, 0, snd fe)
  else if k =? TU_DOWN then
    let hs := hdown (fhist f) (chars_of a 0 (Z.to_nat l)) in
    fe <- show_item (set_hist f (fst hs)) l (snd hs) ;;
    Ok (fst fe, 0, snd fe)
  else if (k =? 10) || (k =? 13) then
    if negb (flast f =? 0) && negb (flast f =? k) then Ok (set_last f 0, 0, [])
    else
      let txt := chars_of a 0 (Z.to_nat l) in
      let f1 := set_last f k in
      let f2 := set_ring f1 (rputs (fring f1) (txt ++ [10])) in
      let f3 := set_hist f2 (henter (fhist f2) txt) in
      let f4 := set_line f3 (aset a 0 0) 0 in
      Ok (set_esc f4 (aset (fesc f4) 0 0), l + 1, [EText [10]])
  else if (k =? 127) || (k =? 8) then
    if 0 <? cur then
      a1 <- shift_left 1024 a cur ;;
      a2 <- awr 1024 a1 (l - 1) 0 ;;
      let rest := chars_of a2 (cur - 1) (Z.to_nat (l - cur)) in
      Ok (set_line f a2 (cur - 1), 0,
          [ELeft 1; ESave] ++
          (if negb (a2 (cur - 1) =? 0) then [EText rest] else []) ++
          [EText [32]; ERestore])
    else Ok (f, 0, [])
  else if k =? TU_DEL then
    x <- ard 1024 a cur ;;
    if negb (x =? 0) then
      a1 <- shift_left 1024 a (cur + 1) ;;
      a2 <- awr 1024 a1 (l - 1) 0 ;;
      let rest := chars_of a2 cur (Z.to_nat (l - 1 - cur)) in
      Ok (set_line f a2 cur, 0,
          [ESave] ++ (if negb (a2 cur =? 0) then [EText rest] else []) ++
          [EText [32]; ERestore])
    else Ok (f, 0, [])
  else if k =? 11 then
    Ok (set_line f (aset a 0 0) 0, 0,
        (if 0 <? cur then [ELeft cur] else []) ++
        [ESave] ++ repeat (EText [32]) (Z.to_nat l) ++ [ERestore])
  else if k <? 0 then Ok (f, 0, [])
  else
    p <- isprint k ;;
    if p then
      if l <? 1023 then
        x <- ard 1024 a cur ;;
        if x =? 0 then
          a1 <- awr 1024 a cur k ;;
          a2 <- awr 1024 a1 (cur + 1) 0 ;;
          Ok (set_line f a2 (cur + 1), 0, [EText [c]])
        else
          a1 <- shift_right (Z.to_nat (l - cur + 1)) a l ;;
          a2 <- awr 1024 a1 cur k ;;
          Ok (set_line f a2 (cur + 1), 0,
              [ESave; EText (chars_of a2 cur (Z.to_nat (l - cur + 1))); ERestore; ERight 1])
      else Ok (f, 0, [])
    else Ok (f, 0, []).

(** fio.cc:670-687 echo_write, the echo of a raw character *)
Definition hexdigit (d : Z) : Z := if d <? 10 then 48 + d else 87 + d.
Definition raw_echo (ci : Z) : list ev :=
  if (ci <? 31) && negb (ci =? 10) && negb (ci =? 13) then [EText [94; 64 + ci]]
  else if 127 <=? ci then [EText [92; hexdigit (ci / 16); hexdigit (ci mod 16)]]
  else [EText [ci]].

(** fio.cc:688-689 last_ln, the end of raw processing: forget the newline, put the char *)
Definition raw_put (f : fio) (c ci : Z) : res (fio * Z * list ev) :=
  let r := rput (fring f) c in
  Ok (set_last (set_ring f (fst r)) 0, snd r, raw_echo ci).

(** fio.cc:619-690 cl_f::process, the raw part *)
Definition process_raw (f : fio) (c : Z) : res (fio * Z * list ev) :=
  let ci := u8 c in
  if fpesc f && ((ci =? 27) || negb (fesc f 0 =? 0)) then
    fk <- process_esc f c ;;
    let f1 := fst fk in
    let i := snd fk in
    if negb (i =? 0) then
      let r := rput (fring f1) i in Ok (set_ring f1 (fst r), snd r, [])
    else Ok (f1, 0, [])
  else if fptel f then
    fk <- (if (ci =? 255) || negb (fesc f 0 =? 0) then process_telnet f ci else Ok (f, ci)) ;;
    let f1 := fst fk in
    let ci1 := snd fk in
    if ((ci =? 255) || negb (fesc f 0 =? 0)) && (ci1 =? 0) then Ok (set_last f1 0, 0, [])
    else if (ci1 =? 10) || (ci1 =? 13) || (ci1 =? 0) || negb (flast f1 =? 0) then
      if (flast f1 =? 0) && negb (ci1 =? 0) then raw_put (set_last f1 (i8 ci1)) c ci1
      else if negb (flast f1 =? ci1) then Ok (set_last f1 0, 0, [])
      else if ci1 =? 0 then Ok (set_last f1 0, 0, [])
      else raw_put f1 c ci1
    else raw_put f1 c ci1
  else raw_put f c ci.

(** fio.cc:614-859 cl_f::process for the byte [b] read from the device *)
Definition process (f : fio) (b : Z) : res (fio * Z * list ev) :=
  let c := i8 b in
  if negb (fcook f) then process_raw f c
  else
    fk <- process_esc f c ;;
    cook_key (fst fk) c (snd fk).

(** fio.cc:861-886 cl_f::pick, the bytes [bs] that read() returned *)
Fixpoint process_all (f : fio) (bs : list Z) : res (fio * list ev) :=
  match bs with
  | [] => Ok (f, [])
  | b :: t =>
      r <- process f b ;;
      r2 <- process_all (fst (fst r)) t ;;
      Ok (fst r2, snd r ++ snd r2)
  end.
(** fio.cc:861-886 cl_f::pick: how many bytes it asks for (None: it does not read) *)
Definition pick_room (f : fio) : option Z :=
  let fp := rfree (fring f) in
  if fp <? 5 then None else Some (if 101 <? fp then 99 else fp - 1).
(** the device offers [avail]; read() returns at most the size asked for *)
Definition pick (f : fio) (avail : list Z) : res (fio * list ev * list Z) :=
  match pick_room f with
  | None => Ok (f, [], avail)
  | Some n =>
      r <- process_all f (firstn (Z.to_nat n) avail) ;;
      Ok (fst r, snd r, skipn (Z.to_nat n) avail)
  end.

(** fio.cc:966-996 cl_f::read_dev: the values stored in [buf] and the result;
    [at_end] tells that the device reported end of file *)
Fixpoint read_loop (n : nat) (r : ring) : ring * list Z * bool :=
  match n with
  | O => (r, [], false)
  | S k =>
      let g := rget r in
      if snd g =? -1 then (fst g, [], true)
      else let rest := read_loop k (fst g) in
           (fst (fst rest), snd g :: snd (fst rest), snd rest)
  end.
Definition read_dev (f : fio) (at_end : bool) (max : Z) : fio * list Z * Z :=
  if max =? 0 then (f, [], -1)
  else
    let r := read_loop (Z.to_nat max) (fring f) in
    let vs := snd (fst r) in
    let n := Z.of_nat (length vs) in
    (set_ring f (fst (fst r)), vs,
     if 0 <? n then n
     else if at_end then 0 else if snd r then -1 else -2).

(** fio.cc:127-148 cl_f::cl_f: the arrays, [prev_last_used] and [last_ln] are not
    initialised, [g…] is what the memory held *)
Definition new_fio (gbuf gline gesc : arr) (gplu glast : Z) : fio :=
  mkFio false false false (aset gline 0 0) 0 (aset gesc 0 0) glast
        (mkRing gbuf gplu 0 0) (mkHist [] 0).
(** fio.cc:1179-1200 cl_f::cooked, for a terminal or a socket *)
Definition cooked (f : fio) : fio :=
  mkFio true (fpesc f) (fptel f) (aset (fline f) 0 0) 0 (aset (fesc f) 0 0) 0
        (fring f) (fhist f).
(** fio.cc:1165-1176 cl_f::raw *)
Definition raw (f : fio) : res fio :=
  l <- strlen 1024 (fline f) ;;
  let r := if fcook f then rputs (fring f) (chars_of (fline f) 0 (Z.to_nat l)) else fring f in
  Ok (mkFio false (fpesc f) (fptel f) (fline f) (fcur f) (fesc f) (flast f) r (fhist f)).
