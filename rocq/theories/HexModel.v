(** Model of the content loaders and of the Intel hex dump
    (src/core/sim.src/uc.cc, src/core/sim.src/mem.cc).

    A file is the list of its character codes; reading at the end gives a value
    which is not positive (fio.cc:921-931 get_c), reported here as None. *)
From Verif Require Import Base.

(* ---- C library helpers --------------------------------------------------- *)

(** value of a hex digit character *)
Definition hexval (c : Z) : option Z :=
  if (48 <=? c) && (c <=? 57) then Some (c - 48)
  else if (65 <=? c) && (c <=? 70) then Some (c - 55)
  else if (97 <=? c) && (c <=? 102) then Some (c - 87)
  else None.
(** isspace() *)
Definition is_space (c : Z) : bool := (c =? 32) || ((9 <=? c) && (c <=? 13)).

(** strtol(s, NULL, 16) for strings of at most two characters *)
Fixpoint digits (l : list Z) (acc : Z) : Z :=
  match l with
  | [] => acc
  | c :: t => match hexval c with Some d => digits t (acc * 16 + d) | None => acc end
  end.
Definition signed_digits (l : list Z) : Z :=
  match l with
  | 45 :: t => - digits t 0
  | 43 :: t => digits t 0
  | _ => digits l 0
  end.
Definition strtol2 (c1 c2 : Z) : Z :=
  if is_space c1 then (if is_space c2 then 0 else signed_digits [c2])
  else signed_digits [c1; c2].

(** %02X and %04X of printf for values below 2^32 *)
Definition hexdigit (d : Z) : Z := if d <? 10 then 48 + d else 55 + d.
Definition hex2 (v : Z) : list Z := [hexdigit (v / 16); hexdigit (v mod 16)].
Fixpoint hex_min (n : nat) (v : Z) : list Z :=
  match n with O => [] | S k => hex_min k (v / 16) ++ [hexdigit (v mod 16)] end.
Definition hex04 (v : Z) : list Z :=
  if v <? 65536 then hex_min 4 v else if v <? 1048576 then hex_min 5 v
  else if v <? 16777216 then hex_min 6 v else if v <? 268435456 then hex_min 7 v else hex_min 8 v.

(* ---- Intel hex dump ------------------------------------------------------ *)

Definition sum_list (l : list Z) : Z := fold_left Z.add l 0.

(** n consecutive values *)
Fixpoint span (rd : Z -> Z) (a : Z) (n : nat) : list Z :=
  match n with O => [] | S k => rd a :: span rd (a + 1) k end.

(** mem.cc:612-686 dump_i: one line for the addresses start .. start+n-1; the
    bytes are those of an 8 bit memory, [rd] is cl_memory::read *)
Definition dump_line (rd : Z -> Z) (start : Z) (n : nat) : list Z :=
  let bytes := List.map u8 (span rd start n) in
  let c := u8 (Z.of_nat n) in
  let sum := u8 (c + u8 (start / 256) + u8 start + sum_list bytes) in
  [58] ++ hex2 c ++ hex04 start ++ [48; 48] ++ List.concat (List.map hex2 bytes) ++
  hex2 (u8 (256 - sum)) ++ [13; 10].

(** the loop: [a] current address, [sl] start of the line, [n] rounds left *)
Fixpoint dump_loop (rd : Z -> Z) (bpl stop : Z) (n : nat) (a sl : Z) : list Z :=
  match n with
  | O => []
  | S k =>
    let a := a + 1 in
    if (a mod bpl =? 0) || (stop <? a)
    then dump_line rd sl (Z.to_nat (a - sl)) ++ dump_loop rd bpl stop k a a
    else dump_loop rd bpl stop k a sl
  end.

Definition eof_line : list Z := [58; 48;48; 48;48;48;48; 48;49; 70;70; 13;10].

(** mem.cc:612-686 dump_i with explicit start and stop; [lva], [hva] lowest and
    highest valid addresses. bpl is converted to unsigned, 0 divides by zero.
    None: nothing is printed. *)
Definition dump_i (rd : Z -> Z) (lva hva start stop bpl : Z) : res (list Z) :=
  let start := if start <? lva then lva else start in
  let stop := if hva <? stop then hva else stop in
  if hva <? start then Ok []
  else if stop <? lva then Ok []
  else if stop <? start then Ok []
  else
    let bpl := if 32 <? bpl then 32 else bpl in
    if bpl =? 0 then UB
    else Ok (dump_loop rd (u32 bpl) stop (Z.to_nat (stop - start + 1)) start start ++ eof_line).

(* ---- Intel hex reader ---------------------------------------------------- *)

(** A character and the rest of the file. NUL, codes from 128 on (they are
    negative in the buffer of cl_f, char being signed) and the end of the file
    make ReadInt fail: None; such a character is consumed. *)
Definition get_c (s : list Z) : option Z * list Z :=
  match s with
  | [] => (None, [])
  | c :: t => (if (c <=? 0) || (127 <? c) then None else Some c, t)
  end.

(** uc.cc:1426-1458 ReadInt: success flag, value, rest of the file *)
Fixpoint read_int (bytes : nat) (l : Z) (s : list Z) : bool * Z * list Z :=
  match bytes with
  | O => (true, l, s)
  | S k =>
    match get_c s with
    | (None, s1) => (false, 0, s1)
    | (Some c1, s1) =>
      match get_c s1 with
      | (None, s2) => (false, 0, s2)
      | (Some c2, s2) => read_int k (l * 256 + strtol2 c1 c2) s2
      end
    end
  end.

(** data bytes of a record: for (i= 0; ok && (i < dnum); i++) *)
Fixpoint read_data (n : nat) (ok : bool) (s : list Z) : bool * list Z * list Z :=
  match n with
  | O => (ok, [], s)
  | S k =>
    if ok then
      let '(ok, v, s) := read_int 1 0 s in
      let '(ok, d, s) := read_data k ok s in (ok, u8 v :: d, s)
    else (ok, [], s)
  end.

(** local variables of read_hex_file *)
Record hst := mkH { base : Z; addr : Z; get_low : Z; lows : Z * Z * Z * Z }.

(** one data byte: new state and the calls of set_rom; [w]: width of memory *)
Definition put_byte (w : Z) (h : hst) (b : Z) : hst * list (Z * Z) :=
  let '(l0, l1, l2, l3) := lows h in
  if w <=? 8 then
    (mkH (base h) (u32 (addr h + 1)) (get_low h) (lows h), [(u32 (base h + addr h), b)])
  else if w <=? 16 then
    if get_low h =? 0 then (mkH (base h) (addr h) 1 (b, l1, l2, l3), [])
    else (mkH (base h) (u32 (addr h + 1)) 0 (l0, b, l2, l3), [(u32 (base h + addr h), b * 256 + l0)])
  else if w <=? 32 then
    if get_low h =? 0 then (mkH (base h) (addr h) 1 (b, l1, l2, l3), [])
    else if get_low h =? 1 then (mkH (base h) (addr h) 2 (l0, b, l2, l3), [])
    else if get_low h =? 2 then (mkH (base h) (addr h) 3 (l0, l1, b, l3), [])
    else (mkH (base h) (u32 (addr h + 1)) 0 (0, 0, 0, 0),
          [(u32 (base h + addr h), b * 16777216 + l2 * 65536 + l1 * 256 + l0)])
  else (h, []).

Fixpoint put_bytes (w : Z) (h : hst) (l : list Z) : hst * list (Z * Z) :=
  match l with
  | [] => (h, [])
  | b :: t => let '(h1, w1) := put_byte w h b in
              let '(h2, w2) := put_bytes w h1 t in (h2, w1 ++ w2)
  end.

(** word address of a data record *)
Definition word_addr (w a : Z) : Z :=
  if w <=? 8 then a else if w <=? 16 then a / 2 else if w <=? 24 then a / 3
  else if w <=? 32 then a / 4 else a.

(** a record with correct checksum *)
Definition good_record (w : Z) (h : hst) (a rtyp : Z) (data : list Z) : hst * list (Z * Z) :=
  if rtyp =? 0 then
    put_bytes w (mkH (base h) (word_addr w a) (get_low h) (lows h)) data
  else if rtyp =? 4 then
    match data with
    | r0 :: r1 :: _ => (mkH (u32 ((r0 * 256 + r1) * 65536)) a (get_low h) (lows h), [])
    | _ => (mkH (base h) a (get_low h) (lows h), [])
    end
  else (mkH (base h) a (get_low h) (lows h), []).

(** skip to the next ':' *)
Fixpoint skip_colon (s : list Z) : option (list Z) :=
  match s with [] => None | c :: t => if c =? 58 then Some t else skip_colon t end.

(** uc.cc:1575-1703 read_hex_file: the main loop. [n] bounds the rounds (each
    one consumes a ':'); a round that starts with n=0 is reported as UB. Result:
    the final state and the set_rom calls in order. *)
Fixpoint hex_loop (n : nat) (w : Z) (h : hst) (s : list Z) : res (hst * list (Z * Z)) :=
  match skip_colon s with
  | None => Ok (h, [])
  | Some s0 =>
    match n with
    | O => UB
    | S k =>
      let '(_, dnum, s1) := read_int 1 0 s0 in
      let dnum := u8 dnum in
      let '(_, a, s2) := read_int 2 0 s1 in
      let a := u32 a in
      let '(ok, rtyp, s3) := read_int 1 0 s2 in
      let rtyp := u8 rtyp in
      let '(ok, data, s4) := read_data (Z.to_nat dnum) ok s3 in
      let chk := u8 (dnum + u8 a + u8 (a / 256) + rtyp + sum_list data) in
      let h1 := mkH (base h) a (get_low h) (lows h) in
      if ok then
        let '(ok, sum, s5) := read_int 1 0 s4 in
        let sum := u8 sum in
        let '(h2, ws) :=
          if ok && (u8 (sum + chk) =? 0) then good_record w h1 a rtyp data else (h1, []) in
        if ok && negb (rtyp =? 1) then
          r <- hex_loop k w h2 s5 ;; Ok (fst r, ws ++ snd r)
        else Ok (h2, ws)
      else Ok (h1, [])
    end
  end.

(** the tail of read_hex_file for memories wider than 8 bits *)
Definition hex_tail (w : Z) (h : hst) : list (Z * Z) :=
  let '(l0, l1, l2, l3) := lows h in
  let g := get_low h in
  let l k x := if g <=? k then 0 else x in
  if 8 <? w then
    [(addr h, u32 (l 3 l3 * 16777216 + l 2 l2 * 65536 + l 1 l1 * 256 + l 0 l0))]
  else [].

(** uc.cc:1575-1703 read_hex_file: all set_rom calls for a file *)
Definition read_hex (w : Z) (s : list Z) : res (list (Z * Z)) :=
  r <- hex_loop (length s) w (mkH 0 0 0 (0, 0, 0, 0)) s ;;
  Ok (snd r ++ hex_tail w (fst r)).

(* ---- storing ------------------------------------------------------------- *)

(** uc.cc:1469-1531 set_rom, not in check mode, for a memory which is an address
    space. [mi], [ma], [offset] come from the input specifier; [la], [ha] is the
    valid range of the memory named by it. The store always goes to [rom],
    whichever memory was named. Addresses out of the range go to a bank of
    ROM if a banker decodes them: that is not modelled, [rom] has no banker. *)
Definition set_rom (mi ma offset la ha : Z) (rom : Z -> Z) (x : Z * Z) : Z -> Z :=
  let '(a, v) := x in
  if (0 <? mi) && (a <? mi) then rom
  else if (ma <? 4294967295) && (ma <? a) then rom
  else
    let a := u32 (a + offset) in
    if (la <=? a) && (a <=? ha) then fun i => if i =? a then v else rom i
    else rom.

Definition set_all (mi ma offset la ha : Z) (rom : Z -> Z) (l : list (Z * Z)) : Z -> Z :=
  fold_left (set_rom mi ma offset la ha) l rom.

(** uc.cc:1469-1531 set_rom again, with the contents of both the code memory and
    the memory named by the input specifier (an address space other than rom) *)
Definition set_rom_named (mi ma offset la ha : Z) (st : (Z -> Z) * (Z -> Z)) (x : Z * Z) : (Z -> Z) * (Z -> Z) :=
  let '(rom, named) := st in (set_rom mi ma offset la ha rom x, named).

(* ---- S-records ----------------------------------------------------------- *)

(** uc.cc:2013-2037 h1, h2 *)
Definition h2 (s : list Z) (p : nat) : Z :=
  match nth_error s p, nth_error s (S p) with
  | Some c1, Some c2 =>
    match hexval c1, hexval c2 with Some a, Some b => 16 * a + b | _, _ => 0 end
  | _, _ => 0
  end.

(** uc.cc:2039-2073 a16, a24, a32 *)
Definition a16 (s : list Z) (p : nat) : Z := h2 s p * 256 + h2 s (p + 2).
Definition a24 (s : list Z) (p : nat) : Z := a16 s p * 256 + h2 s (p + 4).
Definition a32 (s : list Z) (p : nat) : Z := a24 s p * 256 + h2 s (p + 6).

(** uc.cc:2072-2122 s19: number of bytes consumed for a word. A word may run
    past the data bytes of the record; characters past the end of the line
    count as 0 here (the C code reads on after the terminating NUL). *)
Definition word_bytes (w : Z) : nat :=
  if w <=? 8 then 1%nat else if w <=? 16 then 2%nat else if w <=? 24 then 3%nat else 4%nat.
Fixpoint le_word (s : list Z) (p n : nat) : Z :=
  match n with O => 0 | S k => h2 s p + 256 * le_word s (p + 2) k end.
(** the while loop (b < data_bytes); [n] is data_bytes - b as bound *)
Fixpoint s19_loop (w : Z) (s : list Z) (n : nat) (a : Z) (p : nat) (left : Z) : list (Z * Z) :=
  match n with
  | O => []
  | S k =>
    if left <=? 0 then [] else
    let nb := word_bytes w in
    (u32 a, le_word s p nb) :: s19_loop w s k (a + 1) (p + 2 * nb) (left - Z.of_nat nb)
  end.
Definition s19 (w : Z) (s : list Z) (a : Z) (p : nat) (data_bytes : Z) : list (Z * Z) :=
  if data_bytes <? 1 then []
  else
    let a := if 8 <? w then
               let a := if w <=? 16 then a / 2 else a in
               let a := if w <=? 24 then a / 3 else a in
               if w <=? 32 then a / 4 else a
             else a in
    s19_loop w s (Z.to_nat data_bytes) a p data_bytes.

(** sum of the bytes at p, p+2, ... *)
Fixpoint sum_bytes (s : list Z) (n p : nat) : Z :=
  match n with O => 0 | S k => h2 s p + sum_bytes s k (p + 2) end.

(** uc.cc:2124-2187 read_s19_file: one line (without its line end). Splitting
    the file to lines (cl_f::get_s) is not modelled. *)
Definition s19_line (w : Z) (s : list Z) : list (Z * Z) :=
  match s with
  | [] => []
  | c0 :: _ =>
    if negb (c0 =? 83) then []
    else if Z.of_nat (length s) <? 4 then []
    else
      let cnt := h2 s 2 in
      if Z.of_nat (length s) <? 4 + cnt * 2 then []
      else
        let n := Z.to_nat cnt in
        let sum := Z.lxor (u8 (sum_bytes s n 2)) 255 in
        if negb (sum =? h2 s (2 + n * 2)) then []
        else match nth_error s 1 with
        | Some 49 => s19 w s (a16 s 4) 8 (cnt - 2 - 1)
        | Some 50 => s19 w s (a24 s 4) 10 (cnt - 3 - 1)
        | Some 51 => s19 w s (a32 s 4) 12 (cnt - 4 - 1)
        | _ => []
        end
  end.
Definition read_s19 (w : Z) (lines : list (list Z)) : list (Z * Z) :=
  List.concat (List.map (s19_line w) lines).

(* ---- OMF ----------------------------------------------------------------- *)

(** uc.cc:299-311 pick_word on the bytes of a record *)
Definition pick_word (rec : list Z) (i : nat) : Z :=
  if Z.of_nat (length rec) - 1 <=? Z.of_nat i then 0
  else nth i rec 0 + 256 * nth (S i) rec 0.

(** uc.cc:1705-1727 read_omf_file: set_rom calls of one record of type 6;
    [rec]: bytes of the record after type and length, without the checksum *)
Definition omf_record (type : Z) (rec : list Z) : list (Z * Z) :=
  if type =? 6 then
    let a := pick_word rec 1 in
    List.map (fun i => (u32 (a + Z.of_nat i), nth i rec 0)) (seq 3 (length rec - 3))
  else [].
