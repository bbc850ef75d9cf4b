(** The string class of the simulator (class chars, utils.src/chars.cc).
    Not modelled: the printf variants, int overflow of lengths, dangling pointers of
    strings that are not copied.  Characters are signed chars; toupper, tolower and
    isspace are those of the "C" locale, defined for every char (as in glibc). *)
From Verif Require Import Base FioModel.

(** ** Memory: a block is the list of its bytes; what malloc returns holds garbage *)
Definition block := list Z.
Definition malloc (g : nat -> Z) (n : Z) : res block :=
  if n <? 0 then UB else Ok (map g (seq 0 (Z.to_nat n))).
Definition mrd (b : block) (i : Z) : res Z :=
  if (0 <=? i) && (i <? Z.of_nat (length b)) then Ok (nth (Z.to_nat i) b 0) else UB.
Definition mwr (b : block) (i v : Z) : res block :=
  if (0 <=? i) && (i <? Z.of_nat (length b)) then Ok (upd b (Z.to_nat i) v) else UB.
Fixpoint mcopy (b : block) (i : Z) (s : list Z) : res block :=
  match s with [] => Ok b | c :: t => b' <- mwr b i c ;; mcopy b' (i + 1) t end.
(** the C string at the start of a block; without a 0 byte reading runs past the end *)
Fixpoint str (b : block) : res (list Z) :=
  match b with
  | [] => UB
  | c :: t => if c =? 0 then Ok [] else s <- str t ;; Ok (c :: s)
  end.
Definition str_at (b : block) (i : Z) : res (list Z) :=
  if 0 <=? i then str (skipn (Z.to_nat i) b) else UB.
Definition strcpy (b : block) (s : list Z) : res block := mcopy b 0 (s ++ [0]).
Definition strcat (b : block) (s : list Z) : res block :=
  h <- str b ;; mcopy b (Z.of_nat (length h)) (s ++ [0]).
Fixpoint prefixb (x s : list Z) : bool :=
  match x, s with
  | [], _ => true
  | a :: x', b :: s' => (a =? b) && prefixb x' s'
  | _, _ => false
  end.
(** strstr: index of the first occurrence *)
Fixpoint strstr (s x : list Z) : option nat :=
  if prefixb x s then Some O
  else match s with [] => None | _ :: t => option_map S (strstr t x) end.
Definition memc (set : list Z) (c : Z) : bool := existsb (Z.eqb c) set.
(** strchr: the terminating 0 is part of the set *)
Definition strchr (set : list Z) (c : Z) : bool := (c =? 0) || memc set c.
Fixpoint strspn (s set : list Z) : nat :=
  match s with c :: t => if memc set c then S (strspn t set) else O | [] => O end.
Fixpoint strcspn (s set : list Z) : nat :=
  match s with c :: t => if memc set c then O else S (strcspn t set) | [] => O end.
Definition toupper (c : Z) : Z := if (97 <=? c) && (c <=? 122) then c - 32 else c.
Definition tolower (c : Z) : Z := if (65 <=? c) && (c <=? 90) then c + 32 else c.
Definition isspace (c : Z) : bool := (c =? 32) || ((9 <=? c) && (c <=? 13)).

(** ** The object *)
(** charscl.h:35-38 chars_string, chars_length, dynamic, pars_pos *)
Record chars := mkC { cblk : option block; cown : bool; clen : Z; cpos : Z }.

(** chars.cc:38-44 chars::chars *)
Definition new_null : chars := mkC None false 0 0.
(** chars.cc:53-61 chars::chars, of a constant string: not copied *)
Definition new_const (s : list Z) : chars := mkC (Some (s ++ [0])) false (Z.of_nat (length s)) 0.

(** chars.cc:111-120 chars::deallocate_string *)
Definition dealloc (c : chars) : chars := mkC None false 0 (cpos c).
(** chars.cc:90-109 chars::allocate_string *)
Definition allocate (g : nat -> Z) (s : option (list Z)) : res chars :=
  match s with
  | None => Ok (mkC None false 0 0)
  | Some s =>
      let l := Z.of_nat (length s) in
      n <- malloc g (l + 1) ;;
      n <- strcpy n s ;;
      Ok (mkC (Some n) true l 0)
  end.
(** the value as C code sees it *)
Definition cval (c : chars) : res (option (list Z)) :=
  match cblk c with None => Ok None | Some b => s <- str b ;; Ok (Some s) end.
(** chars.cc:46-51 chars::chars, and chars.cc:62-67 chars::chars: a copy *)
Definition new_copy (g : nat -> Z) (s : option (list Z)) : res chars := allocate g s.

(** chars.cc:127-135 chars::c *)
Definition char_at (c : chars) (i : Z) : res Z :=
  match cblk c with
  | None => Ok 0
  | Some b => if clen c <=? i then Ok 0 else mrd b i
  end.

(** charscl.h:63-63 empty *)
Definition empty (c : chars) : bool := clen c =? 0.

(** An argument of type const char*: null, some other string, or the object's own
    string. *)
Inductive arg := Null | Ext (s : list Z) | Self.

(** chars.cc:142-163 chars::append: the old string is freed before [s] is appended *)
Definition append (g : nat -> Z) (c : chars) (a : arg) : res chars :=
  let go (s : list Z) (freed : bool) :=
    temp <- malloc g (clen c + Z.of_nat (length s) + 1) ;;
    temp <- match cblk c with
            | Some b => v <- str b ;; strcpy temp v
            | None => mwr temp 0 0
            end ;;
    temp <- (if freed then UB else strcat temp s) ;;
    Ok (mkC (Some temp) true (clen c + Z.of_nat (length s)) (cpos c)) in
  match a with
  | Null => Ok c
  | Ext s => go s false
  | Self => match cblk c with None => Ok c | Some b => s <- str b ;; go s (cown c) end
  end.
(** chars.cc:165-189 chars::append *)
Definition append_char (g : nat -> Z) (c : chars) (x : Z) : res chars :=
  if x =? 0 then Ok c
  else
    temp <- malloc g (clen c + 1 + 1) ;;
    temp <- match cblk c with
            | Some b => v <- str b ;; strcpy temp v
            | None => mwr temp 0 0
            end ;;
    temp <- strcat temp [x] ;;
    Ok (mkC (Some temp) true (clen c + 1) (cpos c)).
(** chars.cc:231-233 src, while (src[s] && (s<n)) temp[chars_length++]= src[s++]; *)
Fixpoint appendn_loop (temp : block) (len : Z) (src : list Z) (n : nat) : res (block * Z) :=
  match src, n with
  | x :: t, S k => temp <- mwr temp len x ;; appendn_loop temp (len + 1) t k
  | _, _ => temp <- mwr temp len 0 ;; Ok (temp, len)
  end.
(** chars.cc:218-237 chars::appendn *)
Definition appendn (g : nat -> Z) (c : chars) (src : list Z) (n : Z) : res chars :=
  temp <- malloc g (clen c + n + 1) ;;
  temp <- match cblk c with
          | Some b => v <- str b ;; strcpy temp v
          | None => mwr temp 0 0
          end ;;
  r <- appendn_loop temp (clen c) src (Z.to_nat n) ;;
  Ok (mkC (Some (fst r)) true (snd r) (cpos c)).

(** the loops for (i= 0; i < chars_length; i++) chars_string[i]= f(chars_string[i]);
    chars.cc:284-285 chars_length, chars.cc:294-295 chars_length, chars.cc:304-306 chars_length *)
Fixpoint map_loop (f : Z -> Z) (b : block) (i : Z) (n : nat) : res block :=
  match n with
  | O => Ok b
  | S k => x <- mrd b i ;; b' <- mwr b i (f x) ;; map_loop f b' (i + 1) k
  end.
Definition in_place (g : nat -> Z) (f : Z -> Z) (c : chars) : res chars :=
  c1 <- (if cown c then Ok c else v <- cval c ;; allocate g v) ;;
  match cblk c1 with
  | None => Ok c1
  | Some b => b' <- map_loop f b 0 (Z.to_nat (clen c1)) ;; Ok (mkC (Some b') (cown c1) (clen c1) (cpos c1))
  end.
(** chars.cc:278-286 chars::uppercase *)
Definition uppercase (g : nat -> Z) (c : chars) : res chars := in_place g toupper c.
(** chars.cc:288-296 chars::lowercase *)
Definition lowercase (g : nat -> Z) (c : chars) : res chars := in_place g tolower c.
(** chars.cc:298-307 chars::replace *)
Definition replace_set (g : nat -> Z) (c : chars) (set : list Z) (w : Z) : res chars :=
  in_place g (fun x => if strchr set x then w else x) c.

(** chars.cc:663-672 chars::pos *)
Definition pos (c : chars) (x : chars) : res Z :=
  if empty c || empty x then Ok (-1)
  else
    s <- cval c ;; v <- cval x ;;
    match s, v with
    | Some s, Some v => Ok (match strstr s v with None => -1 | Some n => Z.of_nat n end)
    | _, _ => UB
    end.
(** chars.cc:652-661 chars::pos, of a character *)
Fixpoint strchr_pos (s : list Z) (x : Z) : option nat :=
  match s with
  | [] => if x =? 0 then Some O else None
  | a :: t => if a =? x then Some O else option_map S (strchr_pos t x)
  end.
Definition pos_char (c : chars) (x : Z) : res Z :=
  if empty c then Ok (-1)
  else s <- cval c ;;
       match s with
       | Some s => Ok (match strchr_pos s x with None => -1 | Some n => Z.of_nat n end)
       | None => UB
       end.

(** chars.cc:309-324 chars::replace *)
Definition replace (g1 g2 : nat -> Z) (c what wth : chars) : res chars :=
  p <- pos c what ;;
  if p <? 0 then Ok c
  else
    match cblk c with
    | None => UB
    | Some b =>
        s <- str b ;;
        let e := p + clen what in
        let nl := clen c - clen what + clen wth in
        n <- malloc g1 (nl + 1) ;;
        n <- strcpy n s ;;
        n <- mwr n p 0 ;;
        w <- cval wth ;;
        match w with
        | None => UB
        | Some w =>
            n <- strcat n w ;;
            t <- str_at b e ;;
            n <- strcat n t ;;
            v <- str n ;;
            allocate g2 (Some v)
        end
    end.

(** chars.cc:334-335 maxlen, for (i= start, l= 0; i<chars_length && chars_string[i] && l<maxlen; i++, l++) *)
Fixpoint keep_loop (b : block) (len i : Z) (s : block) (l : Z) (n : nat) : res (block * Z) :=
  match n with
  | O => if i <? len then x <- mrd b i ;; Ok (s, l) else Ok (s, l)
  | S k =>
      if i <? len then
        x <- mrd b i ;;
        if x =? 0 then Ok (s, l)
        else s' <- mwr s l x ;; keep_loop b len (i + 1) s' (l + 1) k
      else Ok (s, l)
  end.
(** chars.cc:326-341 chars::keep *)
Definition keep (g : nat -> Z) (c : chars) (start maxlen : Z) : res chars :=
  match cblk c with
  | None => Ok c
  | Some b =>
      s <- malloc g (maxlen + 1) ;;
      r <- keep_loop b (clen c) start s 0 (Z.to_nat maxlen) ;;
      s' <- mwr (fst r) (snd r) 0 ;;
      Ok (mkC (Some s') true (snd r) (cpos c))
  end.

Fixpoint skip_while (f : Z -> bool) (s : list Z) : list Z :=
  match s with c :: t => if f c then skip_while f t else s | [] => [] end.
(** chars.cc:343-352 chars::ltrim *)
Definition ltrim (g : nat -> Z) (c : chars) : res chars :=
  if empty c then Ok c
  else s <- cval c ;;
       match s with Some s => allocate g (Some (skip_while isspace s)) | None => UB end.
(** chars.cc:371-382 chars::lrip *)
Definition lrip (g : nat -> Z) (c : chars) (set : list Z) : res chars :=
  if empty c then Ok c
  else match set with
       | [] => Ok c
       | _ =>
           s <- cval c ;;
           match s with
           | Some s => let k := strspn s set in
                       if (0 <? k)%nat then allocate g (Some (skipn k s)) else Ok c
           | None => UB
           end
       end.

(** a store into the object's string; a string that is not owned is constant *)
Definition own_wr (c : chars) (b : block) (i v : Z) : res block := if cown c then mwr b i v else UB.
(** the loops chars.cc:361-368 chars_string, chars.cc:392-403 chars_length: from index [i] down while [f] holds *)
Fixpoint rstrip_loop (f : Z -> bool) (c : chars) (b : block) (i : Z) (n : nat) : res (block * Z) :=
  match n with
  | O => Ok (b, i)
  | S k =>
      x <- mrd b i ;;
      if f x then b' <- own_wr c b i 0 ;; rstrip_loop f c b' (i - 1) k
      else Ok (b, i)
  end.
(** chars.cc:354-369 chars::rtrim: [chars_length] is not changed *)
Definition rtrim (c : chars) : res chars :=
  if empty c then Ok c
  else match cblk c with
       | None => UB
       | Some b =>
           r <- rstrip_loop isspace c b (clen c - 1) (Z.to_nat (clen c)) ;;
           Ok (mkC (Some (fst r)) (cown c) (clen c) (cpos c))
       end.
(** chars.cc:384-404 chars::rrip *)
Definition rrip (c : chars) (set : list Z) : res chars :=
  if empty c then Ok c
  else match set with
       | [] => Ok c
       | _ =>
           match cblk c with
           | None => UB
           | Some b =>
               r <- rstrip_loop (strchr set) c b (clen c - 1) (Z.to_nat (clen c)) ;;
               Ok (mkC (Some (fst r)) (cown c) (snd r + 1) (cpos c))
           end
       end.
(** chars.cc:406-419 chars::rrip *)
Definition rrip_n (c : chars) (n : Z) : res chars :=
  if empty c then Ok c
  else if n <? 1 then Ok c
  else match cblk c with
       | None => UB
       | Some b =>
           r <- rstrip_loop (fun _ => true) c b (clen c - 1) (Nat.min (Z.to_nat (clen c)) (Z.to_nat n)) ;;
           Ok (mkC (Some (fst r)) (cown c) (snd r + 1) (cpos c))
       end.

(** chars.cc:450-451 pars_pos, for (i= pars_pos; i < pars_pos+l; i++) c+= chars_string[i]; and chars.cc:469-470 substr *)
Fixpoint add_chars (g : nat -> Z) (c : chars) (s : list Z) : res chars :=
  match s with [] => Ok c | x :: t => c' <- append_char g c x ;; add_chars g c' t end.
(** chars.cc:426-460 chars::token: the token and the object with its new position *)
Definition token (g : nat -> Z) (c : chars) (delims : list Z) : res (chars * chars) :=
  let nul := new_null in
  match delims with
  | [] => Ok (nul, c)
  | _ =>
      if clen c <=? cpos c then Ok (nul, c)
      else if clen c <? 1 then Ok (nul, c)
      else
        match cblk c with
        | None => UB
        | Some b =>
            let at_ p := mkC (cblk c) (cown c) (clen c) p in
            s <- str_at b (cpos c) ;;
            let p := cpos c + Z.of_nat (strspn s delims) in
            if clen c <=? p then Ok (nul, at_ p)
            else
              s <- str_at b p ;;
              let l := strcspn s delims in
              if (0 <? l)%nat then
                t <- add_chars g nul (firstn l s) ;;
                let p := p + Z.of_nat l in
                s <- str_at b p ;;
                Ok (t, at_ (p + Z.of_nat (strspn s delims)))
              else Ok (nul, at_ p)
        end
  end.
(** charscl.h:82-83 start_parse *)
Definition start_parse (c : chars) (at_ : Z) : chars := mkC (cblk c) (cown c) (clen c) at_.

(** chars.cc:462-472 chars::substr: reads on until the 0 byte or [len] characters *)
Fixpoint substr_scan (b : block) (n : nat) : res (list Z) :=
  match b with
  | [] => UB
  | x :: t => if x =? 0 then Ok [] else match n with O => Ok [] | S k => s <- substr_scan t k ;; Ok (x :: s) end
  end.
Definition substr (g : nat -> Z) (c : chars) (start len : Z) : res chars :=
  if empty c || (clen c <=? start) then Ok new_null
  else match cblk c with
       | None => UB
       | Some b =>
           if start <? 0 then UB
           else s <- substr_scan (skipn (Z.to_nat start) b) (Z.to_nat len) ;; add_chars g new_null s
       end.

(** ** Numbers *)
Definition hexval (c : Z) : option Z :=
  let c := toupper c in
  if (48 <=? c) && (c <=? 57) then Some (c - 48)
  else if (65 <=? c) && (c <=? 70) then Some (10 + c - 65)
  else None.
(** chars.cc:474-494 chars::htoi *)
Fixpoint htoi_loop (v : Z) (s : list Z) : Z :=
  match s with
  | [] => v
  | c :: t => htoi_loop (Z.lor ((v * 16) mod 2 ^ 32) (match hexval c with Some x => x | None => 0 end)) t
  end.
Definition htoi (c : chars) : res Z :=
  s <- cval c ;; Ok (match s with None => 0 | Some s => htoi_loop 0 s end).
(** chars.cc:496-516 chars::htoll *)
Fixpoint htoll_loop (v : Z) (s : list Z) : Z :=
  match s with
  | [] => v
  | c :: t => match hexval c with Some x => htoll_loop (Z.lor ((v * 16) mod 2 ^ 64) x) t | None => v end
  end.
Definition htoll (c : chars) : res Z :=
  s <- cval c ;; Ok (match s with None => 0 | Some s => htoll_loop 0 s end).
(** strtol with a base between 2 and 36: blanks, sign, 0x for base 16, digits,
    clamped to 64 bits *)
Definition clamp64 (v : Z) : Z := Z.max (- 2 ^ 63) (Z.min (2 ^ 63 - 1) v).
Definition strtol_digits (base : Z) (s : list Z) : Z :=
  match s with
  | 48 :: x :: d :: t =>
      if (base =? 16) && ((x =? 120) || (x =? 88)) && (digit_of d <? 16) then digits 16 0 (d :: t) else digits base 0 s
  | _ => digits base 0 s
  end.
Definition strtol (base : Z) (s : list Z) : Z :=
  let s1 := skip_while isspace s in
  clamp64 (match s1 with
           | 45 :: t => - strtol_digits base t
           | 43 :: t => strtol_digits base t
           | _ => strtol_digits base s1
           end).
(** chars.cc:534-558 chars::toi *)
Definition toi (c : chars) : res Z :=
  if empty c then Ok 0
  else
    v <- cval c ;;
    match v with
    | None => UB
    | Some s =>
        let c0 := hd 0 s in
        let s1 := if (c0 =? 43) || (c0 =? 45) then tl s else s in
        let sg := if c0 =? 45 then -1 else 1 in
        let r :=
          if hd 0 s1 =? 48 then
            let s2 := tl s1 in
            let x := hd 0 s2 in
            if (x =? 98) || (x =? 66) then strtol 2 (tl s2)
            else if (x =? 111) || (x =? 79) then strtol 8 (tl s2)
            else if (x =? 100) || (x =? 68) then strtol 10 (tl s2)
            else if (x =? 120) || (x =? 88) then strtol 16 (tl s2)
            else strtol 8 s2
          else strtol 10 s1 in
        (* long overflow of v*= s *)
        if (sg =? -1) && (r =? - 2 ^ 63) then UB else Ok (sg * r)
    end.

(** ** Search and comparison *)
(** chars.cc:577-586 chars::starts_with *)
Definition starts_with (c x : chars) : res bool :=
  if empty c || empty x then Ok false
  else s <- cval c ;; v <- cval x ;;
       match s, v with
       | Some s, Some v => Ok (match strstr s v with Some O => true | _ => false end)
       | _, _ => UB
       end.
(** chars.cc:588-600 chars::ends_with *)
Definition ends_with (c x : chars) : res bool :=
  if empty c || empty x then Ok false
  else s <- cval c ;; v <- cval x ;;
       match s, v with
       | Some s, Some v =>
           match strstr s v with
           | None => Ok false
           | Some n =>
               match cblk c with
               | Some b => z <- mrd b (Z.of_nat n + clen x) ;; Ok (z =? 0)
               | None => UB
               end
           end
       | _, _ => UB
       end.
(** chars.cc:614-623 chars::contains *)
Definition contains (c x : chars) : res bool :=
  if empty c || empty x then Ok false
  else s <- cval c ;; v <- cval x ;;
       match s, v with
       | Some s, Some v => Ok (match strstr s v with Some _ => true | None => false end)
       | _, _ => UB
       end.
(** chars.cc:639-650 chars::icontains *)
Definition icontains (g1 g2 : nat -> Z) (c x : chars) : res bool :=
  if empty c || empty x then Ok false
  else s <- cval c ;; v <- cval x ;;
       match s, v with
       | Some s, Some v =>
           s1 <- uppercase g1 (new_const s) ;;
           s2 <- (n <- new_copy g2 (Some v) ;; uppercase g2 n) ;;
           contains s1 s2
       | _, _ => UB
       end.
(** chars.cc:674-688 chars::ipos: searches [x], not its upper case copy *)
Definition ipos (g : nat -> Z) (c x : chars) : res Z :=
  if empty c || empty x then Ok (-1)
  else s <- cval c ;; v <- cval x ;;
       match s, v with
       | Some s, Some v =>
           h <- uppercase g (new_const s) ;;
           hs <- cval h ;;
           match hs with
           | Some hs => Ok (match strstr hs v with None => -1 | Some n => Z.of_nat n end)
           | None => UB
           end
       | _, _ => UB
       end.
Fixpoint list_eqb (a b : list Z) : bool :=
  match a, b with [], [] => true | x :: a, y :: b => (x =? y) && list_eqb a b | _, _ => false end.
(** chars.cc:740-752 chars::equal *)
Definition equal (c : chars) (s : option (list Z)) : res bool :=
  v <- cval c ;;
  Ok (match v, s with
      | Some a, Some b => list_eqb a b
      | None, None => true
      | _, _ => false
      end).
(** chars.cc:754-770 chars::iequal *)
Fixpoint iequal_loop (a b : list Z) : bool :=
  match a, b with
  | x :: a', y :: b' => if toupper x =? toupper y then iequal_loop a' b' else false
  | [], [] => true
  | _, _ => false
  end.
Definition iequal (c : chars) (s : option (list Z)) : res bool :=
  v <- cval c ;;
  Ok (match v, s with
      | Some a, Some b => iequal_loop a b
      | None, None => true
      | _, _ => false
      end).
