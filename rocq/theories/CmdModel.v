(** The command interpreter: how a line is cut into commands, words and parameters, how
    a command is found, and how the commands of a line are run (cmd.src/command.cc,
    cmd.src/newcmd.cc, utils.src/app.cc, cmd.src/cmdutil.cc, sim.src/arg.cc).
    A line is the list of its characters, none of them 0.  Reading behind the
    terminating 0 is [UB].  Not modelled: what the individual commands do, printing
    (only which message), int overflow of lengths, the value of the text inside $( ),
    which the code cuts out and then drops. *)
From Verif Require Import Base FioModel ChrModel.

(** ** Characters *)
(** " \t\v\r," *)
Definition delims : list Z := [32; 9; 11; 13; 44].
(** " \t\v\r,;#" *)
Definition stops : list Z := delims ++ [59; 35].
(** "0123456789" *)
Definition dig10 : list Z := [48; 49; 50; 51; 52; 53; 54; 55; 56; 57].
(** strtol(s, 0, 0): a 64 bit long *)
Definition strtol64 (s : list Z) : Z :=
  let s1 := skip_blank s in
  let v := match s1 with
           | 45 :: t => - strtol_mag t
           | 43 :: t => strtol_mag t
           | _ => strtol_mag s1
           end in
  Z.max (- 9223372036854775808) (Z.min 9223372036854775807 v).

(** ** Parameters: the classes of sim.src/argcl.h *)
(** argcl.h:110-141 cl_cmd_int_arg, cl_cmd_sym_arg *)
Inductive simple := PInt (n : Z) | PSym (s : list Z).
(** what a bit belongs to: a number or symbol, or an array element *)
Inductive base := BS (x : simple) | BA (x i : simple).
(** argcl.h:143-183 cl_cmd_str_arg, cl_cmd_bit_arg, cl_cmd_array_arg *)
Inductive param := P (x : simple) | PStr (s : list Z) | PArr (x i : simple)
                 | PBit (b : base) (low : simple) (high : option simple).
(** the error messages of the splitter *)
Inductive cerr := EUnterminated | EBitAddr | EArray | ENoBracket | EIndex | EUnbalanced.

(** commandcl.h:52-63 cl_cmdline: cmd, rest, name, params, tokens; [l_redir] are the
    calls of con->redirect, [l_err] the messages *)
Record cline := mkL { l_cmd : list Z; l_name : option (list Z); l_rest : option (list Z);
                      l_toks : list (list Z); l_prm : list param;
                      l_redir : list (list Z * Z); l_err : list cerr }.

(** command.cc:83-90 cl_cmdline::skip_delims *)
Fixpoint skip_delims (s : list Z) : list Z :=
  match s with c :: t => if memc delims c then skip_delims t else s | [] => [] end.

(** ** $( ) *)
(** command.cc:483-525 expand_commands: the walk (lines 491-511) over the string; [i] is the index.  A backslash or a
    dollar as the last character moves the index onto the 0, and the loop then steps
    behind it. *)
Fixpoint expand_walk (s : list Z) (i st en lv : Z) : res (Z * Z * Z) :=
  match s with
  | [] => Ok (st, en, lv)
  | c :: t =>
      if c =? 92 then
        match t with [] => UB | _ :: u => expand_walk u (i + 2) st en lv end
      else if c =? 36 then
        match t with
        | [] => UB
        | d :: u =>
            if d =? 40 then
              if lv =? 0 then
                match u with
                | [] => expand_walk u (i + 2) st en (lv + 1)
                | _ :: v => expand_walk v (i + 3) (i + 2) en (lv + 1)
                end
              else expand_walk u (i + 2) st en (lv + 1)
            else expand_walk u (i + 2) st en lv
        end
      else if c =? 41 then
        expand_walk t (i + 1) st (if lv - 1 =? 0 then i - 1 else en) (lv - 1)
      else expand_walk t (i + 1) st en lv
  end.
(** command.cc:483-525 cl_cmdline::expand_commands: only the message *)
Definition expand (s : list Z) : res (list cerr) :=
  match s with
  | [] => Ok []
  | _ =>
      r <- expand_walk s 0 (-1) (-1) 0 ;;
      let '(st, en, lv) := r in
      if (st <? 0) && (en <? 0) then Ok []
      else if (st <? 0) || (en <? 0) || negb (lv =? 0) then Ok [EUnbalanced]
      else if en - st + 1 <? 0 then UB else Ok []
  end.

(** ** Parameters of a word *)
(** strchr: what is before and what is behind the first [c] *)
Fixpoint cut_at (c : Z) (s : list Z) : option (list Z * list Z) :=
  match s with
  | [] => None
  | x :: t => if x =? c then Some ([], t)
              else match cut_at c t with Some (a, b) => Some (x :: a, b) | None => None end
  end.
(** command.cc:303-312 strchr, and the same test at 334-343, 355-364 and 388-397:
    a number when it starts with a digit (or is empty: strchr finds the 0) *)
Definition simple_of (s : list Z) : simple :=
  if strchr dig10 (hd 0 s) then PInt (strtol64 s) else PSym s.
(** command.cc:271-321 cl_cmdline::add_bit; [ranged]: a colon was found in [d] *)
Definition add_bit (d : list Z) (ranged : bool) (b : base) : list param * list cerr :=
  if ranged then
    match cut_at 58 d with
    | None => ([], [])
    | Some (d1, c2) =>
        match cut_at 93 c2 with
        | None => ([], [EBitAddr])
        | Some (c2', _) =>
            match d1 with
            | [] => ([], [EBitAddr])
            | _ => ([PBit b (simple_of c2') (Some (simple_of d1))], [])
            end
        end
    end
  else
    match d with
    | [] => ([], [EBitAddr])
    | _ => ([PBit b (simple_of d) None], [])
    end.
Definition has (c : Z) (s : list Z) : bool := memc s c.
(** command.cc:323-346 cl_cmdline::split_out_bit *)
Definition split_out_bit (b d : list Z) (bracket : bool) : list param * list cerr :=
  add_bit d (bracket && has 58 d) (BS (simple_of b)).
(** command.cc:348-407 cl_cmdline::split_out_array *)
Definition split_out_array (b d : list Z) : list param * list cerr :=
  match d with
  | [] => ([], [EArray])
  | _ =>
      match cut_at 93 d with
      | None => ([], [ENoBracket])
      | Some (i, p) =>
          match i with
          | [] => ([], [EIndex])
          | _ =>
              match p with
              | c :: q => if (c =? 46) || (c =? 91)
                          then add_bit q (has 58 q) (BA (simple_of b) (simple_of i))
                          else ([PArr (simple_of b) (simple_of i)], [])
              | [] => ([PArr (simple_of b) (simple_of i)], [])
              end
          end
      end
  end.
(** command.cc:170-176 dot+1, the first of ] and : after the bracket *)
Fixpoint colon_first (s : list Z) : bool :=
  match s with
  | [] => false
  | c :: t => if c =? 93 then false else if c =? 58 then true else colon_first t
  end.
(** command.cc:182-186 long n, ii: a long wraps around *)
Fixpoint bin_loop (s : list Z) (n : Z) : Z :=
  match s with
  | c :: t => if (c =? 48) || (c =? 49) then bin_loop t (2 * n + (if c =? 48 then 0 else 1)) else n
  | [] => n
  end.
Definition s64 (x : Z) : Z := (x + 2 ^ 63) mod 2 ^ 64 - 2 ^ 63.
(** command.cc:168-201 param_str *)
Definition word_param (w : list Z) : list param * list cerr :=
  match cut_at 91 w with
  | Some (b, d) => if colon_first d then split_out_bit b d true else split_out_array b d
  | None =>
      match cut_at 46 w with
      | Some (c :: b, d) => split_out_bit (c :: b) d false
      | _ =>
          match w with
          | 48 :: 98 :: t => ([P (PInt (s64 (bin_loop t 0)))], [])
          | _ => if strchr (dig10 ++ [45; 43]) (hd 0 w) then ([P (PInt (strtol64 w))], [])
                 else ([P (PSym w)], [])
          end
      end
  end.

(** ** Strings and redirection *)
(** command.cc:214-229 end: content and what follows it (the closing quote first) *)
Fixpoint scan_str (s : list Z) : list Z * list Z :=
  match s with
  | [] => ([], [])
  | c :: t =>
      if c =? 34 then ([], s)
      else if c =? 92 then
        match t with
        | [] => ([c], [])
        | d :: u => let r := scan_str u in (c :: d :: fst r, snd r)
        end
      else let r := scan_str t in (c :: fst r, snd r)
  end.
(** command.cc:409-429 cl_cmdline::token_length: what follows the token.  In quotes a
    backslash skips two characters, and an unterminated token ends behind the 0. *)
Fixpoint quoted_rest (s : list Z) : res (list Z) :=
  match s with
  | [] => UB
  | c :: t =>
      if c =? 34 then Ok t
      else if c =? 92 then match t with _ :: _ :: u => quoted_rest u | _ => UB end
      else quoted_rest t
  end.
Definition tok_stops : list Z := delims ++ [59].
Definition token_rest (s : list Z) : res (list Z) :=
  match s with
  | [] => Ok []
  | c :: t => if c =? 34 then quoted_rest t else Ok (skipn (strcspn s tok_stops) s)
  end.
(** command.cc:445-466 cs: the escapes of a quoted file name *)
Definition esc_char (c : Z) : Z :=
  if c =? 97 then 7 else if c =? 98 then 8 else if c =? 101 then 27 else if c =? 102 then 12
  else if c =? 110 then 10 else if c =? 114 then 13 else if c =? 116 then 9
  else if c =? 118 then 11 else c.
Fixpoint quoted_token (s : list Z) : res (list Z) :=
  match s with
  | [] => Ok []
  | c :: t =>
      if c =? 34 then Ok []
      else if c =? 92 then
        match t with [] => UB | d :: u => r <- quoted_token u ;; Ok (esc_char d :: r) end
      else r <- quoted_token t ;; Ok (c :: r)
  end.
(** command.cc:431-481 cl_cmdline::get_token *)
Definition get_token (s : list Z) : res (list Z) :=
  match s with
  | [] => Ok []
  | c :: t => if c =? 34 then quoted_token t else Ok (firstn (strcspn s tok_stops) s)
  end.

(** ** Splitting *)
Record acc := mkA { a_toks : list (list Z); a_prm : list param; a_redir : list (list Z * Z);
                    a_err : list cerr }.
Definition acc0 := mkA [] [] [] [].
Definition add_word (a : acc) (w : list Z) (p : list param) (e : list cerr) : acc :=
  mkA (a_toks a ++ [w]) (a_prm a ++ p) (a_redir a) (a_err a ++ e).
(** why the loop ended: at the end, at a comment (the text from # on), at a semicolon
    (the text behind it) *)
Inductive fin := FEnd | FComment (s : list Z) | FMore (s : list Z).
(** command.cc:140-206 while: every turn takes at least one character *)
Fixpoint split_loop (fuel : nat) (s : list Z) (a : acc) : res (acc * fin) :=
  match fuel with
  | O => UB
  | S k =>
      match s with
      | [] => Ok (a, FEnd)
      | c :: t =>
          if c =? 35 then Ok (a, FComment s)
          else if c =? 59 then Ok (a, FMore t)
          else if c =? 34 then
            let r := scan_str t in
            let e0 := match snd r with [] => [EUnterminated] | _ => [] end in
            e <- expand (fst r) ;;
            split_loop k (skip_delims (tl (snd r)))
                       (add_word a (fst r) [PStr (fst r)] (e0 ++ e))
          else if c =? 62 then
            let '(m, s1) := match t with
                            | d :: u => if d =? 62 then (97, u) else (119, t)
                            | [] => (119, t)
                            end in
            r <- token_rest s1 ;;
            f <- get_token s1 ;;
            split_loop k (skip_delims r) (mkA (a_toks a) (a_prm a) (a_redir a ++ [(f, m)]) (a_err a))
          else
            let n := strcspn s stops in
            let w := firstn n s in
            e <- expand w ;;
            let p := word_param w in
            split_loop k (skip_delims (skipn n s)) (add_word a w (fst p) (e ++ snd p))
      end
  end.
(** what is left of cmd when a 0 is written where the suffix [s] begins *)
Definition cut_cmd (cmd s : list Z) : list Z := firstn (length cmd - length s) cmd.
(** command.cc:93-208 cl_cmdline::split *)
Definition split (cmd : list Z) (rest : option (list Z)) : res cline :=
  match cmd with
  | [] => Ok (mkL cmd (Some [10]) rest [] [] [] [])
  | _ =>
      let s := skipn (strspn cmd delims) cmd in
      match s with
      | [] => Ok (mkL cmd None rest [] [] [] [])
      | c :: t =>
          if c =? 10 then Ok (mkL cmd (Some [10]) rest [] [] [] [])
          else if c =? 35 then Ok (mkL (cut_cmd cmd s) None rest [] [] [] [])
          else if c =? 59 then Ok (mkL (cut_cmd cmd s) None (Some t) [] [] [] [])
          else
            let n := strcspn s stops in
            r <- split_loop (S (length s)) (skip_delims (skipn n s)) acc0 ;;
            let '(a, f) := r in
            let cmd' := match f with
                        | FEnd => cmd
                        | FComment u => cut_cmd cmd u
                        | FMore u => cut_cmd cmd (59 :: u)
                        end in
            let rest' := match f with FMore u => Some u | _ => rest end in
            Ok (mkL cmd' (Some (firstn n s)) rest' (a_toks a) (a_prm a) (a_redir a) (a_err a))
      end
  end.
(** command.cc:74-82 cl_cmdline::init *)
Definition parse (line : list Z) : res cline := split line None.

(** pobjcl.h:67-67 have_real_name *)
Definition have_real_name (l : cline) : bool :=
  match l_name l with Some (_ :: _) => true | _ => false end.
Fixpoint eqs (a b : list Z) : bool :=
  match a, b with
  | [], [] => true
  | x :: a', y :: b' => (x =? y) && eqs a' b'
  | _, _ => false
  end.
(** command.cc:527-551 cl_cmdline::shift; strcmp of a null name is [UB] *)
Definition shift (l : cline) : res cline :=
  let s := skip_delims (l_cmd l) in
  match s with
  | [] => Ok (mkL (l_cmd l) None (l_rest l) [] [] [] [])
  | _ =>
      let p := skip_delims (skipn (strcspn s stops) s) in
      n <- split p (l_rest l) ;;
      match l_name n with
      | None => UB
      | Some x => Ok (mkL (l_cmd n) (if eqs x [10] then None else Some x) (l_rest n)
                          (l_toks n) (l_prm n) (l_redir n) (l_err n))
      end
  end.

(** ** Commands *)
(** commandcl.h:107-122 cl_cmd: a command with its names, and the composed command
    (command.cc:1051-1061 cl_super_cmd) with its subcommands *)
Inductive cmd := Leaf (id : nat) (names : list (list Z)) (rep : bool)
               | Super (id : nat) (names : list (list Z)) (rep : bool) (subs : list cmd).
Definition cnames (c : cmd) : list (list Z) := match c with Leaf _ n _ | Super _ n _ _ => n end.
Definition cid (c : cmd) : nat := match c with Leaf i _ _ | Super i _ _ _ => i end.
Definition crep (c : cmd) : bool := match c with Leaf _ _ r | Super _ _ r _ => r end.
(** command.cc:797-826 cl_cmd::name_match *)
Definition name_match (c : cmd) (n : option (list Z)) (strict : bool) : bool :=
  match n with
  | None => match cnames c with [] => true | _ => false end
  | Some n =>
      existsb (fun x => if strict then eqs n x
                        else match strstr x n with Some O => true | _ => false end) (cnames c)
  end.
Fixpoint find_idx (f : cmd -> bool) (l : list cmd) : option nat :=
  match l with [] => None | c :: t => if f c then Some O else option_map S (find_idx f t) end.
(** command.cc:987-999 for: the second match gives up; [m] is the match found so far *)
Fixpoint loose (n : option (list Z)) (l : list cmd) (i : nat) (m : option nat) : option nat :=
  match l with
  | [] => m
  | c :: t =>
      if name_match c n false
      then match m with None => loose n t (S i) (Some i) | Some _ => None end
      else loose n t (S i) m
  end.
(** command.cc:973-1001 cl_cmdset::get_cmd: the index of the command *)
Definition get_cmd (n : option (list Z)) (set : list cmd) : option nat :=
  match find_idx (fun c => name_match c n true) set with
  | Some i => Some i
  | None => loose n set 0 None
  end.
(** "_no_parameters_" *)
Definition no_parameters : list Z := [95; 110; 111; 95; 112; 97; 114; 97; 109; 101; 116; 101; 114; 115; 95].
(** command.cc:1003-1015 cl_cmdset::get_cmd *)
Definition get_exact (n : list Z) (set : list cmd) : option nat :=
  find_idx (fun c => name_match c (Some n) true) set.

Definition with_rest (r : option (list Z)) (l : cline) : cline :=
  mkL (l_cmd l) (l_name l) r (l_toks l) (l_prm l) (l_redir l) (l_err l).
(** What running a line does: a command is started with a parsed line, an expression is
    evaluated, the subcommands are listed, or a subcommand is unknown
    (the command line of a started command is shown without the rest of the line) *)
Inductive event := ERun (id : nat) (l : cline) | EEval (e : list Z) | EList (id : nat)
                 | EUndef (id : nat) (n : option (list Z)).
(** command.cc:1069-1102 cl_super_cmd::work, and command.cc:840-876 cl_cmd::work: the
    events and the command line afterwards (the rest of the line is taken from it) *)
Fixpoint work (c : cmd) (l : cline) : res (list event * cline) :=
  match c with
  | Leaf id _ _ => Ok ([ERun id (with_rest None l)], l)
  | Super id _ _ subs =>
      let run_nth := fix run_nth (cs : list cmd) (i : nat) (l : cline) {struct cs} : res (list event * cline) :=
        match cs with
        | [] => Ok ([], l)
        | c :: t => match i with O => work c l | S j => run_nth t j l end
        end in
      n <- shift l ;;
      if negb (have_real_name n)
      then match get_exact no_parameters subs with
           | Some i => run_nth subs i n
           | None => Ok ([EList id], n)
           end
      else match get_cmd (l_name n) subs with
           | Some i => run_nth subs i n
           | None => Ok ([EUndef id (l_name n)], n)
           end
  end.
(** newcmd.cc:720-729 else if: no such command: the text is an expression *)
Definition no_cmd (l : cline) : list event :=
  match l_name l with
  | Some _ => match l_cmd l with [] => [] | e => [EEval e] end
  | None => []
  end.
Definition rest_of (l : cline) : list Z := match l_rest l with Some r => r | None => [] end.
Definition step_cmd (set : list cmd) (l : cline) : res (list event * cline) :=
  match get_cmd (l_name l) set with
  | Some i => match nth_error set i with Some c => work c l | None => Ok ([], l) end
  | None => Ok (no_cmd l, l)
  end.
(** app.cc:1107-1137 cl_app::exec: the loop over the commands of a line *)
Fixpoint exec_loop (fuel : nat) (set : list cmd) (line : list Z) : res (list event) :=
  match fuel with
  | O => UB
  | S k =>
      l <- parse line ;;
      r <- step_cmd set l ;;
      match rest_of (snd r) with
      | [] => Ok (fst r)
      | t => e <- exec_loop k set t ;; Ok (fst r ++ e)
      end
  end.
Definition exec (set : list cmd) (line : list Z) : res (list event) :=
  exec_loop (S (length line)) set line.

(** command.cc:553-559 cl_cmdline::repeat *)
Definition is_repeat (l : cline) : bool :=
  match l_name l with Some (c :: _) => c =? 10 | _ => false end.
(** newcmd.cc:694-735 do: the loop of cl_console_base::proc_input; [last] is last_command.
    Not modelled: the result of the commands, the prompt, echo. *)
Fixpoint input_loop (fuel : nat) (inter : bool) (set : list cmd) (last : option nat) (line : list Z)
  : res (list event * option nat) :=
  match fuel with
  | O => UB
  | S k =>
      l <- parse line ;;
      let '(cm, last1) :=
        match last with
        | Some i => if is_repeat l && inter then (Some i, last) else (get_cmd (l_name l) set, None)
        | None => (get_cmd (l_name l) set, None)
        end in
      r <- match cm with
           | Some i =>
               match nth_error set i with
               | Some c => w <- work c l ;; Ok (w, if crep c then Some i else last1)
               | None => Ok (([], l), last1)
               end
           | None => Ok ((no_cmd l, l), last1)
           end ;;
      match rest_of (snd (fst r)) with
      | [] => Ok (fst (fst r), snd r)
      | t => e <- input_loop k inter set (snd r) t ;; Ok (fst (fst r) ++ fst e, snd e)
      end
  end.
(** newcmd.cc:660-750 cl_console_base::proc_input, for a console that is not frozen and a
    line that does not begin with ^D *)
Definition proc_input (inter : bool) (set : list cmd) (last : option nat) (line : list Z)
  : res (list event * option nat) := input_loop (S (length line)) inter set last line.

(** ** Data *)
(** a value stored in a plain char *)
Definition schar (x : Z) : Z := i8 x.
Definition is_digit (c : Z) : bool := (48 <=? c) && (c <=? 57).
Definition oct : list Z := [48; 49; 50; 51; 52; 53; 54; 55].
(** cmdutil.cc:46-47 spec_chars, spec: f n r t v a b and the quote *)
Definition spec_char (c : Z) : option Z :=
  if c =? 102 then Some 12 else if c =? 110 then Some 10 else if c =? 114 then Some 13
  else if c =? 116 then Some 9 else if c =? 118 then Some 11 else if c =? 97 then Some 7
  else if c =? 98 then Some 8 else if c =? 34 then Some 34 else None.
(** cmdutil.cc:43-99 proc_escape; strtol clamps to long before the value becomes a char *)
Fixpoint proc_escape (fuel : nat) (s : list Z) : list Z :=
  match fuel with
  | O => []
  | S k =>
      match s with
      | [] => []
      | c :: t =>
          match t with
          | d :: u =>
              if c =? 92 then
                if d =? 48 then
                  if is_digit (hd 0 u) then
                    let i := strspn t oct in
                    schar (Z.min 9223372036854775807 (digits 8 0 (firstn i t))) :: proc_escape k (skipn i t)
                  else 0 :: proc_escape k u
                else match spec_char d with
                     | Some x => x :: proc_escape k u
                     | None => d :: proc_escape k u
                     end
              else c :: proc_escape k t
          | [] => [c]
          end
      end
  end.
Definition unescape (s : list Z) : list Z := proc_escape (length s) s.
(** arg.cc:149-156 cl_cmd_arg::as_data: i_value of a symbol or string was never set; a bit
    or an array has 0; stored in a t_mem of 32 bits (stypes.h:61-61 t_mem) *)
Definition as_data (p : param) : res Z :=
  match p with
  | P (PInt n) => Ok (u32 n)
  | P (PSym _) | PStr _ => UB
  | PArr _ _ | PBit _ _ _ => Ok 0
  end.
(** command.cc:667-729 cl_cmdline::set_data_list: all parameters from the current one on *)
Fixpoint data_list (ps : list param) : res (list Z) :=
  match ps with
  | [] => Ok []
  | PStr s :: t => r <- data_list t ;; Ok (map u32 (unescape s) ++ r)
  | p :: t => d <- as_data p ;; r <- data_list t ;; Ok (d :: r)
  end.

(** arg.cc:404-446 cl_cmd_bit_arg::get_bit_address: the bit numbers; [None]: refused.
    The i_value of a symbol was never set. *)
Definition ival (x : simple) : res Z := match x with PInt n => Ok n | PSym _ => UB end.
Definition bit_numbers (low : simple) (high : option simple) : res (option (Z * Z)) :=
  l <- ival low ;;
  if (l <? 0) || (32 <=? l) then Ok None
  else
    r <- match high with
         | None => Ok (Some l)
         | Some h => v <- ival h ;; Ok (if (v <? 0) || (32 <=? v) then None else Some v)
         end ;;
    match r with
    | None => Ok None
    | Some h => Ok (Some (if h <? l then (l, h) else (h, l)))
    end.

(** ** Syntax *)
(** what a processor knows: which parameters it can take as an address, a memory, a bit,
    a piece of hardware, a cell *)
Record know := mkK { k_addr : param -> bool; k_mem : param -> bool; k_bit : param -> bool;
                     k_hw : param -> bool; k_cell : param -> bool }.
(** argcl.h:150-150 as_number(void), argcl.h:162-162 as_number(void) *)
Definition as_number (p : param) : bool :=
  match p with P (PSym _) | PStr _ => false | _ => true end.
(** arg.cc:176-189 cl_cmd_arg::as_string: bits and arrays have no text; numbers are printed
    (arg.cc:263-270 cl_cmd_int_arg::as_string) *)
Definition as_string (p : param) : bool :=
  match p with PArr _ _ | PBit _ _ _ => false | _ => true end.
(** command.cc:578-665 cl_cmdline::syntax_match; the letters a n d s m h D b c.  Every
    other letter takes any parameter. *)
Fixpoint syntax_loop (uc : option know) (syn : list Z) (ps : list param) : res bool :=
  match syn, ps with
  | [], [] => Ok true
  | [], _ | _, [] => Ok false
  | c :: syn', p :: ps' =>
      let k := fun f => match uc with Some u => f u p | None => true end in
      if c =? 97 then (if k k_addr then syntax_loop uc syn' ps' else Ok false)
      else if c =? 109 then (if k k_mem then syntax_loop uc syn' ps' else Ok false)
      else if c =? 98 then (if k k_bit then syntax_loop uc syn' ps' else Ok false)
      else if c =? 104 then (if k k_hw then syntax_loop uc syn' ps' else Ok false)
      else if c =? 99 then (if k k_cell then syntax_loop uc syn' ps' else Ok false)
      else if c =? 110 then (if as_number p then syntax_loop uc syn' ps' else Ok false)
      else if c =? 100 then d <- as_data p ;; syntax_loop uc syn' ps'
      else if c =? 115 then (if as_string p then syntax_loop uc syn' ps' else Ok false)
      else if c =? 68 then d <- data_list ps ;; syntax_loop uc syn' []
      else syntax_loop uc syn' ps'
  end.
Definition syntax_match (uc : option know) (syn : list Z) (l : cline) : res bool :=
  syntax_loop uc syn (l_prm l).
