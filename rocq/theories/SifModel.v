(** Model of the simulator interface (src/core/sim.src/simif.cc, simifcl.h): the cell through
    which the simulated program talks to the simulator, and the configuration cells.
    [ver]: VERSIONSTR; the files are lists of bytes.  With each access the environment says
    whether the input file has input available ([av]), whether its end was seen ([ae]), and what
    an uninitialised variable holds ([gb]).
    Not modelled: moving the interface to another cell, opening files (set_cmd), the texts of
    print_info, the values of real_time. *)
From Coq Require Import String Ascii.
From Verif Require Import Base.

(** simifcl.h:41-89 sif_command and simifcl.h:180-375 cl_sif_command, in the order of simif.cc:579-610 init *)
Inductive cmd := Detect | Commands | IfVer | SimVer | IfReset | CmdInfo | CmdHelp | Stop | Print | Hex | FinCheck | Read | Write | Reset | SetLimit | GetLimit.
Definition all : list cmd := [Detect; Commands; IfVer; SimVer; IfReset; CmdInfo; CmdHelp; Stop; Print; Hex; FinCheck; Read; Write; Reset; SetLimit; GetLimit].
Definition code (c : cmd) : Z :=
  match c with
  | Detect => 95 | Commands => 105 | IfVer => 118 | SimVer => 86 | IfReset => 64 | CmdInfo => 73 | CmdHelp => 104 | Stop => 115
  | Print => 112 | Hex => 120 | FinCheck => 102 | Read => 114 | Write => 119 | Reset => 82 | SetLimit => 76 | GetLimit => 108
  end.
Definition needs (c : cmd) : Z := match c with CmdInfo | CmdHelp | Print | Hex | Write => 1 | SetLimit => 4 | _ => 0 end.
(** simifcl.h:91-98 sif_answer_type *)
Definition atype (c : cmd) : Z :=
  match c with
  | Detect | IfVer | Stop | FinCheck | Read => 1
  | Commands | CmdInfo => 2
  | SimVer | CmdHelp => 3
  | IfReset | Print | Hex | Write | Reset | SetLimit => 4
  | GetLimit => 8
  end.
Definition chars (s : string) : list Z := map (fun a => Z.of_nat (nat_of_ascii a)) (list_ascii_of_string s).
Definition descr (c : cmd) : list Z := chars
  match c with
  | Detect => "Detect existence of interface" | Commands => "Get information about known commands"
  | IfVer => "Get version of simulator interface" | SimVer => "Get version of simulator"
  | IfReset => "Reset interface to default state" | CmdInfo => "Get information about a command"
  | CmdHelp => "Get help about a command" | Stop => "Stop simulation" | Print => "Print character"
  | Hex => "Print character in hex" | FinCheck => "Check input file if input available"
  | Read => "Read character from input file" | Write => "Write character to output file" | Reset => "Reset CPU"
  | SetLimit => "Set execution limit for simulation" | GetLimit => "Get value of simulation execution limit"
  end%string.
Definition ceq (a b : cmd) : bool := code a =? code b.

(** a pointer from calloc *)
Inductive ptr := Null | Live (l : list Z) | Freed.
(** simifcl.h:128-142 cl_sif_command *)
Record cst := mkS { par : ptr; nuof : Z; recv : Z; ans : option (list Z); alen : Z; adone : Z; answering : bool }.
(** simif.cc:45-65 cl_sif_command *)
Definition cst0 : cst := mkS Null 0 0 None 0 0 false.
(** what the commands act on: stdout, the output file (if open), what is left of the input file
    (if open), exec_limit, steps_todo and steps_done of the simulator, whether a time to stop at is
    set, the running state, the number of resets of the CPU *)
Record world := mkW { out : list Z; fout : option (list Z); fin : option (list Z); limit : Z; todo : Z; done : Z; sat : bool; go : bool; resets : Z }.
Definition w_out v x := mkW v (fout x) (fin x) (limit x) (todo x) (done x) (sat x) (go x) (resets x).
Definition w_fout v x := mkW (out x) v (fin x) (limit x) (todo x) (done x) (sat x) (go x) (resets x).
Definition w_fin v x := mkW (out x) (fout x) v (limit x) (todo x) (done x) (sat x) (go x) (resets x).
Definition w_lim l t d x := mkW (out x) (fout x) (fin x) l t d (sat x) (go x) (resets x).
Definition w_go b x := mkW (out x) (fout x) (fin x) (limit x) (todo x) (done x) (sat x) b (resets x).
Definition w_reset x := mkW (out x) (fout x) (fin x) (limit x) (todo x) (done x) (sat x) (go x) (resets x + 1).
(** simifcl.h:381-394 cl_simulator_interface: the active command, the commands, the cell; the
    configuration cells, [on], SIM_QUIT, the crystal's frequency *)
Record st := mkT { act : option cmd; cs : cmd -> cst; cell : Z; wd : world; cf : Z -> Z; on : bool; quit : bool; xt : Z }.
Definition t_act v s := mkT v (cs s) (cell s) (wd s) (cf s) (on s) (quit s) (xt s).
Definition t_cs c v s := mkT (act s) (fun k => if ceq k c then v else cs s k) (cell s) (wd s) (cf s) (on s) (quit s) (xt s).
Definition t_cell v s := mkT (act s) (cs s) v (wd s) (cf s) (on s) (quit s) (xt s).
Definition t_wd v s := mkT (act s) (cs s) (cell s) v (cf s) (on s) (quit s) (xt s).
Definition t_cf a v s := mkT (act s) (cs s) (cell s) (wd s) (fun k => if k =? a then v else cf s k) (on s) (quit s) (xt s).
Definition t_on v s := mkT (act s) (cs s) (cell s) (wd s) (cf s) v (quit s) (xt s).
Definition t_quit v s := mkT (act s) (cs s) (cell s) (wd s) (cf s) (on s) v (xt s).
Definition t_xt v s := mkT (act s) (cs s) (cell s) (wd s) (cf s) (on s) (quit s) v.

(** sim.cc:219-236 cl_sim::stop: the reason is put into the cell simif_reason *)
Definition sim_stop (r : Z) (s : st) : st := t_cf 5 r (t_wd (w_go false (wd s)) s).
(** sim.cc:183-200 cl_sim::start *)
Definition sim_start (s : st) : st :=
  let x := wd s in
  t_wd (w_go true (w_lim (limit x) (if sat x then 0 else limit x) 0 x)) s.

(** simif.cc:83-90 clear_params: the pointer is kept; to free it twice is undefined *)
Definition clear_params (q : cst) : res cst :=
  match par q with
  | Null => Ok (mkS Null 0 0 (ans q) (alen q) (adone q) (answering q))
  | Live _ => Ok (mkS Freed 0 0 (ans q) (alen q) (adone q) (answering q))
  | Freed => UB
  end.
(** simif.cc:92-100 clear_answer *)
Definition clear_answer (q : cst) : cst := mkS (par q) (nuof q) (recv q) None 0 0 (answering q).
(** simif.cc:110-119 get_parameter *)
Definition get_parameter (n : Z) (q : cst) : res (option Z) :=
  match par q with
  | Null => Ok None
  | Live l => if nuof q <=? n then Ok None else match nth_error l (Z.to_nat n) with Some v => Ok (Some v) | None => UB end
  | Freed => if nuof q <=? n then Ok None else UB
  end.
Definition set_ans (l : list Z) (q : cst) : cst := mkS (par q) (nuof q) (recv q) (Some l) (Z.of_nat (length l)) (adone q) (answering q).
(** simif.cc:192-199 set_answer, simif.cc:201-211 set_answer, simif.cc:186-193 set_answer *)
Definition answer1 (v : Z) (q : cst) : cst := set_ans [u32 v] (clear_answer q).
Definition answer_list (l : list Z) (q : cst) : cst := set_ans (Z.of_nat (length l) :: l) (clear_answer q).
Definition answer_string (l : list Z) (q : cst) : cst :=
  match l with [] => clear_answer q | _ => set_ans (Z.of_nat (length l) + 1 :: l ++ [0]) (clear_answer q) end.
(** simif.cc:918-926 finish_command *)
Definition finish (s : st) : st :=
  match act s with
  | Some c => t_act None (t_cs c (clear_answer (cs s c)) s)
  | None => s
  end.
(** simif.cc:227-237 start_answer *)
Definition start_answer (c : cmd) (s : st) : st :=
  let q := cs s c in
  let v b := mkS (par q) (nuof q) (recv q) (ans q) (alen q) (adone q) b in
  if negb (alen q =? 0) then t_cs c (v true) s else finish (t_cs c (v false) s).
(** sim.cc:152-162 cl_sim::set_limit *)
Definition set_limit (v : Z) (x : world) : world := if v =? 0 then w_lim v (todo x) (done x) x else w_lim v v 0 x.
(** printf's %02x *)
Fixpoint hex_digits (fuel : nat) (v : Z) : list Z :=
  let d := v mod 16 in let c := if d <? 10 then 48 + d else 87 + d in
  match fuel with O => [c] | S k => if v <? 16 then [c] else hex_digits k (v / 16) ++ [c] end.
Definition hex2 (v : Z) : list Z := let l := hex_digits 7 v in if (length l <? 2)%nat then 48 :: l else l.
Definition prn (l : list Z) (s : st) : st := t_wd (w_out (out (wd s) ++ l) (wd s)) s.
Definition find_code (v : Z) : option cmd := find (fun c => code c =? v) all.

Section Sif.
Variable ver : list Z.
(** the cell's mask *)
Variable mask : Z.

(** stypes.h:396-396 *)
Definition resSIMIF : Z := 110.
(** produce_answer: simif.cc:181-184 cl_sif_command, simifcl.h:188-188 produce_answer of detect, simifcl.h:200-200 produce_answer of if_ver, simifcl.h:212-212 produce_answer of sim_ver,
    simif.cc:243-261 cl_sif_commands, simif.cc:267-294 cl_sif_cmdinfo, simif.cc:300-323 cl_sif_cmdhelp, simif.cc:329-338 cl_sif_stop,
    simif.cc:344-355 cl_sif_print, simif.cc:361-372 cl_sif_hex, simif.cc:378-394 cl_sif_write, simif.cc:400-418 cl_sif_fin_check,
    simif.cc:424-442 cl_sif_read, simif.cc:448-456 cl_sif_reset, simif.cc:462-473 cl_sif_setlimit, simif.cc:479-491 cl_sif_getlimit *)
Definition produce (av ae : bool) (gb : Z) (c : cmd) (s : st) : res st :=
  let q := cs s c in
  let w := wd s in
  match c with
  | Detect => Ok (t_cs c (answer1 33 q) s)
  | IfVer => Ok (t_cs c (answer1 2 q) s)
  | SimVer => Ok (t_cs c (answer_string ver q) s)
  | IfReset => Ok (t_cs c (clear_answer q) s)
  | Commands => Ok (t_cs c (set_ans (16 :: map code all) q) s)
  | CmdInfo =>
      p <- get_parameter 0 q ;;
      match p with
      | None => Ok s
      | Some v =>
          Ok (t_cs c (set_ans (match find_code v with Some a => [2; needs a; atype a] | None => [2; 0; 0] end) q) s)
      end
  | CmdHelp =>
      p <- get_parameter 0 q ;;
      match p with
      | None => Ok s
      | Some v => Ok (t_cs c (match find_code v with Some a => answer_string (descr a) q | None => answer1 0 q end) s)
      end
  | Stop => let s := t_cs c (answer1 115 q) s in Ok (sim_stop resSIMIF s)
  | Print => p <- get_parameter 0 q ;; Ok (finish (match p with Some v => prn [u8 v] s | None => s end))
  | Hex => p <- get_parameter 0 q ;; Ok (finish (match p with Some v => prn (hex2 v) s | None => s end))
  | Write =>
      p <- get_parameter 0 q ;;
      Ok (finish (match p, fout w with Some v, Some l => t_wd (w_fout (Some (l ++ [u8 v])) w) s | _, _ => s end))
  | FinCheck =>
      let i := match fin w with Some _ => if av && negb ae then 1 else 0 | None => 0 end in
      Ok (t_cs c (answer1 i q) s)
  | Read =>
      match fin w with
      | None => Ok (t_cs c (answer1 0 q) s)
      | Some l =>
          if negb av then Ok (t_cs c (answer1 0 q) s) else
          match l with
          | b :: r => Ok (t_cs c (answer1 b q) (t_wd (w_fin (Some r) w) s))
          | [] => Ok (t_cs c (answer1 (if ae then 0 else gb) q) s)
          end
      end
  | Reset => Ok (finish (t_wd (w_reset w) s))
  | SetLimit =>
      match par q with
      | Live [a; b; d; e] =>
          Ok (finish (t_wd (set_limit (u32 (e mod 256 * 16777216 + d mod 256 * 65536 + b mod 256 * 256 + a mod 256)) w) s))
      | _ => UB
      end
  | GetLimit =>
      let p := limit w in
      Ok (t_cs c (answer_list [p mod 256; p / 256 mod 256; p / 65536 mod 256; p / 16777216 mod 256] q) s)
  end.
(** simif.cc:166-178 need_params, simif.cc:160-164 start *)
Definition start (av ae : bool) (gb : Z) (c : cmd) (s : st) : res st :=
  q <- clear_params (cs s c) ;;
  let s := t_cs c q s in
  s <- (if needs c <=? 0 then s <- produce av ae gb c s ;; Ok (start_answer c s) else Ok s) ;;
  let q := cs s c in
  Ok (t_cs c (mkS (Live (repeat 0 (Z.to_nat (needs c)))) (needs c) 0 (ans q) (alen q) (adone q) (answering q)) s).
(** a store into the parameters *)
Fixpoint put (n : nat) (v : Z) (l : list Z) : res (list Z) :=
  match n, l with
  | _, [] => UB
  | O, _ :: r => Ok (v :: r)
  | S k, a :: r => r <- put k v r ;; Ok (a :: r)
  end.
(** simif.cc:142-157 cl_sif_command::write *)
Definition cmd_write (av ae : bool) (gb : Z) (c : cmd) (v : Z) (s : st) : res st :=
  let q := cs s c in
  if negb (nuof q =? 0) && (recv q <? nuof q) then
    match par q with
    | Null => Ok s
    | Freed => UB
    | Live l =>
        l <- put (Z.to_nat (recv q)) v l ;;
        let s := t_cs c (mkS (Live l) (nuof q) (recv q + 1) (ans q) (alen q) (adone q) (answering q)) s in
        if nuof q <=? recv q + 1 then s <- produce av ae gb c s ;; Ok (start_answer c s) else Ok s
    end
  else Ok s.
(** simif.cc:121-140 cl_sif_command::read *)
Definition cmd_read (c : cmd) (s : st) : res (Z * st) :=
  let q := cs s c in
  let ret := cell s in
  match answering q, ans q with
  | true, Some l =>
      a <- (if adone q <? alen q then
              match nth_error l (Z.to_nat (adone q)) with
              | Some v => Ok (v, t_cs c (mkS (par q) (nuof q) (recv q) (ans q) (alen q) (adone q + 1) (answering q)) s)
              | None => UB
              end
            else Ok (ret, s)) ;;
      let '(v, s) := a in
      Ok (v, if alen (cs s c) <=? adone (cs s c) then finish s else s)
  | _, _ => Ok (ret, s)
  end.
(** simif.cc:729-745 read of the interface's cell (mem.cc:1203-1217, mem.cc:817-832) *)
Definition read (s : st) : res (Z * st) :=
  match act s with
  | None => Ok (Z.land (u32 (- cell s - 1)) mask, s)
  | Some c => cmd_read c s
  end.
(** simif.cc:747-774 write of the interface's cell; then the cell holds the value (mem.cc:1241-1259) *)
Definition write (av ae : bool) (gb v : Z) (s : st) : res st :=
  s <- match act s with
       | None =>
           match find_code v with
           | Some c => start av ae gb c (t_act (Some c) s)
           | None => Ok s
           end
       | Some c => cmd_write av ae gb c v s
       end ;;
  Ok (t_cell (Z.land v mask) s).

(** simif.cc:784-916 conf_op called by hw.cc:159-171 conf: reading a configuration cell; [cnt]: the
    time counters at 7 to 11 (not their overflow) *)
Definition cfg_read (cnt : Z -> Z) (a : Z) (s : st) : Z * st :=
  let s :=
    if a =? 0 then t_cf a (if on s then 1 else 0) s
    else if (a =? 1) || (a =? 2) then t_cf a (if go (wd s) then 1 else 0) s
    else if a =? 3 then t_cf a (if go (wd s) then 0 else 1) s
    else if a =? 6 then t_cf a (u32 (xt s)) s
    else if (7 <=? a) && (a <=? 11) then t_cf a (u32 (cnt a)) s
    else if a =? 14 then t_cf a (limit (wd s)) s
    else s in
  (cf s a, s).
(** simif.cc:784-916 conf_op: writing a configuration cell; hw.cc:159-171 conf and mem.cc:1241-1259 cl_memory_cell::write
    store the value that conf_op leaves *)
Definition cfg_write (cnt : Z -> Z) (a v : Z) (s : st) : st :=
  let '(v, s) :=
    if a =? 0 then (v, t_on (negb (v =? 0)) s)
    else if a =? 1 then if v =? 0 then (0, sim_stop resSIMIF s) else (1, sim_start s)
    else if a =? 2 then (1, sim_start s)
    else if a =? 3 then (1, sim_stop resSIMIF s)
    else if a =? 4 then (v, t_quit true s)
    else if a =? 5 then (cf s a, s)
    else if a =? 6 then (v, let s := t_xt v s in t_cf a (u32 (xt s)) s)
    else if (7 <=? a) && (a <=? 11) then (cf s a, t_cf a (u32 (cnt a)) s)
    else if a =? 12 then (v, prn [u8 v] s)
    else if a =? 13 then (v, match fout (wd s) with Some l => t_wd (w_fout (Some (l ++ [u8 v])) (wd s)) s | None => s end)
    else if a =? 14 then (v, let s := t_wd (set_limit (u32 v) (wd s)) s in t_cf a (limit (wd s)) s)
    else (v, s) in
  t_cf a (u32 v) s.

(** simif.cc:516-631 init *)
Definition st0 (w : world) (d x : Z) : st := mkT None (fun _ => cst0) d w (fun a => if a =? 0 then 1 else 0) true false x.

(** accesses of the program to the interface's cell, and to the configuration *)
Inductive access := Rd | Wr (av ae : bool) (gb v : Z) | CRd (cnt : Z -> Z) (a : Z) | CWr (cnt : Z -> Z) (a v : Z).
Definition access1 (x : access) (s : st) : res (list Z * st) :=
  match x with
  | Rd => a <- read s ;; Ok ([fst a], snd a)
  | Wr av ae gb v => s <- write av ae gb v s ;; Ok ([], s)
  | CRd cnt a => let '(v, s) := cfg_read cnt a s in Ok ([v], s)
  | CWr cnt a v => Ok ([], cfg_write cnt a v s)
  end.
(** the values read, the state afterwards *)
Fixpoint accesses (l : list access) (s : st) : res (list Z * st) :=
  match l with
  | [] => Ok ([], s)
  | x :: r => a <- access1 x s ;; b <- accesses r (snd a) ;; Ok (fst a ++ fst b, snd b)
  end.
End Sif.
