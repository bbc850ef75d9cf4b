(** Model of the run control (sim.cc, app.cc, cmd_exec.cc, uc.cc) and of the frame
    of instruction execution (uc.cc do_inst). *)
From Verif Require Import Base.

(** results, stypes.h:380-403 inst_result *)
Definition resGO := 0.          Definition resINTERRUPT := 2.   Definition resSTOP := 100.
Definition resBREAKPOINT := 104. Definition resUSER := 105.     Definition resINV_INST := 106.
Definition resSTEP := 109.      Definition resNOT_DONE := 111.  Definition resEVENTBREAK := 112.
Definition resSELFJUMP := 113.

(** simcl.h:46-82 cl_sim, and stop_at_time of the processor. [meas]: to_reach of the
    time measurer, if there is one; [now]: its present value; [frozen]: there is a
    frozen console; [reasons]: reasons of the calls of stop(), the last one first;
    [ran]: number of calls of do_inst.  Unsigned long counters are unbounded here
    (2^64 steps are not reached). *)
Record sim := mkSim { go : bool; sdone : Z; stodo : Z; limit : Z; meas : option Z; now : Z;
                      frozen : bool; reasons : list Z; ran : nat }.
(** What one call of do_inst does: result, clocks, reasons of the calls of stop()
    made inside (by event breakpoints, errors, the simulator interface), and
    whether there is a fetch breakpoint at the new PC. *)
Record outcome := mkO { o_res : Z; o_clk : Z; o_inner : list Z; o_brk : bool }.

(** sim.cc:219-362 stop (without the messages) *)
Definition stop (brk : bool) (x : sim) (r : Z) : sim :=
  let zero := ((r =? resBREAKPOINT) && (brk || frozen x)) || ((r =? resEVENTBREAK) && frozen x) in
  mkSim false (if zero then 0 else sdone x) (stodo x) (limit x) (meas x) (now x) false (r :: reasons x) (ran x).
(** uc.cc:208-213 reached *)
Definition reached (x : sim) : bool :=
  match meas x with Some t => negb (t =? 0) && (t <=? now x) | None => false end.
(** sim.cc:118-150 step *)
Definition step (o : outcome) (x : sim) : sim :=
  let x1 := fold_left (stop (o_brk o)) (o_inner o)
              (mkSim (go x) (sdone x) (stodo x) (limit x) (meas x) (now x + o_clk o) (frozen x) (reasons x) (S (ran x))) in
  let x2 := mkSim (go x1) (sdone x1 + 1) (stodo x1) (limit x1) (meas x1) (now x1) (frozen x1) (reasons x1) (ran x1) in
  let x3 := if resSTOP <=? o_res o then stop (o_brk o) x2 (o_res o) else x2 in
  let x4 := if (0 <? stodo x3) && (stodo x3 <=? sdone x3) then stop (o_brk o) x3 resSTEP else x3 in
  if reached x4 then
    stop (o_brk o) (mkSim (go x4) (sdone x4) (stodo x4) (limit x4) None (now x4) (frozen x4) (reasons x4) (ran x4)) resBREAKPOINT
  else x4.
(** sim.cc:183-200 start *)
Definition start (con : bool) (n : Z) (x : sim) : sim :=
  let todo := if (n =? 0) && match meas x with None => true | Some _ => false end then limit x else n in
  mkSim true 0 todo (limit x) (meas x) (now x) (con || frozen x) (reasons x) (ran x).
(** sim.cc:152-162 set_limit *)
Definition set_limit (l : Z) (x : sim) : sim :=
  if l =? 0 then mkSim (go x) (sdone x) (stodo x) 0 (meas x) (now x) (frozen x) (reasons x) (ran x)
  else mkSim (go x) 0 l l (meas x) (now x) (frozen x) (reasons x) (ran x).
(** uc.cc:3849-3855 stop_when, uc.cc:202-206 from_now *)
Definition stop_when (n : Z) (x : sim) : sim :=
  mkSim (go x) (sdone x) (stodo x) (limit x) (Some (now x + n)) (now x) (frozen x) (reasons x) (ran x).

(** cmd_exec.cc:141-238 cl_step_cmd: without and with a unit; cmd_exec.cc:54-101
    cl_run_cmd without parameters; cmd_exec.cc:122-127 cl_stop_cmd *)
Inductive cmd := CStep (n : Z) | CStepClk (n : Z) | CRun | CStop | CLimit (n : Z).
Definition do_cmd (x : sim) (c : cmd) : sim :=
  match c with
  | CStep n => start true (if n <=? 0 then 1 else n) x
  | CStepClk n => start true 0 (stop_when n x)
  | CRun => start true 0 x
  | CStop => stop false x resUSER
  | CLimit n => set_limit n x
  end.

(** app.cc:207-245 run, app.cc:247-268 run_go, one iteration: in a running simulation
    console input is processed first (if it was checked in this turn), then step()
    is called; otherwise a command may come. [prog i]: the outcome of the i-th call
    of do_inst. *)
Definition turn (prog : nat -> outcome) (input : option cmd) (x : sim) : sim :=
  let y := match input with Some c => do_cmd x c | None => x end in
  if go x then step (prog (ran y)) y else y.
Fixpoint turns (prog : nat -> outcome) (inputs : list (option cmd)) (x : sim) : sim :=
  match inputs with
  | [] => x
  | i :: t => turns prog t (turn prog i x)
  end.
(** k turns without input *)
Definition idle_turns (prog : nat -> outcome) (k : nat) (x : sim) : sim := turns prog (repeat None k) x.

(** -- instruction execution -- *)
Section Exec.
Variable M : Type.                         (* memories, registers, hardware *)
(** [rd m pc]: content of the code memory; [itab c]: instruction function, NULL is
    None: it gets the state with PC after the fetched code and gives state, PC and
    result; [brk m pc]: do_brk, breakpoint hit; [post]: post_inst; [intr]: do_interrupt *)
Variable PCmask : Z.
Variable rd : M -> Z -> Z.
Variable itab : Z -> option (Z -> M -> Z -> M * Z * Z).
Variable brk : M -> Z -> bool * M.
Variable post : M -> M.
Variable intr : M -> Z -> M * Z * Z.
Variable cpu_go : M -> bool.               (* state == stGO *)
Variable selfjump : M -> bool.             (* stop_selfjump && !repeating *)

(** uc.cc:3185-3197 fetch, uc.cc:3232-3241 fetch *)
(** uc.cc:3352-3373 exec_inst_uctab (uc.cc:3328-3349 exec_inst_tab is the same on
    another table); [pc] is PC and instPC *)
Definition exec_inst (m : M) (pc : Z) : M * Z * Z :=
  let '(hit, m1) := brk m pc in
  if hit then (m1, pc, resBREAKPOINT)
  else
    let c := rd m1 pc in
    let pc1 := Z.land (pc + 1) PCmask in
    match itab c with
    | None => (m1, pc, resNOT_DONE)
    | Some f => let '(m2, pc2, r) := f c m1 pc1 in
                if r =? resNOT_DONE then (m2, pc, r) else (m2, pc2, r)
    end.
(** uc.cc:3243-3275 do_inst; [ipc] is instPC, which keeps its value when the
    processor is idle. Result: state, PC, instPC, result code. *)
Definition do_inst (m : M) (pc ipc : Z) : M * Z * Z * Z :=
  let '(m1, pc1, ipc1, r) :=
    if cpu_go m then
      let '(m0, pc0, r0) := exec_inst m pc in
      (m0, if r0 =? resINV_INST then pc else pc0, pc, r0)
    else (m, pc, ipc, resGO) in
  let m2 := post m1 in
  if (r =? resGO) && (pc1 =? ipc1) && selfjump m2 then (m2, pc1, ipc1, resSELFJUMP)
  else if (r =? resGO) || (r =? resNOT_DONE) then
    let '(m3, pc3, r3) := intr m2 pc1 in
    (m3, pc3, ipc1, if r3 =? resGO then r else r3)
  else (m2, pc1, ipc1, r).
End Exec.
