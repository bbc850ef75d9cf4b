(** How the model's echo drives the terminal of the specification. *)
From Verif Require Import Base FioModel FioSpec.

Definition show_ev (t : term) (e : ev) : term :=
  match e with
  | ESave => t_save t
  | ERestore => t_restore t
  | ELeft n => t_left t n
  | ERight n => t_right t n
  | EText s => put_text t s
  end.
Definition play (t : term) (es : list ev) : term := fold_left show_ev es t.

(** The line a file holds, its cursor and the pending input, as the next reader
    and the next Enter see them. *)
Fixpoint upto_nul (n : nat) (a : arr) (i : Z) : list Z :=
  match n with O => [] | S k => if a i =? 0 then [] else a i :: upto_nul k a (i + 1) end.
Definition line_of (f : fio) : list Z := upto_nul 1024 (fline f) 0.
Fixpoint drain (n : nat) (r : ring) : list Z :=
  match n with
  | O => []
  | S k => if rlu r =? rff r then [] else snd (rget r) :: drain k (fst (rget r))
  end.
(** what a reader gets by calling get until the buffer is empty *)
Definition readable (f : fio) : list Z := drain 1024 (fring f).

(** A session with the file: keys arrive as bytes, the program reads values. *)
Definition do_act (f : fio) (a : act) : res (fio * list Z) :=
  match a with
  | Press kb => r <- process_all f (snd kb) ;; Ok (fst r, [])
  | Fetch n => let r := read_dev f false (Z.of_nat n) in Ok (fst (fst r), snd (fst r))
  end.
Fixpoint session (f : fio) (l : list act) : res (fio * list (list Z)) :=
  match l with
  | [] => Ok (f, [])
  | a :: t =>
      r <- do_act f a ;; r2 <- session (fst r) t ;; Ok (fst r2, snd r :: snd r2)
  end.

(** A file in raw mode reads a device: the device has the bytes [rest] left, of which
    [n] can be read now; or the program reads [n] values. *)
Inductive raw_act := Arrive (n : nat) | Take (n : nat).
Fixpoint raw_session (f : fio) (rest : list Z) (l : list raw_act) : res (fio * list Z * list Z) :=
  match l with
  | [] => Ok (f, rest, [])
  | Arrive n :: t =>
      r <- pick f (firstn n rest) ;;
      raw_session (fst (fst r)) (snd r ++ skipn n rest) t
  | Take n :: t =>
      let r := read_dev f false (Z.of_nat n) in
      r2 <- raw_session (fst (fst r)) rest t ;;
      Ok (fst (fst r2), snd (fst r2), snd (fst r) ++ snd r2)
  end.

(** Calls on the buffer and on the queue of the specification. *)
Inductive rop := Put (v : Z) | Get | Room.
Definition ring_op (r : ring) (o : rop) : ring * Z :=
  match o with Put v => rput r v | Get => rget r | Room => (r, rfree r) end.
Definition queue_op (q : queue) (o : rop) : queue * Z :=
  match o with Put v => qput q v | Get => qget q | Room => (q, qroom q) end.
Fixpoint ring_run (r : ring) (l : list rop) : ring * list Z :=
  match l with [] => (r, []) | o :: t => let (r1, v) := ring_op r o in let (r2, vs) := ring_run r1 t in (r2, v :: vs) end.
Fixpoint queue_run (q : queue) (l : list rop) : queue * list Z :=
  match l with [] => (q, []) | o :: t => let (q1, v) := queue_op q o in let (q2, vs) := queue_run q1 t in (q2, v :: vs) end.
(** a buffer as the constructor leaves it; the array and [prev_last_used] hold garbage *)
Definition new_ring (gbuf : arr) (gplu : Z) : ring := mkRing gbuf gplu 0 0.
(** the console of a user: a file in cooked mode on fresh memory *)
Definition console (gbuf gline gesc : arr) (gplu glast : Z) : fio := cooked (new_fio gbuf gline gesc gplu glast).
(** garbage for the examples *)
Definition garb : arr := fun i => i * 7 + 3.
Definition con : fio := console garb garb garb (-5) 99.
