(** The protocol of the simulator interface as a user sees it: no buffers, no counters. *)
From Verif Require Import Base SifModel.

(** nothing going on; a command with the parameters got so far; the rest of an answer *)
Inductive phase := Idle | Need (c : cmd) (got : list Z) | Tell (rest : list Z).
(** the value written last; the configuration: on, quit, frequency, reason of the last stop, values
    written to sim_quit, sim_print and sim_write *)
Record ab := mkA { ph : phase; last : Z; aw : world; aon : bool; aquit : bool; axt : Z; areason : Z; vquit : Z; vprint : Z; vwrite : Z }.
Definition a_ph v x := mkA v (last x) (aw x) (aon x) (aquit x) (axt x) (areason x) (vquit x) (vprint x) (vwrite x).
Definition a_last v x := mkA (ph x) v (aw x) (aon x) (aquit x) (axt x) (areason x) (vquit x) (vprint x) (vwrite x).
Definition a_w v x := mkA (ph x) (last x) v (aon x) (aquit x) (axt x) (areason x) (vquit x) (vprint x) (vwrite x).
Definition a_on v x := mkA (ph x) (last x) (aw x) v (aquit x) (axt x) (areason x) (vquit x) (vprint x) (vwrite x).
Definition a_quit v x := mkA (ph x) (last x) (aw x) (aon x) true (axt x) (areason x) v (vprint x) (vwrite x).
Definition a_xt v x := mkA (ph x) (last x) (aw x) (aon x) (aquit x) v (areason x) (vquit x) (vprint x) (vwrite x).
Definition a_reason v x := mkA (ph x) (last x) (aw x) (aon x) (aquit x) (axt x) v (vquit x) (vprint x) (vwrite x).
Definition a_print v x := mkA (ph x) (last x) (aw x) (aon x) (aquit x) (axt x) (areason x) (vquit x) v (vwrite x).
Definition a_write v x := mkA (ph x) (last x) (aw x) (aon x) (aquit x) (axt x) (areason x) (vquit x) (vprint x) v.

(** the command with a code *)
Definition is_code (v : Z) : option cmd := find (fun c => code c =? v) all.
Definition text (l : list Z) : list Z := match l with [] => [] | _ => Z.of_nat (length l) + 1 :: l ++ [0] end.
Definition printed (l : list Z) (w : world) : world := w_out (out w ++ l) w.
Definition written (b : Z) (w : world) : world := match fout w with Some l => w_fout (Some (l ++ [b])) w | None => w end.
(** a new limit counts from here; 0 only changes the number *)
Definition limited (v : Z) (w : world) : world := if v =? 0 then w_lim 0 (todo w) (done w) w else w_lim v v 0 w.
Definition started (w : world) : world := w_go true (w_lim (limit w) (if sat w then 0 else limit w) 0 w).
Definition stopped (x : ab) : ab := a_reason 110 (a_w (w_go false (aw x)) x).
Definition byte_of (v : Z) : Z := v mod 256.
(** least significant first *)
Definition word_of (l : list Z) : Z := match l with [a; b; c; d] => byte_of a + 256 * byte_of b + 65536 * byte_of c + 16777216 * byte_of d | _ => 0 end.
Definition bytes_of (v : Z) : list Z := [v mod 256; v / 256 mod 256; v / 65536 mod 256; v / 16777216 mod 256].
(** two digits at least, lower case *)
Definition digit (d : Z) : Z := if d <? 10 then 48 + d else 87 + d.
Fixpoint no_zeros (n : nat) (l : list Z) : list Z :=
  match n, l with S k, d :: r => if d =? 0 then no_zeros k r else l | _, _ => l end.
(** the digits of a number, [n] of them *)
Definition digits (n : nat) (v : Z) : list Z := map (fun k => v / 16 ^ (Z.of_nat n - 1 - Z.of_nat k) mod 16) (seq 0 n).
Definition hex_text (v : Z) : list Z := map digit (no_zeros 6 (digits 8 v)).

Section Sif.
Variable ver : list Z.
Variable bits : Z.
(** what a command does, and its answer *)
Definition does (av ae : bool) (gb : Z) (c : cmd) (ps : list Z) (x : ab) : ab * list Z :=
  let p := nth 0 ps 0 in
  match c with
  | Detect => (x, [33])
  | IfVer => (x, [2])
  | SimVer => (x, text ver)
  | IfReset => (x, [])
  | Commands => (x, 16 :: map code all)
  | CmdInfo => (x, match is_code p with Some a => [2; needs a; atype a] | None => [2; 0; 0] end)
  | CmdHelp => (x, match is_code p with Some a => text (descr a) | None => [0] end)
  | Stop => (stopped x, [115])
  | Print => (a_w (printed [byte_of p] (aw x)) x, [])
  | Hex => (a_w (printed (hex_text p) (aw x)) x, [])
  | Write => (a_w (written (byte_of p) (aw x)) x, [])
  | FinCheck => (x, [match fin (aw x) with Some _ => if av && negb ae then 1 else 0 | None => 0 end])
  | Read =>
      match fin (aw x) with
      | None => (x, [0])
      | Some l =>
          if negb av then (x, [0]) else
          match l with
          | b :: r => (a_w (w_fin (Some r) (aw x)) x, [b mod 4294967296])
          | [] => (x, [if ae then 0 else gb mod 4294967296])
          end
      end
  | Reset => (a_w (w_reset (aw x)) x, [])
  | SetLimit => (a_w (limited (word_of ps) (aw x)) x, [])
  | GetLimit => (x, 4 :: bytes_of (limit (aw x)))
  end.
Definition perform (av ae : bool) (gb : Z) (c : cmd) (ps : list Z) (x : ab) : ab :=
  let '(x, l) := does av ae gb c ps x in a_ph (match l with [] => Idle | _ => Tell l end) x.
Definition spec_write (av ae : bool) (gb v : Z) (x : ab) : ab :=
  a_last (v mod 2 ^ bits)
    match ph x with
    | Idle =>
        match is_code v with
        | Some c => if needs c =? 0 then perform av ae gb c [] x else a_ph (Need c []) x
        | None => x
        end
    | Need c got =>
        let got := got ++ [v] in
        if Z.of_nat (length got) =? needs c then perform av ae gb c got x else a_ph (Need c got) x
    | Tell _ => x (* not looked at *)
    end.
Definition spec_read (x : ab) : Z * ab :=
  match ph x with
  | Idle => (2 ^ bits - 1 - last x, x) (* the complement *)
  | Need _ _ => (last x, x)
  | Tell [] => (last x, x)
  | Tell [b] => (b, a_ph Idle x)
  | Tell (b :: r) => (b, a_ph (Tell r) x)
  end.
Definition flag (b : bool) : Z := if b then 1 else 0.
Definition spec_cread (cnt : Z -> Z) (a : Z) (x : ab) : Z :=
  match a with
  | 0 => flag (aon x) | 1 => flag (go (aw x)) | 2 => flag (go (aw x)) | 3 => flag (negb (go (aw x)))
  | 4 => vquit x | 5 => areason x | 6 => axt x
  | 12 => vprint x | 13 => vwrite x | 14 => limit (aw x)
  | _ => cnt a
  end.
Definition spec_cwrite (a v : Z) (x : ab) : ab :=
  match a with
  | 0 => a_on (negb (v =? 0)) x
  | 1 => if v =? 0 then stopped x else a_w (started (aw x)) x
  | 2 => a_w (started (aw x)) x
  | 3 => stopped x
  | 4 => a_quit v x
  | 6 => a_xt v x
  | 12 => a_print v (a_w (printed [byte_of v] (aw x)) x)
  | 13 => a_write v (a_w (written (byte_of v) (aw x)) x)
  | 14 => a_w (limited v (aw x)) x
  | _ => x (* read only *)
  end.
Definition spec1 (y : access) (x : ab) : list Z * ab :=
  match y with
  | Rd => let '(v, x) := spec_read x in ([v], x)
  | Wr av ae gb v => ([], spec_write av ae gb v x)
  | CRd cnt a => ([spec_cread cnt a x], x)
  | CWr _ a v => ([], spec_cwrite a v x)
  end.
Fixpoint spec (l : list access) (x : ab) : list Z * ab :=
  match l with
  | [] => ([], x)
  | y :: r => let '(v, x) := spec1 y x in let '(vs, x) := spec r x in (v ++ vs, x)
  end.
End Sif.
(** accesses that can occur: values of 32 bits, configuration addresses 0 to 14 *)
Definition proper (y : access) : Prop :=
  match y with
  | Rd => True
  | Wr _ _ _ v => is_u32 v
  | CRd cnt a => 0 <= a < 15 /\ forall k, is_u32 (cnt k)
  | CWr cnt a v => 0 <= a < 15 /\ is_u32 v /\ forall k, is_u32 (cnt k)
  end.
(** the state the user sees *)
Definition seen (s : st) : ab :=
  mkA (match act s with
       | None => Idle
       | Some c =>
           let q := cs s c in
           match ans q, par q with
           | Some l, _ => Tell (skipn (Z.to_nat (adone q)) l)
           | None, Live l => Need c (firstn (Z.to_nat (recv q)) l)
           | None, _ => Need c []
           end
       end)
      (cell s) (wd s) (on s) (quit s) (xt s) (cf s 5) (cf s 4) (cf s 12) (cf s 13).

(** ** Words for the claims *)
(** the interface as the simulator starts it: [d] in its cell, [x] the frequency *)
Definition ready (w : world) (d x : Z) : ab := mkA Idle d w true false x 0 0 0 0.
(** one call: the code of a command, then a parameter *)
Definition call1 (av ae : bool) (gb c b : Z) : list access := [Wr av ae gb c; Wr av ae gb b].
(** a write to the interface's cell, or a read of it *)
Definition is_wr (y : access) : Prop := match y with Wr _ _ _ v => is_u32 v | _ => False end.
Definition is_rd (y : access) : bool := match y with Rd => true | _ => false end.
Definition reads (l : list access) : nat := length (filter is_rd l).
