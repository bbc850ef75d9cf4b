(** C21: event breakpoints and what the program sees. *)
From Verif Require Import Base OpsModel.

(** the history without the breakpoint commands *)
Definition is_brk_cmd (a : act) : bool :=
  match a with SetBrkR _ | SetBrkW _ | DelBrk _ => true | _ => false end.
Definition erase (l : list act) : list act := filter (fun a => negb (is_brk_cmd a)) l.

(** no operator is removed from a cell having only breakpoints left: RemHw of a
    hardware that is not hooked is excluded (it is a NULL pointer write when no
    operator is present) *)
Section P.
Context {H B : Type}.
Variable hw_read : Z -> H -> Z -> H * Z * Z.
Variable hw_write : Z -> H -> Z -> Z -> H * Z * Z.
Variable bp_hit : Z -> B -> B.
Variable enc : Z -> Z.
Variable ro : bool.
Notation run := (run H hw_read hw_write B bp_hit enc ro).
Notation step := (step H hw_read hw_write B bp_hit enc ro).
Notation read := (read H hw_read B bp_hit).
Notation write := (write H hw_write B bp_hit enc ro).

(** a hardware which returns the content of the cell (the default cl_hw::read) *)
Definition plain_hw : Prop := forall h s d, snd (hw_read h s d) = snd (fst (hw_read h s d)).

Definition hws (c : cell H B) : list Z :=
  match ops c with
  | Some l => flat_map (fun o => match o with OHw h => [h] | _ => [] end) l
  | None => []
  end.

(** same as far as the program can see *)
Definition same (c c' : cell H B) : Prop :=
  data c = data c' /\ hwst c = hwst c' /\ hws c = hws c' /\ ops c <> Some [] /\ ops c' <> Some [].

Notation hwl := (flat_map (fun o => match o with OHw h => [h] | _ => [] end)).

(** reading through plain hardware: effect of the hw list *)
Fixpoint hreads (l : list Z) (s : H) (d : Z) : H * Z :=
  match l with
  | [] => (s, d)
  | h :: t => let '(s', d', _) := hw_read h s d in hreads t s' d'
  end.
Fixpoint hwrites (l : list Z) (s : H) (d v : Z) : H * Z * Z :=
  match l with
  | [] => (s, d, v)
  | h :: t => let '(s', d', v') := hw_write h s d v in hwrites t s' d' v'
  end.

Lemma read_loop_plain l : plain_hw -> forall c r, r = data c ->
  let '(c', v) := read_loop H hw_read B bp_hit l c r in
  v = data c' /\ (hwst c', data c') = hreads (hwl l) (hwst c) (data c) /\ ops c' = ops c.
Proof.
  intros Hp. induction l as [|o t IH]; intros c r Hr; cbn [read_loop flat_map hreads app].
  - auto.
  - destruct o; cbn [oper_read].
    + pose proof (Hp h (hwst c) (data c)) as E. destruct (hw_read h (hwst c) (data c)) as [[s' d'] v] eqn:E1.
      cbn [fst snd] in E. subst v. specialize (IH (mkCell d' (ops c) s' (bps c)) d' eq_refl).
      destruct (read_loop H hw_read B bp_hit t (mkCell d' (ops c) s' (bps c)) d') as [c' v].
      cbn [hwst data ops] in IH. cbn [app hreads]. rewrite E1. exact IH.
    + specialize (IH (mkCell (data c) (ops c) (hwst c) (bp_hit n (bps c))) (data c) eq_refl).
      destruct (read_loop H hw_read B bp_hit t (mkCell (data c) (ops c) (hwst c) (bp_hit n (bps c))) (data c)) as [c' v].
      cbn [hwst data ops] in IH. exact IH.
    + specialize (IH c (data c) eq_refl). destruct (read_loop H hw_read B bp_hit t c (data c)). exact IH.
Qed.

Lemma read_plain c : plain_hw ->
  let '(c', v) := read c in
  v = data c' /\ (hwst c', data c') = hreads (hws c) (hwst c) (data c) /\ ops c' = ops c.
Proof.
  intros Hp. unfold OpsModel.read, hws. destruct (ops c) as [[|o t]|] eqn:E; cbn [flat_map hreads]; auto.
  rewrite <- E. clear E. 
  assert (K : forall r, let '(c', v) := read_loop H hw_read B bp_hit (o :: t) c r in
    v = data c' /\ (hwst c', data c') = hreads (hwl (o :: t)) (hwst c) (data c) /\ ops c' = ops c).
  { intros r. pose proof (read_loop_plain (o :: t) Hp c (data c) eq_refl) as R.
    cbn [read_loop] in *. destruct (oper_read H hw_read B bp_hit o c). exact R. }
  exact (K 0).
Qed.

Lemma write_loop_ok l : forall c v,
  let '(c', v') := write_loop H hw_write B bp_hit l c v in
  (hwst c', data c', v') = hwrites (hwl l) (hwst c) (data c) v /\ ops c' = ops c.
Proof.
  induction l as [|o t IH]; intros c v; cbn [write_loop flat_map hwrites app]; auto.
  destruct o; cbn [oper_write].
  - destruct (hw_write h (hwst c) (data c) v) as [[s' d'] v'] eqn:E1.
    specialize (IH (mkCell d' (ops c) s' (bps c)) v').
    destruct (write_loop H hw_write B bp_hit t (mkCell d' (ops c) s' (bps c)) v') as [c' w].
    cbn [hwst data ops] in IH. cbn [app hwrites]. rewrite E1. exact IH.
  - specialize (IH c v). destruct (write_loop H hw_write B bp_hit t c v). exact IH.
  - specialize (IH (mkCell (data c) (ops c) (hwst c) (bp_hit n (bps c))) v).
    destruct (write_loop H hw_write B bp_hit t (mkCell (data c) (ops c) (hwst c) (bp_hit n (bps c))) v). exact IH.
Qed.

Lemma write_ok c v :
  let '(c', w) := write c v in
  let '(s, d, v') := hwrites (hws c) (hwst c) (data c) v in
  hwst c' = s /\ data c' = (if ro then d else enc v') /\ w = data c' /\ ops c' = ops c.
Proof.
  unfold OpsModel.write, hws. destruct (ops c) as [l|] eqn:E.
  - pose proof (write_loop_ok l c v) as W. destruct (write_loop H hw_write B bp_hit l c v) as [c' v'].
    destruct W as [W1 W2]. rewrite <- W1. destruct ro; cbn [data hwst ops]; auto.
    split; auto. split; auto. split; auto. congruence.
    repeat split; auto. congruence.
  - cbn [hwrites]. destruct ro; cbn [data hwst ops]; auto.
Qed.

Lemma same_read c c' : plain_hw -> same c c' -> same (fst (read c)) (fst (read c')) /\ snd (read c) = snd (read c').
Proof.
  intros Hp (E1 & E2 & E3 & E4 & E5). pose proof (read_plain c Hp) as R. pose proof (read_plain c' Hp) as R'.
  destruct (read c) as [x v], (read c') as [x' v']. cbn [fst snd].
  destruct R as (R1 & R2 & R3), R' as (R1' & R2' & R3'). rewrite E1, E2, E3 in R2. rewrite <- R2' in R2.
  injection R2 as Q1 Q2. unfold same, hws in *. rewrite R3, R3'. repeat split; auto. congruence.
Qed.

Lemma same_write c c' v : same c c' -> same (fst (write c v)) (fst (write c' v)) /\ snd (write c v) = snd (write c' v).
Proof.
  intros (E1 & E2 & E3 & E4 & E5). pose proof (write_ok c v) as R. pose proof (write_ok c' v) as R'.
  destruct (write c v) as [x w], (write c' v) as [x' w']. cbn [fst snd]. rewrite E1, E2, E3 in R.
  destruct (hwrites (hws c') (hwst c') (data c') v) as [[s d] u].
  destruct R as (R1 & R2 & R3 & R4), R' as (R1' & R2' & R3' & R4').
  unfold same, hws in *. rewrite R4, R4'. repeat split; auto; congruence.
Qed.

Lemma hws_append c o : hws (append H B c o) = hws c ++ match o with OHw h => [h] | _ => [] end.
Proof.
  unfold hws, append. cbn [ops]. destruct (ops c) as [l|].
  - rewrite flat_map_app. cbn [flat_map]. rewrite app_nil_r. reflexivity.
  - cbn [flat_map]. rewrite app_nil_r. reflexivity.
Qed.

Lemma hwl_filter p l : (forall o, p o = true -> match o with OHw _ => False | _ => True end) ->
  hwl (filter (fun o => negb (p o)) l) = hwl l.
Proof.
  intros Hp. induction l as [|o t IH]; cbn [filter flat_map]; auto.
  destruct (p o) eqn:E; cbn [negb flat_map]; rewrite IH; auto.
  specialize (Hp o E). destruct o; [contradiction| |]; reflexivity.
Qed.

Lemma hwl_remhw h l : hwl (filter (fun o => negb (is_hw h o)) l) = filter (fun g => negb (g =? h)) (hwl l).
Proof.
  induction l as [|o t IH]; cbn [filter flat_map]; auto.
  destruct o as [g| |]; cbn [is_hw negb flat_map app filter]; auto.
  destruct (g =? h); cbn [negb flat_map app]; rewrite IH; auto.
Qed.

Lemma hws_del p c c1 : del_oper H B p c = Ok c1 ->
  data c1 = data c /\ hwst c1 = hwst c /\ ops c1 <> Some [] /\
  exists l, ops c = Some l /\ hws c1 = hwl (filter (fun o => negb (p o)) l).
Proof.
  unfold del_oper. destruct (ops c) as [l|]; [|discriminate]. intros X. injection X as <-.
  cbn [data hwst ops]. unfold hws. cbn [ops].
  destruct (filter (fun o => negb (p o)) l) eqn:E; repeat split; try discriminate; exists l; rewrite E; auto.
Qed.

Lemma run_same l : plain_hw -> (forall h, ~ In (RemHw h) l) -> forall c c', same c c' -> forall x vs,
  run c l = Ok (x, vs) -> exists x', run c' (erase l) = Ok (x', vs) /\ same x x'.
Proof.
  intros Hp. induction l as [|a t IH]; intros Hr c c' S x vs; cbn [OpsModel.run erase filter].
  - intros X. injection X as <- <-. eauto.
  - assert (Hr' : forall h, ~ In (RemHw h) t) by (intros h X; apply (Hr h); right; auto).
    destruct (step c a) as [[c1 o]| |] eqn:E; cbn [rbind fst snd]; try discriminate.
    destruct (run c1 t) as [[c2 q]| |] eqn:E2; cbn [rbind fst snd]; try discriminate.
    intros X. injection X as <- <-. pose proof S as (E1 & E3 & E4 & E5 & E6).
    destruct a; cbn [is_brk_cmd negb]; cbn [OpsModel.step] in E; cbn [OpsModel.run OpsModel.step].
    + destruct (same_read c c' Hp S) as [S1 S2].
      destruct (read c) as [y v], (read c') as [y' v']. cbn [fst snd] in *. subst v'. injection E as <- <-.
      destruct (IH Hr' _ _ S1 _ _ E2) as (x' & R & Sx). cbn [rbind fst snd]. unfold erase in R. rewrite R. cbn [rbind fst snd]. eauto.
    + destruct (same_write c c' v S) as [S1 S2].
      destruct (write c v) as [y w], (write c' v) as [y' w']. cbn [fst snd] in *. subst w'. injection E as <- <-.
      destruct (IH Hr' _ _ S1 _ _ E2) as (x' & R & Sx). cbn [rbind fst snd]. unfold erase in R. rewrite R. cbn [rbind fst snd]. eauto.
    + injection E as <- <-. apply (IH Hr' (append H B c (ORead n)) c'); auto.
      unfold same. rewrite hws_append, app_nil_r. cbn [append data hwst ops].
      repeat split; auto. destruct (ops c) as [[|]|]; discriminate.
    + injection E as <- <-. apply (IH Hr' (append H B c (OWrite n)) c'); auto.
      unfold same. rewrite hws_append, app_nil_r. cbn [append data hwst ops].
      repeat split; auto. destruct (ops c) as [[|]|]; discriminate.
    + destruct (del_oper H B (is_brk n) c) as [y| |] eqn:D; cbn [rbind] in E; try discriminate.
      injection E as <- <-. destruct (hws_del _ _ _ D) as (D1 & D2 & D3 & l & D4 & D5).
      apply (IH Hr' y c'); auto. unfold same. rewrite D5, hwl_filter.
      * repeat split; auto; try congruence. unfold hws in E4 at 1. rewrite D4 in E4. exact E4.
      * intros [g|m|m]; cbn [is_brk]; auto. discriminate.
    + injection E as <- <-. cbn [rbind fst snd].
      destruct (IH Hr' (append H B c (OHw h)) (append H B c' (OHw h))) with (x := c2) (vs := q) as (x' & R & Sx); auto.
      * unfold same. rewrite !hws_append, E4. cbn [append data hwst ops].
        repeat split; auto; [destruct (ops c) as [[|]|] | destruct (ops c') as [[|]|]]; discriminate.
      * unfold erase in R. rewrite R. cbn [rbind fst snd]. eauto.
    + exfalso. apply (Hr h). left. reflexivity.
Qed.
End P.

(** C21, the part which holds. If every hardware hooked on the cell returns the
    content of the cell (the default), then in every history of reads, writes,
    hooking of hardware and breakpoint commands, the program reads and writes
    the same values, and the cell and the hardware get the same contents, as in
    the history without the breakpoint commands. *)
Theorem C21_breakpoints_transparent :
  forall (H B : Type) hw_read hw_write (bp_hit : Z -> B -> B) enc ro d (s : H) (b : B) l x vs,
  plain_hw hw_read -> (forall h, ~ In (RemHw h) l) ->
  run H hw_read hw_write B bp_hit enc ro (mkCell d None s b) l = Ok (x, vs) ->
  exists x', run H hw_read hw_write B bp_hit enc ro (mkCell d None s b) (erase l) = Ok (x', vs) /\
    data x' = data x /\ hwst x' = hwst x.
Proof.
  intros H B hr hwr bh enc ro d s b l x vs Hp Hr E.
  destruct (run_same hr hwr bh enc ro l Hp Hr (mkCell d None s b) (mkCell d None s b)) with (x := x) (vs := vs)
    as (x' & R & S); auto.
  - unfold same. cbn [ops data hwst]. repeat split; auto; discriminate.
  - exists x'. split; auto. destruct S as (S1 & S2 & _). auto.
Qed.
Print Assumptions C21_breakpoints_transparent.

(** Writes are transparent for any hardware, wherever the breakpoints are in
    the list of operators. *)
Theorem C21_writes_transparent :
  forall (H B : Type) hw_write (bp_hit : Z -> B -> B) enc ro (c c' : cell H B) v,
  data c = data c' -> hwst c = hwst c' -> hws c = hws c' ->
  let '(x, w) := write H hw_write B bp_hit enc ro c v in
  let '(x', w') := write H hw_write B bp_hit enc ro c' v in
  w = w' /\ data x = data x' /\ hwst x = hwst x'.
Proof.
  intros H B hwr bh enc ro c c' v E1 E2 E3.
  pose proof (write_ok hwr bh enc ro c v) as R. pose proof (write_ok hwr bh enc ro c' v) as R'.
  destruct (write H hwr B bh enc ro c v) as [x w], (write H hwr B bh enc ro c' v) as [x' w'].
  rewrite E1, E2, E3 in R.
  destruct (hwrites hwr (hws c') (hwst c') (data c') v) as [[s d] u].
  destruct R as (R1 & R2 & R3 & R4), R' as (R1' & R2' & R3' & R4'). repeat split; congruence.
Qed.
Print Assumptions C21_writes_transparent.

(** What is stored: every hooked hardware gets, in the order of hooking, the
    value returned by the previous one, and the last value is stored (breakpoints
    do not take part). *)
Theorem C21_write_chain :
  forall (H B : Type) hw_write (bp_hit : Z -> B -> B) enc (c : cell H B) v,
  let '(x, w) := write H hw_write B bp_hit enc false c v in
  let '(s, _, v') := fold_left (fun a h => let '(s, d, u) := a in hw_write h s d u) (hws c) (hwst c, data c, v) in
  hwst x = s /\ data x = enc v' /\ w = enc v' /\ ops x = ops c.
Proof.
  intros H B hwr bh enc c v. pose proof (write_ok hwr bh enc false c v) as R.
  destruct (write H hwr B bh enc false c v) as [x w].
  assert (F : forall l s d u, hwrites hwr l s d u = fold_left (fun a h => let '(s, d, u) := a in hwr h s d u) l (s, d, u)).
  { induction l as [|h t IH]; intros s d u; cbn [hwrites fold_left]; auto.
    destruct (hwr h s d u) as [[s' d'] u']. apply IH. }
  rewrite F in R. destruct (fold_left _ _ _) as [[s d] u]. destruct R as (R1 & R2 & R3 & R4).
  repeat split; auto. congruence.
Qed.
Print Assumptions C21_write_chain.

(** What a read returns in general: the value of the last operator. After a
    breakpoint that is the content of the cell, not the value of the hardware. *)
Theorem C21_read_after_breakpoint_exact :
  forall (H B : Type) hw_read (bp_hit : Z -> B -> B) (c : cell H B) l o,
  ops c = Some (l ++ [o]) -> (forall h, o <> OHw h) ->
  let '(x, v) := read H hw_read B bp_hit c in v = data x.
Proof.
  intros H B hr bh c l o E Ho. unfold read. rewrite E.
  assert (K : forall l c r, let '(x, v) := read_loop H hr B bh (l ++ [o]) c r in v = data x).
  { clear c l E. induction l as [|y t IH]; intros c r; cbn [app read_loop].
    - destruct o; [exfalso; eapply Ho; reflexivity | reflexivity | reflexivity].
    - destruct (oper_read H hr B bh y c). apply IH. }
  specialize (K l c 0). destruct (l ++ [o]) eqn:L; [destruct l; discriminate|]. exact K.
Qed.
Print Assumptions C21_read_after_breakpoint_exact.

(** Refutation: hardware that returns 0x55 on read (e.g. an input register), the
    cell contains 0xAA; a read or a write breakpoint changes what is read. *)
Theorem C21_hw_read_deviation : forall brk, brk = SetBrkR 1 \/ brk = SetBrkW 1 ->
  let hr := fun (_ : Z) (s : unit) (d : Z) => (s, d, 0x55) in
  let hw := fun (_ : Z) (s : unit) (d v : Z) => (s, d, v) in
  let r := fun l => match run unit hr hw unit (fun _ b => b) u8 false (mkCell 0xAA None tt tt) l with
                    | Ok (_, vs) => Some vs | _ => None end in
  r [AddHw 1; Rd] = Some [0x55] /\ r [AddHw 1; brk; Rd] = Some [0xAA].
Proof. intros brk [-> | ->]; vm_compute; auto. Qed.

(** Unhooking a hardware from a cell without operators writes through NULL. *)
Theorem C21_remove_from_empty_deviation :
  forall (H B : Type) hr hw (bh : Z -> B -> B) enc ro d (s : H) (b : B) h,
  run H hr hw B bh enc ro (mkCell d None s b) [RemHw h] = UB.
Proof. reflexivity. Qed.

(** A history with a counting default hardware, breakpoints set and deleted. *)
Example C21_example :
  let hr := fun (_ : Z) (s : Z) (d : Z) => (s + 1, d, d) in
  let hw := fun (_ : Z) (s : Z) (d v : Z) => (s, d, v + 1) in
  match run Z hr hw Z (fun _ b => b + 1) u8 false (mkCell 7 None 0 0)
    [Rd; SetBrkR 1; AddHw 3; Wr 255; Rd; SetBrkW 2; Wr 9; Rd; DelBrk 1; Rd; DelBrk 2; Rd] with
  | Ok (x, vs) => vs = [7; 0; 0; 10; 10; 10; 10] /\ hwst x = 4 /\ bps x = 3
  | _ => False end.
Proof. vm_compute. auto. Qed.
Print Assumptions C21_hw_read_deviation.
Print Assumptions C21_remove_from_empty_deviation.
