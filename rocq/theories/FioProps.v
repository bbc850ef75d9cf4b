(** Properties of console input. *)
From Verif Require Import Base FioModel FioSpec FioObs FioProofs FioProofs2 FioProofs3 FioProofs4 FioProofs5 FioProofs6.

Lemma ex_ok {A B} (r : res (A * B)) (P : A -> B -> Prop) :
  match r with Ok (a, b) => P a b | _ => False end -> exists a b, r = Ok (a, b) /\ P a b.
Proof. destruct r as [[a b]| |]; try contradiction. eauto. Qed.

(* ================================================================== C64 *)
Lemma run_ok l : forall r q, ring_ok r q -> snd (ring_run r l) = snd (queue_run q l) /\ ring_ok (fst (ring_run r l)) (fst (queue_run q l)).
Proof.
  induction l as [|o l IH]; intros r q H; [split; [reflexivity|exact H]|]. cbn [ring_run queue_run].
  assert (A : ring_ok (fst (ring_op r o)) (fst (queue_op q o)) /\ snd (ring_op r o) = snd (queue_op q o)).
  { destruct o; cbn [ring_op queue_op fst snd]; [apply ring_put; exact H|apply ring_get; exact H|split; [exact H|apply ring_free; exact H]]. }
  destruct (ring_op r o) as [r1 v], (queue_op q o) as [q1 w]. cbn [fst snd] in A. destruct A as [A ->].
  destruct (IH r1 q1 A) as [B C]. destruct (ring_run r1 l) as [r2 vs], (queue_run q1 l) as [q2 ws]. cbn [fst snd] in *. subst. auto.
Qed.
(** Every sequence of put, get and free_place on a new buffer returns what a queue of
    1023 places returns. *)
Theorem C64_buffer_is_a_queue : forall gbuf gplu l,
  snd (ring_run (new_ring gbuf gplu) l) = snd (queue_run [] l).
Proof. intros. apply (run_ok l _ _ (ring_new gbuf gplu)). Qed.
(** What such a queue is: values come out in the order they went in, each once. *)
Fixpoint took (l : list rop) (vs : list Z) : list Z :=
  match l, vs with Get :: l, v :: vs => v :: took l vs | _ :: l, _ :: vs => took l vs | _, _ => [] end.
Fixpoint stored (l : list rop) (vs : list Z) : list Z :=
  match l, vs with Put x :: l, v :: vs => (if v =? 0 then [x] else []) ++ stored l vs | _ :: l, _ :: vs => stored l vs | _, _ => [] end.
Lemma fifo_gen l : forall q, Forall (fun v => 0 < v < 256) q -> (forall v, In (Put v) l -> 0 < v < 256) ->
  filter (fun v => negb (v =? -1)) (took l (snd (queue_run q l))) ++ fst (queue_run q l) = q ++ stored l (snd (queue_run q l)).
Proof.
  induction l as [|o l IH]; intros q Hq H; [cbn; rewrite app_nil_r; reflexivity|]. cbn [queue_run].
  assert (Hl : forall v, In (Put v) l -> 0 < v < 256) by (intros v I; apply H; right; exact I).
  destruct o as [v| |]; cbn [queue_op].
  - unfold qput. destruct (0 <? qroom q).
    + destruct (queue_run (q ++ [v]) l) as [q2 vs] eqn:E. cbn [snd fst took stored].
      assert (Hv : Forall (fun v => 0 < v < 256) (q ++ [v])) by (apply Forall_app; split; [exact Hq|constructor; [apply H; left; reflexivity|constructor]]).
      specialize (IH _ Hv Hl). rewrite E in IH. cbn [fst snd] in IH. rewrite IH, <- app_assoc. reflexivity.
    + destruct (queue_run q l) as [q2 vs] eqn:E. cbn [snd fst took stored]. specialize (IH _ Hq Hl). rewrite E in IH. exact IH.
  - destruct q as [|v t]; cbn [qget].
    + destruct (queue_run [] l) as [q2 vs] eqn:E. cbn [snd fst took stored filter negb Z.eqb]. specialize (IH _ Hq Hl). rewrite E in IH. exact IH.
    + destruct (queue_run t l) as [q2 vs] eqn:E. inversion Hq as [|? ? Hv Ht]; subst. cbn [snd fst took stored filter].
      assert (S : seen v = v) by (unfold seen; destruct (Z.ltb_spec 0 v); [apply Z.mod_small|]; lia). rewrite S.
      replace (v =? -1) with false by lia. cbn [negb app]. f_equal. specialize (IH _ Ht Hl). rewrite E in IH. exact IH.
  - destruct (queue_run q l) as [q2 vs] eqn:E. cbn [snd fst took stored]. specialize (IH _ Hq Hl). rewrite E in IH. exact IH.
Qed.
(** Characters taken out so far, followed by those still readable, are exactly the
    characters whose put was accepted, in that order. *)
Theorem C64_first_in_first_out : forall gbuf gplu l, (forall v, In (Put v) l -> 0 < v < 256) ->
  let r := ring_run (new_ring gbuf gplu) l in
  filter (fun v => negb (v =? -1)) (took l (snd r)) ++ drain 1024 (fst r) = stored l (snd r).
Proof.
  intros gbuf gplu l H. cbv zeta. destruct (run_ok l _ _ (ring_new gbuf gplu)) as [E R]. unfold new_ring. rewrite E.
  rewrite (drain_ok _ 1024 _ R) by (destruct R as (_ & _ & L & _); lia).
  pose proof (fifo_gen l [] ltac:(constructor) H) as F. cbn [app] in F. rewrite <- F. f_equal.
  assert (Q : forall l q, Forall (fun v => 0 < v < 256) q -> (forall v, In (Put v) l -> 0 < v < 256) -> Forall (fun v => 0 < v < 256) (fst (queue_run q l))).
  { clear. induction l as [|o l IH]; intros q Hq H; [exact Hq|]. cbn [queue_run].
    assert (Hl : forall v, In (Put v) l -> 0 < v < 256) by (intros v I; apply H; right; exact I).
    assert (Hq1 : Forall (fun v => 0 < v < 256) (fst (queue_op q o))).
    { destruct o as [v| |]; cbn [queue_op]; [|destruct q; [exact Hq|inversion Hq; assumption]|exact Hq].
      unfold qput. destruct (_ <? _); [|exact Hq]. apply Forall_app. split; [exact Hq|]. constructor; [apply H; left; reflexivity|constructor]. }
    destruct (queue_op q o) as [q1 v]. specialize (IH q1 Hq1 Hl). destruct (queue_run q1 l). exact IH. }
  specialize (Q l [] ltac:(constructor) H). clear - Q. induction Q as [|v t Hv Q IH]; [reflexivity|]. cbn [map]. rewrite IH. f_equal.
  unfold seen. destruct (Z.ltb_spec 0 v); [apply Z.mod_small|]; lia.
Qed.
Example C64_case : snd (ring_run (new_ring garb 77) [Put 65; Put 66; Get; Room; Put 67; Get; Get; Get]) = [0; 0; 65; 1022; 0; 66; 67; -1].
Proof. vm_compute. reflexivity. Qed.
Example C64_wraps : let l := concat (repeat [Put 65; Put 66; Get; Get] 2000) in
  snd (ring_run (new_ring garb 77) l) = concat (repeat [0; 0; 65; 66] 2000).
Proof. vm_compute. reflexivity. Qed.

(* ================================================================== C65 *)
Lemma puts_len q vs : (length (qputs q vs) <= Nat.max (length q) 1023)%nat /\ (length q <= length (qputs q vs))%nat.
Proof.
  revert q. induction vs as [|v t IH]; intros q; [cbn; lia|]. unfold qputs. cbn [fold_left]. fold (qputs (fst (qput q v)) t).
  destruct (IH (fst (qput q v))) as [A B]. revert A B. unfold qput, qroom. destruct (Z.ltb_spec 0 (1023 - Z.of_nat (length q))); cbn [fst]; rewrite ?app_length; cbn [length]; lia.
Qed.
Lemma puts_same vs : forall r, rlu (rputs r vs) = rlu r /\ rplu (rputs r vs) = rplu r.
Proof.
  induction vs as [|v t IH]; intros r; [auto|]. cbn [rputs]. destruct (IH (fst (rput r v))) as [-> ->]. unfold rput. cbv zeta. destruct (_ =? _); auto.
Qed.
Lemma mod_pred a b : 0 <= a < 1024 -> b = (a + 1) mod 1024 -> a = (b - 1) mod 1024.
Proof. intros. Z.div_mod_to_equations. lia. Qed.
(** Given back after a get and any number of puts, a value is the next one read and all
    pending input follows it, if the buffer has room; if the buffer is full it reads
    as empty afterwards: the value and all pending input are lost. *)
Theorem C65_unget_exact : forall gbuf gplu l v t vs c,
  fst (queue_run [] l) = v :: t ->
  let r := rputs (fst (rget (fst (ring_run (new_ring gbuf gplu) l)))) vs in
  exists r', runget r c = Ok (r', c) /\
    drain 1024 r' = if Z.of_nat (length (qputs t vs)) <? 1023 then map seen (c :: qputs t vs) else [].
Proof.
  intros gbuf gplu l v t vs c E. cbv zeta. destruct (run_ok l _ _ (ring_new gbuf gplu)) as [_ R]. unfold new_ring.
  set (r0 := fst (ring_run (mkRing gbuf gplu 0 0) l)) in *. rewrite E in R.
  destruct (ring_get r0 _ R) as [G _]. cbn [qget fst] in G.
  assert (G1 : rplu (fst (rget r0)) = rlu r0 /\ rlu (fst (rget r0)) = (rlu r0 + 1) mod 1024).
  { unfold rget. destruct (Z.eqb_spec (rlu r0) (rff r0)) as [X|X]; [apply (ring_empty _ _ R) in X; discriminate|]. auto. }
  pose proof (ring_puts vs _ _ G) as P. destruct (puts_same vs (fst (rget r0))) as [Q1 Q2].
  set (r := rputs (fst (rget r0)) vs) in *. destruct G1 as [G1 G2]. rewrite G1 in Q2. rewrite G2 in Q1.
  destruct R as (R1 & _). unfold runget, awr. rewrite Q2. replace ((0 <=? rlu r0) && (rlu r0 <? 1024)) with true by lia. cbn [rbind].
  eexists. split; [reflexivity|]. destruct (Z.ltb_spec (Z.of_nat (length (qputs t vs))) 1023) as [L|L].
  - rewrite (drain_ok (c :: qputs t vs)); [reflexivity| |cbn [length]; lia].
    destruct P as (P1 & P2 & P3 & P4 & P5). unfold ring_ok. cbn [rlu rff rbuf length].
    split; [exact R1|]. split; [exact P2|]. split; [lia|]. split.
    + rewrite P4, Q1. Z.div_mod_to_equations. lia.
    + intros [|n] Hn; cbn [nth].
      * rewrite Z.add_0_r, Z.mod_small by lia. rewrite aset_same. reflexivity.
      * rewrite aset_other by (cbn [length] in Hn; Z.div_mod_to_equations; lia). rewrite P5 by (cbn [length] in Hn; lia). f_equal. rewrite Q1. Z.div_mod_to_equations. lia.
  - assert (N : Z.of_nat (length (qputs t vs)) = 1023) by (destruct P as (_ & _ & P3 & _); lia).
    destruct P as (P1 & P2 & P3 & P4 & P5). rewrite N, Q1 in P4.
    assert (RE : forall b p, ring_ok (mkRing b p (rlu r0) (rff r)) []).
    { intros b p. unfold ring_ok. cbn [rlu rff length]. split; [exact R1|]. split; [exact P2|]. split; [lia|]. split; [rewrite P4; Z.div_mod_to_equations; lia|]. intros n Hn. inversion Hn. }
    rewrite (drain_ok [] 1024 _ (RE _ _)) by (cbn [length]; lia). reflexivity.
Qed.
(** Before anything has been read the place to give back to is whatever the memory
    held: outside the buffer for every value but 0..1023. *)
Theorem C65_unget_first : forall gbuf gplu l c, ~ In Get l ->
  (runget (fst (ring_run (new_ring gbuf gplu) l)) c = UB <-> ~ (0 <= gplu < 1024)).
Proof.
  intros gbuf gplu l c N. assert (E : rplu (fst (ring_run (new_ring gbuf gplu) l)) = gplu).
  { assert (X : forall l r, ~ In Get l -> rplu (fst (ring_run r l)) = rplu r).
    { clear. induction l as [|o l IH]; intros r N; [reflexivity|]. cbn [ring_run].
      assert (A : rplu (fst (ring_op r o)) = rplu r).
      { destruct o; cbn [ring_op fst]; [unfold rput; cbv zeta; destruct (_ =? _); reflexivity|exfalso; apply N; left; reflexivity|reflexivity]. }
      destruct (ring_op r o) as [r1 v]. cbn [fst] in A. specialize (IH r1 (fun I => N (or_intror I))). destruct (ring_run r1 l). cbn [fst] in *. congruence. }
    rewrite X by exact N. reflexivity. }
  unfold runget, awr. rewrite E. destruct ((0 <=? gplu) && (gplu <? 1024)) eqn:B; cbn [rbind]; split; intros H; try discriminate; try reflexivity; lia.
Qed.
Example C65_case : exists r', runget (rputs (fst (rget (fst (ring_run (new_ring garb 7) [Put 65; Put 66])))) [67]) 90 = Ok (r', 90) /\ drain 1024 r' = [90; 66; 67].
Proof. eexists. split; [reflexivity|]. vm_compute. reflexivity. Qed.
Theorem C65_unget_limit : exists r r', r = rputs (fst (rget (fst (ring_run (new_ring garb 7) [Put 65])))) (repeat 66 1023) /\
  drain 1024 r = repeat 66 1023 /\ runget r 65 = Ok (r', 65) /\ drain 1024 r' = [].
Proof.
  destruct (C65_unget_exact garb 7 [Put 65] 65 [] (repeat 66 1023) 65 eq_refl) as (r' & E & D).
  exists (rputs (fst (rget (fst (ring_run (new_ring garb 7) [Put 65])))) (repeat 66 1023)), r'.
  split; [reflexivity|]. split; [vm_compute; reflexivity|]. split; [exact E|]. rewrite D. vm_compute. reflexivity.
Qed.

(* ================================================================== C66 *)
(** Whatever keys are pressed, in any of the encodings terminals use, and whenever the
    program fetches input in between: the line being edited, the cursor, and every
    value the program gets are those of the text editor of the specification. *)
Theorem C66_editing : forall gbuf gline gesc gplu glast l, Forall valid l ->
  exists f, session (console gbuf gline gesc gplu glast) l = Ok (f, snd (expected fresh l)) /\
    line_of f = text (fst (expected fresh l)) /\
    fcur f = Z.of_nat (length (before (fst (expected fresh l)))) /\
    readable f = input (fst (expected fresh l)).
Proof.
  intros gbuf gline gesc gplu glast l V.
  destruct (session_ok l _ _ (init_ok gbuf gline gesc gplu glast) ltac:(constructor) V) as (f & E & R & I).
  exists f. split; [exact E|]. split; [apply (line_seen _ _ _ R)|]. split; [apply (R_cur _ _ _ R)|].
  rewrite (readable_ok _ _ (R_ring _ _ _ R)). apply (inp_seen _ I).
Qed.
Definition presses (ks : list (key * list Z)) : list act := map Press ks.
(** "help", two left, DEL, "r", HOME, "x", LF, read 3 values *)
Definition demo : list act :=
  presses (map (fun c => (KChar c, [c])) [104; 101; 108; 112]) ++
  presses [(KLeft, [27; 91; 68]); (KLeft, [27; 91; 68]); (KDel, [27; 91; 51; 126]); (KChar 114, [114]); (KHome, [27; 79; 72]); (KChar 120, [120]); (KEnter 10, [10])] ++ [Fetch 3].
Example C66_case : Forall valid demo /\ snd (expected fresh demo) = repeat [] 11 ++ [[120; 104; 101]] /\
  input (fst (expected fresh demo)) = [114; 112; 10].
Proof. split; [|split; vm_compute; reflexivity]. repeat (constructor; [cbn; constructor; unfold printable; lia|]). repeat constructor. Qed.

(* ================================================================== C67 *)
Definition line_ok (l : list Z) : Prop := Forall (fun c => 32 <= c <= 126) l /\ (length l <= 1023)%nat.
Definition nl_styles : list (list Z) := [[10]; [13]; [13; 10]; [10; 13]].
(** Lines typed with any one of the four newline conventions are readable as the lines
    with a single LF each, up to the 1023 values the buffer takes while nothing is
    read. *)
Theorem C67_lines_exact : forall gbuf gline gesc gplu glast nls ls, In nls nl_styles -> Forall line_ok ls ->
  exists f evs, process_all (console gbuf gline gesc gplu glast) (concat (map (fun l => l ++ nls) ls)) = Ok (f, evs) /\
    line_of f = [] /\ readable f = firstn 1023 (concat (map (fun l => l ++ [10]) ls)).
Proof.
  intros gbuf gline gesc gplu glast nls ls I G.
  assert (G' : Forall goodline ls) by (eapply Forall_impl; [|exact G]; intros l [A B]; split; [exact A|lia]).
  destruct (keys_run (lines_keys ls nls) _ _ (init_ok gbuf gline gesc gplu glast) (lines_valid ls nls G' I)) as (f & evs & E & R & _).
  rewrite lines_bytes in E. exists f, evs. split; [exact E|].
  destruct (type_lines ls nls fresh G' I eq_refl (or_introl eq_refl)) as (T & _ & In1).
  split; [rewrite (line_seen _ _ _ R); exact T|].
  rewrite (readable_ok _ _ (R_ring _ _ _ R)), In1. rewrite qputs_all by (cbn; lia). cbn [input fresh app].
  assert (F : Forall inp (concat (map (fun l => l ++ [10]) ls))).
  { clear - G. induction G as [|l ls [P _] G IH]; [constructor|]. cbn [map concat]. rewrite !Forall_app. repeat split; [|constructor; [left; reflexivity|constructor]|exact IH].
    eapply Forall_impl; [|exact P]. intros c H. right. exact H. }
  apply (inp_seen _ (proj1 (firstn_inp _ _ F))).
Qed.
Corollary C67_lines : forall gbuf gline gesc gplu glast nls ls, In nls nl_styles -> Forall line_ok ls ->
  Z.of_nat (length (concat (map (fun l => l ++ [10]) ls))) <= 1023 ->
  exists f evs, process_all (console gbuf gline gesc gplu glast) (concat (map (fun l => l ++ nls) ls)) = Ok (f, evs) /\
    readable f = concat (map (fun l => l ++ [10]) ls).
Proof.
  intros gbuf gline gesc gplu glast nls ls I G L. destruct (C67_lines_exact gbuf gline gesc gplu glast nls ls I G) as (f & evs & E & _ & R).
  exists f, evs. split; [exact E|]. rewrite R. apply firstn_all2. lia.
Qed.
Example C67_case : exists f evs, process_all con ([97; 98; 13; 10] ++ [13; 10] ++ [99; 13; 10]) = Ok (f, evs) /\ readable f = [97; 98; 10; 10; 99; 10].
Proof. apply (ex_ok _ (fun f _ => readable f = _)). vm_compute. reflexivity. Qed.
(** A line that fills the buffer loses its newline, and a change of the convention
    loses a whole Enter: "a" CR "b" LF delivers only the first line. *)
Theorem C67_lines_limit :
  (exists f evs, process_all con (repeat 97 1023 ++ [10]) = Ok (f, evs) /\ readable f = repeat 97 1023) /\
  (exists f evs, process_all con [97; 13; 98; 10] = Ok (f, evs) /\ readable f = [97; 10] /\ line_of f = [98]).
Proof.
  split.
  - destruct (C67_lines_exact garb garb garb (-5) 99 [10] [repeat 97 1023]) as (f & evs & E & _ & R); [left; reflexivity| |].
    + constructor; [|constructor]. split; [|rewrite repeat_length; lia]. apply Forall_forall. intros x H. apply repeat_spec in H. lia.
    + exists f, evs. split; [|rewrite R; vm_compute; reflexivity]. rewrite <- E. cbn [map concat]. rewrite app_nil_r. reflexivity.
  - apply (ex_ok _ (fun f _ => readable f = [97; 10] /\ line_of f = [98])). vm_compute. split; reflexivity.
Qed.

(* ================================================================== C68 *)
(** Exactly which bytes a terminal may send: the run-time behaviour is undefined if and
    only if an escape sequence reaches 100 bytes or a mouse report names a button that
    is not known (away from the corner of the screen). *)
Theorem C68_bytes_exact : forall gbuf gline gesc gplu glast bs, Forall is_u8 bs ->
  (process_all (console gbuf gline gesc gplu glast) bs = UB <-> overrun [] bs) /\
  (~ overrun [] bs -> exists f evs, process_all (console gbuf gline gesc gplu glast) bs = Ok (f, evs) /\
     (length (line_of f) <= 1023)%nat /\ 0 <= fcur f <= Z.of_nat (length (line_of f))).
Proof.
  intros gbuf gline gesc gplu glast bs B.
  destruct (bytes_exact bs _ _ _ (init_ok gbuf gline gesc gplu glast) ltac:(constructor) B) as [[O U]|[O (f & evs & e & p & E & R)]].
  - split; [tauto|]. intros N. contradiction.
  - split; [split; [intros U|tauto]|].
    + unfold console in U. rewrite E in U. discriminate.
    + intros _. exists f, evs. split; [exact E|]. rewrite (line_seen _ _ _ R). destruct (R_text _ _ _ R) as [_ L]. split; [lia|].
      rewrite (R_cur _ _ _ R). unfold text. rewrite app_length. lia.
Qed.
Lemma no_esc_pending bs : Forall (fun b => is_u8 b /\ b <> 27 /\ b <> 255) bs -> ~ overrun [] bs.
Proof.
  induction 1 as [|b t (Hb & H1 & H2) H IH]; [auto|]. cbn [overrun length bad_mouse]. intros [X|[X|X]]; [lia|discriminate|].
  apply IH. unfold pending in X. unfold i8, u8, is_u8 in *. replace (_ || _) with false in X; [exact X|].
  destruct (b mod 256 <? 128) eqn:E; lia.
Qed.
(** Text without ESC and without byte FFh is always safe. *)
Corollary C68_text_is_safe : forall gbuf gline gesc gplu glast bs, Forall (fun b => is_u8 b /\ b <> 27 /\ b <> 255) bs ->
  exists f evs, process_all (console gbuf gline gesc gplu glast) bs = Ok (f, evs).
Proof.
  intros gbuf gline gesc gplu glast bs B. destruct (C68_bytes_exact gbuf gline gesc gplu glast bs) as [_ H].
  - eapply Forall_impl; [|exact B]. intros b X. apply X.
  - destruct (H (no_esc_pending bs B)) as (f & evs & E & _). eauto.
Qed.
Fixpoint overrunb (pend bs : list Z) : bool :=
  match bs with [] => false | b :: t => (99 <=? length pend)%nat || bad_mouse pend (i8 b) || overrunb (pending pend (i8 b)) t end.
Lemma overrunb_ok bs : forall p, overrunb p bs = false -> ~ overrun p bs.
Proof.
  induction bs as [|b t IH]; intros p H; [auto|]. cbn [overrunb] in H. apply orb_false_elim in H. destruct H as [H H3]. apply orb_false_elim in H. destruct H as [H1 H2].
  apply Nat.leb_gt in H1. cbn [overrun]. intros [X|[X|X]]; [lia|congruence|exact (IH _ H3 X)].
Qed.
(** a click, 5000 bytes of another alphabet, F5 *)
Example C68_case : ~ overrun [] ([27; 91; 77; 32; 40; 50] ++ repeat 200 5000 ++ [27; 91; 49; 53; 126]).
Proof. apply overrunb_ok. vm_compute. reflexivity. Qed.
Theorem C68_bytes_limit : process_all con (27 :: 91 :: repeat 49 98) = UB /\ process_all con [27; 91; 77; 35; 33; 33] = UB.
Proof. split; vm_compute; reflexivity. Qed.

(* ================================================================== C69 *)
Definition ups (n : nat) : list Z := concat (repeat [27; 91; 65] n).
Definition downs (n : nat) : list Z := concat (repeat [27; 91; 66] n).
Lemma nth_skip {A} (d : A) k : forall l i, nth i (skipn k l) d = nth (k + i) l d.
Proof. induction k as [|k IH]; intros [|a l] i; try reflexivity; [destruct i; reflexivity|]. apply IH. Qed.
Lemma keys_repeat (k : key) (b : list Z) n : concat (map snd (repeat (k, b) n)) = concat (repeat b n).
Proof. clear. induction n as [|n IH]; [reflexivity|]. cbn [repeat map concat snd]. f_equal. exact IH. Qed.
(** After entering the lines [ls], [j] times UP and [d] times DOWN show the line entered
    [j - d] lines ago; the last 1001 lines are kept. *)
Theorem C69_history : forall gbuf gline gesc gplu glast nls ls j d,
  In nls nl_styles -> Forall line_ok ls -> Forall (fun l => l <> []) ls ->
  (d < j)%nat -> (j <= length ls)%nat -> (j <= 1001)%nat ->
  exists f evs, process_all (console gbuf gline gesc gplu glast) (concat (map (fun l => l ++ nls) ls) ++ ups j ++ downs d) = Ok (f, evs) /\
    line_of f = nth (length ls - j + d) ls [] /\ fcur f = Z.of_nat (length (line_of f)).
Proof.
  intros gbuf gline gesc gplu glast nls ls j d I G NE D J J2.
  assert (G' : Forall goodline ls) by (eapply Forall_impl; [|exact G]; intros l [A B]; split; [exact A|lia]).
  set (ks := lines_keys ls nls ++ repeat up_key j ++ repeat down_key d).
  assert (V : Forall (fun kb => enc (fst kb) (snd kb)) ks).
  { unfold ks. rewrite !Forall_app. split; [apply lines_valid; assumption|]. split; apply Forall_forall; intros x H; apply repeat_spec in H; subst x; constructor. }
  destruct (keys_run ks _ _ (init_ok gbuf gline gesc gplu glast) V) as (f & evs & E & R & _).
  assert (EB : concat (map snd ks) = concat (map (fun l => l ++ nls) ls) ++ ups j ++ downs d).
  { unfold ks. rewrite !map_app, !concat_app, lines_bytes. unfold up_key, down_key. rewrite !keys_repeat. reflexivity. }
  rewrite EB in E. exists f, evs. split; [exact E|].
  destruct (type_hist nls ls fresh [] G' NE I eq_refl (or_introl eq_refl) eq_refl eq_refl) as (T & P & Q). cbn [app] in P.
  set (e1 := typed fresh (lines_keys ls nls)) in *.
  set (h := lastn 1001 ls) in *.
  assert (Lh : length h = Nat.min 1001 (length ls)) by (unfold h, lastn; rewrite skipn_length; lia).
  assert (B1 : browsing e1 h (length h)) by (unfold browsing; rewrite P in *; split; [reflexivity|]; split; [exact Q|]; rewrite T; symmetry; apply nth_overflow; lia).
  pose proof (browse_ups e1 h j _ B1) as B2.
  pose proof (browse_downs _ h d _ B2 ltac:(lia)) as B3.
  unfold ks in R. rewrite !typed_app in R. fold e1 in R. set (e3 := typed (typed e1 (repeat up_key j)) (repeat down_key d)) in *.
  destruct B3 as (_ & _ & T3). rewrite (line_seen _ _ _ R), T3. split.
  - unfold h at 2. unfold lastn. rewrite nth_skip. f_equal. lia.
  - rewrite (R_cur _ _ _ R), <- T3.
    assert (A : after e3 = []).
    { assert (AU : forall j e, (0 < j)%nat -> after (typed e (repeat up_key j)) = []).
      { clear. induction j as [|j IH]; intros e H; [lia|]. cbn [repeat]. unfold typed. cbn [fold_left]. destruct j as [|j]; [reflexivity|]. apply IH. lia. }
      assert (AD : forall d e, after e = [] -> after (typed e (repeat down_key d)) = []).
      { clear. induction d as [|d IH]; intros e H; [exact H|]. cbn [repeat]. unfold typed. cbn [fold_left]. apply IH. reflexivity. }
      unfold e3. apply AD. apply AU. lia. }
    unfold text. rewrite A, app_nil_r. reflexivity.
Qed.
Example C69_case : exists f evs, process_all con ([97; 10] ++ [98; 98; 10] ++ [99; 10] ++ ups 3 ++ downs 1) = Ok (f, evs) /\ line_of f = [98; 98].
Proof. apply (ex_ok _ (fun f _ => line_of f = _)). vm_compute. reflexivity. Qed.
(** Going back to a line, changing it and leaving it changes the history: the line "b"
    that was entered is gone after UP, ^K, UP, DOWN. *)
Theorem C69_history_limit : exists f evs,
  process_all con ([97; 10] ++ [98; 10] ++ ups 1 ++ [11] ++ ups 1 ++ downs 1) = Ok (f, evs) /\ line_of f = [].
Proof. apply (ex_ok _ (fun f _ => line_of f = _)). vm_compute. reflexivity. Qed.

(* ================================================================== C70 *)
(** The terminal shows the line being edited and the cursor at its place, after every
    sequence of keys, from whatever column the prompt ended at; the start column stays
    until Enter, then it is the first column. *)
Theorem C70_screen : forall gbuf gline gesc gplu glast ks t p,
  Forall (fun kb => enc (fst kb) (snd kb)) ks -> shows t p [] 0 ->
  exists f evs p', process_all (console gbuf gline gesc gplu glast) (concat (map snd ks)) = Ok (f, evs) /\
    shows (play t evs) p' (line_of f) (fcur f) /\ line_of f = text (typed fresh ks) /\ (p' = p \/ p' = 0) /\
    ((forall n b, ~ In (KEnter n, b) ks) -> p' = p).
Proof.
  intros gbuf gline gesc gplu glast ks t p V S.
  destruct (keys_run ks _ _ (init_ok gbuf gline gesc gplu glast) V) as (f & evs & E & R & H).
  destruct (H t p S) as (p' & S' & A & B). exists f, evs, p'. split; [exact E|]. rewrite (line_seen _ _ _ R), (R_cur _ _ _ R).
  split; [exact S'|]. split; [reflexivity|]. split; [exact A|]. intros N. apply B. apply forallb_forall. intros [k b] I. destruct k as [ | | | | | | | | | |n| ]; try reflexivity. exfalso. exact (N n b I).
Qed.
Example C70_case : let ks := [(KChar 97, [97]); (KChar 98, [98]); (KChar 99, [99]); (KLeft, [27; 91; 68]); (KLeft, [27; 91; 68]); (KBack, [127]); (KChar 120, [120])] in
  let t := mkTerm (fun _ => 32) 2 0 in
  Forall (fun kb => enc (fst kb) (snd kb)) ks /\ shows t 2 [] 0 /\ text (typed fresh ks) = [120; 98; 99] /\
  exists f evs, process_all con (concat (map snd ks)) = Ok (f, evs) /\
    (map (cell (play t evs)) [2; 3; 4; 5] = [120; 98; 99; 32] /\ col (play t evs) = 3).
Proof.
  cbv zeta. split; [repeat (constructor; [cbn; constructor; unfold printable; lia|]); constructor|]. split; [unfold shows; cbn [col cell]; repeat split; try lia; intros; destruct (Z.to_nat i); reflexivity|].
  split; [reflexivity|]. apply (ex_ok _ (fun _ evs => _ /\ col (play _ evs) = 3)). vm_compute. split; reflexivity.
Qed.

(* ================================================================== C71 *)
(** In raw mode, however the bytes arrive and whenever they are read, what was read,
    what is readable and what is still to come are together the bytes of the device, in
    order; a byte of 128 or more reads as a negative number. *)
Theorem C71_raw_exact : forall gbuf gline gesc gplu glast bytes l, Forall (fun b => is_u8 b /\ b <> 255) bytes ->
  exists f rest out, raw_session (new_fio gbuf gline gesc gplu glast) bytes l = Ok (f, rest, out) /\
    out ++ readable f ++ map i8 rest = map i8 bytes.
Proof.
  intros gbuf gline gesc gplu glast bytes l F.
  destruct (raw_ok l (new_fio gbuf gline gesc gplu glast) [] bytes eq_refl eq_refl eq_refl (ring_new _ _) F ltac:(constructor)) as (f & rest & out & q & E & R & H & Q).
  exists f, rest, out. split; [exact E|]. cbn [app] in H. rewrite (readable_ok _ _ R), <- H. f_equal. f_equal.
  assert (Hs : forall q, Forall (fun v => -128 <= v < 128 /\ v <> -1) q -> map seen q = q).
  { clear. induction 1 as [|v t Hv Q IH]; [reflexivity|]. cbn [map]. rewrite IH. f_equal. unfold seen. destruct (Z.ltb_spec 0 v); [apply Z.mod_small|]; lia. }
  apply Hs. exact Q.
Qed.
Corollary C71_raw_ascii : forall gbuf gline gesc gplu glast bytes l, Forall (fun b => 0 <= b < 128) bytes ->
  exists f rest out, raw_session (new_fio gbuf gline gesc gplu glast) bytes l = Ok (f, rest, out) /\
    out ++ readable f ++ map i8 rest = bytes.
Proof.
  intros gbuf gline gesc gplu glast bytes l F. destruct (C71_raw_exact gbuf gline gesc gplu glast bytes l) as (f & rest & out & E & H).
  - eapply Forall_impl; [|exact F]. unfold is_u8. intros b X. cbv beta in X. lia.
  - exists f, rest, out. split; [exact E|]. rewrite H. clear - F. induction F as [|b t Hb F IH]; [reflexivity|]. cbn [map]. rewrite IH. f_equal.
    unfold i8, u8. rewrite Z.mod_small by lia. replace (b <? 128) with true by lia. reflexivity.
Qed.
Example C71_case : exists f rest, raw_session (new_fio garb garb garb 1 1) [65; 0; 27; 10; 66; 67] [Arrive 2; Take 5; Arrive 3; Take 1] = Ok (f, rest, [65; 0; 27]) /\ readable f = [10; 66] /\ rest = [67].
Proof. do 2 eexists. split; [vm_compute; reflexivity|]. split; [vm_compute; reflexivity|reflexivity]. Qed.
(** Byte FFh ends a read (and is dropped); the bytes after it stay for the next one. *)
Theorem C71_raw_limit : exists f, raw_session (new_fio garb garb garb 1 1) [65; 255; 66; 200] [Arrive 4; Take 4; Take 4] = Ok (f, [], [65; 66; -56]) /\ readable f = [].
Proof. eexists. split; [vm_compute; reflexivity|]. vm_compute. reflexivity. Qed.

Print Assumptions C64_buffer_is_a_queue.
Print Assumptions C64_first_in_first_out.
Print Assumptions C65_unget_exact.
Print Assumptions C65_unget_first.
Print Assumptions C65_unget_limit.
Print Assumptions C66_editing.
Print Assumptions C67_lines_exact.
Print Assumptions C67_lines.
Print Assumptions C67_lines_limit.
Print Assumptions C68_bytes_exact.
Print Assumptions C68_text_is_safe.
Print Assumptions C68_bytes_limit.
Print Assumptions C69_history.
Print Assumptions C69_history_limit.
Print Assumptions C70_screen.
Print Assumptions C71_raw_exact.
Print Assumptions C71_raw_ascii.
Print Assumptions C71_raw_limit.
