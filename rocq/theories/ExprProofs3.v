(** Every expression written as in C is parsed as its tree. *)
From Verif Require Import Base ExprTab ExprModel ExprSpec ExprProofs ExprProofs2.

Definition nt (l : Z) : Z :=
  nth (Z.to_nat l) [nt_primary_expr; nt_postfix_expr; nt_unary_expr; nt_cast_expr; nt_multiplicative_expr; nt_additive_expr;
    nt_shift_expr; nt_relational_expr; nt_equality_expr; nt_and_expr; nt_exclusive_or_expr; nt_inclusive_or_expr;
    nt_logical_and_expr; nt_logical_or_expr; nt_conditional_expr; nt_assignment_expr; nt_expr] 0.
Definition binops : list binop := [Mul; Div; Mod; Add; Sub; Shl; Shr; Lt; Gt; Le; Ge; Eq; Ne; BAnd; BXor; BOr; LAnd; LOr].
(** the tokens that close an expression; then those that cannot follow one: the parser still
    reduces by default before it reports them *)
Definition closers : list Z := [PTOK_END; PTOK_RIGHT_PAREN; PTOK_RIGHT_BRACKET; PTOK_COLON;
  PTOK_NUMBER; PTOK_CELL; PTOK_MEMORY; PTOK_MEMORY_OBJECT; PTOK_LEFT_PAREN; PTOK_TILDE; PTOK_EXCLAMATION; PTOK_INT; undefined_token].
(** tokens that may follow *)
Definition follow (o : bool) (l : Z) : list Z :=
  if o then closers
  else closers ++ [PTOK_COMMA] ++ (if l <=? 13 then [PTOK_QUESTION] else []) ++ map binop_tok (filter (fun b => l <=? prec b) binops).
Lemma follow_in o l t : In t (follow o l) <-> In t closers \/ (o = false /\ (t = PTOK_COMMA \/ (t = PTOK_QUESTION /\ l <= 13) \/ exists b, t = binop_tok b /\ l <= prec b)).
Proof.
  unfold follow. destruct o; [intuition discriminate|]. rewrite !in_app_iff, in_map_iff. split.
  - intros [H|[[H|[]]|[H|(b & H & F)]]]; [auto|right; auto| |].
    + right. split; [reflexivity|]. right. left. destruct (Z.leb_spec l 13); [destruct H as [H|[]]; auto|destruct H].
    + right. split; [reflexivity|]. right. right. exists b. apply filter_In in F. destruct F as [_ F]. split; [auto|lia].
  - intros [H|(_ & [H|[[H L]|(b & H & L)]])]; [auto|right; left; left; auto| |].
    + right. right. left. replace (l <=? 13) with true by lia. left. auto.
    + right. right. right. exists b. split; [auto|]. apply filter_In. split; [destruct b; cbn; tauto|lia].
Qed.
Lemma follow_up o l t : In t (follow o (l + 1)) -> In t (follow o l).
Proof. rewrite !follow_in. intros [H|(O & [H|[[H L]|(b & H & L)]])]; [auto|right; auto| |]; right; (split; [exact O|]); right; [left|right; exists b]; (split; [exact H|lia]). Qed.
Lemma follow_down o l l' t : l' <= l -> In t (follow o l) -> In t (follow o l').
Proof. rewrite !follow_in. intros LE [H|(O & [H|[[H L]|(b & H & L)]])]; [auto|right; auto| |]; right; (split; [exact O|]); right; [left|right; exists b]; (split; [exact H|lia]). Qed.
Lemma follow_closed o l t : In t (follow o l) -> In t (follow false l).
Proof. rewrite !follow_in. intuition. Qed.
Lemma closer_follow o l t : In t closers -> In t (follow o l).
Proof. rewrite follow_in. auto. Qed.

Lemma sym_t s x s' : x < 100 -> sym_next s x = Some s' -> action_of s x = Shift s'.
Proof. intros X. unfold sym_next. replace (x <? 100) with true by lia. destruct (action_of s x); intros H; inversion H. reflexivity. Qed.
Lemma sym_n s n s' : 0 <= n -> sym_next s (100 + n) = Some s' -> goto s n = Some s'.
Proof. intros X. unfold sym_next. replace (100 + n <? 100) with false by lia. replace (100 + n - 100) with n by lia. auto. Qed.

Section P.
Context (M : machine).
Notation W := (World M).
Notation goes := (goes M).
Definition lands (s' s : Z) (v0 : sval) (stk : stack) (toks : list token) (rs : Z) (x : res (Z * W)) : config M + outcome M :=
  match x with
  | Ok (n, w') => inl (mkCf M ((s', VNum n) :: (s, v0) :: stk) toks w' rs)
  | UB => inr (Crash M) | Exit => inr (Broken M)
  end.
Definition landsp (s' s : Z) (v0 : sval) (stk : stack) (toks : list token) (rs : Z) (x : res (Z * Z * W)) : config M + outcome M :=
  match x with
  | Ok (m, a, w') => inl (mkCf M ((s', VMem m a) :: (s, v0) :: stk) toks w' rs)
  | UB => inr (Crash M) | Exit => inr (Broken M)
  end.
Definition PE (o : bool) (l : Z) (e : expr) (ws : list token) : Prop :=
  forall s v0 stk s' t rest w rs, goto s (nt l) = Some s' -> In (fst t) (follow o l) ->
  goes (mkCf M ((s, v0) :: stk) (ws ++ t :: rest) w rs) (lands s' s v0 stk (t :: rest) rs (ev M false e w)).
Definition PP (p : place) (ws : list token) : Prop :=
  forall s v0 stk s' toks w rs, goto s nt_memory = Some s' ->
  goes (mkCf M ((s, v0) :: stk) (ws ++ toks) w rs) (landsp s' s v0 stk toks rs (ev_place M false p w)).

Definition numr (x : res (Z * W)) : res (sval * W) := p <- x ;; Ok (VNum (fst p), snd p).
Lemma after_num r s' s v0 stk toks rs x : after M r s' s v0 stk toks rs (numr x) = lands s' s v0 stk toks rs x.
Proof. destruct x as [[n w]| |]; reflexivity. Qed.
Lemma reduce_num r top b vb stk toks w rs s' x : goto b (fst (rule r)) = Some s' ->
  action_of (fst (hd (b, vb) top)) (fst (head_tok toks)) = Reduce r -> r <> 1 ->
  Z.to_nat (snd (rule r)) = length top -> top <> [] ->
  act M r (rev (map snd top)) w = Some (numr x) ->
  goes (mkCf M (top ++ (b, vb) :: stk) toks w rs) (lands s' b vb stk toks rs x).
Proof. intros G A R L N X. rewrite <- (after_num r). apply reduce_goes; assumption. Qed.
Lemma reduce_val r top b vb stk toks w rs s' v R : goto b (fst (rule r)) = Some s' ->
  action_of (fst (hd (b, vb) top)) (fst (head_tok toks)) = Reduce r -> r <> 1 ->
  Z.to_nat (snd (rule r)) = length top -> top <> [] ->
  act M r (rev (map snd top)) w = Some (Ok (v, w)) ->
  goes (mkCf M ((s', v) :: (b, vb) :: stk) toks w rs) R ->
  goes (mkCf M (top ++ (b, vb) :: stk) toks w rs) R.
Proof. intros G A R1 L N X K. eapply goes_trans; [|exact K]. change (inl ?c) with (after M r s' b vb stk toks rs (Ok (v, w))). apply reduce_goes; assumption. Qed.
Lemma sh s v stk t rest w rs s' R : sym_next s (fst t) = Some s' -> fst t < 100 ->
  goes (mkCf M ((s', snd t) :: (s, v) :: stk) rest w rs) R -> goes (mkCf M ((s, v) :: stk) (t :: rest) w rs) R.
Proof. intros A L K. eapply G_step; [apply shift_step, sym_t; eassumption|exact K]. Qed.
Lemma seqE o l e ws : PE o l e ws -> forall s v0 stk s' t rest w rs R, sym_next s (100 + nt l) = Some s' -> 0 <= nt l -> In (fst t) (follow o l) ->
  (forall n w1, ev M false e w = Ok (n, w1) -> goes (mkCf M ((s', VNum n) :: (s, v0) :: stk) (t :: rest) w1 rs) R) ->
  (ev M false e w = UB -> R = inr (Crash M)) -> (ev M false e w = Exit -> R = inr (Broken M)) ->
  goes (mkCf M ((s, v0) :: stk) (ws ++ t :: rest) w rs) R.
Proof.
  intros P s v0 stk s' t rest w rs R G N F K1 K2 K3. apply sym_n in G; [|exact N]. specialize (P s v0 stk s' t rest w rs G F). unfold lands in P.
  destruct (ev M false e w) as [[n w1]| |]; [eapply goes_trans; [exact P|apply K1; reflexivity]|rewrite K3 by reflexivity; exact P|rewrite K2 by reflexivity; exact P].
Qed.
Lemma seqP p ws : PP p ws -> forall s v0 stk s' toks w rs R, sym_next s (100 + nt_memory) = Some s' ->
  (forall m a w1, ev_place M false p w = Ok (m, a, w1) -> goes (mkCf M ((s', VMem m a) :: (s, v0) :: stk) toks w1 rs) R) ->
  (ev_place M false p w = UB -> R = inr (Crash M)) -> (ev_place M false p w = Exit -> R = inr (Broken M)) ->
  goes (mkCf M ((s, v0) :: stk) (ws ++ toks) w rs) R.
Proof.
  intros P s v0 stk s' toks w rs R G K1 K2 K3. apply (sym_n s nt_memory) in G; [|unfold nt_memory; lia]. specialize (P s v0 stk s' toks w rs G). unfold landsp in P.
  destruct (ev_place M false p w) as [[[m a] w1]| |]; [eapply goes_trans; [exact P|apply K1; reflexivity]|rewrite K3 by reflexivity; exact P|rewrite K2 by reflexivity; exact P].
Qed.

(** ** unit rules *)
Definition unit_rule (l : Z) : Z := nth (Z.to_nat l) [7; 12; 23; 26; 30; 33; 36; 41; 44; 46; 48; 50; 52; 54; 56; 71] 0.
Lemma unit_facts : forallb (fun n => let l := Z.of_nat n in let r := unit_rule l in
  check r (follow false (l + 1)) && (fst (rule r) =? nt (l + 1)) && (snd (rule r) =? 1) && (match nth (Z.to_nat r) rhs [] with [x] => x =? 100 + nt l | _ => false end) && negb (r =? 1)) (seq 0 16) = true.
Proof. vm_compute. reflexivity. Qed.
Lemma unit_act l n w : 0 <= l < 16 -> act M (unit_rule l) [VNum n] w = Some (Ok (VNum n, w)).
Proof.
  intros L. assert (C : l = 0 \/ l = 1 \/ l = 2 \/ l = 3 \/ l = 4 \/ l = 5 \/ l = 6 \/ l = 7 \/ l = 8 \/ l = 9 \/ l = 10 \/ l = 11 \/ l = 12 \/ l = 13 \/ l = 14 \/ l = 15) by lia.
  repeat (destruct C as [-> |C]; [reflexivity|]). subst l. reflexivity.
Qed.
Lemma nt_nonneg l : 0 <= nt l.
Proof.
  unfold nt. set (k := Z.to_nat l). clearbody k. do 17 (destruct k as [|k]; [vm_compute; discriminate|]). destruct k; cbn; lia.
Qed.
Lemma up_ok o l e ws : 0 <= l < 16 -> PE o l e ws -> PE o (l + 1) e ws.
Proof.
  intros L P s v0 stk s' t rest w rs G F.
  pose proof unit_facts as U. rewrite forallb_forall in U. specialize (U (Z.to_nat l) ltac:(apply in_seq; lia)). cbv zeta in U. rewrite Z2Nat.id in U by lia.
  apply andb_prop in U. destruct U as [U U5]. apply andb_prop in U. destruct U as [U U4]. apply andb_prop in U. destruct U as [U U3]. apply andb_prop in U. destruct U as [U1 U2].
  apply Z.eqb_eq in U2. rewrite <- U2 in G. destruct (check_ok _ _ _ _ U1 G) as (e' & PT & RD).
  destruct (nth (Z.to_nat (unit_rule l)) rhs []) as [|x [|? ?]] eqn:RH; try discriminate. apply Z.eqb_eq in U4. subst x. destruct PT as (s1 & G1 & ->).
  pose proof (nt_nonneg l) as NN.
  eapply (seqE o l e ws P); [exact G1|exact NN|apply follow_up, F| | |].
  - intros n w1 E. rewrite E. cbn [lands].
    apply (reduce_val (unit_rule l) [(s1, VNum n)] s v0 stk (t :: rest) w1 rs s' (VNum n)); [exact G| | | |discriminate| |apply G_here].
    + cbn [hd fst head_tok]. apply RD, (follow_closed o), F.
    + apply Bool.negb_true_iff, Z.eqb_neq in U5. exact U5.
    + cbn [length]. apply Z.eqb_eq in U3. rewrite U3. reflexivity.
    + apply unit_act, L.
  - intros E. rewrite E. reflexivity.
  - intros E. rewrite E. reflexivity.
Qed.
End P.
