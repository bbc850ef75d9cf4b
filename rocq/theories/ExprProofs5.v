(** The parser never gets stuck, and every expression written as in C is evaluated as its tree. *)
From Verif Require Import Base ExprTab ExprModel ExprSpec ExprProofs ExprProofs2 ExprProofs3 ExprEqs ExprProofs4.

(* ------------------------------------------------------------- the stack *)
Definition acc (s : Z) : Z := nth (Z.to_nat s) access (-1).
Definition is_state (s : Z) : bool := (0 <=? s) && (s <? nstates).
(** what a symbol carries *)
Definition typed (x : Z) (v : sval) : Prop :=
  if x =? PTOK_NUMBER then exists n, v = VNum n
  else if x =? PTOK_CELL then exists c, v = VCell c
  else if x =? PTOK_MEMORY then exists m a, v = VMem m a
  else if x =? PTOK_MEMORY_OBJECT then exists m, v = VObj m
  else if x =? PTOK_BITS then exists m a ba hi lo, v = VBit m a ba hi lo
  else if x <? 100 then True
  else if x =? 100 + nt_memory then exists m a, v = VMem m a
  else if x =? 100 + nt_bit then exists m a ba hi lo, v = VBit m a ba hi lo
  else exists n, v = VNum n.
Definition link (b s : Z) : bool := match sym_next b (acc s) with Some s' => (s' =? s) && is_state s | None => false end.
Inductive okstk : stack -> Prop :=
| OS_bot v : okstk [(0, v)]
| OS_top s v b vb stk : okstk ((b, vb) :: stk) -> is_state b = true -> link b s = true -> typed (acc s) v -> okstk ((s, v) :: (b, vb) :: stk).
Lemma okstk_state s v stk : okstk ((s, v) :: stk) -> is_state s = true.
Proof. intros H. inversion H; subst; [reflexivity|]. unfold link in *. destruct (sym_next b (acc s)); [|discriminate]. match goal with H : _ && _ = true |- _ => apply andb_prop in H; tauto end. Qed.

(* ------------------------------------------------------------- the tables once more *)
Definition states : list Z := map Z.of_nat all_states.
Lemma in_states s : is_state s = true -> In s states.
Proof. unfold is_state. intros H. apply in_map_iff. exists (Z.to_nat s). split; [lia|]. apply in_seq. unfold nstates in *. lia. Qed.
Definition predt : list (list Z) := Eval vm_compute in map (fun s => filter (fun b => link b s) states) states.
Definition preds (s : Z) : list Z := nth (Z.to_nat s) predt [].
Lemma preds_all : forallb (fun s => forallb (fun b => implb (link b s) (existsb (Z.eqb b) (preds s))) states) states = true.
Proof. vm_compute. reflexivity. Qed.
Lemma preds_ok b s : is_state b = true -> is_state s = true -> link b s = true -> In b (preds s).
Proof.
  intros B S L. pose proof preds_all as H. rewrite forallb_forall in H. specialize (H s (in_states _ S)). rewrite forallb_forall in H. specialize (H b (in_states _ B)).
  rewrite L in H. cbn [implb] in H. apply existsb_exists in H. destruct H as (b' & I & E). apply Z.eqb_eq in E. subst. exact I.
Qed.
Fixpoint backs (lhs : Z) (l : list Z) (s : Z) : bool :=
  match l with
  | [] => match goto s lhs with Some s' => link s s' && (acc s' =? 100 + lhs) | None => false end
  | x :: l' => (0 <? s) && (acc s =? x) && forallb (backs lhs l') (preds s)
  end.
Definition reductions (s : Z) : list Z :=
  let d := nth (Z.to_nat s) act_defs 0 in
  (if d =? 0 then [] else [d]) ++ map (fun p => snd p - 1000) (filter (fun p => 1000 <=? snd p) (nth (Z.to_nat s) act_rows [])).
Lemma reductions_ok s t r : action_of s t = Reduce r -> In r (reductions s).
Proof.
  unfold action_of, reductions. destruct (assoc t _) as [a|] eqn:A.
  - destruct (Z.ltb_spec a 1000); [discriminate|]. intros E. injection E as <-. apply in_or_app. right. unfold assoc in A. destruct (find _ _) as [p|] eqn:F; [|discriminate]. injection A as <-.
    apply find_some in F. apply in_map_iff. exists p. split; [reflexivity|]. apply filter_In. split; [tauto|lia].
  - destruct (_ =? 0); [discriminate|]. intros E. injection E as <-. left. reflexivity.
Qed.
Definition rlen (r : Z) : nat := length (nth (Z.to_nat r) rhs []).
Lemma tables_ok : forallb (fun s => forallb (fun r => (1 <=? r) && (r <? nrules) && (Z.to_nat (snd (rule r)) =? rlen r)%nat && backs (fst (rule r)) (rev (nth (Z.to_nat r) rhs [])) s) (reductions s)) states = true.
Proof. vm_compute. reflexivity. Qed.
Lemma table_ok s r : is_state s = true -> In r (reductions s) ->
  1 <= r < nrules /\ Z.to_nat (snd (rule r)) = rlen r /\ backs (fst (rule r)) (rev (nth (Z.to_nat r) rhs [])) s = true.
Proof.
  intros S I. pose proof tables_ok as H. rewrite forallb_forall in H. specialize (H s (in_states _ S)). rewrite forallb_forall in H. specialize (H r I).
  apply andb_prop in H. destruct H as [H H4]. apply andb_prop in H. destruct H as [H H3]. apply andb_prop in H. destruct H as [H1 H2]. apply Nat.eqb_eq in H3. split; [lia|]. auto.
Qed.
(** what the stack holds when a rule is reduced *)
Lemma backs_ok lhs l : forall s v stk, okstk ((s, v) :: stk) -> backs lhs l s = true ->
  exists b vb rest s', skipn (length l) ((s, v) :: stk) = (b, vb) :: rest /\ okstk ((b, vb) :: rest) /\ goto b lhs = Some s' /\ link b s' = true /\ acc s' = 100 + lhs /\ is_state b = true /\
  Forall2 typed l (map snd (firstn (length l) ((s, v) :: stk))).
Proof.
  induction l as [|x l IH]; intros s v stk K B; cbn [backs] in B.
  - destruct (goto s lhs) as [s'|] eqn:G; [|discriminate]. exists s, v, stk, s'. cbn [length skipn firstn map]. apply andb_prop in B. destruct B as [B1 B2]. pose proof (okstk_state _ _ _ K). apply Z.eqb_eq in B2. repeat split; auto.
  - apply andb_prop in B. destruct B as [B1 B2]. apply andb_prop in B1. destruct B1 as [B0 B1]. apply Z.eqb_eq in B1. inversion K as [|s0 v0 b vb stk0 K1 K2 K3 K4]; subst; [discriminate|].
    rewrite forallb_forall in B2. pose proof (okstk_state _ _ _ K) as SS. specialize (B2 b (preds_ok _ _ K2 SS K3)).
    destruct (IH b vb stk0 K1 B2) as (b0 & vb0 & rest & s' & E1 & E2 & E3 & E4 & E5 & E6 & E7). exists b0, vb0, rest, s'. cbn [length skipn firstn map snd].
    repeat split; auto.
Qed.

(* ------------------------------------------------------------- the actions *)
Lemma typed2 l vs : Forall2 typed l vs -> match l, vs with [], [] => True | x :: l', v :: vs' => typed x v /\ Forall2 typed l' vs' | _, _ => False end.
Proof. intros H. destruct H; auto. Qed.
Ltac tv H := cbv in H; repeat match type of H with exists _, _ => destruct H as [? H] end; try subst.
Ltac tvs := repeat match goal with
  | H : Forall2 typed (_ :: _) ?vs |- _ => apply typed2 in H; destruct vs as [|? ?]; [destruct H|]; let T := fresh in destruct H as [T H]; tv T
  | H : Forall2 typed [] ?vs |- _ => apply typed2 in H; destruct vs as [|? ?]; [clear H|destruct H]
  end.
Section R.
Context (M : machine).
Notation W := (World M).
Definition good (x : Z) (a : option (res (sval * W))) : Prop :=
  match a with Some UB => True | Some (Ok (v, _)) => typed x v | _ => False end.
Lemma good_num l x : x <> Exit -> 100 + l <> 100 + nt_memory -> 100 + l <> 100 + nt_bit -> 0 <= l -> good (100 + l) (Some (numr M x)).
Proof.
  intros X L1 L2 L3. unfold numr. destruct x as [[n w]| |]; cbn [rbind good]; [|contradiction|exact I]. unfold typed.
  repeat match goal with |- context [100 + l =? ?c] => destruct (Z.eqb_spec (100 + l) c) as [E|_]; [first [contradiction|unfold PTOK_NUMBER, PTOK_CELL, PTOK_MEMORY, PTOK_MEMORY_OBJECT, PTOK_BITS in E; lia]|] end.
  replace (100 + l <? 100) with false by lia. eauto.
Qed.
Lemma long_ne n : long n <> Exit. Proof. unfold long. destruct (_ && _); discriminate. Qed.
Lemma cnt32_ne n : cnt32 n <> Exit. Proof. unfold cnt32. destruct (_ && _); discriminate. Qed.
Lemma cnt64_ne n : cnt64 n <> Exit. Proof. unfold cnt64. destruct (_ && _); discriminate. Qed.
Lemma bind_ne {A B} (x : res A) (f : A -> res B) : x <> Exit -> (forall a, x = Ok a -> f a <> Exit) -> rbind x f <> Exit.
Proof. intros H1 H2. destruct x; cbn [rbind]; [apply H2; reflexivity|contradiction|discriminate]. Qed.
Ltac ne := repeat first [discriminate | apply long_ne | apply cnt32_ne | apply cnt64_ne | apply bind_ne; [|intros ? _] | match goal with |- context [if ?b then _ else _] => destruct b end | progress cbv zeta].
Lemma binary_ne op a b : binary op a b <> Exit. Proof. unfold binary. ne. Qed.
Lemma assign_val_ne op a b : assign_val op a b <> Exit. Proof. unfold assign_val. ne. Qed.
Lemma mask_loop_ne n : forall i k, mask_loop n i k <> Exit. Proof. induction n as [|n IH]; intros i k; cbn [mask_loop]; [discriminate|]. destruct (_ && _); [apply IH|discriminate]. Qed.
Lemma bit_mask_ne a b : bit_mask a b <> Exit. Proof. unfold bit_mask. destruct (33 <? b - a); [discriminate|apply mask_loop_ne]. Qed.
Ltac each n tac := lazymatch n with O => idtac | S ?n' => match goal with j : nat |- _ => destruct j as [|j]; [tac|each n' tac] end end.
Lemma act_typed r vs w : 1 <= r < nrules -> Forall2 typed (nth (Z.to_nat r) rhs []) vs -> good (100 + fst (rule r)) (act M r vs w).
Proof.
  intros R T. assert (E : exists j, r = Z.of_nat j /\ (j < 78)%nat) by (exists (Z.to_nat r); unfold nrules in R; lia). destruct E as (j & -> & K). rewrite Nat2Z.id in T.
  unfold rule. rewrite Nat2Z.id.
  each 78%nat ltac:(try lia; cbn [nth rhs] in T; tvs); [..|lia].
  all: clear K R.
  all: match goal with |- good (100 + ?x) ?a => let x' := eval vm_compute in x in change x with x'; let a' := eval hnf in a in change a with a' end.
  all: match goal with
    | |- good (100 + ?l) (Some (rbind ?y _)) => apply (good_num l y); [|discriminate|discriminate|discriminate]
    | |- good _ (Some (Ok (_, _))) => try match goal with |- context [if ?b <? ?c then _ else _] => destruct (b <? c) end; hnf; repeat eexists
    | _ => idtac end.
  all: try discriminate.
  all: try (apply bind_ne; [first [apply binary_ne|apply long_ne]|discriminate]).
  all: try (unfold read_bits, assign_bits, assign_mem, assign_cell; repeat match goal with |- context [let (_, _) := ?x in _] => destruct x end;
    repeat (apply bind_ne; [first [apply bit_mask_ne|apply assign_val_ne|apply cnt32_ne|apply cnt64_ne]|intros ? _]); repeat match goal with |- context [let (_, _) := ?x in _] => destruct x end; 
    repeat (apply bind_ne; [first [apply bit_mask_ne|apply assign_val_ne|apply cnt32_ne|apply cnt64_ne]|intros ? _]); discriminate).
  destruct (_ =? _); [apply (good_num 5 (cast_int M w _ _))|apply (good_num 5 (Ok (rd M w _ _)))]; try discriminate.
  unfold cast_int. destruct (rd _ _ _ _). apply bind_ne; [apply cnt32_ne|discriminate].
Qed.
End R.

(* ------------------------------------------------------------- it ends *)
Definition typed_tok (t : token) : Prop := typed (fst t) (snd t).
(** how far up the chain of unit rules a symbol is *)
Definition rankt : list (Z * Z) := [(121,1);(122,1);(102,2);(103,3);(104,4);(105,5);(107,6);(108,7);(109,8);(110,9);(111,10);(112,11);(113,12);(114,13);(115,14);(116,15);(117,16);(118,17);(120,18);(101,19);(106,1);(119,1)].
Definition rank (x : Z) : Z := match assoc x rankt with Some n => n | None => 0 end.
Lemma rank_facts : forallb (fun r => (2 <=? rlen r)%nat || match nth (Z.to_nat r) rhs [] with [x] => rank x <? rank (100 + fst (rule r)) | _ => false end) (map Z.of_nat (seq 1 77)) = true.
Proof. vm_compute. reflexivity. Qed.
Lemma rank_range x : 0 <= rank x < 20.
Proof.
  unfold rank, assoc. destruct (find _ rankt) as [p|] eqn:F; [|lia]. apply find_some in F. destruct F as [F _].
  assert (B : forallb (fun p => (0 <=? snd p) && (snd p <? 20)) rankt = true) by reflexivity. rewrite forallb_forall in B. specialize (B p F). lia.
Qed.
Definition shifts_end : list Z := filter (fun s => match action_of s PTOK_END with Shift s' => negb (s' =? final) | _ => false end) states.
Lemma shift_facts : forallb (fun s => forallb (fun t => match action_of s t with Shift s' => (acc s' =? t) && is_state s' && (negb (t =? PTOK_END) || (s' =? final)) | _ => true end) (map Z.of_nat (seq 0 48))) states = true.
Proof. vm_compute. reflexivity. Qed.
Lemma shift_tokens : forallb (fun s => forallb (fun p => (1000 <=? snd p) || (0 <=? fst p) && (fst p <? 48)) (nth (Z.to_nat s) act_rows [])) states = true.
Proof. vm_compute. reflexivity. Qed.
Lemma shift_ok s t s' : is_state s = true -> action_of s t = Shift s' -> link s s' = true /\ acc s' = t /\ (t = PTOK_END -> s' = final).
Proof.
  intros S A.
  assert (T : 0 <= t < 48).
  { pose proof shift_tokens as H. rewrite forallb_forall in H. specialize (H s (in_states _ S)). unfold action_of, assoc in A. destruct (find _ _) as [p|] eqn:F; [|destruct (_ =? 0); discriminate].
    apply find_some in F. destruct F as [F1 F2]. rewrite forallb_forall in H. specialize (H p F1). destruct (Z.ltb_spec (snd p) 1000); [|discriminate]. lia. }
  pose proof shift_facts as H. rewrite forallb_forall in H. specialize (H s (in_states _ S)). rewrite forallb_forall in H. specialize (H t ltac:(apply in_map_iff; exists (Z.to_nat t); split; [lia|apply in_seq; lia])).
  rewrite A in H. apply andb_prop in H. destruct H as [H H3]. apply andb_prop in H. destruct H as [H1 H2]. apply Z.eqb_eq in H1. repeat split; [|exact H1|].
  - unfold link. rewrite H1. unfold sym_next. replace (t <? 100) with true by lia. rewrite A, Z.eqb_refl. exact H2.
  - intros ->. cbn in H3. apply Z.eqb_eq. exact H3.
Qed.
Lemma F2_len l vs : Forall2 typed l vs -> length l = length vs.
Proof. induction 1; cbn [length]; congruence. Qed.
Lemma F2_rev l vs : Forall2 typed l vs -> Forall2 typed (rev l) (rev vs).
Proof. induction 1; cbn [rev]; [constructor|]. apply Forall2_app; [assumption|repeat constructor; assumption]. Qed.
Section T.
Context (M : machine).
Notation W := (World M).
Definition okc (c : config M) : Prop := okstk (cstk M c) /\ Forall typed_tok (ctok M c).
Definition mu (c : config M) : Z :=
  match cstk M c with
  | [] => 0
  | (s, _) :: _ => if s =? final then 0 else 1 + 40 * Z.of_nat (length (ctok M c)) + 20 * Z.of_nat (length (cstk M c)) + (20 - rank (acc s))
  end.
Lemma step_ok c : okc c ->
  match step M c with
  | inl c' => okc c' /\ 0 <= mu c' < mu c
  | inr o => o <> Broken M /\ o <> Fuel M
  end.
Proof.
  intros [K T]. unfold step. destruct c as [stk toks w rs]. cbn [cstk ctok cw cres] in *.
  destruct stk as [|[s v] stk]; [inversion K|]. pose proof (okstk_state _ _ _ K) as SS.
  destruct (Z.eqb_spec s final) as [E|NF]; [split; discriminate|].
  destruct (action_of s _) as [s'|r|] eqn:A; [| |split; discriminate].
  - destruct (shift_ok _ _ _ SS A) as (L & AC & EN).
    assert (TY : typed (acc s') (snd (head_tok toks))) by (rewrite AC; destruct toks as [|t l]; [exact I|inversion T; assumption]).
    split; [split; cbn [cstk ctok]; [apply OS_top; assumption|destruct toks; [constructor|inversion T; assumption]]|].
    unfold mu. cbn [cstk ctok]. replace (s =? final) with false by lia. pose proof (rank_range (acc s)). pose proof (rank_range (acc s')).
    destruct toks as [|t l]; cbn [tl length]; [rewrite (EN eq_refl); cbn [final Z.eqb Pos.eqb]; lia|]. destruct (s' =? final); lia.
  - apply reductions_ok in A. destruct (table_ok _ _ SS A) as (R & RL & B). destruct (backs_ok _ _ _ _ _ K B) as (b & vb & rest & s' & E1 & E2 & E3 & E4 & E5 & E6 & E7).
    assert (FL : length (firstn (rlen r) ((s, v) :: stk)) = rlen r).
    { apply F2_len in E7. rewrite map_length, rev_length in E7. unfold rlen. symmetry. exact E7. }
    rewrite rev_length in *. unfold rlen in RL, FL. rewrite RL, E1, E3.
    assert (TV : Forall2 typed (nth (Z.to_nat r) rhs []) (rev (map snd (firstn (length (nth (Z.to_nat r) rhs [])) ((s, v) :: stk))))).
    { rewrite <- (rev_involutive (nth (Z.to_nat r) rhs [])) at 1. apply F2_rev, E7. }
    pose proof (act_typed M r _ w R TV) as G. destruct (act M r _ w) as [[[v' w']| |]|]; cbn [good] in G; try contradiction; [|split; discriminate].
    split.
    + split; cbn [cstk ctok]; [|exact T]. apply OS_top; [exact E2|exact E6|exact E4|rewrite E5; exact G].
    + unfold mu. cbn [cstk ctok]. replace (s =? final) with false by lia. pose proof (rank_range (acc s)) as RA. pose proof (rank_range (acc s')) as RB.
      assert (LL : length ((s, v) :: stk) = (rlen r + length ((b, vb) :: rest))%nat).
      { rewrite <- E1, skipn_length. unfold rlen. pose proof (firstn_length (length (nth (Z.to_nat r) rhs [])) ((s, v) :: stk)). lia. }
      pose proof rank_facts as RF. rewrite forallb_forall in RF. specialize (RF r ltac:(apply in_map_iff; exists (Z.to_nat r); split; [lia|apply in_seq; unfold nrules in R; lia])).
      assert (D : (2 <= rlen r)%nat \/ (rlen r = 1%nat /\ rank (acc s) < rank (acc s'))).
      { apply orb_prop in RF. destruct RF as [RF|RF]; [left; apply Nat.leb_le, RF|right]. unfold rlen. destruct (nth (Z.to_nat r) rhs []) as [|x [|? ?]] eqn:N; try discriminate. split; [reflexivity|].
        cbn [rev app backs] in B. apply andb_prop in B. destruct B as [B _]. apply andb_prop in B. destruct B as [_ B]. apply Z.eqb_eq in B. rewrite B, E5. lia. }
      destruct (s' =? final); cbn [length] in *; lia.
Qed.
Lemma run_ok n : forall c, okc c -> mu c < Z.of_nat n -> run M n c <> Broken M /\ run M n c <> Fuel M.
Proof.
  induction n as [|n IH]; intros c K L.
  - exfalso. destruct c as [stk toks w rs]. unfold mu in L. cbn [cstk ctok] in L. destruct stk as [|[s v] stk]; [lia|]. destruct (s =? final); [lia|]. pose proof (rank_range (acc s)). lia.
  - cbn [run]. pose proof (step_ok c K) as S. destruct (step M c) as [c'|o]; [|exact S]. destruct S as [S1 S2]. apply IH; [exact S1|lia].
Qed.
Lemma parse_ok l w : Forall typed_tok l -> parse M l w <> Broken M /\ parse M l w <> Fuel M.
Proof.
  intros T. apply run_ok; [split; [constructor|exact T]|]. unfold mu, start, fuel_for. cbn [cstk ctok length]. change (0 =? final) with false. cbv iota. change (rank (acc 0)) with 0. lia.
Qed.
Lemma goes_run c o : goes M c (inr o) -> forall n, run M n c = Fuel M \/ run M n c = o.
Proof.
  intros H. remember (inr o) as r eqn:E. induction H as [c|c c' r S H IH|c o' S]; [discriminate| |injection E as ->]; intros [|n]; cbn [run]; auto; rewrite S; auto.
Qed.

(* ------------------------------------------------------------- every expression written as in C *)
Scheme writes_ind2 := Induction for writes Sort Prop with wplace_ind2 := Induction for wplace Sort Prop.
Lemma tk_bin b : typed_tok (k (binop_tok b)). Proof. destruct b; exact I. Qed.
Lemma tk_un b : typed_tok (k (unop_tok b)). Proof. destruct b; exact I. Qed.
Lemma tk_asg b : typed_tok (k (asgop_tok b)). Proof. destruct b; exact I. Qed.
Lemma tk_bump d : typed_tok (k (bump_tok d)). Proof. unfold bump_tok. destruct (d =? 1); exact I. Qed.
Ltac toks := repeat match goal with |- Forall _ (_ ++ _) => apply Forall_app; split | |- Forall _ (_ :: _) => constructor | |- Forall _ [] => constructor | _ => assumption end;
  try first [exact I|apply tk_bin|apply tk_un|apply tk_asg|apply tk_bump|hnf; repeat eexists].
Lemma writes_all : (forall o l e ws, writes o l e ws -> PE M o l e ws /\ Forall typed_tok ws) /\ (forall p ws, wplace p ws -> PP M p ws /\ Forall typed_tok ws).
Proof.
  enough (Q : forall o l e ws (H : writes o l e ws), PE M o l e ws /\ Forall typed_tok ws).
  { split; [exact Q|]. intros p ws H. destruct H; [split; [apply name_ok|toks]|]. destruct (Q _ _ _ _ H) as [Q1 Q2]. split; [apply (at_ok M o), Q1|toks]. }
  apply (writes_ind2 (fun o l e ws _ => PE M o l e ws /\ Forall typed_tok ws) (fun p ws _ => PP M p ws /\ Forall typed_tok ws)).
  all: intros; repeat match goal with H : _ /\ _ |- _ => destruct H end.
  all: split; [|toks].
  - apply num_ok.
  - apply get_ok; assumption.
  - apply reg_ok.
  - eapply paren_ok; eassumption.
  - eapply dot_ok; eassumption.
  - eapply field_ok; eassumption.
  - apply post_ok; assumption.
  - apply postr_ok; assumption.
  - apply pre_ok; assumption.
  - apply prer_ok; assumption.
  - apply addr_ok; assumption.
  - eapply addrbit_ok; eassumption.
  - eapply addrfield_ok; eassumption.
  - apply un_ok; assumption.
  - apply int_ok; assumption.
  - apply bin_ok; assumption.
  - eapply cond_ok; eassumption.
  - apply asg_ok; assumption.
  - apply asgr_ok; assumption.
  - apply asgbit1_ok; assumption.
  - eapply asgbit2_ok; eassumption.
  - eapply asgfield_ok; eassumption.
  - apply comma_ok; assumption.
  - apply up_ok; [lia|assumption].
  - apply name_ok.
  - eapply at_ok; eassumption.
Qed.
(** the whole text *)
Definition ended (t : Z) (n : Z) (w' : W) : outcome M := if t =? PTOK_END then Accept M w' n else SynErr M w' n.
Lemma parse_writes o e ws t rest w : writes o 16 e ws -> In (fst t) closers -> typed_tok t -> Forall typed_tok rest ->
  parse M (ws ++ t :: rest) w = match ev M false e w with Ok (n, w') => ended (fst t) n w' | UB => Crash M | Exit => Broken M end.
Proof.
  intros H TC TT TR. destruct (proj1 writes_all _ _ _ _ H) as [P T].
  assert (G : goes M (start M (ws ++ t :: rest) w) (inr (match ev M false e w with Ok (n, w') => ended (fst t) n w' | UB => Crash M | Exit => Broken M end))).
  { unfold start. destruct (goto 0 (nt 16)) as [s'|] eqn:G0; [|discriminate].
    specialize (P 0 VNone [] s' t rest w 0 G0 ltac:(apply closer_follow, TC)). unfold lands in P.
    destruct (ev M false e w) as [[n w']| |]; [|exact P|exact P]. eapply goes_trans; [exact P|].
    vm_compute in G0. injection G0 as <-. destruct t as [t v]. cbn [fst] in *. unfold closers in TC. cbn [In] in TC. clear -TC.
    destruct TC as [<-|TC]; [eapply G_step; [reflexivity|]; eapply G_step; [reflexivity|]; apply G_end; reflexivity|].
    repeat (destruct TC as [<-|TC]; [eapply G_step; [reflexivity|]; apply G_end; reflexivity|]). destruct TC. }
  destruct (goes_run _ _ G (fuel_for (ws ++ t :: rest))) as [F|F]; [|exact F].
  destruct (parse_ok (ws ++ t :: rest) w) as [_ NF]; [|exfalso; apply NF, F]. toks.
Qed.
End T.
