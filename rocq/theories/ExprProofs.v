(** The automaton of the parser on expressions that are written as in C. *)
From Verif Require Import Base ExprTab ExprModel ExprSpec.

(* ------------------------------------------------------------- the tables *)
Definition all_states : list nat := seq 0 (Z.to_nat nstates).
Lemma goto_nat s n : goto s n = goto (Z.of_nat (Z.to_nat s)) n.
Proof. unfold goto. rewrite Nat2Z.id. reflexivity. Qed.
Lemma action_nat s t : action_of s t = action_of (Z.of_nat (Z.to_nat s)) t.
Proof. unfold action_of. rewrite Nat2Z.id. reflexivity. Qed.
Lemma goto_dom s n s' : goto s n = Some s' -> In (Z.to_nat s) all_states.
Proof.
  intros H. unfold goto in H. destruct (Nat.lt_ge_cases (Z.to_nat s) (Z.to_nat nstates)) as [L|L].
  - apply in_seq. lia.
  - rewrite nth_overflow in H; [discriminate|]. change (length goto_rows) with (Z.to_nat nstates). exact L.
Qed.
Lemma action_final t : action_of final t = Error.
Proof. reflexivity. Qed.

Inductive sym_step : Z -> Z -> Z -> Prop :=
| SS_t s x s' : x < 100 -> action_of s x = Shift s' -> sym_step s x s'
| SS_n s x s' : 100 <= x -> goto s (x - 100) = Some s' -> sym_step s x s'.
Definition sym_next (s x : Z) : option Z :=
  if x <? 100 then match action_of s x with Shift s' => Some s' | _ => None end else goto s (x - 100).
Lemma sym_next_nat s x : sym_next s x = sym_next (Z.of_nat (Z.to_nat s)) x.
Proof. unfold sym_next. rewrite <- goto_nat, <- action_nat. reflexivity. Qed.
Fixpoint path (s : Z) (l : list Z) : option Z :=
  match l with [] => Some s | x :: t => match sym_next s x with Some s' => path s' t | None => None end end.
Fixpoint pathP (s : Z) (l : list Z) (e : Z) : Prop :=
  match l with [] => e = s | x :: t => exists s', sym_next s x = Some s' /\ pathP s' t e end.
Lemma path_ok l : forall s e, path s l = Some e -> pathP s l e.
Proof.
  induction l as [|x l IH]; intros s e H; cbn [path pathP] in *; [injection H as <-; reflexivity|].
  destruct (sym_next s x) as [s'|]; [|discriminate]. exists s'. auto.
Qed.
Definition is_reduce (a : action) (r : Z) : bool := match a with Reduce q => q =? r | _ => false end.
(** every state that can take the left side of rule [r] can take its right side, and then
    reduces on the tokens [la] *)
Definition check (r : Z) (la : list Z) : bool :=
  forallb (fun n => let s := Z.of_nat n in
    match goto s (fst (rule r)) with
    | None => true
    | Some _ => match path s (nth (Z.to_nat r) rhs []) with
                | Some e => forallb (fun t => is_reduce (action_of e t) r) la
                | None => false
                end
    end) all_states.
Lemma check_ok r la s s' : check r la = true -> goto s (fst (rule r)) = Some s' ->
  exists e, pathP s (nth (Z.to_nat r) rhs []) e /\ forall t, In t la -> action_of e t = Reduce r.
Proof.
  intros C G. unfold check in C. rewrite forallb_forall in C. specialize (C _ (goto_dom _ _ _ G)). cbv zeta in C.
  rewrite <- goto_nat, G in C.
  assert (PN : path (Z.of_nat (Z.to_nat s)) (nth (Z.to_nat r) rhs []) = path s (nth (Z.to_nat r) rhs []) \/ nth (Z.to_nat r) rhs [] = []).
  { destruct (nth (Z.to_nat r) rhs []) as [|x l]; [right; reflexivity|left]. cbn [path]. rewrite <- sym_next_nat. reflexivity. }
  destruct PN as [PN|PN].
  - rewrite PN in C. destruct (path s _) as [e|] eqn:E; [|discriminate]. exists e. split; [apply path_ok, E|].
    intros t T. rewrite forallb_forall in C. specialize (C t T). unfold is_reduce in C. destruct (action_of e t); try discriminate. apply Z.eqb_eq in C. subst. reflexivity.
  - rewrite PN in *. cbn [path] in C. exists s. split; [reflexivity|]. intros t T. rewrite forallb_forall in C. specialize (C t T).
    rewrite <- action_nat in C. unfold is_reduce in C. destruct (action_of s t); try discriminate. apply Z.eqb_eq in C. subst. reflexivity.
Qed.
(** the same for rules that are reduced whatever follows *)
Definition check_any (r : Z) : bool :=
  forallb (fun n => let s := Z.of_nat n in
    match goto s (fst (rule r)) with
    | None => true
    | Some _ => match path s (nth (Z.to_nat r) rhs []) with
                | Some e => match nth (Z.to_nat e) act_rows [(0, 0)] with [] => nth (Z.to_nat e) act_defs 0 =? r | _ => false end
                | None => false
                end
    end) all_states.
Lemma check_any_ok r s s' : r <> 0 -> nth (Z.to_nat r) rhs [] <> [] -> check_any r = true -> goto s (fst (rule r)) = Some s' ->
  exists e, pathP s (nth (Z.to_nat r) rhs []) e /\ forall t, action_of e t = Reduce r.
Proof.
  intros R0 NE C G. unfold check_any in C. rewrite forallb_forall in C. specialize (C _ (goto_dom _ _ _ G)). cbv zeta in C.
  rewrite <- goto_nat, G in C.
  assert (PN : path (Z.of_nat (Z.to_nat s)) (nth (Z.to_nat r) rhs []) = path s (nth (Z.to_nat r) rhs [])).
  { destruct (nth (Z.to_nat r) rhs []) as [|x l]; [contradiction|]. cbn [path]. rewrite <- sym_next_nat. reflexivity. }
  rewrite PN in C. destruct (path s _) as [e|] eqn:E; [|discriminate]. exists e. split; [apply path_ok, E|].
  intros t. unfold action_of. destruct (nth (Z.to_nat e) act_rows [(0,0)]) eqn:N; [|discriminate].
  assert (N2 : nth (Z.to_nat e) act_rows [] = []).
  { destruct (Nat.lt_ge_cases (Z.to_nat e) (length act_rows)) as [L|L]; [rewrite <- N; apply nth_indep, L|apply nth_overflow, L]. }
  rewrite N2. cbn [assoc find]. apply Z.eqb_eq in C. rewrite C. destruct (Z.eqb_spec r 0); [contradiction|]. reflexivity.
Qed.

(* ------------------------------------------------------------- the driver *)
Section Run.
Context (M : machine).
Notation W := (World M).
Notation cfg := (config M).
Inductive goes : cfg -> cfg + outcome M -> Prop :=
| G_here c : goes c (inl c)
| G_step c c' r : step M c = inl c' -> goes c' r -> goes c r
| G_end c o : step M c = inr o -> goes c (inr o).
Lemma goes_trans c c' r : goes c (inl c') -> goes c' r -> goes c r.
Proof. intros H. remember (inl c') as x eqn:E. revert c' E. induction H; intros q E; [injection E as <-; auto| |discriminate]. intros K. eapply G_step; eauto. Qed.
Lemma shift_step s v stk t rest w rs s' : action_of s (fst t) = Shift s' ->
  step M (mkCf M ((s, v) :: stk) (t :: rest) w rs) = inl (mkCf M ((s', snd t) :: (s, v) :: stk) rest w rs).
Proof.
  intros A. unfold step. cbn [cstk ctok head_tok tl]. destruct (Z.eqb_spec s final) as [->|N]; [rewrite action_final in A; discriminate|].
  rewrite A. reflexivity.
Qed.
(** what a reduction leads to *)
Definition after (r : Z) (s' b : Z) (vb : sval) (stk : stack) (toks : list token) (rs : Z) (x : res (sval * W)) : cfg + outcome M :=
  match x with
  | Ok (v, w') => inl (mkCf M ((s', v) :: (b, vb) :: stk) toks w' rs)
  | UB => inr (Crash M)
  | _ => inr (Broken M)
  end.
Lemma reduce_goes r top b vb stk toks w rs s' x : action_of (fst (hd (b, vb) top)) (fst (head_tok toks)) = Reduce r -> r <> 1 ->
  Z.to_nat (snd (rule r)) = length top -> top <> [] -> goto b (fst (rule r)) = Some s' ->
  act M r (rev (map snd top)) w = Some x ->
  goes (mkCf M (top ++ (b, vb) :: stk) toks w rs) (after r s' b vb stk toks rs x).
Proof.
  intros A R1 L NE G X.
  assert (S : step M (mkCf M (top ++ (b, vb) :: stk) toks w rs) = after r s' b vb stk toks rs x).
  { unfold step. cbn [cstk ctok cw cres]. destruct top as [|[s v] top]; [contradiction|]. cbn [app hd fst] in *.
    destruct (Z.eqb_spec s final) as [->|N]; [rewrite action_final in A; discriminate|]. rewrite A, L.
    change ((s, v) :: top ++ (b, vb) :: stk) with (((s, v) :: top) ++ (b, vb) :: stk).
    replace (firstn _ _) with ((s, v) :: top) by (symmetry; rewrite firstn_app, Nat.sub_diag, firstn_all, app_nil_r; reflexivity).
    replace (skipn _ _) with ((b, vb) :: stk) by (symmetry; rewrite skipn_app, Nat.sub_diag, skipn_all; reflexivity).
    rewrite G, X. unfold after. destruct x as [[v' w']| |]; [|reflexivity|reflexivity]. f_equal. f_equal. destruct r as [|p|p]; try reflexivity. destruct p; try reflexivity. contradiction. }
  unfold after in *. destruct x as [[v' w']| |]; [eapply G_step; [exact S|apply G_here]|apply G_end, S|apply G_end, S].
Qed.
End Run.
