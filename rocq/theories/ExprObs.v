(** A way to show that a text spells given words, for the examples; and the arithmetic
    behind the statements of ExprProps. *)
From Verif Require Import Base FioModel ChrModel ExprTab ExprModel ExprSpec ExprText ExprEqs ExprProofs6.
From Coq Require Import Ascii String.
Open Scope Z_scope.

Definition letterb (c : Z) : bool := (97 <=? c) && (c <=? 122) || (65 <=? c) && (c <=? 90) || (c =? 95).
Definition alnumb (c : Z) : bool := letterb c || (48 <=? c) && (c <=? 57).
Lemma letterb_ok c : letter c -> letterb c = true.
Proof. unfold letter, letterb. lia. Qed.
Lemma alnumb_ok c : alnum c -> alnumb c = true.
Proof. unfold alnum, letter, digit, alnumb, letterb. lia. Qed.
Definition may_followb (s : list Z) (c : Z) : bool :=
  forallb (fun p => negb (prefixb (s ++ [c]) (text (fst p)))) operators &&
  (negb (list_eqb s (text ".")) || negb (letterb c)) &&
  (negb (alnumb (List.last s 0)) || negb (alnumb c) && negb (c =? 36)).
Lemma prefixb_app a q : prefixb a (a ++ q) = true.
Proof. induction a as [|x a IH]; [reflexivity|]. cbn [prefixb app]. rewrite Z.eqb_refl. exact IH. Qed.
Lemma list_eqb_refl a : list_eqb a a = true.
Proof. induction a as [|x a IH]; [reflexivity|]. cbn [list_eqb]. rewrite Z.eqb_refl. exact IH. Qed.
Lemma last_app p (d : Z) : List.last (p ++ [d]) 0 = d.
Proof. induction p as [|x p IH]; [reflexivity|]. cbn [app]. destruct p; [exact IH|exact IH]. Qed.
Lemma may_followb_ok s c : may_followb s c = true -> may_follow s c.
Proof.
  unfold may_followb. intros H. apply andb_prop in H. destruct H as [H H3]. apply andb_prop in H. destruct H as [H1 H2]. split; [|split].
  - intros o t q I E. rewrite forallb_forall in H1. specialize (H1 _ I). cbn [fst] in H1. rewrite E, app_assoc, prefixb_app in H1. discriminate.
  - intros -> L. rewrite list_eqb_refl, (letterb_ok _ L) in H2. discriminate.
  - intros p d -> A. rewrite last_app in H3. rewrite (alnumb_ok _ A) in H3. cbn [negb orb] in H3. apply andb_prop in H3. destruct H3 as [H3 H4]. split; [|lia].
    intros AC. rewrite (alnumb_ok _ AC) in H3. discriminate.
Qed.
(** words separated by nothing or one blank *)
Fixpoint glue (l : list (token * list Z)) : list Z := match l with [] => [] | x :: t => snd x ++ glue t end.
Fixpoint gluedb (l : list (token * list Z)) : bool :=
  match l with
  | [] => true
  | x :: t => (match glue t with [] => true | c :: _ => may_followb (snd x) c end) && gluedb t
  end.
Lemma glue_spelt e l : Forall (fun x => word_text e (fst x) (snd x)) l -> gluedb l = true -> spelt e (map fst l) (glue l).
Proof.
  induction l as [|x l IH]; intros F G; [apply (X_end e []); constructor|].
  inversion F; subst. cbn [gluedb] in G. apply andb_prop in G. destruct G as [G1 G2]. cbn [map glue].
  apply (X_word e (fst x) (snd x) (map fst l) (glue l) []); auto; [constructor|].
  intros c r E. rewrite E in G1. apply may_followb_ok, G1.
Qed.
Lemma first_here {A} n (x : A) l s : n = s -> first_of eq ((n, x) :: l) s x.
Proof. intros ->. constructor. reflexivity. Qed.

(** a small machine: one location of 8 bits at address 5 and a register *)
Definition M0 : machine := mkMach (Z * Z)
  (fun w m a => (if a =? 5 then fst w else 0, w))
  (fun w m a v => if a =? 5 then (v mod 256, snd w) else w)
  (fun w c => (snd w, w)) (fun w c v => (fst w, v)) (fun m => 8).
Definition e0 : names := mkNm [(text "rom", 0)] [(text "x", Located 0 5 None); (text "r", InCell 1); (text "flag", Located 0 5 (Some (3, 3)))].
Lemma M0_quiet : quiet M0.
Proof. split; reflexivity. Qed.
Lemma letter_list c : letterb c = true -> letter c.
Proof. unfold letter, letterb. lia. Qed.
Lemma one_name c : letterb c = true -> name_text [c].
Proof. intros H. apply N_plain, I_plain; [apply letter_list, H|constructor]. Qed.
Lemma text_x : word_text e0 (PTOK_MEMORY, VMem 0 5) (text "x").
Proof.
  apply (T_var e0 _ 0 5 None); [apply one_name; reflexivity|discriminate| |apply first_here; reflexivity].
  intros n m [E|[]]. injection E as <- <-. intros E. discriminate E.
Qed.
Lemma text_r : word_text e0 (PTOK_CELL, VCell 1) (text "r").
Proof.
  apply (T_reg e0 _ 1); [apply one_name; reflexivity|discriminate| |apply F_later; [discriminate|apply first_here; reflexivity]].
  intros n m [E|[]]. injection E as <- <-. intros E. discriminate E.
Qed.
Lemma text_d c : 49 <= c <= 57 -> word_text e0 (PTOK_NUMBER, VNum (c - 48)) [c].
Proof. intros H. replace (c - 48) with (number 10 0 [c]); [apply T_dec; [lia|constructor|]|]; unfold number, digit_val; replace (c <=? 57) with true by lia; [change (2 ^ 63) with 9223372036854775808; lia|lia]. Qed.
Lemma text_o s t : In (s, t) operators -> word_text e0 (t, VNone) (text s).
Proof. apply T_op. Qed.
Ltac in_op := match goal with |- In ?x ?l => let v := eval cbv in x in let r := eval cbv in l in change (In v r); repeat (first [left; reflexivity | right]) end.
Ltac words := repeat (apply Forall_cons; [cbn [fst snd]; first [apply text_x | apply text_r | (apply (text_d 49); lia) | (apply (text_d 50); lia) | (apply (text_d 51); lia) | (apply (text_d 52); lia) | (apply text_o; in_op)]|]); apply Forall_nil.
Ltac up l := apply (W_up _ l); [lia|].

(** ** Arithmetic *)
Lemma word_add_mod a b : a mod 2 ^ 32 = b mod 2 ^ 32 -> word a = word b.
Proof. exact id. Qed.
Definition bin_of (o : asgop) : option binop :=
  match o with Set_ => None | AMul => Some Mul | ADiv => Some Div | AMod => Some Mod | AAdd => Some Add | ASub => Some Sub
  | AShl => Some Shl | AShr => Some Shr | AAnd => Some BAnd | AXor => Some BXor | AOr => Some BOr end.
Lemma signed_word n : word (signed 64 n) = word n.
Proof.
  unfold word, signed. change (64 - 1) with 63. pose proof (Z.div_mod (n + 2 ^ 63) (2 ^ 64) ltac:(lia)) as D.
  replace ((n + 2 ^ 63) mod 2 ^ 64 - 2 ^ 63) with (n + (- ((n + 2 ^ 63) / 2 ^ 64) * 2 ^ 32) * 2 ^ 32) by (change (2 ^ 64) with (2 ^ 32 * 2 ^ 32) in D at 1; lia).
  apply Z.mod_add. lia.
Qed.
Lemma quot_fits old n : 0 <= old < 2 ^ 32 -> n <> 0 -> fit (Z.quot old n) = Ok (Z.quot old n).
Proof.
  intros H N. unfold fit. assert (B : Z.abs (Z.quot old n) <= old).
  { rewrite <- Z.quot_abs by exact N. rewrite (Z.abs_eq old) by lia. rewrite Z.quot_div_nonneg by lia.
    apply Z.div_le_upper_bound; [lia|]. nia. }
  assert (2 ^ 32 < 2 ^ 63) by reflexivity. replace ((- 2 ^ 63 <=? Z.quot old n) && (Z.quot old n <? 2 ^ 63)) with true by lia. reflexivity.
Qed.
Lemma compound_value o b old n : bin_of o = Some b -> 0 <= old < 2 ^ 32 -> (b = Shl \/ b = Shr -> 0 <= n < 32) ->
  match c_assign o old n, c_binop b old n with Ok v, Ok v' => word v = word v' | UB, UB => True | _, _ => False end.
Proof.
  intros B H S. destruct o; cbn [bin_of] in B; inversion B; subst b; clear B; cbn [c_assign c_binop]; try reflexivity.
  - destruct (fit _); [reflexivity|contradiction|exact I] || (unfold fit; destruct (_ && _); [reflexivity|exact I]).
  - destruct (Z.eqb_spec n 0); [exact I|]. rewrite quot_fits by assumption. reflexivity.
  - destruct (Z.eqb_spec n 0); [exact I|]. rewrite quot_fits by assumption. reflexivity.
  - unfold fit; destruct (_ && _); [reflexivity|exact I].
  - unfold fit; destruct (_ && _); [reflexivity|exact I].
  - specialize (S (or_introl eq_refl)). replace ((0 <=? n) && (n <? 32)) with true by lia. replace ((0 <=? n) && (n <? 64)) with true by lia. symmetry. apply signed_word.
  - specialize (S (or_intror eq_refl)). replace ((0 <=? n) && (n <? 32)) with true by lia. replace ((0 <=? n) && (n <? 64)) with true by lia. reflexivity.
Qed.
Lemma sign_extend_ok width v : 0 < width -> 0 <= v < 2 ^ width -> sign_extend width v = if v <? 2 ^ (width - 1) then v else v - 2 ^ width.
Proof.
  intros W V. unfold sign_extend. assert (P : 0 < 2 ^ (width - 1)) by (apply Z.pow_pos_nonneg; lia).
  assert (E : 2 ^ width = 2 * 2 ^ (width - 1)) by (rewrite <- Z.pow_succ_r by lia; f_equal; lia).
  rewrite Z.testbit_eqb by lia. destruct (Z.ltb_spec v (2 ^ (width - 1))) as [C|C].
  - rewrite (Z.div_small v) by lia. reflexivity.
  - assert (D : v / 2 ^ (width - 1) = 1) by (symmetry; apply (Z.div_unique v (2 ^ (width - 1)) 1 (v - 2 ^ (width - 1))); lia). rewrite D. change (1 mod 2 =? 1) with true. cbv iota.
    rewrite Z.mod_eq, D by lia. lia.
Qed.
