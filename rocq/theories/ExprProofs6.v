(** Consequences for texts. *)
From Verif Require Import Base FioModel ChrModel ChrProofs2 ExprTab ExprModel ExprSpec ExprText ExprProofs ExprProofs2 ExprProofs3 ExprEqs ExprProofs4 ExprProofs5 ExprLex.
From Coq Require Import Ascii String.
Open Scope Z_scope.

Section M.
Context (M : machine).
Notation W := (World M).
Definition given (x : res (Z * W)) (err : bool) : result W := match x with Ok (n, w') => Value (word n) err w' | _ => Undefined end.
Lemma eval_text e s t w : text_of e s t -> eval M e s w = given (ev M false t w) false.
Proof.
  intros (o & ts & H & S). unfold eval, eval_tokens. rewrite (lex_spelt _ _ _ S). pose proof (parse_writes M o t ts (PTOK_END, VNone) [] w H ltac:(left; reflexivity) I (Forall_nil _)) as P. unfold token in *. rewrite P. clear P.
  unfold ended. cbn [fst]. rewrite Z.eqb_refl. destruct (ev M false t w) as [[n w']| |]; reflexivity.
Qed.
Lemma eval_rest e s t ts x rest w o : writes o 16 t ts -> spelt e (ts ++ x :: rest) s -> In (fst x) closers -> fst x <> PTOK_END -> eval M e s w = given (ev M false t w) true.
Proof.
  intros H S C N. pose proof (lex_spelt _ _ _ S) as L. pose proof (lex_typed e (List.length s) s) as T. change (lex_loop (List.length s) e s) with (lex e s) in T. rewrite L in T.
  rewrite <- app_assoc in L, T. cbn [app] in L, T. apply Forall_app in T. destruct T as [_ T]. inversion T; subst.
  unfold eval, eval_tokens. rewrite L. match goal with |- context [parse M (ts ++ x :: ?r) w] => pose proof (parse_writes M o t ts x r w H C ltac:(assumption) ltac:(assumption)) as P end. unfold token in *. rewrite P. clear P.
  unfold ended. replace (fst x =? PTOK_END) with false by lia. destruct (ev M false t w) as [[n w']| |]; reflexivity.
Qed.
Lemma eval_total e s w : parse M (lex e s) w <> Broken M /\ parse M (lex e s) w <> Fuel M.
Proof. apply parse_ok, lex_typed. Qed.

(** ** C *)
Scheme expr_ind2 := Induction for expr Sort Prop with place_ind2 := Induction for place Sort Prop.
Lemma ex_all (P : expr -> Prop) (Q : place -> Prop) : (forall n, P (Num n)) -> (forall p, Q p -> P (Get p)) -> (forall c, P (Reg c)) -> (forall p i, Q p -> P i -> P (BitOf p i)) ->
  (forall p i j, Q p -> P i -> P j -> P (Field p i j)) -> (forall pre d p, Q p -> P (Bump pre d p)) -> (forall pre d c, P (BumpR pre d c)) ->
  (forall p, Q p -> P (Addr p)) -> (forall p i, Q p -> P i -> P (AddrBit p i)) -> (forall p i j, Q p -> P i -> P j -> P (AddrField p i j)) ->
  (forall o a, P a -> P (Un o a)) -> (forall p, Q p -> P (SignExt p)) -> (forall o a b, P a -> P b -> P (Bin o a b)) -> (forall c a b, P c -> P a -> P b -> P (Cond c a b)) ->
  (forall p o a, Q p -> P a -> P (Asg p o a)) -> (forall c o a, P a -> P (AsgR c o a)) -> (forall p i a, Q p -> P i -> P a -> P (AsgBit p i a)) ->
  (forall p i j a, Q p -> P i -> P j -> P a -> P (AsgField p i j a)) -> (forall a b, P a -> P b -> P (Comma a b)) -> (forall m a, Q (Named m a)) -> (forall m a, P a -> Q (At m a)) ->
  (forall e, P e) /\ (forall p, Q p).
Proof.
  intros. split.
  - apply (expr_ind2 P Q); auto.
  - apply (place_ind2 P Q); auto.
Qed.
Lemma load_quiet w m a : quiet M -> snd (load M w m a) = w.
Proof. intros [H _]. apply H. Qed.
Lemma loadr_quiet w c : quiet M -> snd (loadr M w c) = w.
Proof. intros [_ H]. apply H. Qed.
Ltac bd H := match type of H with
  | rbind ?y _ = Ok _ => let E := fresh "E" in destruct y as [x| |] eqn:E; cbn [rbind] in H; [|discriminate H|discriminate H]
  end.
Lemma pure_same : quiet M ->
  (forall e, pure e = true -> forall w n w', ev M false e w = Ok (n, w') -> w' = w /\ ev M true e w = Ok (n, w')) /\
  (forall p, pure_place p = true -> forall w m a w', ev_place M false p w = Ok (m, a, w') -> w' = w /\ ev_place M true p w = Ok (m, a, w')).
Proof.
  intros Q. apply ex_all.
  all: try (intros; discriminate).
  - intros n _ w v w' H. rewrite e_Num in *. injection H as <- <-. auto.
  - intros p IH PU w v w' H. cbn [pure] in PU. rewrite e_Get in *. bd H. destruct x as [[m a] w1]. destruct (IH PU _ _ _ _ E) as [-> E2]. rewrite E2. cbn [rbind].
    assert (L : load M w m a = (v, w')) by congruence. pose proof (load_quiet w m a Q) as LQ. rewrite L in LQ. cbn [snd] in LQ. auto.
  - intros c _ w v w' H. rewrite e_Reg in *. assert (L : loadr M w c = (v, w')) by congruence. pose proof (loadr_quiet w c Q) as LQ. rewrite L in LQ. cbn [snd] in LQ. auto.
  - intros p i IP II PU w v w' H. cbn [pure] in PU. apply andb_prop in PU. destruct PU as [P1 P2]. rewrite e_BitOf in *. bd H. destruct x as [[m a] w1]. destruct (IP P1 _ _ _ _ E) as [-> E2]. rewrite E2. cbn [rbind].
    bd H. destruct x as [n1 w2]. destruct (II P2 _ _ _ E0) as [-> E3]. rewrite E3. cbn [rbind]. cbv zeta in *. destruct (bits_ok _ _); [|discriminate]. rewrite load_quiet in * by exact Q. assert (w' = w) by congruence. auto.
  - intros p i j IP II IJ PU w v w' H. cbn [pure] in PU. apply andb_prop in PU. destruct PU as [PU P3]. apply andb_prop in PU. destruct PU as [P1 P2]. rewrite e_Field in *. bd H. destruct x as [[m a] w1]. destruct (IP P1 _ _ _ _ E) as [-> E2]. rewrite E2. cbn [rbind].
    bd H. destruct x as [n1 w2]. destruct (II P2 _ _ _ E0) as [-> E3]. rewrite E3. cbn [rbind]. bd H. destruct x as [n2 w3]. destruct (IJ P3 _ _ _ E1) as [-> E4]. rewrite E4. cbn [rbind].
    cbv zeta in *. destruct (bits_ok _ _); [|discriminate]. rewrite load_quiet in * by exact Q. assert (w' = w) by congruence. auto.
  - intros p IH PU w v w' H. cbn [pure] in PU. rewrite e_Addr in *. bd H. destruct x as [[m a] w1]. destruct (IH PU _ _ _ _ E) as [-> E2]. rewrite E2. cbn [rbind]. assert (w' = w) by congruence. auto.
  - intros p i IP II PU w v w' H. cbn [pure] in PU. apply andb_prop in PU. destruct PU as [P1 P2]. rewrite e_AddrBit in *. bd H. destruct x as [[m a] w1]. destruct (IP P1 _ _ _ _ E) as [-> E2]. rewrite E2. cbn [rbind].
    bd H. destruct x as [n1 w2]. destruct (II P2 _ _ _ E0) as [-> E3]. rewrite E3. cbn [rbind]. assert (w' = w) by congruence. auto.
  - intros p i j IP II IJ PU w v w' H. cbn [pure] in PU. apply andb_prop in PU. destruct PU as [PU P3]. apply andb_prop in PU. destruct PU as [P1 P2]. rewrite e_AddrField in *. bd H. destruct x as [[m a] w1]. destruct (IP P1 _ _ _ _ E) as [-> E2]. rewrite E2. cbn [rbind].
    bd H. destruct x as [n1 w2]. destruct (II P2 _ _ _ E0) as [-> E3]. rewrite E3. cbn [rbind]. bd H. destruct x as [n2 w3]. destruct (IJ P3 _ _ _ E1) as [-> E4]. rewrite E4. cbn [rbind]. assert (w' = w) by congruence. auto.
  - intros o a IA PU w v w' H. cbn [pure] in PU. rewrite e_Un in *. bd H. destruct x as [n1 w1]. destruct (IA PU _ _ _ E) as [-> E2]. rewrite E2. cbn [rbind]. split; [|exact H]. bd H. congruence.
  - intros p IH PU w v w' H. cbn [pure] in PU. rewrite e_SignExt in *. bd H. destruct x as [[m a] w1]. destruct (IH PU _ _ _ _ E) as [-> E2]. rewrite E2. cbn [rbind]. split; [|exact H].
    destruct (load M w m a) as [v0 w2] eqn:LD. assert (w2 = snd (load M w m a)) by (rewrite LD; reflexivity). rewrite load_quiet in H0 by exact Q. destruct (_ && _); [|discriminate]. congruence.
  - intros o a b IA IB PU w v w' H. cbn [pure] in PU. apply andb_prop in PU. destruct PU as [P1 P2]. rewrite e_Bin in *. bd H. destruct x as [n1 w1]. destruct (IA P1 _ _ _ E) as [-> E2]. rewrite E2. cbn [rbind] in *. cbv zeta in *.
    assert (K : (y <- ev M false b w ;; (let '(n2, w2) := y in v0 <- c_binop o n1 n2 ;; Ok (v0, w2))) = Ok (v, w')) by (destruct o; exact H).
    pose proof K as K0. bd K. destruct x as [n2 w2]. destruct (IB P2 _ _ _ E0) as [-> E3]. rewrite E3. cbn [rbind]. rewrite K. bd K. assert (w' = w) by congruence. subst w'. split; [reflexivity|].
    assert (XV : x = v) by congruence. subst x. destruct o; try reflexivity; cbn [c_binop] in E1.
    + destruct (n1 =? 0) eqn:Z1; [|reflexivity]. rewrite ?Z1 in *. cbn [andb negb truth] in *. congruence.
    + destruct (n1 =? 0) eqn:Z1; [reflexivity|]. rewrite ?Z1 in *. cbn [andb negb orb truth] in *. congruence.
  - intros c a b IC IA IB PU w v w' H. cbn [pure] in PU. apply andb_prop in PU. destruct PU as [PU P3]. apply andb_prop in PU. destruct PU as [P1 P2]. rewrite e_Cond in *. bd H. destruct x as [n1 w1]. destruct (IC P1 _ _ _ E) as [-> E2]. rewrite E2. cbn [rbind] in *.
    bd H. destruct x as [n2 w2]. destruct (IA P2 _ _ _ E0) as [-> E3]. bd H. destruct x as [n3 w3]. destruct (IB P3 _ _ _ E1) as [-> E4]. destruct (n1 =? 0); split; congruence.
  - intros a b IA IB PU w v w' H. cbn [pure] in PU. apply andb_prop in PU. destruct PU as [P1 P2]. rewrite e_Comma in *. bd H. destruct x as [n1 w1]. destruct (IA P1 _ _ _ E) as [-> E2]. rewrite E2. cbn [rbind snd] in *. apply IB; assumption.
  - intros m a _ w m' a' w' H. rewrite e_Named in *. split; [congruence|exact H].
  - intros m a IA PU w m' a' w' H. cbn [pure_place] in PU. rewrite e_At in *. bd H. destruct x as [n1 w1]. destruct (IA PU _ _ _ E) as [-> E2]. rewrite E2. cbn [rbind]. split; [congruence|exact H].
Qed.
Ltac sp PU := repeat match type of PU with _ && _ = true => let P := fresh "P" in apply andb_prop in PU; destruct PU as [PU P] end.
Lemma plain_same : (forall e, plain e = true -> forall w, ev M true e w = ev M false e w) /\ (forall p, plain_place p = true -> forall w, ev_place M true p w = ev_place M false p w).
Proof.
  apply ex_all; intros; try discriminate; try reflexivity;
    match goal with PU : _ = true |- _ => cbn [plain plain_place] in PU; try (match type of PU with match ?o with _ => _ end = _ => destruct o end; try discriminate PU); sp PU end; evc; symmetry; evc; symmetry;
    repeat match goal with
    | H : plain_place ?p = true -> _, P : plain_place ?p = true |- _ => specialize (H P)
    | H : plain ?p = true -> _, P : plain ?p = true |- _ => specialize (H P)
    end;
    repeat (match goal with H : forall w, ev_place M true ?p w = _ |- context [ev_place M true ?p _] => rewrite H | H : forall w, ev M true ?p w = _ |- context [ev M true ?p _] => rewrite H end; 
    match goal with |- rbind ?x _ = rbind ?x _ => destruct x as [[? ?]| |]; cbn [rbind snd]; try reflexivity; repeat match goal with p : _ * _ |- _ => destruct p end end); try reflexivity; auto.
Qed.
End M.

(* ------------------------------------------------------------- bits *)
Lemma signed_small n : 0 <= n < 32 -> signed 32 n = n.
Proof. intros H. unfold signed. rewrite Z.mod_small by (change (32 - 1) with 31; lia). lia. Qed.
Lemma word_small n : 0 <= n < 2 ^ 32 -> word n = n.
Proof. intros H. apply Z.mod_small, H. Qed.
Lemma high_bits v j : 0 <= v < 2 ^ 32 -> 32 <= j -> Z.testbit v j = false.
Proof.
  intros V J. destruct (Z.eq_dec v 0) as [->|NZ]; [apply Z.bits_0|]. apply Z.bits_above_log2; [lia|]. apply Z.log2_lt_pow2; [lia|]. pose proof (Z.pow_le_mono_r 2 32 j ltac:(lia) J). lia.
Qed.
Lemma maskv_bit lo hi j : 0 <= lo <= hi -> 0 <= j -> Z.testbit (maskv lo hi) j = (lo <=? j) && (j <=? hi).
Proof.
  intros H J. unfold maskv. replace (hi <? lo) with false by lia. rewrite <- Z.shiftl_mul_pow2, Z.shiftl_spec, Z.testbit_ones by lia. lia.
Qed.
Lemma put_bits_bit lo hi old n j : 0 <= lo <= hi -> hi < 32 -> 0 <= old < 2 ^ 32 -> 0 <= j < 32 ->
  Z.testbit (put_bits lo hi old n) j = if (2 * lo <=? j) && (j <=? hi + lo) then (Z.testbit old j && negb ((lo <=? j) && (j <=? hi))) || Z.testbit n (j - lo) else Z.testbit old j && negb ((lo <=? j) && (j <=? hi)).
Proof.
  intros H1 H2 V J. unfold put_bits, word. rewrite Z.mod_pow2_bits_low by lia. rewrite Z.lor_spec. rewrite <- land_mask, <- land_mask by lia.
  rewrite <- Z.shiftl_mul_pow2, Z.shiftl_spec by lia.
  assert (E : Z.testbit (old - Z.land old (maskv lo hi)) j = Z.testbit old j && negb ((lo <=? j) && (j <=? hi))).
  { rewrite Z.sub_nocarry_ldiff; [rewrite Z.ldiff_spec, Z.land_spec, maskv_bit by lia; destruct (Z.testbit old j), ((lo <=? j) && (j <=? hi)); reflexivity|].
    apply Z.bits_inj'. intros i I. rewrite Z.ldiff_spec, Z.land_spec, Z.bits_0. destruct (Z.testbit old i), (Z.testbit (maskv lo hi) i); reflexivity. }
  rewrite E. destruct (Z.ltb_spec j lo) as [C|C].
  - rewrite (Z.testbit_neg_r (Z.land _ _)) by lia. replace (2 * lo <=? j) with false by lia. cbn [andb]. apply orb_false_r.
  - rewrite Z.land_spec, maskv_bit by lia. replace ((lo <=? j - lo) && (j - lo <=? hi)) with ((2 * lo <=? j) && (j <=? hi + lo)) by lia.
    destruct ((2 * lo <=? j) && (j <=? hi + lo)); rewrite ?andb_true_r, ?andb_false_r, ?orb_false_r; reflexivity.
Qed.
Lemma put_bits_range lo hi old n : 0 <= put_bits lo hi old n < 2 ^ 32.
Proof. unfold put_bits, word. apply Z.mod_pos_bound. reflexivity. Qed.
Lemma same_bits a b : 0 <= a < 2 ^ 32 -> 0 <= b < 2 ^ 32 -> (forall j, 0 <= j < 32 -> Z.testbit a j = Z.testbit b j) -> a = b.
Proof. intros A B H. apply Z.bits_inj'. intros j J. destruct (Z.ltb_spec j 32) as [C|C]; [apply H; lia|]. rewrite (high_bits a), (high_bits b) by (lia || assumption). reflexivity. Qed.
Lemma put_low hi old n : 0 <= hi < 32 -> 0 <= old < 2 ^ 32 -> put_bits 0 hi old n = old / 2 ^ (hi + 1) * 2 ^ (hi + 1) + n mod 2 ^ (hi + 1).
Proof.
  intros H V. assert (P : 0 < 2 ^ (hi + 1)) by (apply Z.pow_pos_nonneg; lia). pose proof (Z.mod_pos_bound n _ P) as NM.
  assert (D : 0 <= old / 2 ^ (hi + 1)) by (apply Z.div_pos; lia). pose proof (Z.mul_div_le old _ P).
  assert (E : old / 2 ^ (hi + 1) * 2 ^ (hi + 1) + n mod 2 ^ (hi + 1) = Z.lor (old / 2 ^ (hi + 1) * 2 ^ (hi + 1)) (n mod 2 ^ (hi + 1))) by (symmetry; apply lor_add; lia).
  assert (BI : forall j, 0 <= j -> Z.testbit (Z.lor (old / 2 ^ (hi + 1) * 2 ^ (hi + 1)) (n mod 2 ^ (hi + 1))) j = if j <=? hi then Z.testbit n j else Z.testbit old j).
  { intros j J. rewrite Z.lor_spec. rewrite <- Z.shiftl_mul_pow2, Z.shiftl_spec by lia. destruct (Z.leb_spec j hi) as [C|C].
    - rewrite (Z.testbit_neg_r (old / _)) by lia. rewrite Z.mod_pow2_bits_low by lia. reflexivity.
    - rewrite Z.mod_pow2_bits_high by lia. rewrite Z.div_pow2_bits by lia. rewrite orb_false_r. f_equal. lia. }
  rewrite E. apply same_bits; [apply put_bits_range| |].
  - assert (A : Z.lor (old / 2 ^ (hi + 1) * 2 ^ (hi + 1)) (n mod 2 ^ (hi + 1)) mod 2 ^ 32 = Z.lor (old / 2 ^ (hi + 1) * 2 ^ (hi + 1)) (n mod 2 ^ (hi + 1))); [|rewrite <- A; apply Z.mod_pos_bound; reflexivity].
    apply Z.bits_inj'. intros j J. destruct (Z.ltb_spec j 32) as [C|C]; [apply Z.mod_pow2_bits_low; lia|]. rewrite Z.mod_pow2_bits_high by lia. rewrite BI by lia. replace (j <=? hi) with false by lia. symmetry. apply high_bits; assumption.
  - intros j J. rewrite put_bits_bit, BI by lia. replace (2 * 0 <=? j) with true by lia. replace (0 <=? j) with true by lia. replace (hi + 0) with hi by lia. replace (j - 0) with j by lia. cbn [andb].
    destruct (j <=? hi); cbn [andb negb]; [rewrite andb_false_r; reflexivity|apply andb_true_r].
Qed.
Lemma put_bit_one k old : 1 <= k < 32 -> 0 <= old < 2 ^ 32 -> put_bits k k old 1 = old - (if Z.testbit old k then 2 ^ k else 0).
Proof.
  intros H V. assert (P : 0 < 2 ^ k) by (apply Z.pow_pos_nonneg; lia).
  assert (E : old - (if Z.testbit old k then 2 ^ k else 0) = Z.ldiff old (2 ^ k)).
  { destruct (Z.testbit old k) eqn:T.
    - apply Z.sub_nocarry_ldiff. apply Z.bits_inj'. intros j J. rewrite Z.ldiff_spec, Z.pow2_bits_eqb, Z.bits_0 by lia. destruct (Z.eqb_spec k j); [subst j; rewrite T; reflexivity|reflexivity].
    - rewrite Z.sub_0_r. apply Z.bits_inj'. intros j J. rewrite Z.ldiff_spec, Z.pow2_bits_eqb by lia. destruct (Z.eqb_spec k j); [subst j; rewrite T; reflexivity|symmetry; apply andb_true_r]. }
  rewrite E. apply same_bits; [apply put_bits_range| |].
  - assert (A : Z.ldiff old (2 ^ k) mod 2 ^ 32 = Z.ldiff old (2 ^ k)); [|rewrite <- A; apply Z.mod_pos_bound; reflexivity].
    apply Z.bits_inj'. intros j J. destruct (Z.ltb_spec j 32) as [C|C]; [apply Z.mod_pow2_bits_low; lia|]. rewrite Z.mod_pow2_bits_high by lia. rewrite Z.ldiff_spec, (high_bits old) by (lia || assumption). reflexivity.
  - intros j J. rewrite put_bits_bit by lia. rewrite Z.ldiff_spec, Z.pow2_bits_eqb by lia.
    replace ((k <=? j) && (j <=? k)) with (k =? j) by lia. destruct ((2 * k <=? j) && (j <=? k + k)) eqn:B; [|reflexivity].
    replace (Z.testbit 1 (j - k)) with false; [apply orb_false_r|]. symmetry. change 1 with (2 ^ 0). rewrite Z.pow2_bits_eqb by lia. apply Z.eqb_neq. lia.
Qed.

(* ------------------------------------------------------------- unknown names *)
Lemma unknown_end e s : unknown e s -> check_id e s = (PTOK_END, VNone).
Proof.
  intros (_ & _ & NM & NV). unfold check_id. rewrite (lookup_none e s NM). unfold lookup. destruct (find _ (n_vars e)) as [[n x]|] eqn:F; [|reflexivity].
  apply find_some in F. destruct F as [F1 F2]. cbn [fst] in F2. apply eqb_same in F2. exfalso. exact (NV n x F1 F2).
Qed.
Lemma lex_end n e s len R t : s <> [] -> longest (O, REcho) (matches s) = (len, R) -> token_of e R (firstn len s) = Some t -> fst t = PTOK_END -> lex_loop (S n) e s = [t].
Proof. intros NE L T N. destruct s as [|c s]; [contradiction|]. rewrite lex_S, L, T. replace (fst t =? PTOK_END) with true by lia. reflexivity. Qed.
Lemma unknown_lex e s rest n : unknown e s -> (forall c r, rest = c :: r -> ~ alnum c /\ c <> 36) -> (0 < n)%nat -> lex_loop n e (s ++ rest) = [(PTOK_END, VNone)].
Proof.
  intros U EN N. destruct n as [|n]; [lia|]. pose proof U as (NT & NI & _).
  assert (FO : follows s rest).
  { intros c r R. destruct (EN c r R) as [E1 E2]. split; [|split; [|intros; auto]].
    - intros o t q I E. pose proof op_heads as OH. rewrite forallb_forall in OH. specialize (OH (text o, t) ltac:(apply in_map_iff; exists (o, t); auto)). cbn [fst] in OH. rewrite E in OH.
      destruct NT as [s I0|s I0].
      + destruct (id_first s I0) as (x & y & -> & L). cbn [app] in OH. apply letter_id in L. rewrite L in OH. discriminate.
      + assert (IF : In (text o, t) fixed) by (rewrite fixed_is; right; apply in_map_iff; exists (o, t); auto). cbn [app] in E. pose proof (fixed_dot (text o) t _ IF E) as Z0. destruct s; discriminate Z0.
    - intros -> L. apply E1. left. exact L. }
  destruct (lex_name e s rest NT NI FO) as (R & L1 & L2). rewrite unknown_end in L2 by exact U.
  apply (lex_end n e (s ++ rest) (List.length s) R); [|exact L1|rewrite firstn_app_all; exact L2|reflexivity].
  destruct NT as [s I|s I]; [destruct (id_first s I) as (x & y & -> & _)|]; discriminate.
Qed.
Lemma name_first s : name_text s -> exists c r, s = c :: r /\ c <> 32 /\ c <> 9.
Proof. intros N. destruct N as [s I|s I]; [|exists 46, s; repeat split; lia]. destruct (id_first s I) as (c & r & -> & L). exists c, r. unfold letter in L. repeat split; lia. Qed.
Lemma blank_follows s : may_follow s 32.
Proof.
  split; [|split; [|intros; unfold alnum, letter, digit; split; lia]].
  - intros o t q I E. assert (B : forallb (fun p => negb (existsb (Z.eqb 32) (fst p))) op_table = true) by reflexivity. rewrite forallb_forall in B. specialize (B (text o, t) ltac:(apply in_map_iff; exists (o, t); auto)). cbn [fst] in B. rewrite E in B.
    rewrite existsb_app in B. cbn [existsb app] in B. change (32 =? 32) with true in B. cbn [orb] in B. rewrite orb_true_r in B. discriminate.
  - intros _ L. unfold letter in L. lia.
Qed.
Lemma lex_unknown e ts s name rest : spelt e ts s -> unknown e name -> (forall c r, rest = c :: r -> ~ alnum c /\ c <> 36) ->
  forall n, (List.length (s ++ [32%Z] ++ name ++ rest) <= n)%nat -> lex_loop n e (s ++ [32] ++ name ++ rest) = ts ++ [(PTOK_END, VNone)].
Proof.
  intros S U EN. destruct (name_first name (proj1 U)) as (nc & nr & NE & NC1 & NC2).
  induction S as [b B|t s ts rest0 b B Wd SP IH FO]; intros n L.
  - assert (B2 : blanks (b ++ [32])) by (apply Forall_app; split; [exact B|repeat constructor]).
    replace (b ++ [32] ++ name ++ rest) with ((b ++ [32]) ++ name ++ rest) in * by (rewrite <- app_assoc; reflexivity).
    destruct (b ++ [32]) as [|x b'] eqn:EB; [destruct b; discriminate|].
    pose proof (lex_blanks b' x (name ++ rest) B2) as LB. specialize (LB ltac:(intros c r E; rewrite NE in E; cbn [app] in E; injection E as <- _; auto)).
    rewrite app_length in L. cbn [List.length] in L. destruct n as [|n]; [lia|]. rewrite (lex_skip n e ((x :: b') ++ name ++ rest) _ _ ltac:(discriminate) LB eq_refl). change (Datatypes.S (List.length b')) with (List.length (x :: b')). rewrite skip_app.
    apply unknown_lex; [exact U|exact EN|]. rewrite app_length, NE in L. cbn [List.length] in L. lia.
  - destruct (word_first e t s Wd) as ((c & r & ES & C1 & C2) & TE).
    rewrite <- !app_assoc in *. set (tail := rest0 ++ [32] ++ name ++ rest) in *.
    assert (FO2 : follows s tail).
    { intros c0 r0 E. unfold tail in E. destruct rest0 as [|y z]; [cbn [app] in E; injection E as <- _; apply blank_follows|]. cbn [app] in E. injection E as <- _. apply (FO y z eq_refl). }
    assert (Q : forall n, (List.length (s ++ tail) <= n)%nat -> lex_loop n e (s ++ tail) = (t :: ts) ++ [(PTOK_END, VNone)]).
    { intros m Lm. destruct (word_lexes e t s tail Wd FO2) as (R & L1 & L2). rewrite app_length in Lm. destruct m as [|m]; [rewrite ES in Lm; cbn [List.length] in Lm; lia|].
      rewrite (lex_step m e (s ++ tail) (List.length s) R t); [|rewrite ES; discriminate|exact L1|rewrite firstn_app_all; exact L2|exact TE].
      rewrite skip_app. cbn [app]. f_equal. apply IH. rewrite ES in Lm. cbn [List.length] in Lm. lia. }
    destruct b as [|x b]; [apply Q; exact L|]. destruct n as [|n]; [cbn [List.length app] in L; lia|].
    pose proof (lex_blanks b x (s ++ tail) B) as LB. specialize (LB ltac:(intros c0 r0 E0; rewrite ES in E0; cbn [app] in E0; injection E0 as <- _; auto)).
    rewrite (lex_skip n e ((x :: b) ++ s ++ tail) _ _ ltac:(discriminate) LB eq_refl).
    change (Datatypes.S (List.length b)) with (List.length (x :: b)). rewrite skip_app. apply Q. rewrite app_length in L. cbn [List.length] in L. lia.
Qed.
