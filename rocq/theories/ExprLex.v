(** The lexer finds the words of a text. *)
From Verif Require Import Base FioModel ChrModel ChrProofs2 ExprTab ExprModel ExprSpec ExprText ExprProofs2 ExprProofs5.
From Coq Require Import Ascii String.
Open Scope Z_scope.

Lemma longest_after n R l : forall b, b = (n, R) -> Forall (fun x => (fst x <= n)%nat) l -> longest b l = (n, R).
Proof.
  induction l as [|x l IH]; intros b E F; cbn [longest]; [exact E|]. inversion F; subst. apply IH; [|assumption].
  cbn [fst]. replace (n <? fst x)%nat with false by (symmetry; apply Nat.ltb_ge; assumption). reflexivity.
Qed.
Lemma longest_pick n R l1 : forall l2 b, (fst b < n)%nat -> Forall (fun x => (fst x < n)%nat) l1 -> Forall (fun x => (fst x <= n)%nat) l2 -> longest b (l1 ++ (n, R) :: l2) = (n, R).
Proof.
  induction l1 as [|x l1 IH]; intros l2 b B F1 F2; cbn [app longest].
  - cbn [fst]. replace (fst b <? n)%nat with true by (symmetry; apply Nat.ltb_lt; assumption). apply longest_after; auto.
  - inversion F1; subst. apply IH; [destruct (_ <? _)%nat; assumption|assumption|assumption].
Qed.
Definition fixed_part (s : list Z) : list (nat * rule_id) := map (fun p => (if prefixb (fst p) s then List.length (fst p) else O, RFixed (snd p))) fixed.
Definition last_part (s : list Z) : list (nat * rule_id) :=
  [(m_hex s, RHex); (m_bin s, RBin); (m_oct s, ROct); (m_dec s, RDec); (m_id s, RId); (m_chr s, RChr);
      (match s with c :: _ => if c =? 10 then O else 1%nat | [] => O end, RAny);
      (match s with [] => O | _ => 1%nat end, REcho)].
Lemma matches_parts s : matches s = (m_blank s, RBlank) :: fixed_part s ++ last_part s.
Proof. reflexivity. Qed.
Lemma fixed_bound k s : (forall o t b, In (o, t) fixed -> s = o ++ b -> (List.length o <= k)%nat) -> Forall (fun x => (fst x <= k)%nat) (fixed_part s).
Proof.
  intros H. unfold fixed_part. apply Forall_forall. intros x I. apply in_map_iff in I. destruct I as ([o t] & <- & I). cbn [fst snd].
  destruct (prefixb o s) eqn:P; [|lia]. apply prefixb_ok in P. destruct P as [b ->]. eapply H; [exact I|reflexivity].
Qed.
Lemma all_lt k l : Forall (fun x : nat * rule_id => (fst x <= k)%nat) l -> Forall (fun x => (fst x < S k)%nat) l.
Proof. apply Forall_impl. intros. lia. Qed.

(** the words of the lexer that are not operators *)
Lemma pick_last s n i : (0 < n)%nat -> m_blank s = O -> (forall o t b, In (o, t) fixed -> s = o ++ b -> (List.length o < n)%nat) ->
  (exists R, nth_error (last_part s) i = Some (n, R)) -> Forall (fun x => (fst x < n)%nat) (firstn i (last_part s)) -> Forall (fun x => (fst x <= n)%nat) (skipn (S i) (last_part s)) ->
  exists R, nth_error (last_part s) i = Some (n, R) /\ longest (O, REcho) (matches s) = (n, R).
Proof.
  intros N B F [R E] L1 L2. exists R. split; [exact E|]. rewrite matches_parts.
  assert (SP : last_part s = firstn i (last_part s) ++ (n, R) :: skipn (S i) (last_part s)).
  { clear -E. revert i E. generalize (last_part s) as l. induction l as [|x l IH]; intros [|i] E; cbn [nth_error] in E; try discriminate; [injection E as ->; reflexivity|]. cbn [firstn skipn app]. f_equal. apply IH, E. }
  rewrite SP at 1. rewrite app_assoc, app_comm_cons. apply longest_pick; [exact N| |exact L2]. constructor; [cbn [fst]; lia|]. apply Forall_app. split; [|exact L1].
  destruct n as [|n]; [lia|]. apply all_lt, fixed_bound. intros o t b I Q. specialize (F o t b I Q). lia.
Qed.
Lemma span_all f s rest : Forall (fun c => f c = true) s -> (forall c r, rest = c :: r -> f c = false) -> span f (s ++ rest) = List.length s.
Proof. induction s as [|c s IH]; intros A R; cbn [app span List.length]; [destruct rest as [|c r]; [reflexivity|cbn [span]; rewrite (R c r eq_refl); reflexivity]|]. inversion A; subst. rewrite H1. f_equal. apply IH; assumption. Qed.
Lemma span_stop f c s : f c = false -> span f (c :: s) = O.
Proof. intros H. cbn [span]. rewrite H. reflexivity. Qed.
Lemma span_app_le f s rest : (span f s <= span f (s ++ rest))%nat.
Proof. induction s as [|c s IH]; cbn [app span]; [lia|]. destruct (f c); lia. Qed.

(** first characters of the operators *)
Definition heads : list Z := map (fun p => hd 0 (fst p)) fixed.
Lemma fixed_nonempty o t : In (o, t) fixed -> exists a o', o = a :: o' /\ In a heads.
Proof.
  intros I. assert (A : forallb (fun p : list Z * Z => match fst p with [] => false | _ => true end) fixed = true) by reflexivity. rewrite forallb_forall in A. specialize (A _ I). cbn [fst] in A.
  destruct o as [|a o']; [discriminate|]. exists a, o'. split; [reflexivity|]. apply in_map_iff. exists (a :: o', t). split; [reflexivity|exact I].
Qed.
Lemma no_fixed c s : existsb (Z.eqb c) heads = false -> forall n o t b, (0 < n)%nat -> In (o, t) fixed -> c :: s = o ++ b -> (List.length o < n)%nat.
Proof.
  intros H n o t b N I E. destruct (fixed_nonempty o t I) as (a & o' & -> & A). cbn [app] in E. injection E as -> _.
  exfalso. assert (T : existsb (Z.eqb a) heads = true) by (apply existsb_exists; exists a; split; [exact A|apply Z.eqb_refl]). congruence.
Qed.

(* ------------------------------------------------------------- characters *)
Lemma digit_hex c : digit 16 c <-> is_hex c = true.
Proof. unfold digit, is_hex. lia. Qed.
Lemma digit_dec c : digit 10 c <-> is_dec c = true.
Proof. unfold digit, is_dec. lia. Qed.
Lemma digit_oct c : digit 8 c <-> is_oct c = true.
Proof. unfold digit, is_oct. lia. Qed.
Lemma digit_bin c : digit 2 c <-> is_bin c = true.
Proof. unfold digit, is_bin. lia. Qed.
Lemma letter_id c : letter c <-> is_id0 c = true.
Proof. unfold letter, is_id0. lia. Qed.
Lemma alnum_id c : alnum c <-> is_id c = true.
Proof. unfold alnum, is_id. rewrite letter_id, digit_dec, orb_true_iff. reflexivity. Qed.
Lemma digit_alnum b c : b <= 16 -> digit b c -> alnum c.
Proof. intros B. unfold digit, alnum, letter, digit. lia. Qed.

(* ------------------------------------------------------------- values *)
Lemma number_ge b s : 0 < b <= 16 -> Forall (digit b) s -> forall a, 0 <= a -> a <= number b a s.
Proof.
  intros B. induction 1 as [|c s D F IH]; intros a A; cbn [number]; [lia|].
  assert (0 <= digit_val c < b) by (unfold digit, digit_val in *; destruct (c <=? 57) eqn:?, (c <=? 70) eqn:?; lia).
  specialize (IH (a * b + digit_val c) ltac:(nia)). nia.
Qed.
Lemma i64_id n : 0 <= n < 2 ^ 63 -> i64 n = n.
Proof. intros H. unfold i64. rewrite Z.mod_small by lia. replace (n <? 2 ^ 63) with true by lia. reflexivity. Qed.
Lemma lor_add v j d : 0 <= j -> 0 <= d < 2 ^ j -> Z.lor (v * 2 ^ j) d = v * 2 ^ j + d.
Proof.
  intros K D. assert (L0 : Z.land (v * 2 ^ j) d = 0); [|rewrite <- Z.lxor_lor, <- Z.add_nocarry_lxor by exact L0; reflexivity]. apply Z.bits_inj'. intros n N. rewrite Z.land_spec, Z.bits_0.
  destruct (Z.lt_ge_cases n j) as [L|L]; [rewrite Z.mul_pow2_bits_low by lia; reflexivity|].
  replace (Z.testbit d n) with false; [apply andb_false_r|]. symmetry. destruct (Z.eq_dec d 0) as [->|]; [apply Z.bits_0|].
  apply Z.bits_above_log2; [lia|]. apply Z.log2_lt_pow2; [lia|]. apply Z.lt_le_trans with (2 ^ j); [lia|]. apply Z.pow_le_mono_r; lia.
Qed.
Lemma shift_number j b f s : 0 < j -> b = 2 ^ j -> b <= 16 -> Forall (digit b) s -> (forall c, digit b c -> f c = digit_val c) ->
  forall a, 0 <= a -> number b a s < 2 ^ 63 -> shift_digits j f a s = number b a s.
Proof.
  intros J B B16 F EV. assert (B0 : 0 < b) by (subst b; apply Z.pow_pos_nonneg; lia). induction F as [|c s D F IH]; intros a A N; cbn [shift_digits number] in *; [reflexivity|].
  assert (DV : 0 <= digit_val c < b) by (unfold digit, digit_val in *; destruct (c <=? 57) eqn:?, (c <=? 70) eqn:?; lia).
  pose proof (number_ge b s ltac:(lia) F (a * b + digit_val c) ltac:(nia)).
  rewrite i64_id by (rewrite <- B; nia). rewrite EV by exact D. rewrite lor_add by lia. rewrite <- B. apply IH; [nia|exact N].
Qed.
Lemma dec_number s : Forall (digit 10) s -> forall a, 0 <= a -> number 10 a s < 2 ^ 63 -> dec_digits a s = number 10 a s.
Proof.
  induction 1 as [|c s D F IH]; intros a A N; cbn [dec_digits number] in *; [reflexivity|].
  assert (DV : 0 <= c - 48 < 10 /\ digit_val c = c - 48) by (unfold digit, digit_val in *; destruct (c <=? 57) eqn:?, (c <=? 70) eqn:?; lia). destruct DV as [DV E]. rewrite E in *.
  pose proof (number_ge 10 s ltac:(lia) F (a * 10 + (c - 48)) ltac:(lia)).
  replace (Z.land (c - 48) 15) with (c - 48) by (change 15 with (Z.ones 4); rewrite Z.land_ones by lia; rewrite Z.mod_small by lia; reflexivity).
  rewrite i64_id by lia. apply IH; [lia|exact N].
Qed.

(* ------------------------------------------------------------- numbers and characters *)
Definition follows (s rest : list Z) : Prop := forall c r, rest = c :: r -> may_follow s c.
Lemma ends_word s p d rest f : follows s rest -> s = p ++ [d] -> alnum d -> (forall c, f c = true -> alnum c) -> forall c r, rest = c :: r -> f c = false.
Proof. intros F E A FA c r R. destruct (F c r R) as (_ & _ & H). destruct (H p d E A) as [N _]. destruct (f c) eqn:FC; [exfalso; apply N, FA, FC|reflexivity]. Qed.
Lemma last_of (P : Z -> Prop) s c : Forall P s -> P c -> exists p d, c :: s = p ++ [d] /\ P d.
Proof. intros F. revert c. induction F as [|x s X F IH]; intros c C; [exists [], c; auto|]. destruct (IH x X) as (p & d & E & D). exists (c :: p), d. rewrite E. auto. Qed.
Definition lexes (e : names) (s rest : list Z) (t : token) : Prop :=
  exists R, longest (O, REcho) (matches (s ++ rest)) = (List.length s, R) /\ token_of e R s = Some t.
Ltac z0 := cbn [fst snd nth_error firstn skipn last_part].
Lemma m_id_no c s : is_id0 c = false -> c <> 46 -> m_id (c :: s) = O.
Proof. intros A B. unfold m_id. destruct c as [|p|p]; try (rewrite A; reflexivity). do 6 (destruct p; try (rewrite A; reflexivity)). all: try (exfalso; apply B; reflexivity). Qed.
Lemma m_chr_no c s : c <> 39 -> m_chr (c :: s) = O.
Proof. intros B. unfold m_chr. destruct c as [|p|p]; try reflexivity. do 6 (destruct p; try reflexivity). all: try (exfalso; apply B; reflexivity). Qed.
Lemma m_hex_no c s : c <> 36 -> c <> 48 -> m_hex (c :: s) = O.
Proof. intros B C. unfold m_hex. destruct c as [|p|p]; try reflexivity. do 6 (destruct p; try reflexivity). all: exfalso; first [apply B; reflexivity|apply C; reflexivity]. Qed.
Lemma m_bin_no c s : c <> 48 -> m_bin (c :: s) = O.
Proof. intros B. unfold m_bin. destruct c as [|p|p]; try reflexivity. do 6 (destruct p; try reflexivity). all: try (exfalso; apply B; reflexivity). Qed.
Lemma m_oct_no c s : c <> 48 -> m_oct (c :: s) = O.
Proof. intros B. unfold m_oct. destruct c as [|p|p]; try reflexivity. do 6 (destruct p; try reflexivity). all: try (exfalso; apply B; reflexivity). Qed.
Lemma m_dec_no c s : (49 <=? c) && (c <=? 57) = false -> m_dec (c :: s) = O.
Proof. intros B. unfold m_dec. rewrite B. reflexivity. Qed.
Lemma m_blank_no c s : (c =? 32) || (c =? 9) = false -> m_blank (c :: s) = O.
Proof. intros B. unfold m_blank. cbn [span]. rewrite B. reflexivity. Qed.
(** all matches of a text that starts with [c] *)
Lemma pick_at c s n i R : (0 < n)%nat -> (c =? 32) || (c =? 9) = false -> (forall o t b, In (o, t) fixed -> c :: s = o ++ b -> (List.length o < n)%nat) ->
  nth_error (last_part (c :: s)) i = Some (n, R) -> Forall (fun x => (fst x < n)%nat) (firstn i (last_part (c :: s))) -> Forall (fun x => (fst x <= n)%nat) (skipn (S i) (last_part (c :: s))) ->
  longest (O, REcho) (matches (c :: s)) = (n, R).
Proof.
  intros N B F E L1 L2. destruct (pick_last (c :: s) n i N (m_blank_no c s B) F (ex_intro _ R E) L1 L2) as (R' & E' & L). rewrite E in E'. injection E' as <-. exact L.
Qed.
Ltac fa := repeat match goal with |- Forall _ [] => apply Forall_nil | |- Forall _ (_ :: _) => apply Forall_cons; [cbn [fst]|] end.
Lemma no_head c : 48 <= c <= 57 \/ c = 36 \/ c = 39 -> existsb (Z.eqb c) heads = false.
Proof.
  intros C. assert (HD : forallb (fun h => negb ((48 <=? h) && (h <=? 57) || (h =? 36) || (h =? 39))) heads = true) by reflexivity. destruct (existsb (Z.eqb c) heads) eqn:X; [|reflexivity].
  apply existsb_exists in X. destruct X as (h & I1 & X). rewrite forallb_forall in HD. specialize (HD h I1). lia.
Qed.
Lemma lex_dec e c s rest : 49 <= c <= 57 -> Forall (digit 10) s -> number 10 0 (c :: s) < 2 ^ 63 -> follows (c :: s) rest ->
  lexes e (c :: s) rest (PTOK_NUMBER, VNum (number 10 0 (c :: s))).
Proof.
  intros C F N FO. destruct (last_of (digit 10) s c F) as (p & d & E & D); [unfold digit; lia|].
  assert (SP : span is_dec (s ++ rest) = List.length s).
  { apply span_all; [eapply Forall_impl; [|exact F]; intros a; apply digit_dec|]. eapply ends_word; [exact FO|exact E|eapply digit_alnum; [|exact D]; lia|]. intros a A. apply digit_dec in A. eapply digit_alnum; [|exact A]. lia. }
  exists RDec. split.
  - cbn [app List.length]. apply (pick_at c (s ++ rest) (S (List.length s)) 3 RDec); [lia|lia|intros o t b I; apply (no_fixed c (s ++ rest) (no_head c ltac:(lia)) _ o t b (Nat.lt_0_succ _) I)| | |].
    + z0. unfold m_dec. replace ((49 <=? c) && (c <=? 57)) with true by lia. rewrite SP. reflexivity.
    + z0. rewrite m_hex_no, m_bin_no, m_oct_no by lia. fa; lia.
    + z0. rewrite m_id_no, m_chr_no by (try (unfold is_id0); lia). fa; try lia. destruct (c =? 10); lia.
  - cbn [token_of]. rewrite dec_number; [reflexivity| |lia|exact N]. constructor; [unfold digit; lia|exact F].
Qed.

Lemma is_alnum f b : b <= 16 -> (forall a, digit b a <-> f a = true) -> forall a, f a = true -> alnum a.
Proof. intros B H a A. apply H in A. eapply digit_alnum; [exact B|exact A]. Qed.
Lemma span_digits f b w s rest : b <= 16 -> (forall a, digit b a <-> f a = true) -> Forall (digit b) s -> s <> [] \/ w <> [] /\ (forall p d, w = p ++ [d] -> alnum d) -> follows (w ++ s) rest -> span f (s ++ rest) = List.length s.
Proof.
  intros B H F NE FO. apply span_all; [eapply Forall_impl; [|exact F]; intros a; apply H|].
  assert (L : exists p d, w ++ s = p ++ [d] /\ alnum d).
  { destruct s as [|c s]; [|inversion F; subst; destruct (last_of (digit b) s c) as (p & d & E & D); [assumption|assumption|]; exists (w ++ p), d; rewrite E, app_assoc; split; [reflexivity|eapply digit_alnum; [exact B|exact D]]].
    destruct NE as [NE|[NE1 NE2]]; [contradiction|]. rewrite app_nil_r. destruct (exists_last NE1) as (p & d & ->). exists p, d. split; [reflexivity|eapply NE2; reflexivity]. }
  destruct L as (p & d & E & D). eapply ends_word; [exact FO|exact E|exact D|]. apply (is_alnum f b B H).
Qed.
Lemma span_le f c s : (span f (c :: s) <= S (span f s))%nat.
Proof. cbn [span]. destruct (f c); lia. Qed.
Lemma lex_oct e s rest : Forall (digit 8) s -> number 8 0 s < 2 ^ 63 -> follows (48 :: s) rest -> lexes e (48 :: s) rest (PTOK_NUMBER, VNum (number 8 0 s)).
Proof.
  intros F N FO.
  assert (SP : span is_oct (s ++ rest) = List.length s).
  { apply (span_digits is_oct 8 [48] s rest); [lia|apply digit_oct|exact F| |exact FO]. right. split; [discriminate|]. intros p d E. destruct p as [|? [|? ?]]; try discriminate. injection E as <-. unfold alnum, digit. lia. }
  assert (NX : forall x r, s ++ rest = x :: r -> x <> 120 /\ x <> 88 /\ x <> 98).
  { intros x r E. destruct s as [|y s].
    - cbn [app] in E. destruct (FO x r E) as (_ & _ & Q). destruct (Q [] 48 eq_refl) as [Q1 _]; [unfold alnum, digit; lia|]. repeat split; intros ->; apply Q1; unfold alnum, letter; lia.
    - cbn [app] in E. injection E as -> _. inversion F; subst. unfold digit in *. lia. }
  assert (MH : m_hex (48 :: s ++ rest) = O).
  { cbn [m_hex]. destruct (s ++ rest) as [|x r]; [reflexivity|]. destruct (NX x r eq_refl) as (A & B & C). replace ((x =? 120) || (x =? 88)) with false by lia. reflexivity. }
  assert (MB : m_bin (48 :: s ++ rest) = O).
  { cbn [m_bin]. destruct (s ++ rest) as [|x r]; [reflexivity|]. destruct (NX x r eq_refl) as (A & B & C). destruct x as [|q|q]; try reflexivity. do 7 (destruct q; try reflexivity). exfalso; apply C; reflexivity. }
  exists ROct. split.
  - cbn [app List.length]. apply (pick_at 48 (s ++ rest) (S (List.length s)) 2 ROct); [lia|reflexivity|intros o t b I; apply (no_fixed 48 (s ++ rest) (no_head 48 ltac:(lia)) _ o t b (Nat.lt_0_succ _) I)| | |].
    + z0. cbn [m_oct]. rewrite SP. reflexivity.
    + z0. rewrite MH, MB. fa; lia.
    + z0. rewrite m_id_no, m_chr_no, m_dec_no by (reflexivity || lia). fa; cbn; lia.
  - cbn [token_of skipn]. rewrite (shift_number 3 8); [reflexivity|lia|reflexivity|lia|exact F| |lia|exact N].
    intros c D. unfold digit_val. assert (48 <= c <= 55) by (unfold digit in D; lia). replace (c <=? 57) with true by lia. change 7 with (Z.ones 3). rewrite Z.land_ones by lia. apply Z.mod_small. lia.
Qed.
Lemma lex_bin e s rest : s <> [] -> Forall (digit 2) s -> number 2 0 s < 2 ^ 63 -> follows (text "0b" ++ s) rest -> lexes e (text "0b" ++ s) rest (PTOK_NUMBER, VNum (number 2 0 s)).
Proof.
  intros NE F N FO. assert (SP : span is_bin (s ++ rest) = List.length s) by (apply (span_digits is_bin 2 (text "0b") s rest); [lia|apply digit_bin|exact F|left; exact NE|exact FO]).
  exists RBin. change (text "0b") with [48; 98]. split.
  - cbn [app List.length]. apply (pick_at 48 (98 :: s ++ rest) (S (S (List.length s))) 1 RBin); [lia|reflexivity|intros o t b I; apply (no_fixed 48 (98 :: s ++ rest) (no_head 48 ltac:(lia)) _ o t b (Nat.lt_0_succ _) I)| | |].
    + z0. cbn [m_bin]. rewrite SP. destruct s; [contradiction|reflexivity].
    + z0. fa; cbn; lia.
    + z0. rewrite m_id_no, m_chr_no, m_dec_no by (reflexivity || lia). fa; cbn; lia.
  - cbn [token_of skipn]. rewrite (shift_number 1 2); [reflexivity|lia|reflexivity|lia|exact F| |lia|exact N].
    intros c D. unfold digit_val. assert (48 <= c <= 49) by (unfold digit in D; lia). replace (c <=? 57) with true by lia. destruct (Z.eqb_spec c 48); lia.
Qed.
Lemma hexv_ok c : digit 16 c -> hexv c = digit_val c.
Proof. intros D. unfold hexv, digit_val, digit in *. destruct (Z.leb_spec c 57), (Z.leb_spec c 70), (Z.leb_spec 48 c), (Z.leb_spec 97 c), (Z.leb_spec c 102), (Z.leb_spec 65 c); cbn [andb]; lia. Qed.
Lemma lex_hex e p s rest : In p ["0x"; "0X"; "$"]%string -> s <> [] -> Forall (digit 16) s -> number 16 0 s < 2 ^ 63 -> follows (text p ++ s) rest -> lexes e (text p ++ s) rest (PTOK_NUMBER, VNum (number 16 0 s)).
Proof.
  intros P NE F N FO. assert (SP : span is_hex (s ++ rest) = List.length s) by (apply (span_digits is_hex 16 (text p) s rest); [lia|apply digit_hex|exact F|left; exact NE|exact FO]).
  assert (V : shift_digits 4 hexv 0 s = number 16 0 s) by (apply (shift_number 4 16); [lia|reflexivity|lia|exact F|apply hexv_ok|lia|exact N]).
  exists RHex. clear FO N F. destruct P as [<-|[<-|[<-|[]]]]; [change (text "0x") with [48; 120]|change (text "0X") with [48; 88]|change (text "$") with [36]]; split.
  1, 3: cbn [app List.length]; match goal with |- longest _ (matches (48 :: ?x :: _)) = _ => apply (pick_at 48 (x :: s ++ rest) (S (S (List.length s))) 0 RHex); [lia|reflexivity|intros o t b I; apply (no_fixed 48 (x :: s ++ rest) (no_head 48 ltac:(lia)) _ o t b (Nat.lt_0_succ _) I)| | |] end;
    [z0; cbn [m_hex Z.eqb Pos.eqb orb]; rewrite SP; destruct s; [contradiction|reflexivity]|constructor|z0; rewrite m_id_no, m_chr_no, m_dec_no by (reflexivity || lia); fa; cbn; lia].
  3: cbn [app List.length]; apply (pick_at 36 (s ++ rest) (S (List.length s)) 0 RHex); [lia|reflexivity|intros o t b I; apply (no_fixed 36 (s ++ rest) (no_head 36 ltac:(lia)) _ o t b (Nat.lt_0_succ _) I)| | |];
    [z0; cbn [m_hex]; rewrite SP; destruct s; [contradiction|reflexivity]|constructor|z0; rewrite m_id_no, m_chr_no, m_dec_no by (reflexivity || lia); fa; cbn; lia].
  all: cbn [token_of app skipn]; rewrite V; reflexivity.
Qed.
Lemma lex_quoted e s rest v : s <> [] -> Forall (fun c => c <> 39) s -> first_char s = v -> lexes e ([39] ++ s ++ [39]) rest (PTOK_NUMBER, VNum v).
Proof.
  intros NE F V. assert (SP : span (fun c => negb (c =? 39)) (s ++ 39 :: rest) = List.length s).
  { apply span_all; [eapply Forall_impl; [|exact F]; intros a; cbn; lia|]. intros c r E. injection E as <- _. reflexivity. }
  exists RChr. cbn [app]. split.
  - rewrite <- app_assoc. cbn [app]. apply (pick_at 39 (s ++ 39 :: rest) (List.length (39 :: s ++ [39])) 5 RChr); [apply Nat.lt_0_succ|reflexivity|intros o t b I; apply (no_fixed 39 (s ++ 39 :: rest) (no_head 39 ltac:(lia)) _ o t b (Nat.lt_0_succ _) I)| | |].
    + assert (SK : skipn (List.length s) (s ++ 39 :: rest) = 39 :: rest) by (rewrite skipn_app, skipn_all, Nat.sub_diag; reflexivity).
      z0. cbn [m_chr]. cbv zeta. rewrite SP. cbn [List.length]. rewrite app_length. cbn [List.length]. replace (List.length s + 1)%nat with (S (List.length s)) by lia.
      destruct (List.length s) as [|n] eqn:LS; [destruct s; [contradiction|discriminate]|]. rewrite SK. reflexivity.
    + z0. rewrite m_id_no, m_dec_no, m_hex_no, m_bin_no, m_oct_no by (reflexivity || lia). fa; cbn [List.length]; lia.
    + z0. fa; cbn [List.length Z.eqb Pos.eqb]; lia.
  - cbn [token_of tl]. rewrite removelast_last, V. reflexivity.
Qed.

(* ------------------------------------------------------------- names *)
Definition id_body (t : list Z) : nat :=
  match t with
  | c :: t' =>
      if is_id0 c then
        let n := S (span is_id t') in
        match skipn n t with
        | 36 :: d => match span is_dec d with O => n | k => (n + S k)%nat end
        | _ => n
        end
      else O
  | [] => O
  end.
Lemma m_id_dot t : m_id (46 :: t) = match id_body t with O => O | n => S n end.
Proof. reflexivity. Qed.
Lemma m_id_letter c t : is_id0 c = true -> m_id (c :: t) = id_body (c :: t).
Proof. intros A. unfold m_id. destruct c as [|p|p]; try reflexivity. do 6 (destruct p; try reflexivity). discriminate. Qed.
Definition ends (s rest : list Z) : Prop := forall c r, rest = c :: r -> ~ alnum c /\ c <> 36.
Lemma skip_app {A} (s rest : list A) : skipn (List.length s) (s ++ rest) = rest.
Proof. rewrite skipn_app, skipn_all, Nat.sub_diag. reflexivity. Qed.
Lemma id_body_ok s rest : identifier s -> ends s rest -> id_body (s ++ rest) = List.length s.
Proof.
  intros I E. destruct I as [c s L F|c s d L F ND D]; unfold id_body.
  - cbn [app]. apply letter_id in L. rewrite L. rewrite (span_all is_id s rest); [|eapply Forall_impl; [|exact F]; intros a; apply alnum_id|].
    2: { intros x r R. destruct (E x r R) as [N _]. destruct (is_id x) eqn:X; [exfalso; apply N, alnum_id, X|reflexivity]. }
    cbv zeta. change (c :: s ++ rest) with ((c :: s) ++ rest). change (S (List.length s)) with (List.length (c :: s)). rewrite skip_app.
    destruct rest as [|x r]; [reflexivity|]. destruct (E x r eq_refl) as [_ N]. destruct x as [|p|p]; try reflexivity. do 6 (destruct p; try reflexivity). contradiction.
  - cbn [app]. rewrite <- app_assoc. cbn [app]. apply letter_id in L. rewrite L. rewrite (span_all is_id s (36 :: d ++ rest)); [|eapply Forall_impl; [|exact F]; intros a; apply alnum_id|].
    2: { intros x r R. injection R as <- _. reflexivity. }
    cbv zeta. change (c :: s ++ 36 :: d ++ rest) with ((c :: s) ++ 36 :: d ++ rest). change (S (List.length s)) with (List.length (c :: s)). rewrite skip_app.
    rewrite (span_all is_dec d rest); [|eapply Forall_impl; [|exact D]; intros a; apply digit_dec|].
    2: { intros x r R. destruct (E x r R) as [N _]. destruct (is_dec x) eqn:X; [exfalso; apply N; right; apply digit_dec, X|reflexivity]. }
    cbn [List.length]. rewrite app_length. cbn [List.length]. destruct (List.length d) as [|n] eqn:LD; [destruct d; [contradiction|discriminate]|]. lia.
Qed.
Lemma id_last s : identifier s -> exists p d, s = p ++ [d] /\ alnum d.
Proof.
  intros I. destruct I as [c s L F|c s d L F ND D].
  - apply (last_of alnum s c F). left. exact L.
  - destruct (exists_last ND) as (p & x & ->). exists ((c :: s) ++ [36] ++ p), x. split; [rewrite <- !app_assoc; reflexivity|]. right. apply Forall_app in D. destruct D as [_ D]. inversion D; assumption.
Qed.
Lemma id_first s : identifier s -> exists c t, s = c :: t /\ letter c.
Proof. intros I. destruct I; cbn [app]; eauto. Qed.
Lemma fixed_letter o t c q : In (o, t) fixed -> o = c :: q -> letter c -> o = text "int".
Proof.
  intros I -> L. assert (A : forallb (fun p : list Z * Z => match fst p with c :: _ => negb (is_id0 c) || list_eqb (fst p) (text "int") | [] => false end) fixed = true) by reflexivity.
  rewrite forallb_forall in A. specialize (A _ I). cbn [fst] in A. apply letter_id in L. rewrite L in A. cbn [negb orb] in A.
  revert A. change (text "int") with [105; 110; 116]. destruct q as [|a [|b [|? ?]]]; cbn [list_eqb]; rewrite ?andb_false_r; try discriminate. intros A. f_equal; [lia|f_equal; [lia|f_equal; lia]].
Qed.
Lemma fixed_dot o t q : In (o, t) fixed -> o = 46 :: q -> q = [].
Proof.
  intros I ->. assert (A : forallb (fun p : list Z * Z => match fst p with c :: q => negb (c =? 46) || match q with [] => true | _ => false end | [] => false end) fixed = true) by reflexivity.
  rewrite forallb_forall in A. specialize (A _ I). cbn [fst] in A. change (46 =? 46) with true in A. destruct q; [reflexivity|discriminate].
Qed.
Lemma lex_name e s rest : name_text s -> s <> text "int" -> follows s rest -> lexes e s rest (check_id e s).
Proof.
  intros NT NI FO. exists RId. split; [|reflexivity].
  assert (EN : ends s rest).
  { assert (L : exists p d, s = p ++ [d] /\ alnum d) by (destruct NT as [s I|s I]; destruct (id_last s I) as (p & d & -> & D); [exists p, d|exists (46 :: p), d]; auto).
    destruct L as (p & d & E & D). intros c r R. destruct (FO c r R) as (_ & _ & H). exact (H p d E D). }
  destruct NT as [s I|s I].
  - destruct (id_first s I) as (c & t & E & L). pose proof L as L0. apply letter_id in L0.
    assert (MI : m_id (c :: t ++ rest) = List.length s) by (rewrite m_id_letter by exact L0; change (c :: t ++ rest) with ((c :: t) ++ rest); rewrite <- E; apply id_body_ok; assumption).
    assert (LP : (0 < List.length s)%nat) by (rewrite E; cbn [List.length]; lia).
    assert (C1 : 65 <= c <= 122) by (unfold letter in L; lia).
    replace (s ++ rest) with (c :: t ++ rest) by (rewrite E; reflexivity). apply (pick_at c (t ++ rest) (List.length s) 4 RId); [exact LP|lia| |z0; rewrite MI; reflexivity| |].
    + intros o tk b IO Q. destruct (fixed_nonempty o tk IO) as (a & q & -> & _). cbn [app] in Q. assert (a = c) by congruence. subst a.
      assert (Q2 : s ++ rest = (c :: q) ++ b) by (rewrite E; exact Q). pose proof (fixed_letter _ _ c q IO eq_refl L) as FL. change (text "int") with [105; 110; 116] in *. rewrite FL in Q2 |- *.
      clear Q FL IO MI E LP FO. cbn [List.length].
      destruct s as [|s0 [|s1 [|s2 [|s3 s]]]]; cbn [List.length app] in *; try lia; exfalso.
      * inversion I.
      * injection Q2 as -> R. destruct (EN 110 _ R) as [N _]. apply N. unfold alnum, letter. lia.
      * injection Q2 as -> -> R. destruct (EN 116 _ R) as [N _]. apply N. unfold alnum, letter. lia.
      * injection Q2 as -> -> -> R. apply NI. reflexivity.
    + z0. rewrite m_hex_no, m_bin_no, m_oct_no, m_dec_no by lia. fa; lia.
    + z0. rewrite m_chr_no by lia. fa; try lia. destruct (c =? 10); lia.
  - cbn [app]. assert (MI : m_id (46 :: s ++ rest) = S (List.length s)).
    { rewrite m_id_dot, (id_body_ok s rest I EN). destruct (id_first s I) as (c & t & -> & _). reflexivity. }
    apply (pick_at 46 (s ++ rest) (List.length (46 :: s)) 4 RId); [apply Nat.lt_0_succ|reflexivity| |z0; rewrite MI; reflexivity| |].
    + intros o tk b IO Q. destruct (fixed_nonempty o tk IO) as (a & q & -> & _). cbn [app] in Q. injection Q as <- Q. rewrite (fixed_dot _ _ q IO eq_refl). destruct (id_first s I) as (c & t & -> & _). cbn [List.length]. lia.
    + z0. rewrite m_hex_no, m_bin_no, m_oct_no, m_dec_no by (reflexivity || lia). fa; cbn [List.length]; lia.
    + z0. rewrite m_chr_no by lia. fa; cbn [List.length Z.eqb Pos.eqb]; lia.
Qed.
Lemma upper_lower x y : (toupper x =? toupper y) = true <-> lower x = lower y.
Proof. unfold toupper, lower. destruct (_ && _) eqn:A, ((97 <=? y) && _) eqn:B, ((65 <=? x) && _) eqn:C, ((65 <=? y) && _) eqn:D; lia. Qed.
Lemma iequal_same a : forall b, iequal_loop a b = true <-> same_name a b.
Proof.
  unfold same_name. induction a as [|x a IH]; intros [|y b]; cbn [iequal_loop map]; try (split; congruence).
  destruct (toupper x =? toupper y) eqn:U.
  - apply upper_lower in U. rewrite IH. split; [intros ->; rewrite U; reflexivity|congruence].
  - split; [discriminate|]. intros E. assert (L : lower x = lower y) by congruence. apply upper_lower in L. congruence.
Qed.
Lemma eqb_same a : forall b, list_eqb a b = true <-> a = b.
Proof.
  induction a as [|x a IH]; intros [|y b]; cbn [list_eqb]; try (split; congruence). rewrite andb_true_iff, IH, Z.eqb_eq. split; [intros [-> ->]; reflexivity|]. intros E. injection E as -> ->. auto.
Qed.
Lemma lookup_first {A} f (same : list Z -> list Z -> Prop) (l : list (list Z * A)) s x : (forall a b, f a b = true <-> same a b) -> first_of same l s x -> lookup f l s = Some x.
Proof.
  intros H F. unfold lookup. induction F as [n x l s S|n x l s y NS F IH]; cbn [find fst].
  - apply H in S. rewrite S. reflexivity.
  - destruct (f n s) eqn:E; [exfalso; apply NS, H, E|exact IH].
Qed.
Lemma lookup_none e s : no_memory e s -> lookup iequal_loop (n_mems e) s = None.
Proof.
  intros N. unfold lookup. destruct (find _ _) as [[n m]|] eqn:F; [|reflexivity]. apply find_some in F. destruct F as [F1 F2]. cbn [fst] in F2. apply iequal_same in F2. exfalso. exact (N n m F1 F2).
Qed.

(* ------------------------------------------------------------- operators *)
Definition op_table : list (list Z * Z) := map (fun p => (text (fst p), snd p)) operators.
Lemma fixed_is : fixed = (text "int", PTOK_INT) :: op_table.
Proof. vm_compute. reflexivity. Qed.
Lemma keys_nodup : NoDup (map fst fixed).
Proof.
  assert (D : forall l : list (list Z), (fix go l := match l with [] => true | x :: t => negb (existsb (list_eqb x) t) && go t end) l = true -> NoDup l).
  { induction l as [|x l IH]; intros H; [constructor|]. apply andb_prop in H. destruct H as [H1 H2]. constructor; [|apply IH, H2]. intros I.
    assert (T : existsb (list_eqb x) l = true) by (apply existsb_exists; exists x; split; [exact I|apply eqb_same; reflexivity]). rewrite T in H1. discriminate. }
  apply D. vm_compute. reflexivity.
Qed.
Lemma op_heads : forallb (fun p : list Z * Z => match fst p with c :: _ => negb (is_id0 c) && negb (is_dec c) && negb (c =? 36) && negb (c =? 39) && negb (c =? 32) && negb (c =? 9) | [] => false end) op_table = true.
Proof. reflexivity. Qed.
Lemma pick_fixed s o t : In (o, t) fixed -> o <> [] -> m_blank (o ++ s) = O ->
  (forall q u b, In (q, u) fixed -> o ++ s = q ++ b -> (List.length q <= List.length o)%nat) ->
  Forall (fun x => (fst x <= List.length o)%nat) (last_part (o ++ s)) ->
  longest (O, REcho) (matches (o ++ s)) = (List.length o, RFixed t).
Proof.
  intros I NE B Q L. apply in_split in I. destruct I as (f1 & f2 & FX).
  assert (LO : (0 < List.length o)%nat) by (destruct o; [contradiction|cbn [List.length]; lia]).
  rewrite matches_parts. unfold fixed_part. rewrite FX. rewrite map_app. cbn [map fst snd]. replace (prefixb o (o ++ s)) with true by (symmetry; apply prefixb_ok; eauto).
  rewrite <- app_assoc. cbn [app]. rewrite app_comm_cons. apply longest_pick; [exact LO| |].
  - constructor; [cbn [fst]; rewrite B; exact LO|]. apply Forall_forall. intros x IX. apply in_map_iff in IX. destruct IX as ([q u] & <- & IX). cbn [fst snd].
    destruct (prefixb q (o ++ s)) eqn:P; [|exact LO]. apply prefixb_ok in P. destruct P as [b P].
    assert (LQ : (List.length q <= List.length o)%nat) by (eapply (Q q u b); [rewrite FX; apply in_or_app; left; exact IX|exact P]).
    destruct (Nat.eq_dec (List.length q) (List.length o)) as [EQ|NEQ]; [|lia]. exfalso.
    assert (q = o) by (assert (F : firstn (List.length o) (o ++ s) = firstn (List.length q) (q ++ b)) by (rewrite P, EQ; reflexivity); rewrite !firstn_app, !Nat.sub_diag, !firstn_all, !firstn_O, !app_nil_r in F; auto). subst q.
    pose proof keys_nodup as ND. rewrite FX, map_app in ND. cbn [map fst] in ND. apply NoDup_remove_2 in ND. apply ND. apply in_or_app. left. apply in_map_iff. exists (o, u). auto.
  - apply Forall_app. split; [|exact L]. apply Forall_forall. intros x IX. apply in_map_iff in IX. destruct IX as ([q u] & <- & IX). cbn [fst snd].
    destruct (prefixb q (o ++ s)) eqn:P; [|lia]. apply prefixb_ok in P. destruct P as [b P]. eapply (Q q u b); [rewrite FX; apply in_or_app; right; right; exact IX|exact P].
Qed.

Lemma lex_op e s t rest : In (s, t) operators -> follows (text s) rest -> lexes e (text s) rest (t, VNone).
Proof.
  intros I FO. assert (IO : In (text s, t) op_table) by (apply in_map_iff; exists (s, t); auto).
  assert (IX : In (text s, t) fixed) by (rewrite fixed_is; right; exact IO).
  pose proof op_heads as H. rewrite forallb_forall in H. specialize (H _ IO). cbn [fst] in H.
  exists (RFixed t). split; [|reflexivity]. destruct (text s) as [|c o] eqn:E; [discriminate|].
  rewrite !andb_true_iff, !negb_true_iff in H. destruct H as (((((H1 & H2) & H3) & H4) & H5) & H6).
  apply (pick_fixed rest (c :: o) t IX); [discriminate|cbn [app]; apply m_blank_no; lia| |].
  - intros q u b IQ Q. destruct (le_lt_dec (List.length q) (List.length (c :: o))) as [L|L]; [exact L|exfalso].
    rewrite fixed_is in IQ. destruct IQ as [IQ|IQ].
    + assert (q = text "int") by congruence. subst q. change (text "int") with [105; 110; 116] in Q. cbn [app] in Q. injection Q as -> _. discriminate.
    + apply in_map_iff in IQ. destruct IQ as ([q' u'] & EQ & IQ). cbn [fst snd] in EQ. assert (q = text q') by congruence. subst q.
      assert (X : exists x r, rest = x :: r /\ exists z, text q' = (c :: o) ++ [x] ++ z).
      { assert (SK : rest = skipn (List.length (c :: o)) (text q' ++ b)) by (rewrite <- Q; symmetry; apply skip_app). rewrite skipn_app in SK.
        assert (FS : firstn (List.length (c :: o)) (text q' ++ b) = c :: o) by (rewrite <- Q, firstn_app, Nat.sub_diag, firstn_all, firstn_O, app_nil_r; reflexivity).
        rewrite firstn_app in FS. replace (List.length (c :: o) - List.length (text q'))%nat with O in * by lia. rewrite firstn_O, app_nil_r in FS. rewrite skipn_O in SK.
        pose proof (firstn_skipn (List.length (c :: o)) (text q')) as FK. rewrite FS in FK. destruct (skipn (List.length (c :: o)) (text q')) as [|x z] eqn:SZ.
        - rewrite app_nil_r in FK. rewrite <- FK in L. lia.
        - exists x, (z ++ b). split; [exact SK|]. exists z. rewrite <- FK. reflexivity. }
      destruct X as (x & r & -> & z & EZ). destruct (FO x r eq_refl) as (N & _). exact (N q' u' z IQ EZ).
  - cbn [app]. assert (MI : m_id (c :: o ++ rest) = O).
    { destruct (Z.eq_dec c 46) as [->|NC]; [|apply m_id_no; assumption]. rewrite m_id_dot. pose proof (fixed_dot _ _ o IX eq_refl) as ->. cbn [app]. destruct rest as [|x r]; [reflexivity|].
      destruct (FO x r eq_refl) as (_ & N & _). unfold id_body. destruct (is_id0 x) eqn:X; [exfalso; apply N; [reflexivity|apply letter_id, X]|reflexivity]. }
    unfold is_dec in H2. unfold last_part. rewrite MI, m_hex_no, m_bin_no, m_oct_no, m_dec_no, m_chr_no by lia. fa; cbn [List.length]; try lia. destruct (c =? 10); lia.
Qed.
Lemma lex_int e rest : follows (text "int") rest -> lexes e (text "int") rest (PTOK_INT, VNone).
Proof.
  intros FO. exists (RFixed PTOK_INT). split; [|reflexivity].
  apply (pick_fixed rest (text "int") PTOK_INT); [rewrite fixed_is; left; reflexivity|discriminate|reflexivity| |].
  - intros q u b IQ Q. destruct (fixed_nonempty q u IQ) as (a & q' & -> & _). assert (a = 105) by (change (text "int") with [105; 110; 116] in Q; cbn [app] in Q; congruence). subst a.
    rewrite (fixed_letter _ _ 105 q' IQ eq_refl); [lia|unfold letter; lia].
  - assert (EN : ends (text "int") rest) by (intros c r R; destruct (FO c r R) as (_ & _ & H); apply (H [105; 110] 116 eq_refl); unfold alnum, letter; lia).
    assert (MI : m_id (text "int" ++ rest) = 3%nat).
    { change (text "int" ++ rest) with (105 :: [110; 116] ++ rest). rewrite m_id_letter by reflexivity. change (105 :: [110; 116] ++ rest) with (text "int" ++ rest). rewrite (id_body_ok (text "int") rest); [reflexivity| |exact EN].
      change (text "int") with (105 :: [110; 116]). constructor; [unfold letter; lia|]. repeat constructor; unfold letter; lia. }
    unfold last_part. rewrite MI. change (text "int" ++ rest) with (105 :: [110; 116] ++ rest). rewrite m_hex_no, m_bin_no, m_oct_no, m_dec_no, m_chr_no by (reflexivity || lia). fa; cbn; lia.
Qed.
Lemma lex_blanks b x rest : blanks (x :: b) -> (forall c r, rest = c :: r -> c <> 32 /\ c <> 9) -> longest (O, REcho) (matches ((x :: b) ++ rest)) = (S (List.length b), RBlank).
Proof.
  intros B R. rewrite matches_parts. inversion B; subst.
  assert (MB : m_blank ((x :: b) ++ rest) = S (List.length b)).
  { unfold m_blank. apply (span_all _ (x :: b) rest); [eapply Forall_impl; [|exact B]; intros a; cbn; lia|]. intros c r E. destruct (R c r E). lia. }
  rewrite MB. change ((?n, RBlank) :: ?l) with ([] ++ (n, RBlank) :: l). apply longest_pick; [apply Nat.lt_0_succ|constructor|]. apply Forall_app. split.
  - apply fixed_bound. intros o t y I Q. destruct (fixed_nonempty o t I) as (a & q & -> & A). cbn [app] in Q. injection Q as <- _.
    assert (HD : forallb (fun h => negb ((h =? 32) || (h =? 9))) heads = true) by reflexivity. rewrite forallb_forall in HD. specialize (HD x A). lia.
  - cbn [app]. unfold last_part. rewrite m_id_no, m_hex_no, m_bin_no, m_oct_no, m_dec_no, m_chr_no by (try (unfold is_id0); lia). fa; try lia. destruct (x =? 10); lia.
Qed.
Lemma word_lexes e t s rest : word_text e t s -> follows s rest -> lexes e s rest t.
Proof.
  intros Wd FO. destruct Wd.
  - apply lex_op; assumption.
  - apply lex_int; assumption.
  - apply lex_dec; assumption.
  - apply lex_oct; assumption.
  - apply lex_bin; assumption.
  - apply lex_hex; assumption.
  - apply (lex_quoted e [c]); [discriminate|repeat constructor; lia|]. unfold first_char. destruct c as [|q|q]; try reflexivity. do 7 (destruct q; try reflexivity).
  - destruct H as [H|[H|[H|[H|[H|[H|[H|[H|[H|[]]]]]]]]]]; injection H as <- <-; match goal with |- lexes _ ([39; 92] ++ ?x ++ [39]) _ _ => let x' := eval vm_compute in x in change x with x'; apply (lex_quoted e (92 :: x')) end; try discriminate; try reflexivity; repeat constructor; discriminate.
  - replace (PTOK_MEMORY_OBJECT, VObj m) with (check_id e s); [apply lex_name; assumption|]. unfold check_id. rewrite (lookup_first _ _ _ _ _ iequal_same H1). reflexivity.
  - replace (PTOK_MEMORY, VMem m a) with (check_id e s); [apply lex_name; assumption|]. unfold check_id. rewrite (lookup_none e s H1), (lookup_first _ _ _ _ _ eqb_same H2). reflexivity.
  - replace (PTOK_CELL, VCell c) with (check_id e s); [apply lex_name; assumption|]. unfold check_id. rewrite (lookup_none e s H1), (lookup_first _ _ _ _ _ eqb_same H2). reflexivity.
Qed.
Lemma word_first e t s : word_text e t s -> (exists c r, s = c :: r /\ c <> 32 /\ c <> 9) /\ fst t <> PTOK_END.
Proof.
  assert (OPS : forallb (fun p => negb (snd p =? PTOK_END)) op_table = true) by reflexivity. rewrite forallb_forall in OPS.
  assert (NM : forall s, name_text s -> exists c r, s = c :: r /\ c <> 32 /\ c <> 9).
  { intros s0 N. destruct N as [s0 I|s0 I]; [|exists 46, s0; repeat split; lia]. destruct (id_first s0 I) as (c & r & -> & L). exists c, r. unfold letter in L. repeat split; lia. }
  intros Wd. destruct Wd; (split; [|try (cbn; discriminate)]); try (apply NM; assumption); try (eexists _, _; split; [reflexivity|lia]).
  - pose proof op_heads as OH. rewrite forallb_forall in OH. specialize (OH (text s, t) ltac:(apply in_map_iff; exists (s, t); auto)). cbn [fst] in OH. destruct (text s) as [|c r]; [discriminate|]. exists c, r. repeat split; lia.
  - specialize (OPS (text s, t) ltac:(apply in_map_iff; exists (s, t); auto)). cbn [snd fst] in *. lia.
  - exists 105, [110; 116]. repeat split; lia.
  - exists 48, (98 :: s). repeat split; lia.
  - match goal with H : In p _ |- _ => destruct H as [<-|[<-|[<-|[]]]] end; [exists 48, (120 :: s)|exists 48, (88 :: s)|exists 36, s]; repeat split; lia.
Qed.
Lemma lex_S n e c s : lex_loop (S n) e (c :: s) = (let (len, r) := longest (O, REcho) (matches (c :: s)) in
  match token_of e r (firstn len (c :: s)) with
  | Some t => if fst t =? PTOK_END then [t] else t :: lex_loop n e (skipn len (c :: s))
  | None => lex_loop n e (skipn len (c :: s)) end).
Proof. reflexivity. Qed.
Lemma lex_step n e s len R t : s <> [] -> longest (O, REcho) (matches s) = (len, R) -> token_of e R (firstn len s) = Some t -> fst t <> PTOK_END ->
  lex_loop (S n) e s = t :: lex_loop n e (skipn len s).
Proof. intros NE L T N. destruct s as [|c s]; [contradiction|]. rewrite lex_S, L, T. replace (fst t =? PTOK_END) with false by lia. reflexivity. Qed.
Lemma lex_skip n e s len R : s <> [] -> longest (O, REcho) (matches s) = (len, R) -> token_of e R (firstn len s) = None -> lex_loop (S n) e s = lex_loop n e (skipn len s).
Proof. intros NE L T. destruct s as [|c s]; [contradiction|]. rewrite lex_S, L, T. reflexivity. Qed.
Lemma lex_nil n e : lex_loop n e [] = [(PTOK_END, VNone)].
Proof. destruct n; reflexivity. Qed.
Lemma firstn_app_all {A} (s rest : list A) : firstn (List.length s) (s ++ rest) = s.
Proof. rewrite firstn_app, firstn_all, Nat.sub_diag, firstn_O, app_nil_r. reflexivity. Qed.
Lemma spelt_lex e ts s : spelt e ts s -> forall n, (List.length s <= n)%nat -> lex_loop n e s = ts ++ [(PTOK_END, VNone)].
Proof.
  induction 1 as [b B|t s ts rest b B Wd SP IH FO].
  - intros n L. destruct b as [|x b]; [apply lex_nil|]. destruct n as [|n]; [cbn [List.length] in L; lia|].
    pose proof (lex_blanks b x [] B ltac:(discriminate)) as LB. rewrite app_nil_r in LB. rewrite (lex_skip n e (x :: b) _ _ ltac:(discriminate) LB eq_refl).
    change (S (List.length b)) with (List.length (x :: b)). rewrite skipn_all. apply lex_nil.
  - destruct (word_first e t s Wd) as ((c & r & ES & C1 & C2) & TE).
    assert (Q : forall n, (List.length (s ++ rest) <= n)%nat -> lex_loop n e (s ++ rest) = (t :: ts) ++ [(PTOK_END, VNone)]).
    { intros n L. destruct (word_lexes e t s rest Wd FO) as (R & L1 & L2). rewrite app_length in L. destruct n as [|n]; [rewrite ES in L; cbn [List.length] in L; lia|].
      rewrite (lex_step n e (s ++ rest) (List.length s) R t); [|rewrite ES; discriminate|exact L1|rewrite firstn_app_all; exact L2|exact TE].
      rewrite skip_app. cbn [app]. f_equal. apply IH. rewrite ES in L. cbn [List.length] in L. lia. }
    intros n L. destruct b as [|x b]; [apply Q; exact L|]. destruct n as [|n]; [cbn [List.length app] in L; lia|].
    pose proof (lex_blanks b x (s ++ rest) B) as LB. specialize (LB ltac:(intros c0 r0 E0; rewrite ES in E0; cbn [app] in E0; injection E0 as <- _; auto)).
    rewrite (lex_skip n e ((x :: b) ++ s ++ rest) _ _ ltac:(discriminate) LB eq_refl).
    change (S (List.length b)) with (List.length (x :: b)). rewrite skip_app. apply Q. rewrite app_length in L. cbn [List.length] in L. lia.
Qed.
Lemma lex_spelt e ts s : spelt e ts s -> lex e s = ts ++ [(PTOK_END, VNone)].
Proof. intros H. apply (spelt_lex e ts s H). lia. Qed.
(** every token of the lexer carries what its kind needs *)
Lemma check_id_typed e s : typed_tok (check_id e s).
Proof. unfold check_id. destruct (lookup _ _ _); [eexists; reflexivity|]. destruct (lookup _ _ _) as [[m a b|c]|]; [eexists _, _; reflexivity|eexists; reflexivity|exact I]. Qed.
Lemma num_typed n : typed_tok (PTOK_NUMBER, VNum n).
Proof. exists n. reflexivity. Qed.
Lemma lex_typed e n : forall s, Forall typed_tok (lex_loop n e s).
Proof.
  induction n as [|n IH]; intros s; cbn [lex_loop]; [constructor; [exact I|constructor]|]. destruct s as [|c s]; [constructor; [exact I|constructor]|].
  destruct (longest _ _) as [len R] eqn:LG. destruct (token_of e R _) as [t|] eqn:TO; [|apply IH].
  assert (T : typed_tok t).
  { destruct R as [|t0| | | | | | | |]; cbn [token_of] in TO; try discriminate TO.
    2-5: injection TO as <-; apply num_typed.
    2: assert (TE : check_id e (firstn len (c :: s)) = t) by congruence; rewrite <- TE; apply check_id_typed.
    2: injection TO as <-; apply num_typed.
    - injection TO as <-.
      assert (IN : In (len, RFixed t0) (matches (c :: s))).
      { clear -LG. assert (H : forall l b, longest b l = (len, RFixed t0) -> b = (len, RFixed t0) \/ In (len, RFixed t0) l).
        { induction l as [|x l IH]; intros b E; cbn [longest] in E; [auto|]. apply IH in E. destruct E as [E|E]; [|right; right; exact E]. destruct (_ <? _)%nat; [right; left; exact E|left; exact E]. }
        apply H in LG. destruct LG as [E|E]; [discriminate|exact E]. }
      rewrite matches_parts in IN. destruct IN as [IN|IN]; [discriminate|]. apply in_app_or in IN. destruct IN as [IN|IN].
      + apply in_map_iff in IN. destruct IN as ([o u] & E & IO). assert (u = t0) by (cbn [snd] in E; congruence). subst u.
        assert (TT : forallb (fun p : list Z * Z => negb (existsb (Z.eqb (snd p)) [PTOK_NUMBER; PTOK_CELL; PTOK_MEMORY; PTOK_MEMORY_OBJECT; PTOK_BITS]) && (snd p <? 100)) fixed = true) by reflexivity.
        rewrite forallb_forall in TT. specialize (TT _ IO). cbn [snd existsb] in TT. unfold typed_tok, typed. cbn [fst snd]. rewrite !orb_false_r in TT.
        destruct (t0 =? PTOK_NUMBER); [discriminate|]. destruct (t0 =? PTOK_CELL); [discriminate|]. destruct (t0 =? PTOK_MEMORY); [discriminate|]. destruct (t0 =? PTOK_MEMORY_OBJECT); [discriminate|]. destruct (t0 =? PTOK_BITS); [discriminate|]. destruct (t0 <? 100); [exact I|discriminate].
      + cbn [last_part In] in IN. repeat (destruct IN as [IN|IN]; [discriminate|]). destruct IN.
    - destruct (firstn len (c :: s)) as [|x y]; [discriminate|]. injection TO as <-. destruct (x <=? 0); exact I. }
  destruct (fst t =? PTOK_END); constructor; auto.
Qed.
