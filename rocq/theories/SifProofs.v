(** The simulator interface: proofs. *)
From Verif Require Import Base SifModel SifSpec.

Lemma ceq_spec a b : reflect (a = b) (ceq a b).
Proof. unfold ceq. destruct (Z.eqb_spec (code a) (code b)) as [E|E]; constructor; [destruct a, b; try reflexivity; discriminate E|intros ->; apply E; reflexivity]. Qed.
Lemma ceq_refl a : ceq a a = true. Proof. unfold ceq. lia. Qed.

(** ** Hexadecimal text *)
Lemma digits_S n v : digits (S n) v = digits n (v / 16) ++ [v mod 16].
Proof.
  unfold digits. rewrite seq_S, map_app. cbn [map Nat.add]. f_equal.
  - apply map_ext_in. intros k H. apply in_seq in H. rewrite Z.div_div by (try apply Z.pow_pos_nonneg; lia).
    f_equal. f_equal. rewrite <- Z.pow_succ_r by lia. f_equal. lia.
  - f_equal. replace (Z.of_nat (S n) - 1 - Z.of_nat n) with 0 by lia. rewrite Z.pow_0_r, Z.div_1_r. reflexivity.
Qed.
Lemma digits_len n v : length (digits n v) = n. Proof. unfold digits. rewrite map_length, seq_length. reflexivity. Qed.
Lemma digits_0 n : digits n 0 = repeat 0 n.
Proof.
  induction n as [|n IH]; [reflexivity|]. rewrite digits_S. change (0 / 16) with 0. rewrite IH. change (0 mod 16) with 0.
  clear IH. induction n as [|n IH]; [reflexivity|]. cbn [repeat app]. rewrite IH. reflexivity.
Qed.
Lemma strip_zeros n l : no_zeros n (repeat 0 n ++ l) = l.
Proof. induction n as [|n IH]; [reflexivity|exact IH]. Qed.
Lemma strip_app n l x : (exists d, In d l /\ d <> 0) -> no_zeros n (l ++ [x]) = no_zeros n l ++ [x].
Proof.
  revert l. induction n as [|n IH]; intros l [d [H N]]; [reflexivity|]. destruct l as [|a l]; [destruct H|]. cbn [no_zeros app].
  destruct (Z.eqb_spec a 0) as [E|E]; [|reflexivity]. apply IH. exists d. split; [|exact N]. destruct H as [H|H]; [congruence|exact H].
Qed.
Lemma strip_more n m l : (length l <= S n)%nat -> (n <= m)%nat -> (exists d, In d l /\ d <> 0) -> no_zeros m l = no_zeros n l.
Proof.
  revert m l. induction n as [|n IH]; intros m l L LE [d [H N]].
  - destruct m; [reflexivity|]. destruct l as [|a [|b l] ]; [destruct H| |cbn in L; lia]. destruct H as [H|[] ]. subst a. cbn [no_zeros].
    destruct (Z.eqb_spec d 0); [contradiction|reflexivity].
  - destruct m; [lia|]. destruct l as [|a l]; [reflexivity|]. cbn [no_zeros]. destruct (Z.eqb_spec a 0) as [E|E]; [|reflexivity].
    apply IH; [cbn in L; lia|lia|]. exists d. split; [|exact N]. destruct H as [H|H]; [congruence|exact H].
Qed.
Lemma digits_nonzero n v : 0 < v < 16 ^ Z.of_nat n -> exists d, In d (digits n v) /\ d <> 0.
Proof.
  revert v. induction n as [|n IH]; intros v H; [change (16 ^ Z.of_nat 0) with 1 in H; lia|].
  rewrite digits_S. rewrite Nat2Z.inj_succ, Z.pow_succ_r in H by lia. destruct (Z.eq_dec (v / 16) 0) as [E|E].
  - exists (v mod 16). split; [apply in_or_app; right; left; reflexivity|]. pose proof (Z.div_mod v 16). lia.
  - destruct (IH (v / 16)) as [d [D N]].
    { split; [|apply Z.div_lt_upper_bound; lia]. assert (0 <= v / 16) by (apply Z.div_pos; lia). lia. }
    exists d. split; [apply in_or_app; left; exact D|exact N].
Qed.
Lemma hex_digits_eq f v : 0 <= v < 16 ^ Z.of_nat (S f) -> hex_digits f v = map digit (no_zeros f (digits (S f) v)).
Proof.
  revert v. induction f as [|f IH]; intros v H.
  - rewrite digits_S. reflexivity.
  - cbn [hex_digits]. fold (digit (v mod 16)). rewrite digits_S. destruct (Z.ltb_spec v 16) as [L|L].
    + rewrite (Z.div_small v 16) by lia. rewrite digits_0, strip_zeros. reflexivity.
    + assert (B : 0 < v / 16 < 16 ^ Z.of_nat (S f)).
      { rewrite (Nat2Z.inj_succ (S f)), Z.pow_succ_r in H by lia. split; [apply Z.div_str_pos; lia|apply Z.div_lt_upper_bound; lia]. }
      rewrite strip_app by (apply digits_nonzero, B). rewrite map_app. cbn [map]. f_equal.
      rewrite IH by lia. f_equal. symmetry. apply strip_more; [rewrite digits_len; lia|lia|apply digits_nonzero, B].
Qed.
Lemma no_zeros_len n l : (length l <= length (no_zeros n l) + n)%nat.
Proof. revert l. induction n as [|n IH]; intros l; [cbn; lia|]. destruct l as [|a l]; [cbn; lia|]. cbn [no_zeros]. destruct (a =? 0); [specialize (IH l); cbn [length]; lia|lia]. Qed.
Lemma hex2_eq v : is_u32 v -> hex2 v = hex_text v.
Proof.
  unfold is_u32. intros H. unfold hex2, hex_text. rewrite hex_digits_eq by (change (16 ^ Z.of_nat 8) with 4294967296; lia).
  rewrite map_length. destruct (Z.ltb_spec v 16) as [L|L].
  - rewrite digits_S, (Z.div_small v 16) by lia. rewrite digits_0, (strip_zeros 7). cbn [length Nat.ltb Nat.leb map].
    change (repeat 0 7) with (repeat 0 6 ++ [0]). rewrite <- app_assoc, (strip_zeros 6). reflexivity.
  - assert (S1 : no_zeros 7 (digits 8 v) = no_zeros 6 (digits 8 v)).
    { rewrite digits_S. assert (B : 0 < v / 16 < 16 ^ Z.of_nat 7) by (split; [apply Z.div_str_pos; lia|apply Z.div_lt_upper_bound; [lia|change (16 * 16 ^ Z.of_nat 7) with 4294967296; lia] ]).
      rewrite !strip_app by (apply digits_nonzero, B). f_equal. apply strip_more; [rewrite digits_len; lia|lia|apply digits_nonzero, B]. }
    rewrite S1. pose proof (no_zeros_len 6 (digits 8 v)) as N. rewrite digits_len in N.
    destruct (Nat.ltb_spec (length (no_zeros 6 (digits 8 v))) 2); [lia|]. reflexivity.
Qed.

(** ** The invariant *)
Definition empty (q : cst) : Prop := ans q = None /\ alen q = 0 /\ adone q = 0.
Definition pars_ok (c : cmd) (q : cst) : Prop :=
  match par q with
  | Null => nuof q = 0
  | Live l => Z.of_nat (length l) = needs c /\ nuof q = needs c /\ 0 <= recv q <= nuof q /\ Forall is_u32 l
  | Freed => False
  end.
Definition busy (q : cst) : Prop :=
  (empty q /\ 0 <= recv q < nuof q /\ par q <> Null) \/
  (exists l, ans q = Some l /\ alen q = Z.of_nat (length l) /\ 0 <= adone q < alen q /\ answering q = true /\ nuof q <= recv q).
Record inv (bits : Z) (s : st) : Prop := mkI {
  i_par : forall c, pars_ok c (cs s c);
  i_emp : forall c, act s <> Some c -> empty (cs s c);
  i_act : forall c, act s = Some c -> busy (cs s c);
  i_cell : 0 <= cell s < 2 ^ bits;
  i_xt : is_u32 (xt s);
  i_reason : is_u32 (cf s 5) }.

Section Sif.
Variable ver : list Z.
Variable bits : Z.
Notation produce := (SifModel.produce ver).
Notation does := (SifSpec.does ver).
Definition tellp (l : list Z) : phase := match l with [] => Idle | _ => Tell l end.
Definition same_but (x y : ab) : Prop := a_ph Idle x = a_ph Idle y.
Definition after (c : cmd) (l : list Z) (s s2 : st) : Prop :=
  let q := cs s c in
  act s2 = (match l with [] => None | _ => Some c end) /\
  cs s2 c = mkS (par q) (nuof q) (recv q) (match l with [] => None | _ => Some l end) (Z.of_nat (length l)) 0 (match l with [] => false | _ => true end) /\
  forall k, k <> c -> cs s2 k = cs s k.
Lemma start_some c l s : act s = Some c -> ans (cs s c) = Some l -> alen (cs s c) = Z.of_nat (length l) -> adone (cs s c) = 0 -> l <> [] ->
  after c l s (start_answer c s) /\ a_ph Idle (seen (start_answer c s)) = a_ph Idle (seen s).
Proof.
  intros A E1 E2 E3 N. unfold start_answer. destruct l as [|b l]; [contradiction|]. rewrite E2. destruct (Z.eqb_spec (Z.of_nat (length (b :: l))) 0) as [K|K]; [cbn [length] in K; lia|].
  cbn [negb]. split; [|reflexivity]. unfold after. cbn [act cs t_cs]. rewrite ceq_refl. rewrite <- E2, E1, E3. split; [exact A|]. split; [reflexivity|].
  intros k N2. destruct (ceq_spec k c); [contradiction|reflexivity].
Qed.
Lemma start_none c s : (act s = Some c \/ act s = None) -> empty (cs s c) ->
  after c [] s (start_answer c s) /\ a_ph Idle (seen (start_answer c s)) = a_ph Idle (seen s).
Proof.
  intros A (E1 & E2 & E3). unfold start_answer. rewrite E2. cbn [Z.eqb negb]. split.
  - unfold after, finish. destruct A as [A|A]; cbn [act t_cs]; rewrite A; cbn [act cs t_cs t_act length]; rewrite !ceq_refl.
    + split; [reflexivity|]. split; [reflexivity|]. intros k N. destruct (ceq_spec k c); [contradiction|reflexivity].
    + rewrite E1, E3. split; [exact A|]. split; [reflexivity|]. intros k N. destruct (ceq_spec k c); [contradiction|reflexivity].
  - unfold finish. cbn [act t_cs]. destruct (act s); reflexivity.
Qed.
Lemma after_trans c l s s1 s2 : after c l s1 s2 -> par (cs s1 c) = par (cs s c) -> nuof (cs s1 c) = nuof (cs s c) -> recv (cs s1 c) = recv (cs s c) ->
  (forall k, k <> c -> cs s1 k = cs s k) -> after c l s s2.
Proof.
  unfold after. intros (A & B & C) E1 E2 E3 E4. rewrite <- E1, <- E2, <- E3. split; [exact A|]. split; [exact B|]. intros k N. rewrite C by exact N. apply E4, N.
Qed.
Lemma update_other c v s k : k <> c -> cs (t_cs c v s) k = cs s k.
Proof. intros N. cbn [cs t_cs]. destruct (ceq_spec k c); [contradiction|reflexivity]. Qed.
Lemma clear_id q : empty q -> clear_answer q = q. Proof. intros (E1 & E2 & E3). destruct q. cbn in *. subst. reflexivity. Qed.
(** an answer given *)
Lemma give c l s s1 : act s = Some c -> l <> [] -> act s1 = act s -> (forall k, k <> c -> cs s1 k = cs s k) ->
  cs s1 c = mkS (par (cs s c)) (nuof (cs s c)) (recv (cs s c)) (Some l) (Z.of_nat (length l)) 0 (answering (cs s c)) ->
  after c l s (start_answer c s1) /\ a_ph Idle (seen (start_answer c s1)) = a_ph Idle (seen s1).
Proof.
  intros A N A1 K E. destruct (start_some c l s1) as [P Q]; try (rewrite E; reflexivity); [congruence|exact N|].
  split; [|exact Q]. apply (after_trans c l s s1); try (rewrite E; reflexivity); assumption.
Qed.
(** no answer *)
Lemma give0 c s s1 : (act s1 = Some c \/ act s1 = None) -> (forall k, k <> c -> cs s1 k = cs s k) ->
  par (cs s1 c) = par (cs s c) -> nuof (cs s1 c) = nuof (cs s c) -> recv (cs s1 c) = recv (cs s c) -> empty (cs s1 c) ->
  after c [] s (start_answer c s1) /\ a_ph Idle (seen (start_answer c s1)) = a_ph Idle (seen s1).
Proof. intros A K E1 E2 E3 E. destruct (start_none c s1 A E) as [P Q]. split; [|exact Q]. apply (after_trans c [] s s1); assumption. Qed.
Lemma text_nil l : text l = [] -> l = []. Proof. destruct l; [reflexivity|discriminate]. Qed.
Lemma give_text c l s : act s = Some c -> empty (cs s c) ->
  after c (text l) s (start_answer c (t_cs c (answer_string l (cs s c)) s)) /\
  a_ph Idle (seen (start_answer c (t_cs c (answer_string l (cs s c)) s))) = a_ph Idle (seen s).
Proof.
  intros A (E1 & E2 & E3). destruct l as [|b l].
  - apply (give0 c s (t_cs c (answer_string [] (cs s c)) s)); try (cbn [cs t_cs]; rewrite ceq_refl; reflexivity); [left; exact A|apply update_other|].
    cbn [cs t_cs]. rewrite ceq_refl. repeat split.
  - apply (give c (text (b :: l)) s (t_cs c (answer_string (b :: l) (cs s c)) s)); [exact A|discriminate|reflexivity|apply update_other|].
    cbn [cs t_cs]. rewrite ceq_refl. reflexivity.
Qed.
Lemma find_is v : find_code v = is_code v. Proof. reflexivity. Qed.
Lemma finish_world s : wd (finish s) = wd s /\ cell (finish s) = cell s /\ cf (finish s) = cf s /\ on (finish s) = on s /\ quit (finish s) = quit s /\ xt (finish s) = xt s.
Proof. unfold finish. destruct (act s); repeat split. Qed.
Lemma give_fin c s s1 : act s = Some c -> act s1 = act s -> cs s1 = cs s -> empty (cs s c) ->
  after c [] s (start_answer c (finish s1)) /\ a_ph Idle (seen (start_answer c (finish s1))) = a_ph Idle (seen s1).
Proof.
  intros A A1 K E. destruct (give0 c s (finish s1)) as [P Q].
  - right. unfold finish. rewrite A1, A. reflexivity.
  - unfold finish. rewrite A1, A. intros k N. cbn [cs t_act]. rewrite update_other by exact N. rewrite K. reflexivity.
  - unfold finish. rewrite A1, A. cbn [cs t_act t_cs]. rewrite ceq_refl, K. reflexivity.
  - unfold finish. rewrite A1, A. cbn [cs t_act t_cs]. rewrite ceq_refl, K. reflexivity.
  - unfold finish. rewrite A1, A. cbn [cs t_act t_cs]. rewrite ceq_refl, K. reflexivity.
  - unfold finish. rewrite A1, A. cbn [cs t_act t_cs]. rewrite ceq_refl. repeat split.
  - split; [exact P|]. rewrite Q. unfold seen. destruct (finish_world s1) as (E1 & E2 & E3 & E4 & E5 & E6). rewrite E1, E2, E3, E4, E5, E6. reflexivity.
Qed.

Lemma run_ok av ae gb c ps s : act s = Some c -> empty (cs s c) ->
  (needs c <> 0 -> par (cs s c) = Live ps /\ nuof (cs s c) = needs c /\ Z.of_nat (length ps) = needs c /\ Forall is_u32 ps) ->
  exists s1, produce av ae gb c s = Ok s1 /\
  let '(x, l) := does av ae gb c ps (seen s) in
  after c l s (start_answer c s1) /\ a_ph Idle (seen (start_answer c s1)) = a_ph Idle x.
Proof.
  intros A E P. pose proof E as (E1 & E2 & E3).
  assert (G : needs c = 1 -> exists v, ps = [v] /\ is_u32 v /\ get_parameter 0 (cs s c) = Ok (Some v)).
  { intros N. destruct P as (P1 & P2 & P3 & P4); [lia|]. destruct ps as [|v [|? ?] ]; cbn [length] in P3; [lia| |lia].
    exists v. split; [reflexivity|]. split; [inversion P4; assumption|]. unfold get_parameter. rewrite P1, P2, N. reflexivity. }
  assert (ONE : forall v, after c [u32 v] s (start_answer c (t_cs c (answer1 v (cs s c)) s)) /\
                 a_ph Idle (seen (start_answer c (t_cs c (answer1 v (cs s c)) s))) = a_ph Idle (seen s)).
  { intros v. apply (give c [u32 v] s (t_cs c (answer1 v (cs s c)) s)); [exact A|discriminate|reflexivity|apply update_other|].
    cbn [cs t_cs]. rewrite ceq_refl. reflexivity. }
  assert (LST : forall l, l <> [] -> after c l s (start_answer c (t_cs c (set_ans l (cs s c)) s)) /\
                 a_ph Idle (seen (start_answer c (t_cs c (set_ans l (cs s c)) s))) = a_ph Idle (seen s)).
  { intros l N. apply (give c l s (t_cs c (set_ans l (cs s c)) s)); [exact A|exact N|reflexivity|apply update_other|].
    cbn [cs t_cs]. rewrite ceq_refl. unfold set_ans. rewrite E3. reflexivity. }
  destruct c; cbn [SifModel.produce SifSpec.does]; cbv zeta; cbn [needs] in *.
  - eexists. split; [reflexivity|]. apply (ONE 33).
  - eexists. split; [reflexivity|]. apply LST. discriminate.
  - eexists. split; [reflexivity|]. apply (ONE 2).
  - eexists. split; [reflexivity|]. apply give_text; assumption.
  - eexists. split; [reflexivity|]. apply (give0 IfReset s (t_cs IfReset (clear_answer (cs s IfReset)) s)); try reflexivity; [left; exact A|apply update_other|repeat split].
  - destruct (G eq_refl) as (v & -> & B & ->). cbn [rbind nth]. eexists. split; [reflexivity|]. change (find_code v) with (is_code v). apply LST. destruct (is_code v); discriminate.
  - destruct (G eq_refl) as (v & -> & B & ->). cbn [rbind nth]. eexists. split; [reflexivity|]. change (find_code v) with (is_code v). destruct (is_code v) as [a|].
    + apply give_text; assumption.
    + apply (ONE 0).
  - eexists. split; [reflexivity|]. unfold sim_stop.
    match goal with |- context [start_answer _ ?q] => destruct (give Stop [115] s q) as [P1 P2]; [exact A|discriminate|reflexivity|apply update_other|reflexivity|] end.
    split; [exact P1|]. rewrite P2. reflexivity.
  - destruct (G eq_refl) as (v & -> & B & ->). cbn [rbind nth]. eexists. split; [reflexivity|].
    destruct (give_fin Print s (prn [u8 v] s)) as [P1 P2]; try assumption; try reflexivity. split; [exact P1|]. rewrite P2. reflexivity.
  - destruct (G eq_refl) as (v & -> & B & ->). cbn [rbind nth]. eexists. split; [reflexivity|].
    destruct (give_fin Hex s (prn (hex2 v) s)) as [P1 P2]; try assumption; try reflexivity. split; [exact P1|]. rewrite P2. rewrite hex2_eq by exact B. reflexivity.
  - eexists. split; [reflexivity|]. cbn [aw seen].
    destruct (fin (wd s)) as [f|]; [destruct (av && negb ae)|]; apply ONE.
  - cbn [aw seen]. destruct (fin (wd s)) as [f|].
    + destruct av; cbn [negb].
      * destruct f as [|b r].
        -- eexists. split; [reflexivity|]. destruct ae; [apply (ONE 0)|apply ONE].
        -- eexists. split; [reflexivity|].
           match goal with |- context [start_answer _ ?q] => destruct (give Read [u32 b] s q) as [P1 P2]; [exact A|discriminate|reflexivity|intros k N0; rewrite update_other by exact N0; reflexivity|reflexivity|] end.
           split; [exact P1|]. rewrite P2. reflexivity.
      * eexists. split; [reflexivity|]. apply (ONE 0).
    + eexists. split; [reflexivity|]. apply (ONE 0).
  - destruct (G eq_refl) as (v & -> & B & ->). cbn [rbind nth]. eexists. split; [reflexivity|].
    unfold written. cbn [aw seen].
    match goal with |- context [finish ?q] => destruct (give_fin Write s q) as [P1 P2]; [exact A|destruct (fout (wd s)); reflexivity|destruct (fout (wd s)); reflexivity|exact E|] end.
    split; [exact P1|]. rewrite P2. destruct (fout (wd s)); reflexivity.
  - eexists. split; [reflexivity|].
    match goal with |- context [finish ?q] => destruct (give_fin Reset s q) as [P1 P2]; [exact A|reflexivity|reflexivity|exact E|] end.
    split; [exact P1|]. rewrite P2. reflexivity.
  - destruct P as (P1 & P2 & P3 & P4); [lia|]. destruct ps as [|a [|b [|d [|e [|? ?] ] ] ] ]; cbn [length] in P3; try lia. rewrite P1.
    eexists. split; [reflexivity|].
    match goal with |- context [finish ?q] => destruct (give_fin SetLimit s q) as [Q1 Q2]; [exact A|reflexivity|reflexivity|exact E|] end.
    split; [exact Q1|]. rewrite Q2.
    assert (EV : u32 (e mod 256 * 16777216 + d mod 256 * 65536 + b mod 256 * 256 + a mod 256) = word_of [a; b; d; e]).
    { unfold word_of, byte_of. rewrite u32_id by lia. lia. }
    rewrite EV. unfold set_limit, limited. cbn [aw seen]. destruct (Z.eqb_spec (word_of [a; b; d; e]) 0) as [-> |]; reflexivity.
  - eexists. split; [reflexivity|]. unfold answer_list. rewrite clear_id by exact E. apply (LST (4 :: bytes_of (limit (wd s)))). discriminate.
Qed.

Lemma after_seen c l s s2 x : after c l s s2 -> a_ph Idle (seen s2) = a_ph Idle x -> seen s2 = a_ph (tellp l) x.
Proof.
  intros (A & B & C) E. assert (P : ph (seen s2) = tellp l).
  { cbn [ph seen]. rewrite A. destruct l as [|b l]; [reflexivity|]. rewrite B. reflexivity. }
  revert E P. generalize (seen s2). intros [ ] E P. destruct x. cbn in P. subst. inversion E. reflexivity.
Qed.
Lemma does_keeps av ae gb c ps x : let y := fst (does av ae gb c ps x) in
  last y = last x /\ axt y = axt x /\ (areason y = areason x \/ areason y = 110).
Proof.
  cbv zeta. destruct c; cbn [SifSpec.does]; cbv zeta; try (repeat split; left; reflexivity).
  - repeat split. right. reflexivity.
  - destruct (fin (aw x)) as [ [|b r]|]; destruct av; repeat split; left; reflexivity.
Qed.
(** every command stays in order *)
Lemma after_inv c l s s2 :
  (forall k, k <> c -> pars_ok k (cs s k)) -> (forall k, k <> c -> empty (cs s k)) -> pars_ok c (cs s c) -> nuof (cs s c) <= recv (cs s c) -> after c l s s2 ->
  0 <= cell s2 < 2 ^ bits -> is_u32 (xt s2) -> is_u32 (cf s2 5) -> inv bits s2.
Proof.
  intros P1 P2 P3 P4 (A & B & C) H1 H2 H3. constructor; try assumption.
  - intros k. destruct (ceq_spec k c) as [-> |N]; [rewrite B; exact P3|rewrite C by exact N; apply P1, N].
  - intros k K. destruct (ceq_spec k c) as [-> |N].
    + rewrite B. rewrite A in K. destruct l; [repeat split|contradiction].
    + rewrite C by exact N. apply P2, N.
  - intros k K. rewrite A in K. destruct l as [|b l]; [discriminate K|]. injection K as <-. rewrite B. right. exists (b :: l). cbn [ans alen adone answering nuof recv length].
    repeat split; try lia.
Qed.
Lemma perform_ok av ae gb c ps s : act s = Some c -> empty (cs s c) -> nuof (cs s c) <= recv (cs s c) -> pars_ok c (cs s c) ->
  (needs c <> 0 -> par (cs s c) = Live ps) ->
  (forall k, k <> c -> pars_ok k (cs s k)) -> (forall k, k <> c -> empty (cs s k)) ->
  0 <= cell s < 2 ^ bits -> is_u32 (xt s) -> is_u32 (cf s 5) ->
  exists s2, rbind (produce av ae gb c s) (fun s => Ok (start_answer c s)) = Ok s2 /\ inv bits s2 /\ seen s2 = perform ver av ae gb c ps (seen s).
Proof.
  intros A E R PO PL P1 P2 H1 H2 H3. destruct (run_ok av ae gb c ps s A E) as (s1 & RUN & K).
  { intros N. specialize (PL N). unfold pars_ok in PO. rewrite PL in *. destruct PO as (Q1 & Q2 & Q3 & Q4). repeat split; assumption. }
  rewrite RUN. cbn [rbind]. exists (start_answer c s1). split; [reflexivity|].
  pose proof (does_keeps av ae gb c ps (seen s)) as D. unfold perform. destruct (does av ae gb c ps (seen s)) as [x l]. destruct K as [K1 K2].
  pose proof (after_seen c l s _ x K1 K2) as S1. split; [|exact S1]. cbn [fst] in D. destruct D as (D1 & D2 & D3).
  assert (F : cell (start_answer c s1) = last x /\ xt (start_answer c s1) = axt x /\ cf (start_answer c s1) 5 = areason x).
  { change (last (seen (start_answer c s1)) = last x /\ axt (seen (start_answer c s1)) = axt x /\ areason (seen (start_answer c s1)) = areason x). rewrite S1. repeat split. }
  destruct F as (F1 & F2 & F3).
  eapply after_inv; [exact P1|exact P2|exact PO|exact R|exact K1|rewrite F1, D1; exact H1|rewrite F2, D2; exact H2|].
  rewrite F3. destruct D3 as [-> | ->]; [exact H3|unfold is_u32; lia].
Qed.
Hypothesis BITS : 2 <= bits <= 32.
Notation mask := (2 ^ bits - 1).
Lemma pow_bits : 4294967296 = 2 ^ bits * 2 ^ (32 - bits) /\ 0 < 2 ^ bits /\ 0 < 2 ^ (32 - bits).
Proof. split; [|split; apply Z.pow_pos_nonneg; lia]. rewrite <- Z.pow_add_r by lia. replace (bits + (32 - bits)) with 32 by lia. reflexivity. Qed.
Lemma land_mask v : Z.land v mask = v mod 2 ^ bits.
Proof. rewrite <- Z.land_ones by lia. f_equal. rewrite Z.ones_equiv. lia. Qed.
Lemma complement d : 0 <= d < 2 ^ bits -> Z.land (u32 (- d - 1)) mask = 2 ^ bits - 1 - d.
Proof.
  intros H. destruct pow_bits as (P & Q & R). rewrite land_mask. unfold u32. change (2 ^ 32) with 4294967296. rewrite P.
  rewrite Z.rem_mul_r by lia. rewrite (Z.mul_comm (2 ^ bits)), Z_mod_plus_full, Z.mod_mod by lia. symmetry. apply (Z.mod_unique_pos _ _ (-1)); lia.
Qed.
Lemma ab_same x : a_ph (ph x) x = x. Proof. destruct x; reflexivity. Qed.
Lemma read_ok s : inv bits s -> exists v s2, SifModel.read mask s = Ok (v, s2) /\ inv bits s2 /\ spec_read bits (seen s) = (v, seen s2).
Proof.
  intros I. unfold SifModel.read, spec_read. destruct (act s) as [c|] eqn:A.
  2:{ eexists _, _. split; [reflexivity|]. split; [exact I|]. rewrite complement by apply (i_cell _ _ I). cbn [ph seen]. rewrite A. reflexivity. }
  unfold cmd_read. destruct (i_act _ _ I c A) as [ [ (E1 & E2 & E3) [R PN] ]|(l & E1 & E2 & R & AN & NR)].
  - rewrite E1. exists (cell s), s. split; [destruct (answering (cs s c)); reflexivity|]. split; [exact I|].
    cbn [ph seen]. rewrite A, E1. destruct (par (cs s c)); reflexivity.
  - rewrite AN, E1. destruct (Z.ltb_spec (adone (cs s c)) (alen (cs s c))) as [L|L]; [|lia].
    destruct (nth_error l (Z.to_nat (adone (cs s c)))) as [v|] eqn:N; [|apply nth_error_None in N; lia].
    cbn [rbind]. cbn [cs t_cs]. rewrite ceq_refl. cbn [alen adone].
    assert (SK : skipn (Z.to_nat (adone (cs s c))) l = v :: skipn (Z.to_nat (adone (cs s c) + 1)) l).
    { replace (Z.to_nat (adone (cs s c) + 1)) with (S (Z.to_nat (adone (cs s c)))) by lia. clear - N. revert l N. generalize (Z.to_nat (adone (cs s c))).
      induction n as [|n IH]; intros [|a l] N; try discriminate N; [injection N as ->; reflexivity|]. cbn [skipn]. apply IH, N. }
    assert (PH : ph (seen s) = Tell (v :: skipn (Z.to_nat (adone (cs s c) + 1)) l)) by (cbn [ph seen]; rewrite A, E1, SK; reflexivity).
    assert (LEN : Z.of_nat (length (skipn (Z.to_nat (adone (cs s c) + 1)) l)) = alen (cs s c) - (adone (cs s c) + 1)) by (rewrite skipn_length; lia).
    rewrite PH. destruct (Z.leb_spec (alen (cs s c)) (adone (cs s c) + 1)) as [LE|LE].
    + destruct (skipn (Z.to_nat (adone (cs s c) + 1)) l) as [|b r]; [|cbn [length] in LEN; lia].
      unfold finish. cbn [act t_cs]. rewrite A. eexists _, _. split; [reflexivity|]. split; [|reflexivity].
      constructor; cbn [act cs t_cs t_act cell xt cf]; try apply I.
      * intros k. destruct (ceq_spec k c) as [-> |]; [rewrite ceq_refl; apply (i_par _ _ I)|apply (i_par _ _ I)].
      * intros k _. destruct (ceq_spec k c) as [-> |NE]; [rewrite ceq_refl; repeat split|]. apply (i_emp _ _ I). congruence.
      * discriminate.
    + destruct (skipn (Z.to_nat (adone (cs s c) + 1)) l) as [|b r] eqn:SR; [cbn [length] in LEN; lia|].
      eexists _, _. split; [reflexivity|]. split.
      * constructor; cbn [act cs t_cs t_act cell xt cf]; try apply I.
        -- intros k. destruct (ceq_spec k c) as [-> |]; apply (i_par _ _ I).
        -- intros k K. destruct (ceq_spec k c) as [-> |NE]; [congruence|]. apply (i_emp _ _ I). congruence.
        -- intros k K. rewrite A in K. injection K as <-. rewrite ceq_refl. right. exists l. cbn [ans alen adone answering nuof recv]. repeat split; try assumption; lia.
      * f_equal. unfold seen. cbn [act cs t_cs]. rewrite A, ceq_refl. cbn [ans adone]. rewrite E1, SR. reflexivity.
Qed.
Lemma Forall_firstn (l : list Z) n : Forall is_u32 l -> Forall is_u32 (firstn n l).
Proof. intros H. rewrite <- (firstn_skipn n l) in H. apply Forall_app in H. apply H. Qed.
Lemma Forall_skipn (l : list Z) n : Forall is_u32 l -> Forall is_u32 (skipn n l).
Proof. intros H. rewrite <- (firstn_skipn n l) in H. apply Forall_app in H. apply H. Qed.
Lemma put_ok l n v : (n < length l)%nat -> put n v l = Ok (firstn n l ++ v :: skipn (S n) l).
Proof.
  revert n. induction l as [|a l IH]; intros n H; [cbn in H; lia|]. destruct n; [reflexivity|]. cbn [put firstn app skipn]. cbn [length] in H.
  rewrite IH by lia. reflexivity.
Qed.
Lemma cell_ok v s p : inv bits s -> seen s = p -> inv bits (t_cell (Z.land v mask) s) /\ seen (t_cell (Z.land v mask) s) = a_last (v mod 2 ^ bits) p.
Proof.
  intros I <-. rewrite land_mask. split; [|reflexivity]. constructor; try apply I. cbn [cell t_cell]. apply Z.mod_pos_bound. apply pow_bits.
Qed.
Lemma write_ok av ae gb v s : inv bits s -> is_u32 v -> exists s2, SifModel.write ver mask av ae gb v s = Ok s2 /\ inv bits s2 /\ seen s2 = spec_write ver bits av ae gb v (seen s).
Proof.
  intros I V. unfold SifModel.write, spec_write.
  assert (G : forall r p, (exists s2, r = Ok s2 /\ inv bits s2 /\ seen s2 = p) ->
    exists s2, rbind r (fun s0 => Ok (t_cell (Z.land v mask) s0)) = Ok s2 /\ inv bits s2 /\ seen s2 = a_last (v mod 2 ^ bits) p).
  { intros r p (s2 & -> & I2 & E). cbn [rbind]. eexists. split; [reflexivity|]. apply cell_ok; assumption. }
  apply G. clear G. destruct (act s) as [c|] eqn:A.
  - cbn [ph seen]. rewrite A. unfold cmd_write. destruct (i_act _ _ I c A) as [ [EE [R PN] ]|(l & E1 & E2 & R & AN & NR)].
    + pose proof EE as (E1 & E2 & E3). rewrite E1. pose proof (i_par _ _ I c) as PO. unfold pars_ok in PO.
      destruct (par (cs s c)) as [|l|] eqn:PA; [contradiction| |contradiction]. destruct PO as (L1 & L2 & L3 & L4).
      destruct (Z.eqb_spec (nuof (cs s c)) 0) as [Z0|Z0]; [lia|]. destruct (Z.ltb_spec (recv (cs s c)) (nuof (cs s c))) as [Z1|Z1]; [|lia]. cbn [negb andb].
      set (n := Z.to_nat (recv (cs s c))). rewrite put_ok by (unfold n; lia). cbn [rbind]. set (l2 := firstn n l ++ v :: skipn (S n) l).
      assert (FN : firstn (Z.to_nat (recv (cs s c) + 1)) l2 = firstn n l ++ [v]).
      { replace (Z.to_nat (recv (cs s c) + 1)) with (n + 1)%nat by (unfold n; lia). unfold l2.
        assert (LF : length (firstn n l) = n) by (rewrite firstn_length; unfold n; lia).
        rewrite <- LF at 1. rewrite firstn_app_2. reflexivity. }
      assert (LL : length l2 = length l) by (unfold l2; rewrite app_length; cbn [length]; rewrite firstn_length, skipn_length; unfold n; lia).
      assert (FL : Forall is_u32 l2).
      { unfold l2. apply Forall_app. split; [apply Forall_firstn, L4|]. constructor; [exact V|apply Forall_skipn, L4]. }
      rewrite app_length, firstn_length. cbn [length].
      destruct (Z.leb_spec (nuof (cs s c)) (recv (cs s c) + 1)) as [LE|LE].
      * replace (Z.of_nat (Init.Nat.min n (length l) + 1) =? needs c) with true by (symmetry; apply Z.eqb_eq; unfold n; lia).
        match goal with |- context [produce _ _ _ _ ?u] => set (s1 := u) end.
        assert (EQ : firstn n l ++ [v] = l2) by (rewrite <- FN; apply firstn_all2; lia).
        destruct (perform_ok av ae gb c l2 s1) as (s2 & P1 & P2 & P3); unfold s1; cbn [act cs t_cs cell xt cf]; try rewrite ceq_refl.
        -- exact A.
        -- repeat split; cbn [ans alen adone]; assumption.
        -- exact LE.
        -- cbn. repeat split; try lia. exact FL.
        -- intros _. reflexivity.
        -- intros k N. destruct (ceq_spec k c); [contradiction|]. apply (i_par _ _ I).
        -- intros k N. destruct (ceq_spec k c); [contradiction|]. apply (i_emp _ _ I). congruence.
        -- apply I.
        -- apply I.
        -- apply I.
        -- exists s2. split; [exact P1|]. split; [exact P2|]. rewrite P3, EQ. unfold perform.
           assert (DD : forall ph1 ph2 x, let '(y, l) := does av ae gb c l2 (a_ph ph1 x) in let '(z, m) := does av ae gb c l2 (a_ph ph2 x) in a_ph Idle y = a_ph Idle z /\ l = m).
           { intros ph1 ph2 x. destruct c; cbn [SifSpec.does]; cbv zeta; try (split; reflexivity). cbn [aw a_ph]. destruct (fin (aw x)) as [ [|? ?]|]; destruct av; split; reflexivity. }
           specialize (DD (ph (seen s1)) (ph (seen s)) (seen s)). rewrite (ab_same (seen s)) in DD.
           assert (S1 : seen s1 = a_ph (ph (seen s1)) (seen s)) by reflexivity.
           rewrite <- S1 in DD. destruct (does av ae gb c l2 (seen s1)) as [y m]. destruct (does av ae gb c l2 (seen s)) as [z m2]. destruct DD as [D1 ->].
           destruct y, z. inversion D1. reflexivity.
      * replace (Z.of_nat (Init.Nat.min n (length l) + 1) =? needs c) with false by (symmetry; apply Z.eqb_neq; unfold n; lia).
        eexists. split; [reflexivity|]. split.
        -- constructor; cbn [act cs t_cs cell xt cf]; try apply I.
           ++ intros k. destruct (ceq_spec k c) as [-> |]; [|apply (i_par _ _ I)]. cbn. repeat split; try lia. exact FL.
           ++ intros k K. destruct (ceq_spec k c) as [-> |]; [congruence|]. apply (i_emp _ _ I). exact K.
           ++ intros k K. rewrite A in K. injection K as <-. rewrite ceq_refl. left. cbn [ans alen adone recv nuof par]. split; [repeat split; assumption|]. split; [lia|discriminate].
        -- unfold seen. cbn [act cs t_cs]. rewrite A, ceq_refl. cbn [ans par recv]. rewrite E1, FN. reflexivity.
    + rewrite E1. destruct (Z.ltb_spec (recv (cs s c)) (nuof (cs s c))) as [L|L]; [lia|]. rewrite Bool.andb_false_r.
      exists s. split; [reflexivity|]. split; [exact I|reflexivity].
  - cbn [ph seen]. rewrite A. change (find_code v) with (is_code v). destruct (is_code v) as [c|]; [|exists s; split; [reflexivity|split; [exact I|reflexivity] ] ].
    unfold start. cbn [cs t_act].
    assert (EC : empty (cs s c)) by (apply (i_emp _ _ I); congruence). pose proof EC as (E1 & E2 & E3).
    set (q := mkS (match par (cs s c) with Null => Null | _ => Freed end) 0 0 (ans (cs s c)) (alen (cs s c)) (adone (cs s c)) (answering (cs s c))).
    assert (CL : clear_params (cs s c) = Ok q).
    { unfold clear_params, q. pose proof (i_par _ _ I c) as PO. unfold pars_ok in PO. destruct (par (cs s c)); [reflexivity|reflexivity|contradiction]. }
    rewrite CL. cbn [rbind]. assert (NB : 0 <= needs c) by (destruct c; cbn; lia).
    destruct (Z.leb_spec (needs c) 0) as [L|L].
    + replace (needs c =? 0) with true by lia. set (s0 := t_cs c q (t_act (Some c) s)).
      destruct (run_ok av ae gb c [] s0) as (s1 & RUN & K).
      * reflexivity.
      * unfold s0. cbn [cs t_cs t_act]. rewrite ceq_refl. repeat split; assumption.
      * intros N. lia.
      * rewrite RUN. cbn [rbind]. eexists. split; [reflexivity|].
        pose proof (does_keeps av ae gb c [] (seen s0)) as D.
        assert (DD : does av ae gb c [] (seen s) = let '(x, l) := does av ae gb c [] (seen s0) in (a_ph Idle x, l)).
        { assert (S0 : seen s = a_ph Idle (seen s0)) by (unfold seen; rewrite A; reflexivity). rewrite S0. clear. generalize (seen s0). intros x.
          destruct c; cbn [SifSpec.does]; cbv zeta; try reflexivity. cbn [aw a_ph]. destruct (fin (aw x)) as [ [|? ?]|]; destruct av; reflexivity. }
        unfold perform. rewrite DD. clear DD. destruct (does av ae gb c [] (seen s0)) as [x l]. destruct K as [K1 K2]. cbn [fst] in D. destruct D as (D1 & D2 & D3).
        pose proof (after_seen c l s0 _ x K1 K2) as S1. destruct K1 as (B1 & B2 & B3).
        set (s2 := start_answer c s1) in *.
        assert (F : cell s2 = last x /\ xt s2 = axt x /\ cf s2 5 = areason x).
        { change (last (seen s2) = last x /\ axt (seen s2) = axt x /\ areason (seen s2) = areason x). rewrite S1. repeat split. }
        destruct F as (F1 & F2 & F3). split.
        -- constructor; cbn [act cs t_cs cell xt cf].
           ++ intros k. destruct (ceq_spec k c) as [-> |N]; [|rewrite B3 by exact N; unfold s0; cbn [cs t_cs t_act]; destruct (ceq_spec k c); [contradiction|]; apply (i_par _ _ I)].
              cbn. replace (needs c) with 0 by lia. cbn. repeat split; try lia. constructor.
           ++ intros k KN. destruct (ceq_spec k c) as [-> |N].
              ** cbn [ans alen adone]. rewrite B2. rewrite B1 in KN. destruct l; [repeat split|contradiction].
              ** rewrite B3 by exact N; unfold s0; cbn [cs t_cs t_act]; destruct (ceq_spec k c); [contradiction|]; apply (i_emp _ _ I). congruence.
           ++ intros k KN. rewrite B1 in KN. destruct l as [|b l]; [discriminate KN|]. injection KN as <-. rewrite ceq_refl. right. exists (b :: l).
              cbn [ans alen adone answering nuof recv]. rewrite B2. cbn [ans alen adone answering length]. repeat split; lia.
           ++ rewrite F1, D1. apply I.
           ++ rewrite F2, D2. apply I.
           ++ rewrite F3. destruct D3 as [-> | ->]; [apply I|unfold is_u32; lia].
        -- transitivity (seen s2); [|rewrite S1; reflexivity].
           unfold seen. cbn [act cs t_cs cell wd on quit xt cf]. rewrite B1. destruct l as [|b l]; [reflexivity|].
           rewrite ceq_refl. cbn [ans par adone]. rewrite B2. reflexivity.
    + replace (needs c =? 0) with false by lia. cbn [rbind]. eexists. split; [reflexivity|]. split.
      * constructor; cbn [act cs t_cs t_act cell xt cf]; try apply I.
        -- intros k. destruct (ceq_spec k c) as [-> |N]; [|apply (i_par _ _ I)]. cbn. rewrite repeat_length. repeat split; try lia.
           apply Forall_forall. intros y Y. apply repeat_spec in Y. subst y. unfold is_u32. lia.
        -- intros k K. destruct (ceq_spec k c) as [-> |N]; [contradiction|]. apply (i_emp _ _ I). congruence.
        -- intros k K. injection K as <-. rewrite !ceq_refl. left. cbn [ans alen adone recv nuof par q]. split; [repeat split; assumption|]. split; [lia|discriminate].
      * unfold seen. cbn [act cs t_cs t_act]. rewrite !ceq_refl. cbn [ans par recv q]. rewrite E1. reflexivity.
Qed.
Lemma cread_ok cnt a s : inv bits s -> 0 <= a < 15 -> (forall k, is_u32 (cnt k)) ->
  let '(v, s2) := cfg_read cnt a s in inv bits s2 /\ seen s2 = seen s /\ v = spec_cread cnt a (seen s).
Proof.
  intros I B C. assert (O : (a = 4 \/ a = 5 \/ a = 12 \/ a = 13) \/ ~ (a = 4 \/ a = 5 \/ a = 12 \/ a = 13)) by lia.
  destruct O as [O|O].
  - unfold cfg_read. replace (a =? 0) with false by lia. replace ((a =? 1) || (a =? 2)) with false by lia. replace (a =? 3) with false by lia.
    replace (a =? 6) with false by lia. replace ((7 <=? a) && (a <=? 11)) with false by lia. replace (a =? 14) with false by lia.
    split; [exact I|]. split; [reflexivity|]. destruct O as [-> |[-> |[-> | ->] ] ]; reflexivity.
  - assert (G : forall v, inv bits (t_cf a v s) /\ seen (t_cf a v s) = seen s /\ cf (t_cf a v s) a = v).
    { intros v. split; [|split].
      - constructor; try apply I. cbn [cf t_cf]. replace (5 =? a) with false by lia. apply I.
      - unfold seen. cbn [cf t_cf act cs cell wd on quit xt]. replace (5 =? a) with false by lia. replace (4 =? a) with false by lia.
        replace (12 =? a) with false by lia. replace (13 =? a) with false by lia. reflexivity.
      - cbn [cf t_cf]. rewrite Z.eqb_refl. reflexivity. }
    assert (U : forall v, is_u32 v -> u32 v = v) by (intros; apply u32_id; assumption).
    assert (X : exists v, cfg_read cnt a s = (cf (t_cf a v s) a, t_cf a v s) /\ v = spec_cread cnt a (seen s)).
    { assert (W : a = 0 \/ a = 1 \/ a = 2 \/ a = 3 \/ a = 6 \/ a = 7 \/ a = 8 \/ a = 9 \/ a = 10 \/ a = 11 \/ a = 14) by lia.
      repeat destruct W as [-> |W]; try subst a; eexists; (split; [reflexivity|]); cbn [spec_cread seen aon aw axt flag]; try (apply U; first [apply C|apply I]); try reflexivity.
      unfold flag. destruct (go (wd s)); reflexivity. }
    destruct X as (v & -> & E). destruct (G v) as (G1 & G2 & G3). split; [exact G1|]. split; [exact G2|]. rewrite G3. exact E.
Qed.
Lemma cwrite_ok cnt a v s : inv bits s -> 0 <= a < 15 -> is_u32 v ->
  inv bits (cfg_write cnt a v s) /\ seen (cfg_write cnt a v s) = spec_cwrite a v (seen s).
Proof.
  intros I B V. pose proof (u32_id v V) as EV.
  assert (W : a = 0 \/ a = 1 \/ a = 2 \/ a = 3 \/ a = 4 \/ a = 5 \/ a = 6 \/ a = 7 \/ a = 8 \/ a = 9 \/ a = 10 \/ a = 11 \/ a = 12 \/ a = 13 \/ a = 14) by lia.
  pose proof (i_reason _ _ I) as RE. pose proof (i_xt _ _ I) as XE.
  assert (V1 : is_u32 1) by (unfold is_u32; lia). assert (V2 : is_u32 110) by (unfold is_u32; lia).
  repeat destruct W as [-> |W]; try subst a; unfold cfg_write; cbn [Z.eqb Z.leb Pos.eqb Z.compare Pos.compare Pos.compare_cont andb spec_cwrite];
    try (split; [constructor; try apply I; assumption|]; unfold seen; cbn; rewrite ?EV; reflexivity).
  - destruct (v =? 0); (split; [constructor; try apply I; try assumption|reflexivity]).
  - split; [constructor; try apply I; cbn; rewrite u32_id by exact RE; exact RE|]. unfold seen, t_cf. cbn [cf act cs cell wd on quit xt]. cbn [Z.eqb Pos.eqb]. rewrite u32_id by exact RE. reflexivity.
  - destruct (fout (wd s)) eqn:F; (split; [constructor; try apply I; assumption|]); unfold seen, written; cbn; rewrite ?EV, ?F; reflexivity.
  - cbn [t_wd]. rewrite EV. split; [constructor; try apply I; assumption|].
    unfold seen, set_limit, limited, t_cf, t_wd. cbn [cf act cs cell wd on quit xt aw a_w]. cbn [Z.eqb Pos.eqb]. destruct (Z.eqb_spec v 0) as [-> |]; reflexivity.
Qed.
Lemma access_ok y s : inv bits s -> proper y -> exists v s2, access1 ver mask y s = Ok (v, s2) /\ inv bits s2 /\ spec1 ver bits y (seen s) = (v, seen s2).
Proof.
  intros I P. destruct y as [|av ae gb v|cnt a|cnt a v]; cbn [access1 spec1].
  - destruct (read_ok s I) as (v & s2 & -> & I2 & ->). exists [v], s2. split; [reflexivity|]. split; [exact I2|reflexivity].
  - destruct (write_ok av ae gb v s I P) as (s2 & -> & I2 & E). exists [], s2. split; [reflexivity|]. split; [exact I2|]. rewrite E. reflexivity.
  - destruct P as [P1 P2]. pose proof (cread_ok cnt a s I P1 P2) as R. destruct (cfg_read cnt a s) as [v s2]. destruct R as (I2 & E & ->).
    eexists _, s2. split; [reflexivity|]. split; [exact I2|]. rewrite E. reflexivity.
  - destruct P as (P1 & P2 & P3). destruct (cwrite_ok cnt a v s I P1 P2) as [I2 E]. eexists _, _. split; [reflexivity|]. split; [exact I2|]. rewrite E. reflexivity.
Qed.
Lemma accesses_ok l s : inv bits s -> Forall proper l -> exists v s2, accesses ver mask l s = Ok (v, s2) /\ inv bits s2 /\ spec ver bits l (seen s) = (v, seen s2).
Proof.
  revert s. induction l as [|y l IH]; intros s I P.
  - exists [], s. split; [reflexivity|]. split; [exact I|reflexivity].
  - inversion P as [|? ? P1 P2]; subst. destruct (access_ok y s I P1) as (v & s1 & E1 & I1 & S1). destruct (IH s1 I1 P2) as (w & s2 & E2 & I2 & S2).
    exists (v ++ w), s2. cbn [accesses spec]. rewrite E1. cbn [rbind snd]. rewrite E2. split; [reflexivity|]. split; [exact I2|]. rewrite S1, S2. reflexivity.
Qed.
Lemma inv0 w d x : 0 <= d < 2 ^ bits -> is_u32 x -> inv bits (st0 w d x).
Proof. intros D X. constructor; try assumption; try reflexivity; [intros c _; repeat split|discriminate|cbn; unfold is_u32; lia]. Qed.
End Sif.
